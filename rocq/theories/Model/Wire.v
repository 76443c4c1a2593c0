(** Model of package wire: the data types, their codecs, and the functions that
    only look at data (accounts' behaviour is in Account.v, messages in
    Messages.v).

    Go structs are records.  Each type that beserial handles by reflection also
    has a [ty_...] description for Model/Beserial.v and conversions [v_...]
    (record to value) and [..._of] (value to record).  The conversions from
    values are total; on a value that does not have the type (impossible in Go)
    they return some default. *)
From Coq Require Import ZArith List Lia Bool String.
Import ListNotations.
From Verif.Model Require Import Base Address Beserial.
Open Scope Z_scope.

(** ** Values *)
Definition num_of (v : val) : Z := match v with VNum z => z | _ => 0 end.
Definition bytes_of (v : val) : bytes := match v with VList l => map num_of l | _ => [] end.
Definition list_of (v : val) : list val := match v with VList l => l | _ => [] end.
Definition fld (i : nat) (v : val) : val := match v with VStruct l => nth i l VOther | _ => VOther end.
Definition bytesN (n : nat) : ty := TArray n (TNum U8).
Definition tagged (s : string) (t : ty) : option bytes * ty := (Some (str s), t).
Definition field (t : ty) : option bytes * ty := (None, t).

(** A codec from typed functions. *)
Definition typed_codec {A} (to_val : A -> val) (of_val : val -> A)
    (unm : A -> bytes -> res (A * Z)) (mar : A -> bytes -> res (bytes * option error)) : codec :=
  Codec (fun dst d => let? (a, n) := unm (of_val dst) d in Ok (to_val a, n))
        (fun v b => mar (of_val v) b).

(** ** wire/hash.go *)
(** hash.go:8-11 *)
Record Hash := MkHash { Algorithm : Z; Bytes : bytes }.
Definition v_hash (h : Hash) : val := VStruct [VNum (Algorithm h); vbytes (Bytes h)].
Definition hash_of (v : val) : Hash := MkHash (num_of (fld 0 v)) (bytes_of (fld 1 v)).
(** hash.go:19-33 *)
Definition Hash_Unmarshal (_ : Hash) (b : bytes) : res (Hash * Z) :=
  match b with
  | [] => Err EUnexpectedEOF
  | algo :: b' => if zlen b' <? 32 then Err EUnexpectedEOF else Ok (MkHash algo (firstn 32 b'), 33)
  end.
(** hash.go:35-39 *)
Definition Hash_Marshal (h : Hash) (b : bytes) : res (bytes * option error) :=
  Ok ((b ++ [Algorithm h]) ++ Bytes h, None).
(** hash.go:41-43 *)
Definition Hash_Size (h : Hash) : Z := 1 + zlen (Bytes h).
Definition hash_codec : codec := typed_codec v_hash hash_of Hash_Unmarshal Hash_Marshal.
Definition ty_hash : ty := TCustom hash_codec (TStruct [field (TNum U8); field (bytesN 32)]).

(** ** wire/bitset.go *)
(** bitset.go:9-12 *)
Record BitSet := MkBitSet { Len : Z; Bits : bytes }.
Definition v_bitset (bs : BitSet) : val := VStruct [VNum (Len bs); vbytes (Bits bs)].
Definition bitset_of (v : val) : BitSet := MkBitSet (num_of (fld 0 v)) (bytes_of (fld 1 v)).
(** bitset.go:14-29; [bs.Len + 7] is uint8 arithmetic *)
Definition BitSet_Unmarshal (_ : BitSet) (b : bytes) : res (BitSet * Z) :=
  match b with
  | [] => Err EUnexpectedEOF
  | len :: b' =>
      let size := w8 (len + 7) / 8 in
      if zlen b' <? size then Err EUnexpectedEOF
      else Ok (MkBitSet len (firstn (Z.to_nat size) b'), 1 + size)
  end.
(** bitset.go:31-35 *)
Definition BitSet_Marshal (bs : BitSet) (b : bytes) : res (bytes * option error) :=
  Ok ((b ++ [Len bs]) ++ Bits bs, None).
(** bitset.go:37-39 *)
Definition BitSet_Size (bs : BitSet) : Z := 1 + zlen (Bits bs).
(** bitset.go:41-43; [i] is a uint8 *)
Definition bit (bs : BitSet) (i : Z) : res bool :=
  let? x := index (Bits bs) (Z.to_nat (i / 8)) in
  Ok (negb (Z.land x (Z.shiftr 128 (i mod 8)) =? 0)).
Definition bitset_codec : codec := typed_codec v_bitset bitset_of BitSet_Unmarshal BitSet_Marshal.
Definition ty_bitset : ty := TCustom bitset_codec (TStruct [field (TNum U8); field (TSlice (TNum U8))]).

(** ** wire/signature.go *)
(** signature.go:22-25 *)
Record MerklePath := MkMerklePath { Branches : BitSet; Hashes : list bytes }.
Definition v_path (p : MerklePath) : val := VStruct [v_bitset (Branches p); VList (map vbytes (Hashes p))].
Definition path_of (v : val) : MerklePath := MkMerklePath (bitset_of (fld 0 v)) (map bytes_of (list_of (fld 1 v))).
(** signature.go:36-44: reading [n] nodes of 32 bytes *)
Fixpoint read_nodes (n : nat) (b : bytes) : res (list bytes * bytes) :=
  match n with
  | O => Ok ([], b)
  | S n' =>
      if zlen b <? 32 then Err EUnexpectedEOF
      else let? (hs, b') := read_nodes n' (skipn 32 b) in Ok (firstn 32 b :: hs, b')
  end.
(** signature.go:27-46 *)
Definition MerklePath_Unmarshal (p : MerklePath) (b : bytes) : res (MerklePath * Z) :=
  let? (bs, n) := BitSet_Unmarshal (Branches p) b in
  let? (hs, b') := read_nodes (Z.to_nat (Len bs)) (skipn (Z.to_nat n) b) in
  Ok (MkMerklePath bs hs, zlen b - zlen b').
(** signature.go:48-58 *)
Definition MerklePath_Marshal (p : MerklePath) (b : bytes) : res (bytes * option error) :=
  let? (b1, e) := BitSet_Marshal (Branches p) b in
  match e with
  | Some e => Ok (b1, Some e)
  | None => Ok (b1 ++ List.concat (Hashes p), None)
  end.
(** signature.go:60-67 *)
Definition MerklePath_Size (p : MerklePath) : Z := BitSet_Size (Branches p) + zlen (Hashes p) * 32.
Definition path_codec : codec := typed_codec v_path path_of MerklePath_Unmarshal MerklePath_Marshal.
Definition ty_path : ty := TCustom path_codec (TStruct [field ty_bitset; field (TSlice (bytesN 32))]).

(** signature.go:10-14 *)
Record SignatureProof := MkProof { PublicKey : bytes; Path : MerklePath; Signature : bytes }.
Definition v_proof (p : SignatureProof) : val := VStruct [vbytes (PublicKey p); v_path (Path p); vbytes (Signature p)].
Definition proof_of (v : val) : SignatureProof := MkProof (bytes_of (fld 0 v)) (path_of (fld 1 v)) (bytes_of (fld 2 v)).
Definition ty_proof : ty := TStruct [field (bytesN 32); field ty_path; field (bytesN 64)].

Section Hashing.
  (** blake2b.Sum256 *)
  Variable H : bytes -> bytes.
  (** signature.go:71-81; [uint8(i)] wraps *)
  Fixpoint compute_from (bs : BitSet) (i : Z) (hashes : list bytes) (root : bytes) : res bytes :=
    match hashes with
    | [] => Ok root
    | h :: r =>
        let? isleft := bit bs (w8 i) in
        compute_from bs (i + 1) r (if isleft : bool then H (h ++ root) else H (root ++ h))
    end.
  (** signature.go:69-83 *)
  Definition ComputeRoot (p : MerklePath) (leaf : bytes) : res bytes :=
    compute_from (Branches p) 0 (Hashes p) (H leaf).
  (** signature.go:16-20 *)
  Definition SignerAddress (s : SignatureProof) : res bytes :=
    let? root := ComputeRoot (Path s) (PublicKey s) in Ok (firstn 20 root).
  (** account.go:415-419 *)
  Definition PublicKeyToAddress (pub : bytes) : bytes := firstn 20 (H pub).
  (** p2p.go:157-161 *)
  Definition GetPeerID (pub : bytes) : bytes := firstn 16 (H pub).
End Hashing.

(** ** wire/account.go: data *)
(** account.go:108-110, 146-153, 271-279, 12-20 *)
Record Vesting := MkVesting {
  v_value : Z; v_owner : bytes; v_start : Z; v_step_blocks : Z; v_step_amount : Z; v_total : Z }.
Record HTLC := MkHTLC {
  h_value : Z; h_sender : bytes; h_recipient : bytes; h_hash : Hash; h_count : Z; h_timeout : Z; h_total : Z }.
Inductive Account :=
| ABasic (value : Z)
| AVesting (c : Vesting)
| AHTLC (h : HTLC).
(** account.go:112-114, 155-157, 281-283 *)
Definition Balance (a : Account) : Z :=
  match a with ABasic v => v | AVesting c => v_value c | AHTLC h => h_value h end.
(** account.go:116-118, 159-161, 285-287 *)
Definition AccountType (a : Account) : Z :=
  match a with ABasic _ => 0 | AVesting _ => 1 | AHTLC _ => 2 end.
(** account.go:120-122, 163-165, 289-291 *)
Definition IsEmpty (a : Account) : bool := Balance a =? 0.

Definition ty_basic : ty := TStruct [field (TNum U64)].
Definition ty_vesting : ty :=
  TStruct [field (TNum U64); field (bytesN 20); field (TNum U32); field (TNum U32); field (TNum U64); field (TNum U64)].
Definition ty_htlc : ty :=
  TStruct [field (TNum U64); field (bytesN 20); field (bytesN 20); field ty_hash; field (TNum U8); field (TNum U32); field (TNum U64)].
(** The Go type of an account with the given type number. *)
Definition ty_account (typ : Z) : ty :=
  if typ =? 0 then ty_basic else if typ =? 1 then ty_vesting else ty_htlc.
Definition v_account (a : Account) : val :=
  match a with
  | ABasic v => VStruct [VNum v]
  | AVesting c => VStruct [VNum (v_value c); vbytes (v_owner c); VNum (v_start c); VNum (v_step_blocks c);
                           VNum (v_step_amount c); VNum (v_total c)]
  | AHTLC h => VStruct [VNum (h_value h); vbytes (h_sender h); vbytes (h_recipient h); v_hash (h_hash h);
                        VNum (h_count h); VNum (h_timeout h); VNum (h_total h)]
  end.
Definition account_of (typ : Z) (v : val) : Account :=
  if typ =? 0 then ABasic (num_of (fld 0 v))
  else if typ =? 1 then
    AVesting (MkVesting (num_of (fld 0 v)) (bytes_of (fld 1 v)) (num_of (fld 2 v)) (num_of (fld 3 v))
                        (num_of (fld 4 v)) (num_of (fld 5 v)))
  else
    AHTLC (MkHTLC (num_of (fld 0 v)) (bytes_of (fld 1 v)) (bytes_of (fld 2 v)) (hash_of (fld 3 v))
                  (num_of (fld 4 v)) (num_of (fld 5 v)) (num_of (fld 6 v))).

(** account.go:36-57.  The interface field of WrapAccount is an option. *)
Definition WrapAccount_Unmarshal (_ : option Account) (buf : bytes) : res (option Account * Z) :=
  match buf with
  | [] => Err EUnexpectedEOF
  | typ :: buf' =>
      if (typ =? 0) || (typ =? 1) || (typ =? 2) then
        let '(r, sub) := Unmarshal buf' (APtr (ty_account typ) (zero (ty_account typ))) in
        let? v := r in
        Ok (match v with Some v => Some (account_of typ v) | None => None end, 1 + sub)
      else Err EBadAccountType
  end.
(** account.go:59-62; a nil account panics at the call of Type *)
Definition WrapAccount_Marshal (wa : option Account) (b : bytes) : res (bytes * option error) :=
  match wa with
  | None => Panic
  | Some a => Marshal (b ++ [AccountType a]) (APtr (ty_account (AccountType a)) (v_account a))
  end.
(** account.go:64-70 *)
Definition WrapAccount_Size (a : Account) : res Z :=
  let? sub := Size (APtr (ty_account (AccountType a)) (v_account a)) in Ok (1 + sub).
Definition v_wrap_account (wa : option Account) : val :=
  VStruct [VIface (match wa with None => None | Some a => Some (AccountType a, v_account a) end)].
Definition wrap_account_of (v : val) : option Account :=
  match fld 0 v with VIface (Some (typ, w)) => Some (account_of typ w) | _ => None end.
Definition wrap_account_codec : codec :=
  typed_codec v_wrap_account wrap_account_of WrapAccount_Unmarshal WrapAccount_Marshal.
Definition ty_wrap_account : ty := TCustom wrap_account_codec (TStruct [field TOther]).

(** account.go:409-412 *)
Record AccountPruned := MkPruned { p_address : bytes; p_account : option Account }.
Definition v_pruned (p : AccountPruned) : val := VStruct [vbytes (p_address p); v_wrap_account (p_account p)].
Definition pruned_of (v : val) : AccountPruned := MkPruned (bytes_of (fld 0 v)) (wrap_account_of (fld 1 v)).
Definition ty_pruned : ty := TStruct [field (bytesN 20); field ty_wrap_account].

(** ** wire/tx.go, tx_basic.go, tx_extended.go *)
(** tx_basic.go:4-12 *)
Record BasicTx := MkBasicTx {
  b_pubkey : bytes; b_recipient : bytes; b_value : Z; b_fee : Z; b_height : Z; b_network : Z; b_signature : bytes }.
(** tx_extended.go:5-17 *)
Record ExtendedTx := MkExtendedTx {
  x_data : bytes; x_sender : bytes; x_sender_type : Z; x_recipient : bytes; x_recipient_type : Z;
  x_value : Z; x_fee : Z; x_height : Z; x_network : Z; x_flags : Z; x_proof : bytes }.
(** tx.go:77-88 *)
Record TxContent := MkTxContent {
  c_data : bytes; c_sender : bytes; c_sender_type : Z; c_recipient : bytes; c_recipient_type : Z;
  c_value : Z; c_fee : Z; c_height : Z; c_network : Z; c_flags : Z }.
(** tx.go:10-17: implemented by *BasicTx and *ExtendedTx only *)
Inductive Tx :=
| TBasic (t : BasicTx)
| TExtended (t : ExtendedTx).
(** tx_basic.go:15-17, tx_extended.go:20-22 *)
Definition TxType (t : Tx) : Z := match t with TBasic _ => 0 | TExtended _ => 1 end.
(** tx_basic.go:19-21, tx_extended.go:24-26 *)
Definition Amount (t : Tx) : Z * Z :=
  match t with TBasic b => (b_value b, b_fee b) | TExtended x => (x_value x, x_fee x) end.
Section TxViews.
  Variable H : bytes -> bytes.
  (** tx_basic.go:24-38, tx_extended.go:29-31 *)
  Definition AsExtendedTx (t : Tx) : ExtendedTx :=
    match t with
    | TBasic b => MkExtendedTx [] (PublicKeyToAddress H (b_pubkey b)) 0 (b_recipient b) 0
                    (b_value b) (b_fee b) (b_height b) (b_network b) 0 (b_signature b)
    | TExtended x => x
    end.
  (** tx_basic.go:41-54, tx_extended.go:34-47 *)
  Definition AsTxContent (t : Tx) : TxContent :=
    match t with
    | TBasic b => MkTxContent [] (PublicKeyToAddress H (b_pubkey b)) 0 (b_recipient b) 0
                    (b_value b) (b_fee b) (b_height b) (b_network b) 0
    | TExtended x => MkTxContent (x_data x) (x_sender x) (x_sender_type x) (x_recipient x) (x_recipient_type x)
                       (x_value x) (x_fee x) (x_height x) (x_network x) (x_flags x)
    end.
  (** tx_basic.go:56-61, tx_extended.go:49-51 *)
  Definition GetSender (t : Tx) : bytes * Z :=
    match t with
    | TBasic b => (PublicKeyToAddress H (b_pubkey b), 0)
    | TExtended x => (x_sender x, x_sender_type x)
    end.
  (** tx_basic.go:63-65, tx_extended.go:53-55 *)
  Definition GetRecipient (t : Tx) : bytes * Z :=
    match t with
    | TBasic b => (b_recipient b, 0)
    | TExtended x => (x_recipient x, x_recipient_type x)
    end.
End TxViews.

Definition ty_basic_tx : ty :=
  TStruct [field (bytesN 32); field (bytesN 20); field (TNum U64); field (TNum U64); field (TNum U32); field (TNum U8);
           field (bytesN 64)].
Definition ty_content_fields : list (option bytes * ty) :=
  [tagged "len_tag=uint16" (TSlice (TNum U8)); field (bytesN 20); field (TNum U8); field (bytesN 20); field (TNum U8);
   field (TNum U64); field (TNum U64); field (TNum U32); field (TNum U8); field (TNum U8)].
Definition ty_extended_tx : ty :=
  TStruct (ty_content_fields ++ [tagged "len_tag=uint16" (TSlice (TNum U8))]).
Definition ty_content : ty := TStruct ty_content_fields.
Definition ty_tx (typ : Z) : ty := if typ =? 0 then ty_basic_tx else ty_extended_tx.
Definition v_content_fields (c : TxContent) : list val :=
  [vbytes (c_data c); vbytes (c_sender c); VNum (c_sender_type c); vbytes (c_recipient c); VNum (c_recipient_type c);
   VNum (c_value c); VNum (c_fee c); VNum (c_height c); VNum (c_network c); VNum (c_flags c)].
Definition v_content (c : TxContent) : val := VStruct (v_content_fields c).
Definition v_basic_tx (b : BasicTx) : val :=
  VStruct [vbytes (b_pubkey b); vbytes (b_recipient b); VNum (b_value b); VNum (b_fee b); VNum (b_height b);
           VNum (b_network b); vbytes (b_signature b)].
Definition v_extended_tx (x : ExtendedTx) : val :=
  VStruct [vbytes (x_data x); vbytes (x_sender x); VNum (x_sender_type x); vbytes (x_recipient x);
           VNum (x_recipient_type x); VNum (x_value x); VNum (x_fee x); VNum (x_height x); VNum (x_network x);
           VNum (x_flags x); vbytes (x_proof x)].
Definition v_tx (t : Tx) : val :=
  match t with TBasic b => v_basic_tx b | TExtended x => v_extended_tx x end.
Definition tx_of (typ : Z) (v : val) : Tx :=
  if typ =? 0 then
    TBasic (MkBasicTx (bytes_of (fld 0 v)) (bytes_of (fld 1 v)) (num_of (fld 2 v)) (num_of (fld 3 v)) (num_of (fld 4 v))
                      (num_of (fld 5 v)) (bytes_of (fld 6 v)))
  else
    TExtended (MkExtendedTx (bytes_of (fld 0 v)) (bytes_of (fld 1 v)) (num_of (fld 2 v)) (bytes_of (fld 3 v))
                 (num_of (fld 4 v)) (num_of (fld 5 v)) (num_of (fld 6 v)) (num_of (fld 7 v)) (num_of (fld 8 v))
                 (num_of (fld 9 v)) (bytes_of (fld 10 v))).
(** tx.go:38-57 *)
Definition WrapTx_Unmarshal (_ : option Tx) (buf : bytes) : res (option Tx * Z) :=
  match buf with
  | [] => Err EUnexpectedEOF
  | typ :: buf' =>
      if (typ =? 0) || (typ =? 1) then
        let '(r, sub) := Unmarshal buf' (APtr (ty_tx typ) (zero (ty_tx typ))) in
        let? v := r in
        Ok (match v with Some v => Some (tx_of typ v) | None => None end, 1 + sub)
      else Err EBadTxType
  end.
(** tx.go:60-63 *)
Definition WrapTx_Marshal (wt : option Tx) (b : bytes) : res (bytes * option error) :=
  match wt with
  | None => Panic
  | Some t => Marshal (b ++ [TxType t]) (APtr (ty_tx (TxType t)) (v_tx t))
  end.
(** tx.go:66-72 *)
Definition WrapTx_Size (t : Tx) : res Z :=
  let? sub := Size (APtr (ty_tx (TxType t)) (v_tx t)) in Ok (1 + sub).
Definition v_wrap_tx (wt : option Tx) : val :=
  VStruct [VIface (match wt with None => None | Some t => Some (TxType t, v_tx t) end)].
Definition wrap_tx_of (v : val) : option Tx :=
  match fld 0 v with VIface (Some (typ, w)) => Some (tx_of typ w) | _ => None end.
Definition wrap_tx_codec : codec := typed_codec v_wrap_tx wrap_tx_of WrapTx_Unmarshal WrapTx_Marshal.
Definition ty_wrap_tx : ty := TCustom wrap_tx_codec (TStruct [field TOther]).

(** ** wire/block.go *)
(** block.go:39-44.  [il_hashes] holds what the pointers point to (Compressed or
    PrevHash) at the time of the decode; Model/InterlinkRefs.v has the pointers. *)
Record BlockInterlink := MkInterlink {
  il_repeats : BitSet; il_hashes : list bytes; il_prev : bytes; il_compressed : list bytes }.
Definition v_interlink (il : BlockInterlink) : val :=
  VStruct [v_bitset (il_repeats il); VList (map (fun h => VPtr (Some (vbytes h))) (il_hashes il)); vbytes (il_prev il);
           VList (map vbytes (il_compressed il))].
Definition interlink_of (v : val) : BlockInterlink :=
  MkInterlink (bitset_of (fld 0 v))
    (map (fun p => match p with VPtr (Some h) => bytes_of h | _ => [] end) (list_of (fld 1 v)))
    (bytes_of (fld 2 v)) (map bytes_of (list_of (fld 3 v))).
(** bits.OnesCount8 *)
Definition ones8 (x : Z) : Z :=
  fold_right Z.add 0 (map (fun i => if Z.testbit x (Z.of_nat i) then 1 else 0) (seq 0 8)).
(** block.go:58-60 *)
Definition compressed_count (bits : bytes) : Z := fold_right Z.add 0 (map (fun x => 8 - ones8 x) bits).
Definition zero32 : bytes := repeat 0 32.
(** copy(hash[:], b) into a zeroed [32]byte *)
Definition copy32 (b : bytes) : bytes := firstn 32 (b ++ zero32).
(** block.go:67-82: the loop from bit [i] on, [n] bits to go; [used] of [count]
    slots of Compressed are filled, [hash] is what the current pointer points
    to.  Note that [b] is advanced before it is copied from.  Returns Hashes[i:],
    Compressed[used:] and the rest of the input. *)
Fixpoint interlink_loop (bs : BitSet) (n : nat) (i : Z) (b : bytes) (hash : bytes) (slots : nat)
  : res (list bytes * list bytes * bytes) :=
  match n with
  | O => Ok ([], repeat zero32 slots, b)
  | S n' =>
      let? repeated := bit bs i in
      if repeated : bool then
        let? (hs, cs, b') := interlink_loop bs n' (i + 1) b hash slots in
        Ok (hash :: hs, cs, b')
      else
        match slots with
        | O => Panic (* index out of range *)
        | S slots' =>
            if zlen b <? 32 then Err EUnexpectedEOF
            else
              let b1 := skipn 32 b in
              let h := copy32 b1 in
              let? (hs, cs, b') := interlink_loop bs n' (i + 1) b1 h slots' in
              Ok (h :: hs, h :: cs, b')
        end
  end.
(** block.go:47-84 *)
Definition Interlink_Unmarshal (il : BlockInterlink) (b : bytes) : res (BlockInterlink * Z) :=
  let? (bs, n) := BitSet_Unmarshal (il_repeats il) b in
  let? (hs, cs, b') :=
    interlink_loop bs (Z.to_nat (Len bs)) 0 (skipn (Z.to_nat n) b) (il_prev il) (Z.to_nat (compressed_count (Bits bs))) in
  Ok (MkInterlink bs hs (il_prev il) cs, zlen b - zlen b').
(** block.go:86-96 *)
Definition Interlink_Marshal (il : BlockInterlink) (b : bytes) : res (bytes * option error) :=
  let? (b1, e) := BitSet_Marshal (il_repeats il) b in
  match e with
  | Some e => Ok (b1, Some e)
  | None => Ok (b1 ++ List.concat (il_compressed il), None)
  end.
(** block.go:98-105 *)
Definition Interlink_Size (il : BlockInterlink) : Z := BitSet_Size (il_repeats il) + zlen (il_compressed il) * 32.
Definition interlink_codec : codec := typed_codec v_interlink interlink_of Interlink_Unmarshal Interlink_Marshal.
Definition ty_interlink : ty :=
  TCustom interlink_codec
    (TStruct [field ty_bitset; field (TSlice (TPtr (bytesN 32))); field (bytesN 32); field (TSlice (bytesN 32))]).

(** block.go:18-28 *)
Record BlockHeader := MkHeader {
  bh_version : Z; bh_prev : bytes; bh_interlink : bytes; bh_body : bytes; bh_accounts : bytes;
  bh_nbits : Z; bh_height : Z; bh_timestamp : Z; bh_nonce : Z }.
Definition ty_header : ty :=
  TStruct [field (TNum U16); field (bytesN 32); field (bytesN 32); field (bytesN 32); field (bytesN 32);
           field (TNum U32); field (TNum U32); field (TNum U32); field (TNum U32)].
Definition v_header (h : BlockHeader) : val :=
  VStruct [VNum (bh_version h); vbytes (bh_prev h); vbytes (bh_interlink h); vbytes (bh_body h); vbytes (bh_accounts h);
           VNum (bh_nbits h); VNum (bh_height h); VNum (bh_timestamp h); VNum (bh_nonce h)].
Definition header_of (v : val) : BlockHeader :=
  MkHeader (num_of (fld 0 v)) (bytes_of (fld 1 v)) (bytes_of (fld 2 v)) (bytes_of (fld 3 v)) (bytes_of (fld 4 v))
    (num_of (fld 5 v)) (num_of (fld 6 v)) (num_of (fld 7 v)) (num_of (fld 8 v)).
(** block.go:31-36 *)
Record BlockBody := MkBody {
  bb_miner : bytes; bb_extra : bytes; bb_txs : list (option Tx); bb_pruned : list AccountPruned }.
Definition ty_body : ty :=
  TStruct [field (bytesN 20); tagged "len_tag=uint8" (TSlice (TNum U8)); tagged "len_tag=uint16" (TSlice ty_wrap_tx);
           tagged "len_tag=uint16" (TSlice ty_pruned)].
Definition v_body (b : BlockBody) : val :=
  VStruct [vbytes (bb_miner b); vbytes (bb_extra b); VList (map v_wrap_tx (bb_txs b)); VList (map v_pruned (bb_pruned b))].
Definition body_of (v : val) : BlockBody :=
  MkBody (bytes_of (fld 0 v)) (bytes_of (fld 1 v)) (map wrap_tx_of (list_of (fld 2 v))) (map pruned_of (list_of (fld 3 v))).
(** block.go:11-15 *)
Record Block := MkBlock { bl_header : BlockHeader; bl_interlink : BlockInterlink; bl_body : option BlockBody }.
Definition ty_block : ty := TStruct [field ty_header; field ty_interlink; tagged "optional" (TPtr ty_body)].
Definition v_block (b : Block) : val :=
  VStruct [v_header (bl_header b); v_interlink (bl_interlink b);
           VPtr (match bl_body b with None => None | Some x => Some (v_body x) end)].
Definition block_of (v : val) : Block :=
  MkBlock (header_of (fld 0 v)) (interlink_of (fld 1 v))
    (match fld 2 v with VPtr (Some x) => Some (body_of x) | _ => None end).

(** ** wire/accounts_tree_chunk.go:3-10, tx_staking.go:5-9 *)
Definition ty_accounts_proof : ty := TStruct [tagged "len_tag=uint16" (TSlice (TSlice (TNum U8)))].
Definition ty_chunk : ty := TStruct [tagged "len_tag=uint16" (TSlice (TSlice (TNum U8))); field ty_accounts_proof].
Definition ty_staking : ty := TStruct [field (bytesN 96); tagged "optional" (TPtr (bytesN 20)); field (bytesN 48)].
Record StakingTxData := MkStaking { sk_key : bytes; sk_reward : option bytes; sk_proof : bytes }.
Definition v_staking (x : StakingTxData) : val :=
  VStruct [vbytes (sk_key x); VPtr (match sk_reward x with None => None | Some a => Some (vbytes a) end); vbytes (sk_proof x)].

(** ** wire/p2p.go *)
(** p2p.go:14-17 *)
Record NetAddress := MkNetAddress { na_type : Z; na_ip : bytes }.
Definition v_netaddr (a : NetAddress) : val := VStruct [VNum (na_type a); vbytes (na_ip a)].
Definition netaddr_of (v : val) : NetAddress := MkNetAddress (num_of (fld 0 v)) (bytes_of (fld 1 v)).
(** p2p.go:27-47: the Type field is not assigned *)
Definition NetAddress_Unmarshal (na : NetAddress) (b : bytes) : res (NetAddress * Z) :=
  let '(r, n) := Unmarshal b (APtr (TNum U8) (VNum 0)) in
  let? v := r in
  let t := match v with Some v => num_of v | None => 0 end in
  let b' := skipn (Z.to_nat n) b in
  let read (len : Z) :=
    if zlen b' <? len then Err EUnexpectedEOF
    else Ok (MkNetAddress (na_type na) (firstn (Z.to_nat len) b'), n + len) in
  if t =? 0 then read 4 else if t =? 1 then read 16 else Err EBadNetAddrType.
(** p2p.go:49-53 *)
Definition NetAddress_Marshal (na : NetAddress) (b : bytes) : res (bytes * option error) :=
  Ok ((b ++ [na_type na]) ++ na_ip na, None).
(** p2p.go:55-61 *)
Definition NetAddress_Size (na : NetAddress) : Z := 1 + zlen (na_ip na).
Definition netaddr_codec : codec := typed_codec v_netaddr netaddr_of NetAddress_Unmarshal NetAddress_Marshal.
Definition ty_netaddr : ty := TCustom netaddr_codec (TStruct [field (TNum U8); field (TSlice (TNum U8))]).

(** p2p.go:70-78 *)
Record PeerAddressHeader := MkPeerHeader {
  pa_protocol : Z; pa_services : Z; pa_timestamp : Z; pa_net : NetAddress; pa_pubkey : bytes; pa_distance : Z;
  pa_signature : bytes }.
Definition ty_peer_header : ty :=
  TStruct [field (TNum U8); field (TNum U32); field (TNum U64); field ty_netaddr; field (bytesN 32); field (TNum U8);
           field (bytesN 64)].
Definition v_peer_header (p : PeerAddressHeader) : val :=
  VStruct [VNum (pa_protocol p); VNum (pa_services p); VNum (pa_timestamp p); v_netaddr (pa_net p); vbytes (pa_pubkey p);
           VNum (pa_distance p); vbytes (pa_signature p)].
Definition peer_header_of (v : val) : PeerAddressHeader :=
  MkPeerHeader (num_of (fld 0 v)) (num_of (fld 1 v)) (num_of (fld 2 v)) (netaddr_of (fld 3 v)) (bytes_of (fld 4 v))
    (num_of (fld 5 v)) (bytes_of (fld 6 v)).
(** p2p.go:188-192 *)
Definition ty_peer_srv : ty := TStruct [tagged "len_tag=uint8" TString; field (TNum U16); field TBool].
(** p2p.go:64-67; Detail is an interface{}: nil or (what we need) a pointer to a PeerAddressSrv *)
Record PeerAddress := MkPeerAddress { pa_header : PeerAddressHeader; pa_detail : option val }.
Definition v_peer (p : PeerAddress) : val :=
  VStruct [v_peer_header (pa_header p); VIface (match pa_detail p with None => None | Some v => Some (0, v) end)].
Definition peer_of (v : val) : PeerAddress :=
  MkPeerAddress (peer_header_of (fld 0 v)) (match fld 1 v with VIface (Some (_, w)) => Some w | _ => None end).
(** p2p.go:104-127: note [&pa.Detail], a pointer to an interface *)
Definition PeerAddress_Unmarshal (pa : PeerAddress) (b : bytes) : res (PeerAddress * Z) :=
  let '(r, sub) := Unmarshal b (APtr ty_peer_header (v_peer_header (pa_header pa))) in
  let? v := r in
  let hd := match v with Some v => peer_header_of v | None => pa_header pa end in
  let b' := skipn (Z.to_nat sub) b in
  let? detail :=
    if pa_protocol hd =? 0 then Ok None
    else if (pa_protocol hd =? 4) || (pa_protocol hd =? 1) then Ok (Some (zero ty_peer_srv))
    else Err EUnknownProtocol in
  let '(r2, sub2) := Unmarshal b' (APtr TOther VOther) in
  let? _ := r2 in
  Ok (MkPeerAddress hd detail, sub + sub2).
(** p2p.go:129-136 *)
Definition PeerAddress_Marshal (pa : PeerAddress) (b : bytes) : res (bytes * option error) :=
  m_then (Marshal b (APtr ty_peer_header (v_peer_header (pa_header pa)))) (fun b1 => Marshal b1 (APtr TOther VOther)).
(** p2p.go:138-151 *)
Definition PeerAddress_Size (pa : PeerAddress) : res Z :=
  let? n := Size (APtr ty_peer_header (v_peer_header (pa_header pa))) in
  let? m := Size (APtr TOther VOther) in
  Ok (n + m).
Definition peer_codec : codec := typed_codec v_peer peer_of PeerAddress_Unmarshal PeerAddress_Marshal.
Definition ty_peer : ty := TCustom peer_codec (TStruct [field ty_peer_header; field TOther]).

(** ** Decoding and encoding of whole objects, as callers use beserial *)
(** beserial.Unmarshal / UnmarshalFull into a fresh object. *)
Definition decode_account (d : bytes) : res (Account * Z) :=
  let '(r, n) := Unmarshal d (APtr ty_wrap_account (zero ty_wrap_account)) in
  let? v := r in
  match v with
  | Some v => match wrap_account_of v with Some a => Ok (a, n) | None => Panic end
  | None => Panic
  end.
Definition encode_account (b : bytes) (a : Account) : mret :=
  Marshal b (APtr ty_wrap_account (v_wrap_account (Some a))).
Definition decode_tx (d : bytes) : res (Tx * Z) :=
  let '(r, n) := Unmarshal d (APtr ty_wrap_tx (zero ty_wrap_tx)) in
  let? v := r in
  match v with
  | Some v => match wrap_tx_of v with Some t => Ok (t, n) | None => Panic end
  | None => Panic
  end.
Definition encode_tx (b : bytes) (t : Tx) : mret := Marshal b (APtr ty_wrap_tx (v_wrap_tx (Some t))).
Definition decode_proof (d : bytes) : res (SignatureProof * Z) :=
  let '(r, n) := Unmarshal d (APtr ty_proof (zero ty_proof)) in
  let? v := r in
  match v with Some v => Ok (proof_of v, n) | None => Panic end.
Definition encode_proof (b : bytes) (p : SignatureProof) : mret := Marshal b (APtr ty_proof (v_proof p)).
Definition decode_block (d : bytes) : res (Block * Z) :=
  let '(r, n) := Unmarshal d (APtr ty_block (zero ty_block)) in
  let? v := r in
  match v with Some v => Ok (block_of v, n) | None => Panic end.
Definition encode_block (b : bytes) (x : Block) : mret := Marshal b (APtr ty_block (v_block x)).
