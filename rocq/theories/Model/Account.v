(** Model of the behaviour of accounts: wire/account.go (the data types and
    codecs are in Model/Wire.v).  Accounts are immutable values here: every
    method of the code that changes an account returns a fresh copy, except
    Init, which fills an account that was just allocated.

    float64 is Coq's SpecFloat (binary64: precision 53, emax 1024, round to
    nearest even).  Go leaves the conversion of a float64 that does not fit to
    uint64 to the implementation: it is the parameter [oob]. *)
From Coq Require Import ZArith List Lia Bool.
From Coq.Floats Require Import SpecFloat.
Import ListNotations.
From Verif.Model Require Import Base Beserial Wire.
Open Scope Z_scope.

(** ** float64 *)
Definition float64 : Type := spec_float.
(** float64(x) of an unsigned integer *)
Definition float_of_uint (z : Z) : float64 := binary_normalize 53 1024 z 0 false.
Definition float_div (x y : float64) : float64 := SFdiv 53 1024 x y.
Definition float_mul (x y : float64) : float64 := SFmul 53 1024 x y.
(** The integer part of a float. *)
Definition float_trunc (x : float64) : option Z :=
  match x with
  | S754_zero _ => Some 0
  | S754_finite s m e =>
      let n := if 0 <=? e then Z.pos m * 2 ^ e else Z.pos m / 2 ^ (- e) in
      Some (if s then - n else n)
  | _ => None
  end.
(** uint64(x) *)
Definition uint64_of_float (oob : float64 -> Z) (x : float64) : Z :=
  match float_trunc x with
  | Some n => if (0 <=? n) && (n <? two64) then n else oob x
  | None => oob x
  end.

(** account.go:76-94: comparison of structs is field by field.  The default case
    (an account type other than the three) does not occur. *)
Definition hash_eqb (a b : Hash) : bool := (Algorithm a =? Algorithm b) && bytes_eqb (Bytes a) (Bytes b).
Definition AccountEq (a1 a2 : option Account) : bool :=
  match a1, a2 with
  | Some (ABasic v), Some (ABasic w) => v =? w
  | Some (AVesting c), Some (AVesting d) =>
      (v_value c =? v_value d) && bytes_eqb (v_owner c) (v_owner d) && (v_start c =? v_start d) &&
      (v_step_blocks c =? v_step_blocks d) && (v_step_amount c =? v_step_amount d) && (v_total c =? v_total d)
  | Some (AHTLC h), Some (AHTLC k) =>
      (h_value h =? h_value k) && bytes_eqb (h_sender h) (h_sender k) && bytes_eqb (h_recipient h) (h_recipient k) &&
      hash_eqb (h_hash h) (h_hash k) && (h_count h =? h_count k) && (h_timeout h =? h_timeout k) && (h_total h =? h_total k)
  | _, _ => false
  end.

(** beserial.UnmarshalFull into a fresh struct. *)
Definition read_full (t : ty) (d : bytes) : res val :=
  let? v := UnmarshalFull d (APtr t (zero t)) in
  match v with Some v => Ok v | None => Panic end.

(** The type assertion tx.( *ExtendedTx). *)
Definition as_extended (t : Tx) : res ExtendedTx :=
  match t with TExtended x => Ok x | TBasic _ => Panic end.

(** ** Vesting *)
(** account.go:172-175, 186-191, 202-208 *)
Definition ty_vesting24 : ty := TStruct [field (bytesN 20); field (TNum U32)].
Definition ty_vesting36 : ty := TStruct [field (bytesN 20); field (TNum U32); field (TNum U32); field (TNum U64)].
Definition ty_vesting44 : ty :=
  TStruct [field (bytesN 20); field (TNum U32); field (TNum U32); field (TNum U64); field (TNum U64)].
(** account.go:167-223 *)
Definition Vesting_Init (tx : Tx) (balance : Z) : res Account :=
  let? ext := as_extended tx in
  let n := zlen (x_data ext) in
  if n =? 24 then
    let? p := read_full ty_vesting24 (x_data ext) in
    Ok (AVesting (MkVesting balance (bytes_of (fld 0 p)) 0 (num_of (fld 1 p)) (x_value ext) (x_value ext)))
  else if n =? 36 then
    let? p := read_full ty_vesting36 (x_data ext) in
    Ok (AVesting (MkVesting balance (bytes_of (fld 0 p)) (num_of (fld 1 p)) (num_of (fld 2 p)) (num_of (fld 3 p)) (x_value ext)))
  else if n =? 44 then
    let? p := read_full ty_vesting44 (x_data ext) in
    Ok (AVesting (MkVesting balance (bytes_of (fld 0 p)) (num_of (fld 1 p)) (num_of (fld 2 p)) (num_of (fld 3 p)) (num_of (fld 4 p))))
  else Err EBadVesting.
(** account.go:254-265; [height - c.VestingStart] is uint32 arithmetic *)
Definition amountUnlocked (oob : float64 -> Z) (c : Vesting) (height : Z) : Z :=
  if height <=? v_start c then 0
  else if (v_step_blocks c =? 0) || (v_step_amount c =? 0) then v_value c
  else
    let progress := float_div (float_of_uint (w32 (height - v_start c))) (float_of_uint (v_step_blocks c)) in
    uint64_of_float oob (float_mul progress (float_of_uint (v_step_amount c))).

(** ** HTLC *)
(** account.go:296-302 *)
Definition ty_htlc_params : ty :=
  TStruct [field (bytesN 20); field (bytesN 20); field ty_hash; field (TNum U8); field (TNum U32)].
(** account.go:293-320 *)
Definition HTLC_Init (tx : Tx) (prevBalance : Z) : res Account :=
  let? ext := as_extended tx in
  let? p := read_full ty_htlc_params (x_data ext) in
  if num_of (fld 3 p) =? 0 then Err EBadHashCount
  else Ok (AHTLC (MkHTLC prevBalance (bytes_of (fld 0 p)) (bytes_of (fld 1 p)) (hash_of (fld 2 p)) (num_of (fld 3 p))
                         (num_of (fld 4 p)) (x_value ext))).
(** account.go:343-349, 364-367, 384-386 *)
Definition ty_regular : ty :=
  TStruct [field (TNum U8); field (TNum U8); field (bytesN 32); field (bytesN 32); field ty_proof].
Definition ty_early : ty := TStruct [field ty_proof; field ty_proof].
Definition ty_timeout : ty := TStruct [field ty_proof].

Section WithHash.
  (** blake2b.Sum256; the float64 to uint64 conversion out of range. *)
  Variable H : bytes -> bytes.
  Variable oob : float64 -> Z.

  (** account.go:129-136; uint64 arithmetic *)
  Definition Basic_Outgoing (value : Z) (tx : Tx) : res Account :=
    let '(v, fee) := Amount tx in
    let amount := w64 (v + fee) in
    if value <? amount then Err (EOverspend value amount) else Ok (ABasic (w64 (value - amount))).
  (** account.go:226-247 *)
  Definition Vesting_Outgoing (c : Vesting) (tx : Tx) (height : Z) : res Account :=
    let unlocked := amountUnlocked oob c height in
    let? ext := as_extended tx in
    if unlocked <? x_value ext then Err (EOverspend unlocked (x_value ext))
    else
      let newValue := w64 (v_value c - x_value ext) in
      let? p := read_full ty_proof (x_proof ext) in
      let? signer := SignerAddress H (proof_of p) in
      if bytes_eqb signer (v_owner c) then
        Ok (AVesting (MkVesting newValue (v_owner c) (v_start c) (v_step_blocks c) (v_step_amount c) (v_total c)))
      else Err EBadSignature.
  (** account.go:336-395: the checks of the proof [proof] of type [proofType] *)
  Definition HTLC_check (h : HTLC) (proofType : Z) (proof : bytes) (height : Z) : res unit :=
    if proofType =? 1 then
      if h_timeout h <? height then Err EHTLCExpired
      else
        let? p := read_full ty_regular proof in
        if negb (num_of (fld 0 p) =? Algorithm (h_hash h)) || negb (bytes_eqb (bytes_of (fld 2 p)) (Bytes (h_hash h)))
        then Err EHTLCHash
        else
          let? signer := SignerAddress H (proof_of (fld 4 p)) in
          if bytes_eqb signer (h_recipient h) then Ok tt else Err EHTLCRecipientSig
    else if proofType =? 2 then
      let? p := read_full ty_early proof in
      let? recipient := SignerAddress H (proof_of (fld 0 p)) in
      if negb (bytes_eqb recipient (h_recipient h)) then Err EHTLCRecipientSig
      else
        let? sender := SignerAddress H (proof_of (fld 1 p)) in
        if bytes_eqb sender (h_sender h) then Ok tt else Err EHTLCSenderSig
    else if proofType =? 3 then
      if height <=? h_timeout h then Err EHTLCNotExpired
      else
        let? p := read_full ty_timeout proof in
        let? signer := SignerAddress H (proof_of (fld 0 p)) in
        if bytes_eqb signer (h_sender h) then Ok tt else Err EHTLCSenderSig
    else Err EHTLCProofType.
  (** account.go:323-401 *)
  Definition HTLC_Outgoing (h : HTLC) (tx : Tx) (height : Z) : res Account :=
    let? ext := as_extended tx in
    if h_value h <? x_value ext then Err (EOverspend (h_value h) (x_value ext))
    else
      match x_proof ext with
      | [] => Err EMissingProof
      | proofType :: proof =>
          let? _ := HTLC_check h proofType proof height in
          Ok (AHTLC (MkHTLC (w64 (h_value h - x_value ext)) (h_sender h) (h_recipient h) (h_hash h) (h_count h) (h_timeout h)
                            (h_total h)))
      end.

  (** The interface method, account.go:18 *)
  Definition ApplyOutgoingTx (a : Account) (tx : Tx) (height : Z) : res Account :=
    match a with
    | ABasic v => Basic_Outgoing v tx
    | AVesting c => Vesting_Outgoing c tx height
    | AHTLC h => HTLC_Outgoing h tx height
    end.
End WithHash.

(** account.go:139-142, 250-252, 404-406 *)
Definition ApplyIncomingTx (a : Account) (tx : Tx) (_height : Z) : res Account :=
  match a with
  | ABasic v => Ok (ABasic (w64 (v + fst (Amount tx))))
  | AVesting _ => Panic
  | AHTLC _ => Panic
  end.
(** account.go:124-126, 167, 293: Init of a new account of the given type *)
Definition Account_Init (typ : Z) (tx : Tx) (_height prevBalance : Z) : res Account :=
  if typ =? 0 then Panic
  else if typ =? 1 then Vesting_Init tx prevBalance
  else HTLC_Init tx prevBalance.
