(** Model of wire/msg.go, msg_inv.go, msg_p2p.go and msg_types.go: the network
    messages, UnmarshalMessage and MarshalMessage. *)
From Coq Require Import ZArith List Bool String.
Import ListNotations.
From Verif.Model Require Import Base Address Beserial Wire.
Open Scope Z_scope.

(** ** msg_p2p.go: BasePingMessage *)
(** msg_p2p.go:37-40 *)
Record Ping := MkPing { pi_nonce : Z; pi_pong : bool }.
Definition v_ping (p : Ping) : val := VStruct [VNum (pi_nonce p); VBool (pi_pong p)].
Definition ping_of (v : val) : Ping :=
  MkPing (num_of (fld 0 v)) (match fld 1 v with VBool b => b | _ => false end).
(** msg_p2p.go:50-56 *)
Definition Ping_Unmarshal (p : Ping) (buf : bytes) : res (Ping * Z) :=
  if zlen buf <? 4 then Err EUnexpectedEOF else Ok (MkPing (be_get (firstn 4 buf)) (pi_pong p), 4).
(** msg_p2p.go:59-64 *)
Definition Ping_Marshal (p : Ping) (b : bytes) : res (bytes * option error) := Ok (b ++ be_put 4 (pi_nonce p), None).
(** msg_p2p.go:67-69 *)
Definition Ping_Size (_ : Ping) : Z := 4.
Definition ping_codec : codec := typed_codec v_ping ping_of Ping_Unmarshal Ping_Marshal.

(** ** The message types *)
Inductive mkind :=
| KVersion | KInv | KGetBlocks | KBlock | KHeader | KTx | KAddr | KGetAddr | KPing | KHead | KVerAck
| KGetTxProof | KGetTxReceipts.
(** The struct types: msg_p2p.go:12-19, msg_inv.go:17-20 and 3-6, 36-40, 69-71,
    85-87, msg.go:15-18, 7-9, msg_inv.go:26-30, msg_p2p.go:37-40, msg_inv.go:77-79,
    msg_p2p.go:26-29, msg_inv.go:51-54, 60-63.  An embedded struct is a field. *)
Definition ty_inv_vector : ty := TStruct [field (TNum U32); field (bytesN 32)].
Definition ty_message (k : mkind) : ty :=
  match k with
  | KVersion => TStruct [field (TNum U32); field ty_peer; field (bytesN 32); field (bytesN 32); field (bytesN 32);
                         tagged "len_tag=uint8" TString]
  | KInv => TStruct [field (TNum U64); field (TSlice ty_inv_vector)]
  | KGetBlocks => TStruct [tagged "len_tag=uint16" (TSlice (bytesN 32)); field (TNum U16); field (TNum U8)]
  | KBlock => TStruct [field ty_block]
  | KHeader | KHead => TStruct [field ty_header]
  | KTx => TStruct [field ty_wrap_tx]
  | KAddr => TStruct [tagged "len_tag=uint16" (TSlice ty_peer)]
  | KGetAddr => TStruct [field (TNum U8); field (TNum U32); field (TNum U16)]
  | KPing => TCustom ping_codec (TStruct [field (TNum U32); field TBool])
  | KVerAck => TStruct [field (bytesN 32); field (bytesN 64)]
  | KGetTxProof => TStruct [field (bytesN 32); field (TSlice (bytesN 20))]
  | KGetTxReceipts => TStruct [field (bytesN 20); field (TNum U32)]
  end.
(** msg.go:3-5: a pointer to one of the structs, or an EmptyMessage (a uint64). *)
Inductive Message :=
| MPtr (k : mkind) (v : val)
| MEmpty (n : Z).
(** The Type methods: msg_p2p.go:21,31,42-47, msg_inv.go:22,47,73,89,81,32,56,65,
    msg.go:11,20, msg_types.go:139.  HeaderMessage.Type returns MessageBlock. *)
Definition Message_Type (m : Message) : Z :=
  match m with
  | MEmpty n => n
  | MPtr KVersion _ => 0
  | MPtr KInv v => num_of (fld 0 v)
  | MPtr KGetBlocks _ => 5
  | MPtr KBlock _ => 6
  | MPtr KHeader _ => 6
  | MPtr KTx _ => 8
  | MPtr KAddr _ => 20
  | MPtr KGetAddr _ => 21
  | MPtr KPing v => if pi_pong (ping_of v) then 23 else 22
  | MPtr KHead _ => 61
  | MPtr KVerAck _ => 90
  | MPtr KGetTxProof _ => 47
  | MPtr KGetTxReceipts _ => 49
  end.
(** The argument passed to beserial: an EmptyMessage is not a pointer and its
    kind cannot be nil. *)
Definition message_arg (m : Message) : arg :=
  match m with MPtr k v => APtr (ty_message k) v | MEmpty _ => ANotNilable end.

(** msg_types.go:56-95: the fresh message for a type number *)
Definition new_message (typ : Z) : option Message :=
  let fresh k := Some (MPtr k (zero (ty_message k))) in
  let inv := Some (MPtr KInv (VStruct [VNum typ; VList []])) in
  let ping pong := Some (MPtr KPing (v_ping (MkPing 0 pong))) in
  if typ =? 0 then fresh KVersion
  else if typ =? 1 then inv
  else if typ =? 2 then inv
  else if typ =? 3 then inv
  else if typ =? 4 then inv
  else if typ =? 5 then fresh KGetBlocks
  else if typ =? 6 then fresh KBlock
  else if typ =? 7 then fresh KHeader
  else if typ =? 8 then fresh KTx
  else if typ =? 9 then Some (MEmpty 9)
  else if typ =? 20 then fresh KAddr
  else if typ =? 21 then fresh KGetAddr
  else if typ =? 22 then ping false
  else if typ =? 23 then ping true
  else if typ =? 40 then Some (MEmpty 40)
  else if typ =? 60 then Some (MEmpty 60)
  else if typ =? 61 then fresh KHead
  else if typ =? 90 then fresh KVerAck
  else None.
(** msg_types.go:94, 153: UnknownMessageError is an int64, the number a uint64 *)
Definition to_int64 (n : Z) : Z := if n <? 2 ^ 63 then n else n - 2 ^ 64.
(** msg_types.go:55-106 *)
Definition UnmarshalMessage (typ : Z) (buf : bytes) : res Message :=
  match new_message typ with
  | None => Err (EUnknownMessage (to_int64 typ))
  | Some m =>
      let '(r, n) := Unmarshal buf (message_arg m) in
      let? o := r in
      if n =? zlen buf then
        Ok (match m, o with MPtr k _, Some v => MPtr k v | _, _ => m end)
      else Err (EJunk (zlen buf - n))
  end.
(** msg_types.go:108-117; with an error the returned buffer is nil *)
Definition MarshalMessage (m : Message) : res bytes :=
  let? _ := Size (message_arg m) in
  let? (b, e) := Marshal (be_put 8 (Message_Type m)) (message_arg m) in
  match e with None => Ok b | Some e => Err e end.
