(** Model of wire/nibbles.go (whole file).  A nibble list is a list of bytes. *)
From Coq Require Import ZArith List Lia Bool String.
Import ListNotations.
From Verif.Model Require Import Base Address.
Open Scope Z_scope.

(** wire/nibbles.go:5 *)
Notation nibbles := (list Z).

(** wire/nibbles.go:7 *)
Definition hexTable : bytes := str "0123456789abcdef".

(** wire/nibbles.go:10-17: each byte gives its high and its low nibble. *)
Fixpoint KeyToNibbles (key : bytes) : nibbles :=
  match key with
  | [] => []
  | b :: key' => Z.shiftr b 4 :: Z.land b 0xF :: KeyToNibbles key'
  end.

(** wire/nibbles.go:25-27: key[i/2] = (nbs[i] << 4) | nbs[i+1], uint8 arithmetic. *)
Fixpoint ToKey_loop (nbs : nibbles) : bytes :=
  match nbs with
  | a :: b :: r => Z.lor (w8 (Z.shiftl a 4)) b :: ToKey_loop r
  | _ => []
  end.
(** wire/nibbles.go:21-29 *)
Definition ToKey (nbs : nibbles) : res bytes :=
  if negb (Nat.eqb (List.length nbs) 40) then Panic else Ok (ToKey_loop nbs).

(** wire/nibbles.go:33-39: the loop over the nibbles writing into buf. *)
Fixpoint Compress_loop (nbs : nibbles) (i : nat) (buf : bytes) : res bytes :=
  match nbs with
  | [] => Ok buf
  | n :: r =>
      match nth_error buf (i / 2) with
      | None => Panic
      | Some old =>
          let v := if Nat.even i then w8 (Z.shiftl n 4) else Z.lor old (Z.land n 0xF) in
          Compress_loop r (S i) (firstn (i / 2) buf ++ v :: skipn (S (i / 2)) buf)
      end
  end.
(** wire/nibbles.go:31-41.  (len-1)/2 is Go's truncated division (0 for len = 0). *)
Definition Compress (nbs : nibbles) : res bytes :=
  Compress_loop nbs 0 (repeat 0 (Z.to_nat (Z.quot (zlen nbs - 1) 2))).

(** wire/nibbles.go:44-50: an element >= 16 indexes out of the table. *)
Fixpoint HexBytes (nbs : nibbles) : res bytes :=
  match nbs with
  | [] => Ok []
  | nb :: r => let? h := index hexTable (Z.to_nat nb) in
               let? t := HexBytes r in Ok (h :: t)
  end.

(** wire/nibbles.go:56-68 (the result is a prefix of the receiver). *)
Fixpoint CommonPrefix (nbs onbs : nibbles) : nibbles :=
  match nbs, onbs with
  | a :: nbs', b :: onbs' => if a =? b then a :: CommonPrefix nbs' onbs' else []
  | _, _ => []
  end.

(** wire/nibbles.go:74-78; indexing onbs[i] is in range by the length check. *)
Fixpoint PrefixOf_loop (nbs onbs : nibbles) : bool :=
  match nbs, onbs with
  | [], _ => true
  | a :: nbs', b :: onbs' => if a =? b then PrefixOf_loop nbs' onbs' else false
  | _ :: _, [] => false
  end.
(** wire/nibbles.go:70-80 *)
Definition PrefixOf (nbs onbs : nibbles) : bool :=
  if Nat.ltb (List.length onbs) (List.length nbs) then false else PrefixOf_loop nbs onbs.
