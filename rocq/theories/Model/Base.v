(** Common vocabulary of the model: results of Go calls, fixed-width
    arithmetic, byte strings.  Models the Go language level, not a repo file. *)
From Coq Require Import ZArith List Lia Bool.
Import ListNotations.
Open Scope Z_scope.

(** Error values that the modelled code can return.  The repository builds
    most of them with fmt.Errorf; one constructor per distinguishable cause. *)
Inductive error : Type :=
| EUnexpectedEOF        (* beserial/errors.go:35 *)
| ENoLenTag             (* beserial/errors.go:36, size.go:57 *)
| ENonOptionalNil       (* beserial/errors.go:37 *)
| EBadOptionalFlag      (* beserial/decode.go:101 *)
| EBadBool              (* beserial/decode.go:199 *)
| ECannotMarshal        (* encode.go:120, decode.go:266, size.go:91 *)
| ENegativeLen          (* decode.go:135 *)
| EBadLen               (* decode.go:141 *)
| ECannotAlloc          (* decode.go:163 *)
| ENotFull              (* decode.go:29 *)
| ENilArg               (* encode.go:14,18,20: "TODO error" *)
| EInvalidUnmarshal     (* decode.go:52 / size.go:16 InvalidUnmarshalError *)
| EBadAccountType       (* wire/account.go:51 *)
| EBadTxType            (* wire/tx.go:51 *)
| EBadNetAddrType       (* wire/p2p.go:40 *)
| EUnknownProtocol      (* wire/p2p.go:118 *)
| EUnknownMessage (typ : Z)                  (* wire/msg_types.go:94,153-157; as int64 *)
| EJunk (count : Z)                          (* wire/msg_types.go:102 *)
| EOverspend (available spend : Z)           (* wire/account.go:97-103 *)
| EBadVesting           (* wire/account.go:219 *)
| EBadSignature         (* wire/account.go:240 *)
| EBadHashCount         (* wire/account.go:307 *)
| EMissingProof         (* wire/account.go:331 *)
| EHTLCExpired          (* wire/account.go:340 *)
| EHTLCNotExpired       (* wire/account.go:381 *)
| EHTLCHash             (* wire/account.go:355 *)
| EHTLCRecipientSig     (* wire/account.go:359,373 *)
| EHTLCSenderSig        (* wire/account.go:376,391 *)
| EHTLCProofType        (* wire/account.go:394 *)
| EAccountTypeMismatch (expected got : Z)    (* accounts/accounts.go:243-248, 261-268 *)
| EPruneMissing (address : list Z)           (* accounts/accounts.go:178-182, 296-307 *)
| EPruneAltered (address : list Z)           (* accounts/accounts.go:184-188 *)
| EPruneEarly (addresses : list (list Z))    (* accounts/accounts.go:201-205: names any one of them (Go's map order) *)
| ECreateBasic (address : list Z)            (* accounts/accounts.go:219-223, 283-294 *)
| ECreateBadType (address : list Z) (typ : Z)  (* accounts/accounts.go:228-232 *)
| EInvalidCountryCode   (* address/address.go:222 *)
| EInvalidLength        (* address/address.go:223 *)
| EChecksum             (* address/address.go:224 *)
| EInvalidCharacter     (* address/address.go:225 *)
| EBase32               (* encoding/base32 CorruptInputError *)
| EWrongSender          (* wallet/basic.go:84 *)
| ETreeHash             (* genesis/genesis.go:48-49 *)
| ECustom (n : Z).      (* an error of a user-defined codec *)

(** Outcome of a Go call: a value, a returned error, a run-time panic, or the
    model's recursion bound was hit (theorems exclude it explicitly). *)
Inductive res (A : Type) : Type :=
| Ok (a : A)
| Err (e : error)
| Panic
| OutOfFuel.
Arguments Ok {A} a.
Arguments Err {A} e.
Arguments Panic {A}.
Arguments OutOfFuel {A}.

Definition bind {A B} (x : res A) (f : A -> res B) : res B :=
  match x with
  | Ok a => f a
  | Err e => Err e
  | Panic => Panic
  | OutOfFuel => OutOfFuel
  end.

Notation "'let?' x ':=' e 'in' k" := (bind e (fun x => k))
  (at level 200, x pattern, e at level 100, k at level 200, right associativity).

(** Go's checked indexing of a slice or array: out of range panics. *)
Definition index {A} (l : list A) (i : nat) : res A :=
  match nth_error l i with Some a => Ok a | None => Panic end.

(** Fixed-width unsigned arithmetic wraps (Go specification, "Integer overflow"). *)
Definition two8 : Z := 256.
Definition two32 : Z := 4294967296.
Definition two64 : Z := 18446744073709551616.
Definition w8 (z : Z) : Z := z mod two8.
Definition w32 (z : Z) : Z := z mod two32.
Definition w64 (z : Z) : Z := z mod two64.

(** Byte strings. *)
Notation bytes := (list Z).
Definition is_byte (b : Z) : Prop := 0 <= b < 256.
Definition bytes_ok (l : bytes) : Prop := Forall is_byte l.
Definition is_byteb (b : Z) : bool := (0 <=? b) && (b <? 256).
Definition bytes_okb (l : bytes) : bool := forallb is_byteb l.

(** encoding/binary.BigEndian.PutUintN: n bytes, most significant first. *)
Fixpoint be_put (n : nat) (z : Z) : bytes :=
  match n with
  | O => []
  | S n' => (z / 256 ^ Z.of_nat n') mod 256 :: be_put n' z
  end.

(** encoding/binary.BigEndian.UintN of the given bytes. *)
Fixpoint be_get_acc (acc : Z) (l : bytes) : Z :=
  match l with
  | [] => acc
  | b :: l' => be_get_acc (acc * 256 + b) l'
  end.
Definition be_get (l : bytes) : Z := be_get_acc 0 l.

Definition bytes_eqb (a b : bytes) : bool :=
  if list_eq_dec Z.eq_dec a b then true else false.

(** Length of a list as a Go int. *)
Definition zlen {A} (l : list A) : Z := Z.of_nat (length l).
