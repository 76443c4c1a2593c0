(** Model of the functions that render values as text outside package address:
    Nibbles.String and ProtocolScheme.  A Go string is the list of its bytes. *)
From Coq Require Import ZArith List String.
Import ListNotations.
From Verif.Model Require Import Base Address Nibbles.
Open Scope Z_scope.

(** wire/nibbles.go:52-54; tree/store.go:59-61 is a verbatim copy. *)
Definition Nibbles_String (nbs : nibbles) : res bytes := HexBytes nbs.

(** wire/p2p.go:81-86 (the constants), 89-102 *)
Definition ProtocolScheme (proto : Z) : bytes :=
  if proto =? 0 then str "dumb"
  else if proto =? 4 then str "ws"
  else if proto =? 1 then str "wss"
  else if proto =? 2 then str "rtc"
  else str "invalid".
