(** Push (accounts/accounts.go:39-60) with everything that can be seen in between: the same
    methods over a state that also notes each PutEntry call of PutAccount
    (accounts.go:87-99) together with the trees it passes through (Model/TreeSteps.v). *)
From Coq Require Import ZArith List.
From stdpp Require Import gmap list.
From Verif.Model Require Import Base Beserial Wire Policy Account Nibbles Tree TreeSteps Accounts.
Open Scope Z_scope.

(** The calls of PutEntry so far: key, value, and the trees during the call. *)
Definition plog : Type := list (bytes * bytes * list state).

Section WithHash.
  Variable H : bytes -> bytes.
  Variable oob : float64 -> Z.

  (** accounts.go:87-99, tree/tree.go:42-46 *)
  Definition log_put_entry (ls : plog * state) (k v : bytes) : res (plog * state) :=
    let m := t_PutEntry H ls.2 k v in
    let? (s', _) := m.2 in Ok (ls.1 ++ [(k, v, m.1)], s').
  (** accounts.go:69-85; reading changes nothing *)
  Definition log_get_account (ls : plog * state) (a : bytes) : res Account := tree_get_account ls.2 a.
  Definition log_put_account : plog * state -> bytes -> option Account -> res (plog * state) :=
    PutAccount (plog * state) log_put_entry.
  (** accounts.go:39-60 *)
  Definition log_Push : plog * state -> cache -> Block -> res unit * (plog * state) * cache :=
    Push H oob (plog * state) log_get_account log_put_account.
End WithHash.
