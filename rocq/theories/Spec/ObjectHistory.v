(** Histories of a program that uses an Accounts object and the account objects
    it gets from it: it calls GetAccount, PutAccount and Push, makes accounts of
    its own and assigns to the fields of all account objects except one, the
    global variable wire.InitialAccount (object 0). *)
From Coq Require Import ZArith List Bool.
From stdpp Require Import gmap list.
From Verif.Model Require Import Base Wire Policy Account Tree Accounts AccountObjects TreeCrash.
From Verif.Spec Require Import TreeSpec TreeHistory WireSpec AccountSpec AccountsSpec.
Open Scope Z_scope.

(** The program assigns [y] to the object behind [p]; its Go type stays. *)
Definition assigns (m : objects) (p : pointer) (y : Account) (m' : objects) : Prop :=
  exists x, m !! p = Some x /\ AccountType x = AccountType y /\ m' = <[p := y]> m.

Section History.
  Variable H : bytes -> bytes.
  Variable oob : float64 -> Z.
  Inductive oreach : objects -> state -> cache -> Prop :=
  | oreach_new : oreach initial_objects new_tree initial_cache
  | oreach_make m s c x : oreach m s c -> oreach (m ++ [x]) s c
  | oreach_assign m s c p y m' : oreach m s c -> p <> initial_pointer -> assigns m p y m' -> oreach m' s c
  | oreach_get m s c a o m' s' : oreach m s c -> array 20 a -> tree_oGetAccount a (m, s) = (o, (m', s')) -> oreach m' s' c
  | oreach_put m s c a p o m' s' :
      oreach m s c -> array 20 a -> (forall q, p = Some q -> exists x, m !! q = Some x /\ account_ok x) ->
      tree_oPutAccount H a p (m, s) = (o, (m', s')) -> oreach m' s' c
  | oreach_push m s c b o m' s' c' :
      oreach m s c -> block_ok b -> tree_oPush H oob (m, s) c b = (o, (m', s'), c') -> oreach m' s' c'
  | oreach_open m s c : oreach m s c -> oreach m (open_overlay s) c
  | oreach_flush m s c lower d order st :
      oreach m s c -> sto s = OverlayStore lower (Some d) -> order ≡ₚ map_to_list d ->
      Flush order (sto s) = Ok st -> oreach m (with_store s st) c
  | oreach_interrupted m s c lower d order n st :
      oreach m s c -> sto s = OverlayStore lower (Some d) -> order ≡ₚ map_to_list d ->
      FlushUpTo n order (sto s) = Ok st -> oreach m (with_store s st) c
  | oreach_close m s c lower :
      oreach m s c -> sto s = OverlayStore lower (Some ∅) -> oreach m (with_store s lower) c.
End History.
