(** Histories of API calls on trees. *)
From Coq Require Import ZArith List.
From stdpp Require Import gmap list.
From Verif.Model Require Import Base Address Nibbles Tree TreeCrash.
From Verif.Spec Require Import AddressSpec TreeSpec.
Open Scope Z_scope.

(** Open an initialised overlay on the tree's store; the tree continues on it. *)
Definition open_overlay (s : state) : state := State (heap s) (next s) (OverlayStore (sto s) (Some ∅)).
Definition with_store (s : state) (st : store) : state := State (heap s) (next s) st.

(** Every overlay in the stack of stores has an initialised map. *)
Fixpoint layers_ok (s : store) : Prop :=
  match s with
  | MemStore _ => True
  | OverlayStore lower None => False
  | OverlayStore lower (Some _) => layers_ok lower
  end.

(** The store an overlay lies on. *)
Definition lower_of (s : store) : option store :=
  match s with MemStore _ => None | OverlayStore l _ => Some l end.

Section WithHash.
  Variable H : list Z -> list Z.

  (** A sequence of PutEntry calls. *)
  Fixpoint run (s : state) (hist : list (list Z * list Z)) : res state :=
    match hist with
    | [] => Ok s
    | (k, v) :: hist' => let? (s', _) := PutEntry H s k v in run s' hist'
    end.

  (** [reach s M]: the tree [s] can be obtained from a fresh one by PutEntry
      calls, opening overlays, flushing them (in any iteration order, all the way
      or interrupted after any number of statements) and going back to the lower store of a flushed overlay; [M] records the writes. *)
  Inductive reach : state -> entries -> Prop :=
  | reach_new : reach new_tree ∅
  | reach_put s M k v s' b :
      reach s M -> addr20 k -> PutEntry H s k v = Ok (s', b) -> reach s' (spec_put M (k, v))
  | reach_open s M : reach s M -> reach (open_overlay s) M
  | reach_flush s M lower d order st :
      reach s M -> sto s = OverlayStore lower (Some d) -> order ≡ₚ map_to_list d ->
      Flush order (sto s) = Ok st -> reach (with_store s st) M
  | reach_interrupted s M lower d order n st :
      reach s M -> sto s = OverlayStore lower (Some d) -> order ≡ₚ map_to_list d ->
      FlushUpTo n order (sto s) = Ok st -> reach (with_store s st) M
  | reach_close s M lower :
      reach s M -> sto s = OverlayStore lower (Some ∅) -> reach (with_store s lower) M.
End WithHash.

(** Writes to a store. *)
Inductive store_op := OPut (k : list Z) (n : loc) | ODel (k : list Z).
Definition apply_op (s : store) (o : store_op) : res store :=
  match o with OPut k n => PutNode s k n | ODel k => DelNode s k end.
Fixpoint apply_ops (s : store) (ops : list store_op) : res store :=
  match ops with
  | [] => Ok s
  | o :: ops' => let? s' := apply_op s o in apply_ops s' ops'
  end.
(** What the last operation on [k] left there: [Some None] for a deletion,
    [None] if there was none. *)
Fixpoint last_op (k : list Z) (ops : list store_op) : option (option loc) :=
  match ops with
  | [] => None
  | o :: ops' =>
      match last_op k ops' with
      | Some r => Some r
      | None => match o with
                | OPut k' n => if bool_decide (k' = k) then Some (Some n) else None
                | ODel k' => if bool_decide (k' = k) then Some None else None
                end
      end
  end.
