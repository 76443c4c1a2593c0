(** Several trees on one store: one on the store itself and one on each of any number of
    overlays over it (tree/store_overlay.go:4-7: overlays hold the same [Lower]).  All share
    the node objects. *)
From Coq Require Import ZArith List.
From stdpp Require Import gmap list.
From Verif.Model Require Import Base Address Nibbles Tree TreeCrash TreeSteps.
From Verif.Spec Require Import AddressSpec TreeSpec TreeHistory.
Open Scope Z_scope.

Record trees := Trees {
  t_heap : gmap loc node;                          (* the node objects *)
  t_next : loc;
  t_base : store;                                  (* the common lower store *)
  t_overlays : list (gmap (list Z) (option loc)) }. (* what each overlay recorded *)

Inductive who := Base | Over (i : nat).
(** The tree that [w] has. *)
Definition tree_of (T : trees) (w : who) : option state :=
  match w with
  | Base => Some (State (t_heap T) (t_next T) (t_base T))
  | Over i => (fun d => State (t_heap T) (t_next T) (OverlayStore (t_base T) (Some d))) <$> (t_overlays T !! i)
  end.
(** All trees after [w]'s has become [u]. *)
Definition with_tree (T : trees) (w : who) (u : state) : trees :=
  match w, sto u with
  | Over i, OverlayStore lower (Some d) => Trees (heap u) (next u) lower (<[i := d]> (t_overlays T))
  | _, st => Trees (heap u) (next u) st (t_overlays T)
  end.
Definition one_more (T : trees) : trees := Trees (t_heap T) (t_next T) (t_base T) (t_overlays T ++ [∅]).

Section WithHash.
  Variable H : list Z -> list Z.

  (** [u] is the tree [s] after PutEntry, or after any of its changes: the call may be
      under way, interrupted, or have panicked. *)
  Definition during_put (s : state) (k v : list Z) (u : state) : Prop :=
    u ∈ (t_PutEntry H s k v).1 \/ exists b, PutEntry H s k v = Ok (u, b).

  (** All that can be done: open overlays, write through any tree (to the end or not), flush
      any overlay (to the end or not). *)
  Inductive shared : trees -> Prop :=
  | shared_start s M : reach H s M -> shared (Trees (heap s) (next s) (sto s) [])
  | shared_open T : shared T -> shared (one_more T)
  | shared_put T w s k v u : shared T -> tree_of T w = Some s -> addr20 k -> during_put s k v u -> shared (with_tree T w u)
  | shared_flush T i d s order n st : shared T -> tree_of T (Over i) = Some s -> t_overlays T !! i = Some d ->
      order ≡ₚ map_to_list d -> FlushUpTo n order (sto s) = Ok st -> shared (with_tree T (Over i) (with_store s st)).
End WithHash.
