(** Histories of API calls on trees whose paths and values are Go slices
    (Model/TreeSlices.v); the calls of Spec/TreeHistory.v, and what the caller
    does with its own buffers. *)
From Coq Require Import ZArith List.
From stdpp Require Import gmap list.
From Verif.Model Require Import Base Address Nibbles Tree TreeSlices TreeCrash.
From Verif.Spec Require Import AddressSpec TreeSpec.
Open Scope Z_scope.

(** The tree continues on another store. *)
Definition swith_store (S : sstate) (st : store) : sstate := SState (arrs S) (sheap S) (snext S) st.

(** A slice lies within its array. *)
Definition valid (A : arrays) (x : slice) : Prop :=
  (s_arr x < length A)%nat /\ (s_len x <= s_cap x)%nat /\ (s_off x + s_cap x <= length (array A (s_arr x)))%nat.

(** The caller makes a new buffer holding [v] (with [extra] spare capacity). *)
Definition make_buffer (S : sstate) (v : list Z) (extra : nat) : sstate * slice :=
  let '(A, x) := fresh_slice (arrs S) v extra in (set_arrs S A, x).
(** The caller copies [ys] into array [a] from position [i]. *)
Definition write_buffer (S : sstate) (a i : nat) (ys : list Z) : sstate :=
  set_arrs S (overwrite (arrs S) a i ys).
(** An entry of the tree is held in array [a]. *)
Definition holds_buffer (S : sstate) (a : nat) : Prop :=
  exists k x, addr20 k /\ sGetEntry S k = Ok (Some x) /\ s_arr x = a.

Section WithGrow.
  Variables (grow : grow_policy) (H : list Z -> list Z).

  (** A sequence of PutEntry calls, each with a new buffer. *)
  Fixpoint srun (S : sstate) (hist : list (list Z * list Z)) : res sstate :=
    match hist with
    | [] => Ok S
    | (k, v) :: hist' =>
        let '(S1, x) := make_buffer S v 0 in
        let? (S', _) := sPutEntry grow H S1 k x in srun S' hist'
    end.

  (** [sreach B S M]: the caller makes buffers ([B] are their arrays; 0 is that
      of the nil slice), passes slices of them to PutEntry, changes buffers that no
      entry is held in, opens overlays, flushes them in any order and goes back to
      the lower store of a flushed overlay; [M] records the writes. *)
  Inductive sreach : list nat -> sstate -> entries -> Prop :=
  | sreach_new : sreach [0%nat] snew_tree ∅
  | sreach_make B S M v extra S' x :
      sreach B S M -> make_buffer S v extra = (S', x) -> sreach (s_arr x :: B) S' M
  | sreach_put B S M k v S' b :
      sreach B S M -> addr20 k -> valid (arrs S) v -> In (s_arr v) B ->
      sPutEntry grow H S k v = Ok (S', b) -> sreach B S' (spec_put M (k, content (arrs S) v))
  | sreach_write B S M a i ys :
      sreach B S M -> In a B -> (i + length ys <= length (array (arrs S) a))%nat -> ~ holds_buffer S a ->
      sreach B (write_buffer S a i ys) M
  | sreach_open B S M : sreach B S M -> sreach B (swith_store S (OverlayStore (ssto S) (Some ∅))) M
  | sreach_flush B S M lower d order st :
      sreach B S M -> ssto S = OverlayStore lower (Some d) -> order ≡ₚ map_to_list d ->
      Flush order (ssto S) = Ok st -> sreach B (swith_store S st) M
  | sreach_interrupted B S M lower d order n st :
      sreach B S M -> ssto S = OverlayStore lower (Some d) -> order ≡ₚ map_to_list d ->
      FlushUpTo n order (ssto S) = Ok st -> sreach B (swith_store S st) M
  | sreach_close B S M lower :
      sreach B S M -> ssto S = OverlayStore lower (Some ∅) -> sreach B (swith_store S lower) M.
End WithGrow.
