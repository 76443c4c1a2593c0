(** Property C105: interrupted flushes (tree/store_overlay.go:31-41). *)
From Coq Require Import ZArith List Lia Bool.
From stdpp Require Import gmap list.
From Verif.Model Require Import Base Address Nibbles Tree TreeCrash.
From Verif.Spec Require Import AddressSpec TreeSpec TreeHistory.
From Verif.Proofs Require Import BaseFacts TreeCollide TreeReach.
From Verif.Props Require Import TreeProps.
Open Scope Z_scope.

(** A Flush that is not interrupted gets through all its statements. *)
Theorem C105_uninterrupted : forall order lower diffs n, (2 * length order <= n)%nat ->
  FlushUpTo n order (OverlayStore lower diffs) = Flush order (OverlayStore lower diffs).
Proof. intros. apply FlushUpTo_all. assumption. Qed.
Print Assumptions C105_uninterrupted.

(** Interrupted anywhere, the overlay answers every key as before the Flush, and
    flushing again, in whatever order, ends where the uninterrupted Flush would
    have: an empty overlay on a store that answers as the overlay did. *)
Theorem C105_interrupted :
  forall lower d order n, layers_ok lower -> order ≡ₚ map_to_list d ->
  exists lower' d', FlushUpTo n order (OverlayStore lower (Some d)) = Ok (OverlayStore lower' (Some d')) /\
    (forall k, GetNode (OverlayStore lower' (Some d')) k = GetNode (OverlayStore lower (Some d)) k) /\
    forall order', order' ≡ₚ map_to_list d' ->
    exists lower'', Flush order' (OverlayStore lower' (Some d')) = Ok (OverlayStore lower'' (Some ∅)) /\
      forall k, GetNode lower'' k = GetNode (OverlayStore lower (Some d)) k.
Proof.
  intros lower d order n Hl Hp. destruct (FlushUpTo_perm n order lower d Hl Hp) as (lower' & d' & E & Hl' & Hg).
  exists lower', d'. split; [exact E|]. split; [exact Hg|]. intros order' Hp'.
  destruct (Flush_ok lower' d' order' Hl' Hp') as (lower'' & E2 & _ & Hg2). exists lower''. split; [exact E2|].
  intros k. rewrite Hg2. apply Hg.
Qed.
Print Assumptions C105_interrupted.

(** In between, the lower store answers each key as before or as the overlay: the
    entries written down are an initial part of the order visited.  At most one of
    them (the last) is still in the overlay as well. *)
Theorem C105_written_down :
  forall lower d order n, layers_ok lower -> order ≡ₚ map_to_list d -> (n <= 2 * length order)%nat ->
  exists lower' d' written rest, FlushUpTo n order (OverlayStore lower (Some d)) = Ok (OverlayStore lower' (Some d')) /\
    order = written ++ rest /\
    (forall k, k ∈ written.*1 -> GetNode lower' k = GetNode (OverlayStore lower (Some d)) k) /\
    (forall k, k ∉ written.*1 -> GetNode lower' k = GetNode lower k) /\
    (map_to_list d' ≡ₚ rest \/ exists kv before, written = before ++ [kv] /\ map_to_list d' ≡ₚ kv :: rest).
Proof.
  intros lower d order n Hl Hp Hn. assert (Hnd : NoDup order.*1) by (rewrite Hp; apply NoDup_fst_map_to_list).
  destruct (FlushUpTo_spec order n lower d Hl Hnd) as (lower' & E & _ & Hg).
  exists lower', (foldl (fun d kv => delete kv.1 d) d (firstn (Nat.div2 n) order)), (firstn (Nat.div2 (S n)) order), (skipn (Nat.div2 (S n)) order).
  split; [exact E|]. split; [symmetry; apply firstn_skipn|].
  assert (Hd : forall m, map_to_list (foldl (fun d kv => delete kv.1 d) d (firstn m order)) ≡ₚ skipn m order).
  { intros m. assert (Hnd2 : NoDup (skipn m order).*1).
    { rewrite <- (firstn_skipn m order), fmap_app in Hnd. apply NoDup_app in Hnd as (_ & _ & Hnd). exact Hnd. }
    rewrite <- (map_to_list_to_map (M := gmap (list Z)) (skipn m order) Hnd2).
    match goal with |- ?a ≡ₚ ?b => cut (a = b); [intros ->; reflexivity|] end. f_equal. apply map_eq. intros k. rewrite foldl_delete_lookup.
    assert (Ed : d = list_to_map (firstn m order) ∪ list_to_map (skipn m order)).
    { rewrite <- list_to_map_app, firstn_skipn. rewrite <- (list_to_map_to_list d). apply list_to_map_proper; [apply NoDup_fst_map_to_list|symmetry; exact Hp]. }
    rewrite Ed. case_decide as Hin.
    - symmetry. apply not_elem_of_list_to_map_1. rewrite <- (firstn_skipn m order), fmap_app in Hnd. apply NoDup_app in Hnd as (_ & Hd & _). apply Hd, Hin.
    - apply lookup_union_r. apply not_elem_of_list_to_map_1, Hin. }
  split; [|split].
  - intros k Hk. rewrite Hg, (order_lookup order d _ k Hp), decide_True by exact Hk.
    assert (Hin : k ∈ order.*1). { rewrite <- (firstn_skipn (Nat.div2 (S n)) order), fmap_app. apply elem_of_app. left. exact Hk. }
    rewrite Hp in Hin. apply elem_of_list_fmap in Hin as ((k1 & o) & -> & Hin). apply elem_of_map_to_list in Hin. cbn. rewrite Hin. reflexivity.
  - intros k Hk. rewrite Hg, (order_lookup order d _ k Hp), decide_False by exact Hk. reflexivity.
  - destruct (decide (Nat.div2 (S n) = Nat.div2 n)) as [Ee|Ene]; [left; rewrite Ee; apply Hd|right].
    assert (Ex : (Nat.div2 (S n) = S (Nat.div2 n) /\ Nat.div2 n < length order)%nat).
    { pose proof (Nat.div2_odd n) as G1. pose proof (Nat.div2_odd (S n)) as G2. destruct (Nat.odd n), (Nat.odd (S n)); cbn [Nat.b2n] in *; lia. }
    destruct Ex as (Ex & Hlt). destruct (lookup_lt_is_Some_2 order (Nat.div2 n) Hlt) as (kv & Ekv).
    exists kv, (firstn (Nat.div2 n) order). rewrite Ex. split; [apply take_S_r, Ekv|]. rewrite (Hd (Nat.div2 n)). rewrite (drop_S _ _ _ Ekv). reflexivity.
Qed.
Print Assumptions C105_written_down.

(** On a tree: interrupting the Flush of its overlay anywhere changes neither the
    entries nor the root hash, and the tree goes on working. *)
Theorem C105_tree_interrupted :
  forall H s M lower d order n, reach H s M -> sto s = OverlayStore lower (Some d) -> order ≡ₚ map_to_list d ->
  exists st, FlushUpTo n order (sto s) = Ok st /\
    Hash H (with_store s st) = Hash H s /\
    (forall k, addr20 k -> GetEntry (with_store s st) k = GetEntry s k) /\
    forall hist, Forall (fun kv => addr20 kv.1) hist ->
    exists t u, run H (with_store s st) hist = Ok t /\ run H s hist = Ok u /\
      Hash H t = Hash H u /\ forall k, addr20 k -> GetEntry t k = GetEntry u k.
Proof.
  intros H s M lower d order n Hr Es Hp.
  assert (Hl : layers_ok lower) by (pose proof (reach_inv H s M Hr) as (_ & Hl & _); rewrite Es in Hl; exact Hl).
  destruct (FlushUpTo_perm n order lower d Hl Hp) as (lower' & d' & E & _). rewrite <- Es in E.
  exists (OverlayStore lower' (Some d')). split; [exact E|].
  pose proof (reach_interrupted H s M lower d order n _ Hr Es Hp E) as R.
  assert (Hsame : forall t u N, reach H t N -> reach H u N -> Hash H t = Hash H u /\ forall k, addr20 k -> GetEntry t k = GetEntry u k).
  { intros t u N Rt Ru. split; [rewrite (C18_root_is_merkle_root H _ _ Rt), (C18_root_is_merkle_root H _ _ Ru); reflexivity|].
    intros k Hk. rewrite (inv_GetEntry H t _ k (reach_inv H _ _ Rt) Hk), (inv_GetEntry H u _ k (reach_inv H _ _ Ru) Hk). reflexivity. }
  destruct (Hsame _ _ _ R Hr) as (H1 & H2). split; [exact H1|]. split; [exact H2|]. intros hist Hh.
  destruct (run_reach H hist _ M R Hh) as (t & Et & Rt). destruct (run_reach H hist _ M Hr Hh) as (u & Eu & Ru).
  destruct (Hsame _ _ _ Rt Ru) as (H3 & H4). exists t, u. auto.
Qed.
Print Assumptions C105_tree_interrupted.

(** Flush is not atomic for those who read the lower store: whenever the overlay
    changes two keys, it may stop where one has its new answer and the other its
    old one. *)
Theorem C105_lower_not_atomic :
  forall lower d k1 k2 o1 o2, layers_ok lower -> k1 <> k2 ->
    d !! k1 = Some o1 -> d !! k2 = Some o2 -> o1 <> GetNode lower k1 -> o2 <> GetNode lower k2 ->
  exists order n lower' d', order ≡ₚ map_to_list d /\
    FlushUpTo n order (OverlayStore lower (Some d)) = Ok (OverlayStore lower' (Some d')) /\
    ~ (forall k, GetNode lower' k = GetNode lower k) /\
    ~ (forall k, GetNode lower' k = GetNode (OverlayStore lower (Some d)) k).
Proof.
  intros lower d k1 k2 o1 o2 Hl Hne E1 E2 N1 N2.
  pose proof (map_to_list_delete d k1 o1 E1) as Hp. set (order := (k1, o1) :: map_to_list (delete k1 d)) in Hp.
  assert (Hnd : NoDup order.*1) by (rewrite Hp; apply NoDup_fst_map_to_list).
  destruct (FlushUpTo_spec order 2 lower d Hl Hnd) as (lower' & E & _ & Hg). exists order, 2%nat, lower'. eexists. split; [exact Hp|]. split; [exact E|].
  change (list_to_map (firstn (Nat.div2 3) order)) with (<[k1 := o1]> (∅ : gmap nibbles (option loc))) in Hg. split; intros G.
  - specialize (G k1). rewrite Hg, lookup_insert in G. contradiction.
  - specialize (G k2). rewrite Hg, lookup_insert_ne, lookup_empty in G by exact Hne. cbn in G. rewrite E2 in G. congruence.
Qed.
Print Assumptions C105_lower_not_atomic.

(** A concrete case: an overlay that overwrites one key and deletes another,
    interrupted after each of its four statements. *)
Example C105_nonvacuous :
  let lower := MemStore {[ [1] := 5%nat; [2] := 6%nat ]} in
  let d : gmap (list Z) (option loc) := {[ [1] := Some 7%nat; [2] := None ]} in
  let order := [([2], None); ([1], Some 7%nat)] in
  layers_ok lower /\ order ≡ₚ map_to_list d /\
  map (fun n => match FlushUpTo n order (OverlayStore lower (Some d)) with
                | Ok (OverlayStore l (Some d') as s) =>
                    (map (GetNode s) [[1]; [2]], map (GetNode l) [[1]; [2]], length (map_to_list d'))
                | _ => ([], [], 99%nat) end) (seq 0 6) =
    let same := [Some 7%nat; None] in
    [(same, [Some 5%nat; Some 6%nat], 2%nat); (same, [Some 5%nat; None], 2%nat); (same, [Some 5%nat; None], 1%nat);
     (same, [Some 7%nat; None], 1%nat); (same, [Some 7%nat; None], 0%nat); (same, [Some 7%nat; None], 0%nat)].
Proof.
  cbv zeta. split; [exact I|]. split; [|vm_compute; reflexivity].
  rewrite map_to_list_insert by reflexivity. rewrite map_to_list_singleton. apply Permutation_swap.
Qed.
