(** C126: several trees on one store.  "Trees on overlays over one store do not disturb each
    other" is false of the code; what holds of the entries is proved here for every history of
    writes (also interrupted ones) and flushes by any number of trees. *)
From Coq Require Import ZArith List Lia Bool.
From stdpp Require Import gmap list.
From Verif.Model Require Import Base Address Nibbles Tree TreeCrash TreeSteps.
From Verif.Spec Require Import AddressSpec TreeSpec TreeHistory StepSpec SharedHistory.
From Verif.Proofs Require Import BaseFacts NibblesFacts TreeSim TreeTrie TreeCanon TreeUpdate TreeHashes TreeReach TreeRoot TreeLocal
  TreeCollide StepFacts SharedFacts.
From Verif.Props Require Import TreeProps.
Open Scope Z_scope.

Lemma GetEntry_same s u k : GetNode (sto u) (KeyToNibbles k) = GetNode (sto s) (KeyToNibbles k) ->
  points s (KeyToNibbles k) -> leaves_stay s u -> GetEntry u k = GetEntry s k.
Proof. intros A B C. rewrite !GetEntry_read. apply read_same; assumption. Qed.

(** No history of writes and flushes by any of the trees makes GetEntry panic in any of them. *)
Theorem C126_reads_partial : forall H T w s k,
  shared H T -> tree_of T w = Some s -> addr20 k -> exists o, GetEntry s k = Ok o.
Proof.
  intros H T w s k HT Ev Hk. apply points_read. apply (view_ok T w s (shared_ok H T HT) Ev). exact Hk.
Qed.
Print Assumptions C126_reads_partial.

(** A write through an overlay, up to any point: that tree holds the new value and is
    otherwise unchanged, all other trees' entries are unchanged. *)
Theorem C126_overlay_write_partial : forall H T i s k v u,
  shared H T -> tree_of T (Over i) = Some s -> addr20 k -> during_put H s k v u ->
  let T' := with_tree T (Over i) u in
  shared H T' /\ tree_of T' (Over i) = Some u /\
  holds_entry u k v /\
  (forall k', addr20 k' -> k' <> k -> GetEntry u k' = GetEntry s k') /\
  forall w s0, w <> Over i -> tree_of T w = Some s0 ->
    exists s1, tree_of T' w = Some s1 /\ forall k', addr20 k' -> GetEntry s1 k' = GetEntry s0 k'.
Proof.
  intros H T i s k v u HT Ev Hk Hd T'. pose proof (shared_ok H T HT) as Hok.
  destruct (view_ok T _ s Hok Ev) as (Hs & _ & Eh & _ & Hpt).
  pose proof (effect_put H s k v u Hs (key40 k Hk) Hd) as He.
  destruct (t_overlays T !! i) as [d|] eqn:Ei; [|cbn in Ev; rewrite Ei in Ev; discriminate].
  destruct (over_store T i d s _ v u Hok Ei Ev He (key40 k Hk)) as (d' & Es & _ & _).
  assert (ET : T' = Trees (heap u) (next u) (t_base T) (<[i := d']> (t_overlays T))) by (unfold T'; cbn; rewrite Es; reflexivity).
  split; [eapply shared_put; eassumption|]. split.
  { rewrite ET. cbn. rewrite list_lookup_insert by (eapply lookup_lt_Some, Ei). cbn. rewrite <- Es. destruct u; reflexivity. }
  split; [|split].
  - exact (proj1 (effect_at _ _ _ _ He (key40 k Hk) (Hpt k Hk))).
  - intros k' Hk' Hne. exact (proj1 (effect_other _ _ _ _ _ He (key40 _ Hk') (key_ne _ _ Hk Hk' Hne) (Hpt k' Hk'))).
  - intros w s0 Hw Ew. destruct (view_ok T w s0 Hok Ew) as (_ & _ & Eh0 & _ & Hpt0).
    assert (Hl : leaves_stay s0 (State (heap u) (next u) (sto s0))).
    { intros l p x. cbn. rewrite Eh0, <- Eh. apply (effect_leaves _ _ _ _ He). }
    exists (State (heap u) (next u) (sto s0)). split.
    + rewrite ET. destruct w as [|j]; cbn in *; [injection Ew as <-; reflexivity|].
      rewrite list_lookup_insert_ne by congruence. destruct (t_overlays T !! j); [|discriminate]. injection Ew as <-. reflexivity.
    + intros k' Hk'. apply GetEntry_same; [reflexivity|exact (Hpt0 k' Hk')|exact Hl].
Qed.
Print Assumptions C126_overlay_write_partial.

(** A write through the lower store's own tree, up to any point: an overlay sees it exactly
    if it has no record of its own at that key. *)
Theorem C126_base_write_partial : forall H T s k v u,
  shared H T -> tree_of T Base = Some s -> addr20 k -> during_put H s k v u ->
  let T' := with_tree T Base u in
  shared H T' /\ tree_of T' Base = Some u /\
  holds_entry u k v /\
  (forall k', addr20 k' -> k' <> k -> GetEntry u k' = GetEntry s k') /\
  forall j d s0, t_overlays T !! j = Some d -> tree_of T (Over j) = Some s0 ->
    exists s1, tree_of T' (Over j) = Some s1 /\
      (forall k', addr20 k' -> k' <> k -> GetEntry s1 k' = GetEntry s0 k') /\
      match d !! nibs k with
      | Some _ => GetEntry s1 k = GetEntry s0 k
      | None => GetEntry s1 k = GetEntry u k
      end.
Proof.
  intros H T s k v u HT Ev Hk Hd T'. pose proof (shared_ok H T HT) as Hok.
  destruct (view_ok T _ s Hok Ev) as (Hs & _ & Eh & _ & Hpt).
  pose proof (effect_put H s k v u Hs (key40 k Hk) Hd) as He.
  assert (ET : T' = Trees (heap u) (next u) (sto u) (t_overlays T)) by (unfold T'; cbn; destruct (sto u) as [m|? [?|]]; reflexivity).
  assert (Hoth : forall k', addr20 k' -> k' <> k -> GetEntry u k' = GetEntry s k').
  { intros k' Hk' Hne. exact (proj1 (effect_other _ _ _ _ _ He (key40 _ Hk') (key_ne _ _ Hk Hk' Hne) (Hpt k' Hk'))). }
  split; [eapply shared_put; eassumption|]. split; [rewrite ET; cbn; destruct u; reflexivity|].
  split; [exact (proj1 (effect_at _ _ _ _ He (key40 k Hk) (Hpt k Hk)))|]. split; [exact Hoth|].
  intros j d s0 Ej Ew. destruct (view_ok T _ s0 Hok Ew) as (_ & _ & Eh0 & _ & Hpt0).
  cbn in Ew, Ev. rewrite Ej in Ew. cbn in Ew. injection Ew as <-. injection Ev as Es.
  set (s1 := State (heap u) (next u) (OverlayStore (sto u) (Some d))). exists s1.
  split; [rewrite ET; cbn; rewrite Ej; reflexivity|].
  assert (Hl : leaves_stay (State (t_heap T) (t_next T) (OverlayStore (t_base T) (Some d))) s1).
  { intros l p x. cbn. intros E. apply (effect_leaves _ _ _ _ He). rewrite Eh. exact E. }
  assert (Hrec : forall k', addr20 k' -> is_Some (d !! nibs k') -> GetEntry s1 k' = GetEntry (State (t_heap T) (t_next T) (OverlayStore (t_base T) (Some d))) k').
  { intros k' Hk' (o & Eo). apply GetEntry_same; [|exact (Hpt0 k' Hk')|exact Hl]. cbn. rewrite nibs_key, Eo by apply Hk'. reflexivity. }
  assert (Hnone : forall k', addr20 k' -> d !! nibs k' = None -> GetEntry s1 k' = GetEntry u k').
  { intros k' Hk' Eo. unfold GetEntry. cbn. rewrite nibs_key, Eo by apply Hk'. reflexivity. }
  split.
  - intros k' Hk' Hne. destruct (d !! nibs k') as [o|] eqn:Eo; [apply Hrec; [exact Hk'|rewrite Eo; eauto]|].
    rewrite Hnone by assumption. rewrite Hoth by assumption. rewrite <- Es. unfold GetEntry. cbn. rewrite nibs_key, Eo by apply Hk'. reflexivity.
  - destruct (d !! nibs k) as [o|] eqn:Eo; [apply Hrec; [exact Hk|rewrite Eo; eauto]|apply Hnone; assumption].
Qed.
Print Assumptions C126_base_write_partial.

(** A flush, up to any statement and in any order: it does not panic, the flushed tree's
    entries stay; the lower store's are the old or the flushed tree's, and the latter once it
    is done; another overlay keeps what it has a record of and otherwise shows the lower store's. *)
Theorem C126_flush_partial : forall H T i d s order n,
  shared H T -> t_overlays T !! i = Some d -> tree_of T (Over i) = Some s -> order ≡ₚ map_to_list d ->
  exists st, FlushUpTo n order (sto s) = Ok st /\
  let T' := with_tree T (Over i) (with_store s st) in
  shared H T' /\
  exists s' b b', tree_of T' (Over i) = Some s' /\ tree_of T Base = Some b /\ tree_of T' Base = Some b' /\
  (forall k, addr20 k -> GetEntry s' k = GetEntry s k) /\
  (forall k, addr20 k -> GetEntry b' k = GetEntry b k \/ GetEntry b' k = GetEntry s k) /\
  ((2 * length order <= n)%nat -> forall k, addr20 k -> GetEntry b' k = GetEntry s k) /\
  forall j dj s0, j <> i -> t_overlays T !! j = Some dj -> tree_of T (Over j) = Some s0 ->
    exists s1, tree_of T' (Over j) = Some s1 /\
      forall k, addr20 k -> match dj !! nibs k with
                            | Some _ => GetEntry s1 k = GetEntry s0 k
                            | None => GetEntry s1 k = GetEntry b' k
                            end.
Proof.
  intros H T i d s order n HT Ei Ev Hp. pose proof (shared_ok H T HT) as Hok.
  assert (Est : exists st, FlushUpTo n order (sto s) = Ok st).
  { pose proof Ev as Ev'. cbn in Ev'. rewrite Ei in Ev'. injection Ev' as <-.
    destruct (FlushUpTo_perm n order (t_base T) d (tk_lay _ Hok) Hp) as (a & c & E & _). cbn. eauto. }
  destruct Est as (st & E). exists st. split; [exact E|]. intros T'. split; [eapply shared_flush; eassumption|].
  destruct (flush_view _ _ _ _ _ _ _ Hok Ei Ev Hp E) as (lower' & d' & Est & Hl' & ET & Hsame & Hlow & Hfull & Hd). fold T' in ET.
  destruct (view_ok T _ s Hok Ev) as (_ & _ & Eh & _ & _).
  set (s' := State (t_heap T) (t_next T) (OverlayStore lower' (Some d'))).
  set (b := State (t_heap T) (t_next T) (t_base T)). set (b' := State (t_heap T) (t_next T) lower').
  exists s', b, b'.
  split; [rewrite ET; cbn; rewrite list_lookup_insert by (eapply lookup_lt_Some, Ei); reflexivity|].
  split; [reflexivity|]. split; [rewrite ET; reflexivity|].
  assert (HG : forall u u' k, heap u = t_heap T -> heap u' = t_heap T -> GetNode (sto u) (KeyToNibbles k) = GetNode (sto u') (KeyToNibbles k) -> GetEntry u k = GetEntry u' k).
  { intros u u' k A B C. unfold GetEntry. rewrite A, B, C. reflexivity. }
  split; [intros k _; apply HG; [reflexivity|exact Eh|]; cbn [s' sto]; rewrite <- Hsame, Est; reflexivity|].
  split; [intros k _; destruct (Hlow (KeyToNibbles k)); [left|right]; apply HG; try reflexivity; assumption|].
  split; [intros Hn k _; apply HG; [reflexivity|exact Eh|apply Hfull, Hn]|].
  intros j dj s0 Hj Ej Ew. exists (State (t_heap T) (t_next T) (OverlayStore lower' (Some dj))).
  split; [rewrite ET; cbn; rewrite list_lookup_insert_ne, Ej by congruence; reflexivity|].
  cbn in Ew. rewrite Ej in Ew. injection Ew as <-. intros k Hk.
  destruct (dj !! nibs k) as [o|] eqn:Eo; apply HG; try reflexivity; cbn; rewrite nibs_key, Eo by apply Hk; reflexivity.
Qed.
Print Assumptions C126_flush_partial.

(** ** What fails *)
(** Two overlays on any tree: whatever is written through the first, the second's entries stay
    those of the lower store, but its root hash is that of the first's contents. *)
Theorem C126_root_refuted : forall H s M hist u,
  reach H s M -> Forall (fun kv => addr20 kv.1) hist -> run H (open_overlay s) hist = Ok u ->
  let T := with_tree (Trees (heap s) (next s) (sto s) [∅; ∅]) (Over 0) u in
  exists second, tree_of T (Over 1) = Some second /\
    (forall k, addr20 k -> GetEntry second k = Ok (M !! k)) /\
    Hash H second = Ok (merkle_root H (foldl spec_put M hist)).
Proof.
  intros H s M hist u Hr Hk Eu T.
  destruct (C25_lower_entries_untouched_partial H s M hist u Hr Hk Eu) as (Hlow & Hent).
  destruct (C25_lower_root_refuted H s M hist u Hr Hk Eu) as (_ & _ & Hroot & _).
  destruct (run_reach H hist _ M (reach_open H s M Hr) Hk) as (u' & Eu' & Ru). rewrite Eu' in Eu. injection Eu as ->.
  pose proof (reach_inv H _ _ Ru) as (_ & Hlay & _).
  exists (State (heap u) (next u) (OverlayStore (sto s) (Some ∅))). split; [|split].
  - unfold T. cbn. destruct (sto u) as [m|lower [d|]]; cbn in Hlow; [discriminate| |destruct Hlay]. injection Hlow as ->. reflexivity.
  - intros k Hk0. rewrite <- (inv_GetEntry H s M k (reach_inv H s M Hr) Hk0), <- (Hent k Hk0).
    unfold GetEntry. cbn. rewrite lookup_empty. reflexivity.
  - rewrite <- Hroot. unfold Hash. cbn. rewrite lookup_empty. reflexivity.
Qed.
Print Assumptions C126_root_refuted.

Definition default_tree (r : res (state * bool)) : state := match r with Ok (u, _) => u | _ => new_tree end.
Definition second_tree (u : state) : state := State (heap u) (next u) (OverlayStore (sto new_tree) (Some ∅)).
(** One write through an overlay makes the next write through another one panic. *)
Theorem C126_panic_refuted : forall H, exists u second,
  PutEntry H (open_overlay new_tree) k_zero [1] = Ok (u, true) /\
  tree_of (with_tree (Trees (heap new_tree) (next new_tree) (sto new_tree) [∅; ∅]) (Over 0) u) (Over 1) = Some second /\
  PutEntry H second k_one [1] = Panic.
Proof.
  intros H. eexists. exists (second_tree (default_tree (PutEntry H (open_overlay new_tree) k_zero [1]))).
  split; [vm_compute; reflexivity|]. split; vm_compute; reflexivity.
Qed.
Print Assumptions C126_panic_refuted.

(** An overlay does not keep what is written through it when the lower store holds the same
    value at that moment: a later write to the lower store shows through. *)
Theorem C126_write_lost_refuted : forall H T i d s b k v w u u',
  shared H T -> t_overlays T !! i = Some d -> d !! nibs k = None ->
  tree_of T (Over i) = Some s -> tree_of T Base = Some b -> addr20 k ->
  holds_entry b k v ->
  during_put H s k v u ->
  let T1 := with_tree T (Over i) u in
  forall b1, tree_of T1 Base = Some b1 -> during_put H b1 k w u' ->
  exists s', tree_of (with_tree T1 Base u') (Over i) = Some s' /\ holds_entry s' k w.
Proof.
  intros H T i d s b k v w u u' HT Ei Ed Ev Eb Hk Hb Hd T1 b1 Eb1 Hd'. pose proof (shared_ok H T HT) as Hok.
  destruct (view_ok T _ s Hok Ev) as (Hs & Hlay & _).
  assert (Hv : exists o, read s (KeyToNibbles k) = Ok o /\ default [] o = v).
  { destruct Hb as (o & Eo & Ho). exists o. split; [|exact Ho]. cbn in Ev, Eb. rewrite Ei in Ev. injection Ev as <-. injection Eb as <-.
    rewrite GetEntry_read in Eo. unfold read in *. cbn in *. rewrite nibs_key in * by apply Hk. rewrite Ed. exact Eo. }
  pose proof (calm_put_same H s k v u Hs Hv Hd) as Hc.
  destruct (C126_overlay_write_partial H T i s k v u HT Ev Hk Hd) as (HT1 & Eu & _). fold T1 in HT1, Eu.
  pose proof (ca_low _ _ Hc) as Hlow. pose proof (ca_lay _ _ Hc Hlay) as Hl'. pose proof (ca_own _ _ Hc _ (key40 k Hk)) as Ho.
  cbn in Ev. rewrite Ei in Ev. injection Ev as <-. cbn in Hlow, Ho.
  destruct (sto u) as [m|lower [d'|]] eqn:Es; cbn in Hlow; [discriminate| |destruct Hl']. injection Hlow as ->.
  cbn in Ho. rewrite nibs_key, Ed in Ho by apply Hk.
  assert (Ei1 : t_overlays T1 !! i = Some d').
  { unfold T1. cbn. rewrite Es. cbn. apply list_lookup_insert. eapply lookup_lt_Some, Ei. }
  destruct (C126_base_write_partial H T1 b1 k w u' HT1 Eb1 Hk Hd') as (_ & _ & Hu' & _ & Hj).
  destruct (Hj i d' u Ei1 Eu) as (s' & Es' & _ & Hs'). rewrite Ho in Hs'.
  exists s'. split; [exact Es'|]. unfold holds_entry. rewrite Hs'. exact Hu'.
Qed.
Print Assumptions C126_write_lost_refuted.

(** ** Examples *)
(** Two overlays over a tree with two entries; writes through both and through the lower
    store, one of them interrupted; a half-done flush. *)
Definition base2 : list (list Z * list Z) := [(k_zero, [1]); (k_one, [2])].
Lemma k_zero_addr : addr20 k_zero. Proof. split; [reflexivity|]. unfold k_zero. cbn. repeat (apply Forall_cons; split; [lia|]). apply Forall_nil. exact I. Qed.
Lemma k_one_addr : addr20 k_one. Proof. split; [reflexivity|]. unfold k_one. cbn. repeat (apply Forall_cons; split; [lia|]). apply Forall_nil. exact I. Qed.
Lemma k_ff_addr : addr20 k_ff. Proof. split; [reflexivity|]. unfold k_ff. cbn. repeat (apply Forall_cons; split; [lia|]). apply Forall_nil. exact I. Qed.
Definition ex_hash : list Z -> list Z := fun _ => repeat 1 32.
Definition ex_base : state := match run ex_hash new_tree base2 with Ok s => s | _ => new_tree end.
Definition ex_put (T : trees) (w : who) (k v : list Z) : trees :=
  match tree_of T w with Some s => with_tree T w (default_tree (PutEntry ex_hash s k v)) | None => T end.
Definition ex_cut (T : trees) (w : who) (k v : list Z) (n : nat) : trees :=
  match tree_of T w with Some s => with_tree T w (nth n (t_PutEntry ex_hash s k v).1 s) | None => T end.
Lemma ex_put_shared T w k v : shared ex_hash T -> addr20 k ->
  match tree_of T w with Some s => match PutEntry ex_hash s k v with Ok _ => true | _ => false end | None => false end = true ->
  shared ex_hash (ex_put T w k v).
Proof.
  intros HT Hk. unfold ex_put. destruct (tree_of T w) as [s|] eqn:E; [|discriminate]. intros Hs.
  destruct (PutEntry ex_hash s k v) as [(u & b)|e| |] eqn:Ep; try discriminate.
  eapply (shared_put _ T w s k v); [exact HT|exact E|exact Hk|]. right. exists b. exact Ep.
Qed.
Lemma ex_cut_shared T w k v n : shared ex_hash T -> addr20 k ->
  match tree_of T w with Some s => Nat.ltb n (length (t_PutEntry ex_hash s k v).1) | None => false end = true ->
  shared ex_hash (ex_cut T w k v n).
Proof.
  intros HT Hk. unfold ex_cut. destruct (tree_of T w) as [s|] eqn:E; [|discriminate]. intros Hs. apply Nat.ltb_lt in Hs.
  eapply (shared_put _ T w s k v); [exact HT|exact E|exact Hk|]. left. apply elem_of_list_In, nth_In, Hs.
Qed.
Definition ex_T0 : trees := one_more (one_more (Trees (heap ex_base) (next ex_base) (sto ex_base) [])).
Definition ex_T : trees := ex_put (ex_cut (ex_put ex_T0 (Over 0) k_zero [9]) (Over 1) k_one [] 1) Base k_one [7].
Definition ex_read (T : trees) (w : who) (k : list Z) : res (option (list Z)) :=
  match tree_of T w with Some s => GetEntry s k | None => Panic end.

Example shared_example : shared ex_hash ex_T /\
  ex_read ex_T (Over 0) k_zero = Ok (Some [9]) /\ ex_read ex_T (Over 0) k_one = Ok (Some [7]) /\
  ex_read ex_T (Over 1) k_zero = Ok (Some [1]) /\ ex_read ex_T (Over 1) k_one = Ok None /\
  ex_read ex_T Base k_zero = Ok (Some [1]) /\ ex_read ex_T Base k_one = Ok (Some [7]) /\
  (length (map_to_list (default ∅ (t_overlays ex_T !! 0%nat))) = 3)%nat.
Proof.
  split; [|vm_compute; auto 10].
  apply ex_put_shared; [|exact k_one_addr|vm_compute; reflexivity].
  apply ex_cut_shared; [|exact k_one_addr|vm_compute; reflexivity].
  apply ex_put_shared; [|exact k_zero_addr|vm_compute; reflexivity].
  apply shared_open, shared_open.
  destruct (run_reach ex_hash base2 new_tree ∅ (reach_new ex_hash)) as (s & E & Hr).
  { apply Forall_cons; split; [exact k_zero_addr|]. apply Forall_cons; split; [exact k_one_addr|apply Forall_nil; exact I]. }
  unfold ex_base. rewrite E. eapply shared_start, Hr.
Qed.
(** The second overlay of [ex_T0] writes the value the lower store has, then the lower store
    changes: the overlay shows the change. *)
Definition ex_T2 : trees := ex_put (ex_put ex_T0 (Over 1) k_zero [1]) Base k_zero [8].
Example write_lost_example :
  t_overlays ex_T0 !! 1%nat = Some ∅ /\ ex_read ex_T0 Base k_zero = Ok (Some [1]) /\
  ex_read (ex_put ex_T0 (Over 1) k_zero [1]) (Over 1) k_zero = Ok (Some [1]) /\
  ex_read ex_T2 (Over 1) k_zero = Ok (Some [8]).
Proof. vm_compute. auto. Qed.
