(** Properties C15-C22: the state tree (tree/tree.go, node.go, store_mem.go),
    and C23-C26: overlays (tree/store_overlay.go). *)
From Coq Require Import ZArith List Lia Bool.
From stdpp Require Import gmap list.
From Verif.Model Require Import Base Address Nibbles Tree.
From Verif.Spec Require Import AddressSpec TreeSpec TreeHistory.
From Verif.Proofs Require Import BaseFacts NibblesFacts TreeSim TreeTrie TreeCanon TreeUpdate TreeHashes TreeReach TreeCollide TreeRoot.
Open Scope Z_scope.

Lemma reach_inv H s M : reach H s M -> inv H s M.
Proof.
  induction 1 as [|s M k v s' b _ IH Hk E|s M _ IH|s M lower d order st _ IH Es Hp E|s M lower d order n st _ IH Es Hp E|s M lower _ IH Es].
  - apply inv_new.
  - destruct (inv_PutEntry H s M k v IH Hk) as (s1 & E1 & Hi). rewrite E1 in E. injection E as <- _. exact Hi.
  - apply inv_same_map; [exact IH|destruct IH as (_ & Hl & _); exact Hl|]. intros k. cbn. rewrite lookup_empty. reflexivity.
  - assert (Hl : layers_ok lower) by (destruct IH as (_ & Hl & _); rewrite Es in Hl; exact Hl).
    destruct (Flush_ok lower d order Hl Hp) as (lower' & E1 & Hl' & Hg). rewrite Es, E1 in E. injection E as <-.
    apply inv_same_map; [exact IH|exact Hl'|]. intros k. rewrite Es. cbn. rewrite lookup_empty. apply Hg.
  - assert (Hl : layers_ok lower) by (destruct IH as (_ & Hl & _); rewrite Es in Hl; exact Hl).
    destruct (FlushUpTo_perm n order lower d Hl Hp) as (lower' & d' & E1 & Hl' & Hg). rewrite Es, E1 in E. injection E as <-.
    apply inv_same_map; [exact IH|exact Hl'|]. intros k. rewrite Es. apply Hg.
  - apply inv_same_map; [exact IH| |].
    + destruct IH as (_ & Hl & _). rewrite Es in Hl. exact Hl.
    + intros k. rewrite Es. cbn. rewrite lookup_empty. reflexivity.
Qed.

Lemma run_reach H : forall hist s M, reach H s M -> Forall (fun kv => addr20 kv.1) hist ->
  exists s', run H s hist = Ok s' /\ reach H s' (foldl spec_put M hist).
Proof.
  induction hist as [|(k & v) hist IH]; intros s M Hr Hk; cbn [run foldl].
  - exists s. auto.
  - inversion Hk as [|? ? Hk1 Hk2]; subst.
    destruct (inv_PutEntry H s M k v (reach_inv H s M Hr) Hk1) as (s1 & E1 & _). rewrite E1. cbn [bind].
    apply IH; [|exact Hk2]. eapply reach_put; [exact Hr|exact Hk1|exact E1].
Qed.

(** C15.  The tree is a map: for every history of PutEntry calls with 20-byte
    keys on a fresh tree, every GetEntry returns what [contents] says. *)
Theorem C15_tree_is_a_map :
  forall H hist, Forall (fun kv => addr20 kv.1) hist ->
  exists s, run H new_tree hist = Ok s /\
    forall k, addr20 k -> GetEntry s k = Ok (contents hist !! k).
Proof.
  intros H hist Hk. destruct (run_reach H hist new_tree ∅ (reach_new H) Hk) as (s & E & Hr).
  exists s. split; [exact E|]. intros k Hk0. apply (inv_GetEntry H); [apply reach_inv, Hr|exact Hk0].
Qed.
Print Assumptions C15_tree_is_a_map.
(** What [contents] says: the last write to the key counts, other keys are unaffected. *)
Theorem C15_contents_last_write :
  forall hist k v,
    contents (hist ++ [(k, v)]) !! k = (match v with [] => None | _ => Some v end) /\
    (forall k', k' <> k -> contents (hist ++ [(k, v)]) !! k' = contents hist !! k') /\
    contents [] !! k = None.
Proof.
  intros hist k v. unfold contents. rewrite foldl_app. cbn [foldl]. unfold spec_put at 1 3. cbn [fst snd].
  split; [|split].
  - destruct v; [apply lookup_delete|apply lookup_insert].
  - intros k' Hne. destruct v; [apply lookup_delete_ne; congruence|apply lookup_insert_ne; congruence].
  - apply lookup_empty.
Qed.
Print Assumptions C15_contents_last_write.

(** Concrete cases: two entries that share 39 digits, one deleted entry, on an
    overlay on an overlay, the lower one flushed. *)
Definition k_zero : list Z := repeat 0 20.
Definition k_one : list Z := repeat 0 19 ++ [1].
Definition k_ff : list Z := repeat 255 20.
Definition hist1 : list (list Z * list Z) :=
  [(k_zero, [1]); (k_ff, [7; 8]); (k_one, [2]); (k_ff, []); (k_zero, [3])].
Example C15_nonvacuous :
  Forall (fun kv => addr20 kv.1) hist1 /\ contents hist1 !! k_zero = Some [3] /\ contents hist1 !! k_one = Some [2] /\ contents hist1 !! k_ff = None.
Proof.
  split; [|repeat split; vm_compute; reflexivity].
  assert (Hb : forall b n, 0 <= b < 256 -> addr20 (repeat b n) \/ n <> 20%nat).
  { intros b n Hb0. destruct (decide (n = 20%nat)) as [->|]; [left|right; assumption].
    split; [reflexivity|]. apply Forall_forall. intros x Hx. apply elem_of_list_In, repeat_spec in Hx. lia. }
  assert (H0 : addr20 k_zero) by (destruct (Hb 0 20%nat); [lia|assumption|contradiction]).
  assert (Hf : addr20 k_ff) by (destruct (Hb 255 20%nat); [lia|assumption|contradiction]).
  assert (H1 : addr20 k_one).
  { split; [reflexivity|]. unfold k_one. cbn. repeat (apply Forall_cons; split; [lia|]). apply Forall_nil. exact I. }
  repeat (apply Forall_cons; split; [assumption|]). apply Forall_nil. exact I.
Qed.
Example reach_nonvacuous :
  forall H, exists s d, reach H s (spec_put (contents hist1) (k_ff, [5])) /\ lower_of (sto s) = Some (OverlayStore (sto new_tree) (Some d)).
Proof.
  intros H. destruct C15_nonvacuous as (Hk & _).
  pose proof (reach_open H _ _ (reach_new H)) as R0.
  destruct (run_reach H hist1 _ _ R0 Hk) as (s1 & E1 & R1).
  pose proof (reach_open H _ _ R1) as R2.
  assert (Hff : Forall (fun kv : list Z * list Z => addr20 kv.1) [(k_ff, [5])]).
  { apply Forall_cons. split; [|apply Forall_nil; exact I].
    exact (proj1 (Forall_forall _ _) Hk (k_ff, [7; 8]) ltac:(unfold hist1; set_solver)). }
  destruct (run_reach H [(k_ff, [5])] _ _ R2 Hff) as (s2 & E2 & R3).
  assert (F1 : forall s M, reach H s M -> fresh s).
  { intros s M R. destruct (reach_inv H _ _ R) as (_ & _ & V & ((_ & Hf & _) & _) & _). exact Hf. }
  destruct (ext_run H hist1 _ s1 (F1 _ _ R0) E1) as (Hlow & Hlay & _).
  destruct (ext_run H _ _ s2 (F1 _ _ R2) E2) as (Hlow2 & _).
  specialize (Hlay I). destruct (sto s1) as [m|low [df|]] eqn:Es; cbn in Hlow, Hlay; [discriminate| |contradiction].
  injection Hlow as ->. exists s2, df. split; [exact R3|]. rewrite Hlow2. cbn. rewrite Es. reflexivity.
Qed.

(** C16.  PutEntry tells whether the value changed; if not, nothing changed. *)
Theorem C16_put_reports_change :
  forall H s M k v s' b, reach H s M -> addr20 k -> PutEntry H s k v = Ok (s', b) ->
    (b = true <-> default [] (M !! k) <> v) /\
    GetEntry s k = Ok (M !! k) /\
    (b = false -> Hash H s' = Hash H s /\ forall k', addr20 k' -> GetEntry s' k' = GetEntry s k').
Proof.
  intros H s M k v s' b Hr Hk E. pose proof (reach_inv H s M Hr) as Hi.
  destruct (inv_PutEntry H s M k v Hi Hk) as (s1 & E1 & Hi1). rewrite E1 in E. injection E as <- <-.
  split; [|split].
  - rewrite negb_true_iff. apply bytes_eqb_neq.
  - apply (inv_GetEntry H); assumption.
  - rewrite negb_false_iff, bytes_eqb_eq. intros Ev.
    assert (EM : spec_put M (k, v) = M).
    { unfold spec_put. cbn [fst snd]. destruct (M !! k) as [w|] eqn:Em; cbn in Ev; subst v.
      - destruct Hi as (Hm & _). destruct (Hm _ _ Em) as (_ & Hw). destruct w; [contradiction|]. apply insert_id, Em.
      - apply delete_notin, Em. }
    rewrite EM in Hi1. split.
    + rewrite (inv_Hash H s1 M Hi1), (inv_Hash H s M Hi). reflexivity.
    + intros k' Hk'. rewrite (inv_GetEntry H s1 M k' Hi1 Hk'), (inv_GetEntry H s M k' Hi Hk'). reflexivity.
Qed.
Print Assumptions C16_put_reports_change.

(** C18.  The root hash is the Merkle root of the entries, after any history. *)
Theorem C18_root_is_merkle_root :
  forall H s M, reach H s M -> Hash H s = Ok (merkle_root H M).
Proof. intros H s M Hr. apply inv_Hash, reach_inv, Hr. Qed.
Print Assumptions C18_root_is_merkle_root.

(** C17.  Hence equal contents give equal root hashes. *)
Theorem C17_root_depends_on_contents_only :
  forall H h1 h2 s1 s2,
    Forall (fun kv => addr20 kv.1) h1 -> Forall (fun kv => addr20 kv.1) h2 ->
    run H new_tree h1 = Ok s1 -> run H new_tree h2 = Ok s2 ->
    (forall k, contents h1 !! k = contents h2 !! k) -> Hash H s1 = Hash H s2.
Proof.
  intros H h1 h2 s1 s2 K1 K2 E1 E2 Hc.
  destruct (run_reach H h1 new_tree ∅ (reach_new H) K1) as (s1' & E1' & R1).
  destruct (run_reach H h2 new_tree ∅ (reach_new H) K2) as (s2' & E2' & R2).
  rewrite E1' in E1. rewrite E2' in E2. injection E1 as <-. injection E2 as <-.
  rewrite (C18_root_is_merkle_root H _ _ R1), (C18_root_is_merkle_root H _ _ R2).
  fold (contents h1) (contents h2). rewrite (map_eq _ _ Hc). reflexivity.
Qed.
Print Assumptions C17_root_depends_on_contents_only.

(** C19.  Equal roots mean equal entries, or two different serialised nodes of
    the two trees collide under the hash. *)
Theorem C19_equal_roots_equal_contents :
  forall (H : list Z -> list Z), (forall x, length (H x) = 32%nat) ->
  forall s1 M1 s2 M2, reach H s1 M1 -> reach H s2 M2 -> Hash H s1 = Hash H s2 ->
    (forall k, addr20 k -> GetEntry s1 k = GetEntry s2 k) \/
    (exists p1 p2, is_node (by_path M1) p1 /\ is_node (by_path M2) p2 /\
       merkle_bytes H (by_path M1) p1 <> merkle_bytes H (by_path M2) p2 /\
       H (merkle_bytes H (by_path M1) p1) = H (merkle_bytes H (by_path M2) p2)).
Proof.
  intros H Hlen s1 M1 s2 M2 R1 R2 E.
  rewrite (C18_root_is_merkle_root H _ _ R1), (C18_root_is_merkle_root H _ _ R2) in E. injection E as E.
  pose proof (reach_inv H _ _ R1) as I1. pose proof (reach_inv H _ _ R2) as I2.
  destruct (merkle_root_inj H Hlen (by_path M1) (by_path M2)) as [Eq|Hc];
    [apply keys20_good, I1|apply keys20_good, I2|exact E| |right; exact Hc].
  left. apply by_path_inj in Eq. subst M2. intros k Hk.
  rewrite (inv_GetEntry H _ _ _ I1 Hk), (inv_GetEntry H _ _ _ I2 Hk). reflexivity.
Qed.
Print Assumptions C19_equal_roots_equal_contents.

(** C20.  The store holds exactly the nodes of the trie, and every child
    reference is right: present iff there are entries there, leading to a
    stored node, with the right suffix and hash. *)
Theorem C20_store_is_canonical :
  forall H s M, reach H s M ->
  let N := by_path M in
  (forall p, is_Some (GetNode (sto s) p) <-> is_node N p) /\
  (forall p l, GetNode (sto s) p = Some l ->
     match heap s !! l with
     | Some (Leaf p' v) => p' = p /\ N !! p = Some v
     | Some (Branch p' cs) =>
         p' = p /\ N !! p = None /\ (p = [] \/ branching N p) /\ length cs = 16%nat /\
         forall i c, cs !! i = Some c ->
           (c_exists c = true <-> has N (p ++ [Z.of_nat i])) /\
           (c_exists c = true ->
              p ++ c_suffix c = target N (p ++ [Z.of_nat i]) /\
              is_Some (GetNode (sto s) (p ++ c_suffix c)) /\
              c_hash c = H (merkle_bytes H N (p ++ c_suffix c)))
     | None => False
     end).
Proof.
  intros H s M Hr N. pose proof (reach_inv H s M Hr) as (Hm & _ & V & Hsim & Hc).
  pose proof (keys20_good M Hm) as Hg. fold N in Hg, Hc.
  assert (Hnode : forall p, is_Some (GetNode (sto s) p) <-> is_node N p).
  { intros p. pose proof (sim_get s V p Hsim) as Hp. pose proof (Hc p) as Hs. unfold shape in Hs.
    destruct (GetNode (sto s) p) as [l|].
    - destruct Hp as (n & _ & HV & _). rewrite HV in Hs. split; [intros _|eauto].
      destruct n as [p' cs|p' v].
      + destruct Hs as (_ & _ & [->|Hb] & _); [left; reflexivity|right; right; exact Hb].
      + destruct Hs as (_ & E). right; left. eauto.
    - rewrite Hp in Hs. split; [intros (x & E); discriminate|intros Hn; contradiction]. }
  split; [exact Hnode|].
  intros p l El. pose proof (sim_get s V p Hsim) as Hp. rewrite El in Hp.
  destruct Hp as (n & Hn & HV & _). rewrite Hn. pose proof (Hc p) as Hs. rewrite HV in Hs. cbn [shape] in Hs.
  destruct n as [p' cs|p' v]; [|exact Hs].
  destruct Hs as (-> & H1 & H2 & H3 & H4). split; [reflexivity|]. split; [exact H1|]. split; [exact H2|].
  split; [exact H3|]. intros i c Hic. destruct (H4 i c Hic) as ((Hex & Hlk) & Hh). split; [exact Hex|].
  intros Hx. split; [|split].
  - symmetry. apply target_unique; [exact Hg|destruct p; discriminate|apply Hex, Hx|apply Hlk, Hx].
  - apply Hnode. apply (Hlk Hx).
  - apply Hh, Hx.
Qed.
Print Assumptions C20_store_is_canonical.

(** C21.  No operation on a reachable tree panics or runs out of depth. *)
Theorem C21_no_panic :
  forall H s M k v, reach H s M -> addr20 k ->
    (exists s' b, PutEntry H s k v = Ok (s', b)) /\ (exists r, GetEntry s k = Ok r) /\ (exists h, Hash H s = Ok h).
Proof.
  intros H s M k v Hr Hk. pose proof (reach_inv H s M Hr) as Hi. split; [|split].
  - destruct (inv_PutEntry H s M k v Hi Hk) as (s' & E & _). eauto.
  - eexists. apply (inv_GetEntry H s M); assumption.
  - eexists. apply (inv_Hash H s M), Hi.
Qed.
Print Assumptions C21_no_panic.

(** C22.  Insert then delete restores root hash and entries. *)
Theorem C22_insert_delete_restores :
  forall H s M k v, reach H s M -> addr20 k -> GetEntry s k = Ok None ->
  exists s1 b1 s2 b2,
    PutEntry H s k v = Ok (s1, b1) /\ PutEntry H s1 k [] = Ok (s2, b2) /\
    Hash H s2 = Hash H s /\ forall k', addr20 k' -> GetEntry s2 k' = GetEntry s k'.
Proof.
  intros H s M k v Hr Hk Hn. pose proof (reach_inv H s M Hr) as Hi.
  rewrite (inv_GetEntry H s M k Hi Hk) in Hn. injection Hn as Hn.
  destruct (inv_PutEntry H s M k v Hi Hk) as (s1 & E1 & I1).
  destruct (inv_PutEntry H s1 _ k [] I1 Hk) as (s2 & E2 & I2).
  assert (EM : spec_put (spec_put M (k, v)) (k, []) = M).
  { unfold spec_put. cbn [fst snd]. destruct v; [rewrite !delete_notin; auto; rewrite delete_notin; auto|].
    apply delete_insert, Hn. }
  rewrite EM in I2. do 4 eexists. split; [exact E1|]. split; [exact E2|]. split.
  - rewrite (inv_Hash H s2 M I2), (inv_Hash H s M Hi). reflexivity.
  - intros k' Hk'. rewrite (inv_GetEntry H s2 M k' I2 Hk'), (inv_GetEntry H s M k' Hi Hk'). reflexivity.
Qed.
Print Assumptions C22_insert_delete_restores.

(** ** Overlays *)
(** C23.  An overlay (with an initialised map) answers with the last write,
    otherwise as the lower store; the lower store is untouched. *)
Theorem C23_overlay_reads_own_writes :
  forall lower d ops, exists d', 
    apply_ops (OverlayStore lower (Some d)) ops = Ok (OverlayStore lower (Some d')) /\
    forall k, GetNode (OverlayStore lower (Some d')) k =
      match last_op k ops with
      | Some r => r
      | None => GetNode (OverlayStore lower (Some d)) k
      end.
Proof.
  intros lower d ops. revert d. induction ops as [|o ops IH]; intros d; cbn [apply_ops last_op].
  - exists d. auto.
  - destruct o as [k0 n|k0]; cbn [apply_op PutNode DelNode bind].
    + destruct (IH (<[k0 := Some n]> d)) as (d' & E & Hg). exists d'. split; [exact E|]. intros k. rewrite Hg.
      destruct (last_op k ops); [reflexivity|]. cbn. case_bool_decide as Hk.
      * subst. rewrite lookup_insert. reflexivity.
      * rewrite lookup_insert_ne by exact Hk. reflexivity.
    + destruct (IH (<[k0 := None]> d)) as (d' & E & Hg). exists d'. split; [exact E|]. intros k. rewrite Hg.
      destruct (last_op k ops); [reflexivity|]. cbn. case_bool_decide as Hk.
      * subst. rewrite lookup_insert. reflexivity.
      * rewrite lookup_insert_ne by exact Hk. reflexivity.
Qed.
Print Assumptions C23_overlay_reads_own_writes.
Example C23_nonvacuous :
  last_op [1] [OPut [1] 7%nat; OPut [2] 8%nat; ODel [1]] = Some None /\
  last_op [2] [OPut [1] 7%nat; OPut [2] 8%nat; ODel [1]] = Some (Some 8%nat) /\
  last_op [3] [OPut [1] 7%nat] = None.
Proof. repeat split. Qed.

(** C74 is false: the only overlay that code outside the package can construct
    ([&OverlayStore{Lower: s}], nil map) panics at every write. *)
Theorem C74_constructible_overlay_refuted :
  forall lower k n, PutNode (OverlayStore lower None) k n = Panic /\ DelNode (OverlayStore lower None) k = Panic /\
    GetNode (OverlayStore lower None) k = GetNode lower k.
Proof. intros. repeat split. Qed.
Print Assumptions C74_constructible_overlay_refuted.
(** C24.  Flush, for every iteration order of the Go map. *)
Theorem C24_flush_any_order :
  forall lower d order, layers_ok lower -> order ≡ₚ map_to_list d ->
  exists lower',
    Flush order (OverlayStore lower (Some d)) = Ok (OverlayStore lower' (Some ∅)) /\
    (forall k, GetNode (OverlayStore lower' (Some ∅)) k = GetNode (OverlayStore lower (Some d)) k) /\
    (forall k, GetNode lower' k = GetNode (OverlayStore lower (Some d)) k).
Proof.
  intros lower d order Hl Hp. destruct (Flush_ok lower d order Hl Hp) as (lower' & E & _ & Hg).
  exists lower'. split; [exact E|]. split; [|exact Hg].
  intros k. rewrite <- Hg. cbn. rewrite lookup_empty. reflexivity.
Qed.
Print Assumptions C24_flush_any_order.

Example C24_nonvacuous :
  exists lower (d : gmap (list Z) (option loc)) order, layers_ok lower /\ order ≡ₚ map_to_list d /\ (length order = 2)%nat /\
    order <> map_to_list d.
Proof.
  exists (MemStore ∅), {[ [1] := Some 3%nat; [2] := None ]}, (rev (map_to_list ({[ [1] := Some 3%nat; [2] := None ]} : gmap (list Z) (option loc)))).
  split; [exact I|]. split; [rewrite <- Permutation_rev; reflexivity|]. split; [reflexivity|]. vm_compute. discriminate.
Qed.

(** C26.  A tree on an overlay behaves like the tree without it: the same
    writes give the same entries and the same root hash, and neither flushing
    (in any order) nor going back to the lower store changes them. *)
Theorem C26_overlay_tree_correct :
  forall H s M hist u d, reach H s M -> Forall (fun kv => addr20 kv.1) hist ->
    run H (open_overlay s) hist = Ok u -> run H s hist = Ok d ->
    let same t := Hash H t = Hash H d /\ forall k, addr20 k -> GetEntry t k = GetEntry d k in
    same u /\
    exists df, sto u = OverlayStore (sto s) (Some df) /\
    forall order, order ≡ₚ map_to_list df ->
    exists lower', Flush order (sto u) = Ok (OverlayStore lower' (Some ∅)) /\
      same (with_store u (OverlayStore lower' (Some ∅))) /\ same (with_store u lower').
Proof.
  intros H s M hist u d Hr Hk Eu Ed same.
  destruct (run_reach H hist _ M (reach_open H s M Hr) Hk) as (u' & Eu' & Ru). rewrite Eu' in Eu. injection Eu as ->.
  destruct (run_reach H hist _ M Hr Hk) as (d' & Ed' & Rd). rewrite Ed' in Ed. injection Ed as ->.
  assert (Hsame : forall t, reach H t (foldl spec_put M hist) -> same t).
  { intros t Rt. split; [rewrite (C18_root_is_merkle_root H _ _ Rt), (C18_root_is_merkle_root H _ _ Rd); reflexivity|].
    intros k Hk0. rewrite (inv_GetEntry H t _ k (reach_inv H _ _ Rt) Hk0), (inv_GetEntry H d _ k (reach_inv H _ _ Rd) Hk0). reflexivity. }
  split; [apply Hsame, Ru|].
  assert (Hext : ext (open_overlay s) u).
  { apply (ext_run H hist); [|exact Eu']. destruct (reach_inv H _ _ (reach_open H s M Hr)) as (_ & _ & V & ((_ & Hf & _) & _) & _). exact Hf. }
  destruct Hext as (Hlow & Hlay & _). destruct (reach_inv H s M Hr) as (_ & Hls & _). specialize (Hlay Hls).
  destruct (sto u) as [m|low [df|]] eqn:Es; cbn in Hlow, Hlay; [discriminate| |contradiction]. injection Hlow as ->.
  exists df. split; [reflexivity|]. intros order Hp.
  destruct (C24_flush_any_order (sto s) df order Hls Hp) as (lower' & E & _). exists lower'. split; [exact E|].
  assert (R1 : reach H (with_store u (OverlayStore lower' (Some ∅))) (foldl spec_put M hist)).
  { eapply reach_flush; [exact Ru|exact Es|exact Hp|]. rewrite Es. exact E. }
  split; [apply Hsame, R1|]. apply Hsame. exact (reach_close H _ _ lower' R1 eq_refl).
Qed.
Print Assumptions C26_overlay_tree_correct.

(** C25, the part that holds: writes to the overlay tree never change the lower
    store's mapping, nor the value of any entry read through it. *)
Theorem C25_lower_entries_untouched_partial :
  forall H s M hist u, reach H s M -> Forall (fun kv => addr20 kv.1) hist ->
    run H (open_overlay s) hist = Ok u ->
    lower_of (sto u) = Some (sto s) /\
    forall k, addr20 k -> GetEntry (with_store u (sto s)) k = GetEntry s k.
Proof.
  intros H s M hist u Hr Hk Eu.
  pose proof (reach_inv H s M Hr) as Hi. pose proof Hi as (_ & _ & V & ((_ & Hf & _) & _) & _).
  destruct (ext_run H hist (open_overlay s) u Hf Eu) as (Hlow & _ & _ & Hleaf).
  split; [exact Hlow|]. intros k Hk0. pose proof (inv_GetEntry H s M k Hi Hk0) as Eg.
  unfold GetEntry in *. cbn [with_store sto heap].
  destruct (GetNode (sto s) (KeyToNibbles k)) as [l|]; [|reflexivity].
  destruct (heap s !! l) as [[p cs|p v]|] eqn:El; try discriminate.
  rewrite (Hleaf Hf l p v El). reflexivity.
Qed.
Print Assumptions C25_lower_entries_untouched_partial.

(** C25 is false: one write to the overlay tree changes the root hash of the
    lower tree (another preimage is hashed), and makes a later write there panic. *)
Theorem C25_lower_tree_refuted :
  forall H, exists u b1 b2,
    PutEntry H (open_overlay new_tree) k_zero [1] = Ok (u, true) /\
    let lower := with_store u (sto new_tree) in
    Hash H new_tree = Ok (H b1) /\ Hash H lower = Ok (H b2) /\ b1 <> b2 /\
    PutEntry H lower k_one [1] = Panic.
Proof.
  intros H. eexists _, [0;0;0], _.
  split; [vm_compute; reflexivity|]. cbv zeta.
  split; [vm_compute; reflexivity|]. split; [vm_compute; reflexivity|].
  split; [discriminate|vm_compute; reflexivity].
Qed.
Print Assumptions C25_lower_tree_refuted.

Lemma reach_rooted H s M : reach H s M -> exists r, rooted r s.
Proof.
  assert (Hmap : forall s st r, (forall k, GetNode st k = GetNode (sto s) k) -> rooted r s -> rooted r (with_store s st)).
  { intros s0 st r Hk (Hg & Hu). split; [cbn; rewrite Hk; exact Hg|exact Hu]. }
  induction 1 as [|s M k v s' b Hr (r & IH) Hk E|s M _ (r & IH)|s M lower d order st Hr (r & IH) Es Hp E|s M lower d order n st Hr (r & IH) Es Hp E|s M lower _ (r & IH) Es].
  - exists 0%nat. split; [apply lookup_singleton|]. cbn. intros l cs E. apply lookup_singleton_Some in E as (<- & _). reflexivity.
  - exists r. eapply rooted_PutEntry; [apply reach_inv, Hr|exact Hk|exact E|exact IH].
  - exists r. apply (Hmap s); [|exact IH]. intros k. cbn. rewrite lookup_empty. reflexivity.
  - exists r. apply Hmap; [|exact IH]. destruct (reach_inv H s M Hr) as (_ & Hl & _). rewrite Es in Hl, E.
    destruct (Flush_ok lower d order Hl Hp) as (lower' & E1 & _ & Hg). rewrite E1 in E. injection E as <-.
    intros k. rewrite Es. cbn. rewrite lookup_empty. apply Hg.
  - exists r. apply Hmap; [|exact IH]. destruct (reach_inv H s M Hr) as (_ & Hl & _). rewrite Es in Hl, E.
    destruct (FlushUpTo_perm n order lower d Hl Hp) as (lower' & d' & E1 & _ & Hg). rewrite E1 in E. injection E as <-.
    intros k. rewrite Es. apply Hg.
  - exists r. apply Hmap; [|exact IH]. intros k. rewrite Es. cbn. rewrite lookup_empty. reflexivity.
Qed.

(** C25 is false for every tree and every history of writes to the overlay: the
    root hash read through the lower store is that of the overlay's contents,
    so it changes as soon as the overlay holds other entries than the lower
    tree does (or two serialised nodes collide under the hash). *)
Theorem C25_lower_root_refuted :
  forall H s M hist u, reach H s M -> Forall (fun kv => addr20 kv.1) hist ->
    run H (open_overlay s) hist = Ok u ->
    let lower := with_store u (sto s) in
    let M' := foldl spec_put M hist in
    Hash H s = Ok (merkle_root H M) /\
    Hash H lower = Hash H u /\ Hash H lower = Ok (merkle_root H M') /\
    ((forall x, length (H x) = 32%nat) -> (exists k, addr20 k /\ GetEntry u k <> GetEntry s k) ->
       Hash H lower <> Hash H s \/
       exists p1 p2, is_node (by_path M') p1 /\ is_node (by_path M) p2 /\
         merkle_bytes H (by_path M') p1 <> merkle_bytes H (by_path M) p2 /\
         H (merkle_bytes H (by_path M') p1) = H (merkle_bytes H (by_path M) p2)).
Proof.
  intros H s M hist u Hr Hk Eu lower M'.
  destruct (run_reach H hist _ M (reach_open H s M Hr) Hk) as (u' & Eu' & Ru). rewrite Eu' in Eu. injection Eu as ->.
  destruct (reach_rooted H s M Hr) as (r & (Hg & Hun)).
  assert (Hro : rooted r (open_overlay s)).
  { split; [cbn; rewrite lookup_empty; exact Hg|exact Hun]. }
  destruct (rooted_run H r hist _ M u (reach_inv H _ _ (reach_open H s M Hr)) Hk Eu' Hro) as (Hgu & _).
  assert (Eh : Hash H lower = Hash H u).
  { unfold Hash, lower. cbn [with_store sto]. rewrite Hg, Hgu. reflexivity. }
  split; [apply C18_root_is_merkle_root, Hr|]. split; [exact Eh|].
  split; [rewrite Eh; apply C18_root_is_merkle_root, Ru|].
  intros Hlen (k & Hk0 & Hne). 
  destruct (decide (merkle_root H M' = merkle_root H M)) as [Em|Em].
  - right. assert (Es : Hash H u = Hash H s).
    { rewrite (C18_root_is_merkle_root H _ _ Hr), (C18_root_is_merkle_root H _ _ Ru). fold M'. rewrite Em. reflexivity. }
    destruct (C19_equal_roots_equal_contents H Hlen u M' s M Ru Hr Es) as [Hx|Hx]; [|exact Hx].
    exfalso. apply Hne, Hx, Hk0.
  - left. rewrite Eh, (C18_root_is_merkle_root H _ _ Hr), (C18_root_is_merkle_root H _ _ Ru). intros E. apply Em. injection E as E; exact E.
Qed.
Print Assumptions C25_lower_root_refuted.
