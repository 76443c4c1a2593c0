(** C101: the paths of the state tree are Go slices that share backing arrays
    and are appended to in place (tree/tree.go:122, 178, 202).  Whatever spare
    capacity append leaves in the arrays it allocates, no history of calls makes
    the tree read a byte that a later append overwrote: entries, change reports
    and root hashes are those the written entries determine.

    C102: the buffers that the caller passes to PutEntry and gets from GetEntry. *)
From Coq Require Import ZArith List Lia Bool.
From stdpp Require Import gmap list.
From Verif.Model Require Import Base Address Nibbles Tree TreeSlices.
From Verif.Spec Require Import AddressSpec TreeSpec TreeHistory SliceHistory.
From Verif.Proofs Require Import BaseFacts TreeSim TreeReach TreeCollide TreeRoot SliceSim.
From Verif.Props Require Import TreeProps.
Open Scope Z_scope.

Lemma sinv_new : sinv (fun a => In a [0%nat]) (fun l => l = 0%nat) snew_tree new_tree.
Proof.
  assert (E : forall l : loc, l = 0%nat -> sheap snew_tree !! l = Some (SBranch nil_slice (repeat zero_schild 16))) by (intros l ->; apply lookup_singleton).
  assert (Hz : forall c, In c (repeat zero_schild 16) -> k_exists c = true -> False) by (intros c Hc He; apply repeat_spec in Hc; subst; discriminate He).
  split.
  - intros l n q Hl En. rewrite (E l Hl) in En. injection En as <-. intros [->|(c & Hc & He & _)]; [cbn; lia|destruct (Hz c Hc He)].
  - intros l p v Hl En. rewrite (E l Hl) in En. discriminate En.
  - intros a [<-|[]]. cbn. lia.
  - reflexivity.
  - reflexivity.
  - cbn. lia.
  - intros l ->. cbn. lia.
  - intros l ->. exists (SBranch nil_slice (repeat zero_schild 16)), (new_branch []). split; [apply E; reflexivity|]. split; [apply lookup_singleton|].
    split; [reflexivity|]. apply zero_children_rel.
  - intros k l Eg. cbn [new_tree sto GetNode] in Eg. apply lookup_singleton_Some in Eg as (<- & <-). split; [reflexivity|].
    exists (new_branch []). split; [apply lookup_singleton|reflexivity].
  - intros l n q Hl En. rewrite (E l Hl) in En. injection En as <-. intros [->|(c & Hc & He & _)]; [|destruct (Hz c Hc He)].
    unfold valid. cbn. lia.
  - intros l n Hl En. rewrite (E l Hl) in En. injection En as <-. split; [reflexivity|]. intros c Hc He. destruct (Hz c Hc He).
  - intros l l' p cs p' cs' -> -> Hne. congruence.
  - intros l l' p cs n q -> -> Hne. congruence.
Qed.

Lemma sinv_store C L S s st : sinv C L S s -> (forall k, GetNode st k = GetNode (sto s) k) ->
  sinv C L (swith_store S st) (with_store s st).
Proof.
  intros I Hg. destruct I. split; cbn [swith_store with_store snext ssto sheap arrs next heap sto]; auto.
  intros k l. rewrite Hg. apply i_live.
Qed.

(** A leaf of the tree is returned by GetEntry. *)
Lemma leaf_is_entry C L H S s M k l p v : reach H s M -> sinv C L S s -> GetNode (sto s) k = Some l ->
  sheap S !! l = Some (SLeaf p v) -> exists key, addr20 key /\ sGetEntry S key = Ok (Some v).
Proof.
  intros Hr I Eg Es. destruct (C20_store_is_canonical H s M Hr) as (_ & Hc). specialize (Hc k l Eg).
  destruct (i_live _ _ _ _ I k l Eg) as (Hl & _). destruct (i_nodes _ _ _ _ I l Hl) as (n & m & E1 & E2 & R).
  rewrite Es in E1. injection E1 as <-. destruct m as [|p' v']; [destruct R|]. rewrite E2 in Hc. destruct Hc as (-> & EN).
  apply by_path_lookup_Some in EN as (key & -> & EM). destruct (reach_inv H s M Hr) as (Hm & _).
  destruct (Hm _ _ EM) as (Hk & _). exists key. split; [exact Hk|]. unfold sGetEntry.
  destruct (sKeyToNibbles S key) as (S0 & kp) eqn:Ek. destruct (skey_spec _ _ _ _ _ _ _ I Ek) as (I0 & _ & C0 & _ & _ & _ & H0 & _).
  rewrite (i_sto _ _ _ _ I0), C0, (nibs_key key) by apply Hk. rewrite Eg, H0, Es. reflexivity.
Qed.

(** Every tree on slices has a tree on lists with the same entries behind it. *)
Lemma sreach_reach grow H B S M : sreach grow H B S M -> exists s L, reach H s M /\ sinv (fun a => In a B) L S s.
Proof.
  induction 1 as [|B S M v extra S' x _ IH E|B S M k v S' b _ IH Hk Vv Hv E|B S M a i ys _ IH Ha Hi Hh|B S M _ IH|B S M lower d order st _ IH Es Hp E|B S M lower d order n st _ IH Es Hp E|B S M lower _ IH Es].
  - exists new_tree. eexists. split; [constructor|apply sinv_new].
  - destruct IH as (s & L & Hr & I). exists s, L. split; [exact Hr|]. unfold make_buffer in E.
    destruct (fresh_slice (arrs S) v extra) as (A & y) eqn:Ef. injection E as <- <-.
    pose proof (inv_make _ _ _ _ _ _ _ _ I Ef) as I1. destruct I1. split; auto.
    + intros l n q Hl En Hq Hpos [Hc|Hc]; eapply i_paths; eauto.
    + intros l p w Hl En. destruct (i_values l p w Hl En) as [Hc|Hc]; cbn; auto.
    + intros a [Hc|Hc]; apply i_bound; auto.
  - destruct IH as (s & L & Hr & I). destruct (C21_no_panic H s M k (content (arrs S) v) Hr Hk) as ((s' & b' & E') & _).
    destruct (slices_PutEntry _ grow H L S s k v s' b' I Vv Hv E') as (L' & S1 & E1 & I1 & _). rewrite E1 in E. injection E as <- <-.
    exists s', L'. split; [econstructor; eauto|exact I1].
  - destruct IH as (s & L & Hr & I). exists s, (fun l => exists k, GetNode (sto s) k = Some l). split; [exact Hr|].
    assert (I1 : sinv (fun a => In a B) (fun l => exists k, GetNode (sto s) k = Some l) S s).
    { eapply inv_drop; [exact I| |eauto]. intros l (k & E). apply (i_live _ _ _ _ I k l E). }
    apply inv_write_buffer; auto. intros l p v (k & Eg) Es Ea. apply Hh.
    destruct (leaf_is_entry _ _ H S s M k l p v Hr I Eg Es) as (key & Hk & Ek). exists key, v. auto.
  - destruct IH as (s & L & Hr & I). exists (open_overlay s), L. split; [apply reach_open, Hr|].
    rewrite (i_sto _ _ _ _ I). apply (sinv_store _ L S s _ I). intros k. cbn. rewrite lookup_empty. reflexivity.
  - destruct IH as (s & L & Hr & I). rewrite (i_sto _ _ _ _ I) in Es, E. exists (with_store s st), L.
    split; [eapply reach_flush; eauto|]. apply sinv_store; [exact I|].
    assert (Hl : layers_ok lower) by (pose proof (reach_inv H s M Hr) as (_ & Hl & _); rewrite Es in Hl; exact Hl).
    destruct (Flush_ok lower d order Hl Hp) as (lower' & E1 & Hl' & Hg). rewrite Es, E1 in E. injection E as <-.
    intros k. rewrite Es. cbn. rewrite lookup_empty. apply Hg.
  - destruct IH as (s & L & Hr & I). rewrite (i_sto _ _ _ _ I) in Es, E. exists (with_store s st), L.
    split; [eapply reach_interrupted; eauto|]. apply sinv_store; [exact I|].
    assert (Hl : layers_ok lower) by (pose proof (reach_inv H s M Hr) as (_ & Hl & _); rewrite Es in Hl; exact Hl).
    destruct (FlushUpTo_perm n order lower d Hl Hp) as (lower' & d' & E1 & Hl' & Hg). rewrite Es, E1 in E. injection E as <-.
    intros k. rewrite Es. apply Hg.
  - destruct IH as (s & L & Hr & I). rewrite (i_sto _ _ _ _ I) in Es. exists (with_store s lower), L.
    split; [eapply reach_close; eauto|]. apply sinv_store; [exact I|].
    intros k. rewrite Es. cbn. rewrite lookup_empty. reflexivity.
Qed.

(** Entries: what was written last under each key. *)
Theorem C101_entries : forall grow H B S M, sreach grow H B S M -> forall k, addr20 k ->
  exists x, sGetEntry S k = Ok x /\ content (arrs S) <$> x = M !! k.
Proof.
  intros grow H B S M Hr k Hk. destruct (sreach_reach grow H B S M Hr) as (s & L & R & I).
  pose proof (inv_GetEntry H s M k (reach_inv H s M R) Hk) as E.
  destruct (slices_GetEntry _ L S s k _ I E) as (x & Ex & Hx). exists x. split; [exact Ex|].
  destruct x as [x|], (M !! k) as [v|]; try contradiction; [|reflexivity]. cbn. f_equal. apply Hx.
Qed.
Print Assumptions C101_entries.

(** The root hash is the Merkle root of those entries. *)
Theorem C101_root : forall grow H B S M, sreach grow H B S M -> sHash H S = Ok (merkle_root H M).
Proof.
  intros grow H B S M Hr. destruct (sreach_reach grow H B S M Hr) as (s & L & R & I).
  eapply slices_Hash; [exact I|]. apply C18_root_is_merkle_root, R.
Qed.
Print Assumptions C101_root.

(** PutEntry never panics and reports whether the entry changed. *)
Theorem C101_put : forall grow H B S M k v, sreach grow H B S M -> addr20 k -> valid (arrs S) v -> In (s_arr v) B ->
  exists S' b, sPutEntry grow H S k v = Ok (S', b) /\ (b = true <-> default [] (M !! k) <> content (arrs S) v).
Proof.
  intros grow H B S M k v Hr Hk Vv Hv. destruct (sreach_reach grow H B S M Hr) as (s & L & R & I).
  destruct (C21_no_panic H s M k (content (arrs S) v) R Hk) as ((s' & b & E) & _).
  destruct (slices_PutEntry _ grow H L S s k v s' b I Vv Hv E) as (L' & S1 & E1 & I1 & _). exists S1, b. split; [exact E1|].
  apply (C16_put_reports_change H s M k _ s' b R Hk E).
Qed.
Print Assumptions C101_put.

(** Histories of PutEntry calls on a fresh tree: the growth policy of append
    makes no difference to anything the API returns. *)
Theorem C101_any_capacity : forall H hist, Forall (fun kv => addr20 kv.1) hist ->
  exists s, run H new_tree hist = Ok s /\
  forall grow, exists S, srun grow H snew_tree hist = Ok S /\ sHash H S = Hash H s /\
    forall k, addr20 k -> exists x, sGetEntry S k = Ok x /\ GetEntry s k = Ok (content (arrs S) <$> x).
Proof.
  intros H hist Hk. destruct (run_reach H hist new_tree ∅ (reach_new H) Hk) as (s & E & Hr). exists s. split; [exact E|]. intros grow.
  assert (G : forall hist B S M, Forall (fun kv => addr20 kv.1) hist -> sreach grow H B S M ->
    exists B' S', srun grow H S hist = Ok S' /\ sreach grow H B' S' (foldl spec_put M hist)).
  { clear. induction hist as [|(k & v) hist IH]; intros B S M Hk Hr; cbn [srun foldl]; [eauto|].
    inversion Hk as [|? ? Hk1 Hk2]; subst. destruct (make_buffer S v 0) as (S1 & x) eqn:Em.
    pose proof (sreach_make grow H B S M v 0 S1 x Hr Em) as R1. unfold make_buffer in Em.
    destruct (fresh_slice (arrs S) v 0) as (A & y) eqn:Ef. injection Em as <- <-.
    destruct (fresh_spec _ _ _ _ _ Ef) as (V & Cn & _).
    destruct (C101_put grow H _ _ M k y R1 Hk1 V (or_introl eq_refl)) as (S2 & b & E2 & _). rewrite E2. cbn [bind].
    eapply IH; [exact Hk2|]. rewrite <- Cn. exact (sreach_put grow H _ (set_arrs S A) M k y S2 b R1 Hk1 V (or_introl eq_refl) E2). }
  destruct (G hist _ snew_tree ∅ Hk (sreach_new grow H)) as (B & S & E' & R). exists S. split; [exact E'|]. split.
  - rewrite (C101_root grow H B S _ R), (C18_root_is_merkle_root H s _ Hr). reflexivity.
  - intros k Hk0. destruct (C101_entries grow H B S _ R k Hk0) as (x & Ex & Hx). exists x. split; [exact Ex|]. rewrite Hx.
    apply (inv_GetEntry H); [apply reach_inv, Hr|exact Hk0].
Qed.
Print Assumptions C101_any_capacity.

(** ** C102 *)
(** PutEntry writes to no buffer of the caller, neither the one it is given
    nor any other, and what GetEntry returns lies in one of them. *)
Theorem C102_buffers_not_written_partial : forall grow H B S M k v S' b,
  sreach grow H B S M -> addr20 k -> valid (arrs S) v -> In (s_arr v) B -> sPutEntry grow H S k v = Ok (S', b) ->
  (forall a, In a B -> array (arrs S') a = array (arrs S) a) /\
  (forall k' x, addr20 k' -> sGetEntry S k' = Ok (Some x) -> In (s_arr x) B).
Proof.
  intros grow H B S M k v S' b Hr Hk Vv Hv E. destruct (sreach_reach grow H B S M Hr) as (s & L & R & I).
  destruct (C21_no_panic H s M k (content (arrs S) v) R Hk) as ((s' & b' & E') & _).
  destruct (slices_PutEntry _ grow H L S s k v s' b' I Vv Hv E') as (L' & S1 & E1 & I1 & K). rewrite E1 in E. injection E as <- <-.
  split; [exact K|]. intros k' x Hk' Ex. pose proof (inv_GetEntry H s M k' (reach_inv H s M R) Hk') as Eg.
  destruct (slices_GetEntry _ L S s k' _ I Eg) as (y & Ey & Hy). rewrite Ex in Ey. injection Ey as <-.
  destruct (M !! k'); [apply Hy|contradiction].
Qed.
Print Assumptions C102_buffers_not_written_partial.

(** A buffer that no entry is held in can be changed freely: the tree goes on
    as if nothing had happened (this is [sreach_write], on which C101 relies). *)
Theorem C102_free_buffers_partial : forall grow H B S M a i ys,
  sreach grow H B S M -> In a B -> (i + length ys <= length (array (arrs S) a))%nat -> ~ holds_buffer S a ->
  sHash H (write_buffer S a i ys) = sHash H S /\
  forall k, addr20 k -> exists x, sGetEntry S k = Ok x /\ sGetEntry (write_buffer S a i ys) k = Ok x /\
    content (arrs (write_buffer S a i ys)) <$> x = content (arrs S) <$> x.
Proof.
  intros grow H B S M a i ys Hr Ha Hi Hh. pose proof (sreach_write grow H B S M a i ys Hr Ha Hi Hh) as Hr2.
  split; [rewrite (C101_root _ _ _ _ _ Hr2), (C101_root _ _ _ _ _ Hr); reflexivity|]. intros k Hk.
  destruct (C101_entries _ _ _ _ _ Hr k Hk) as (x & Ex & Hx). destruct (C101_entries _ _ _ _ _ Hr2 k Hk) as (y & Ey & Hy).
  assert (E : y = x).
  { unfold sGetEntry, sKeyToNibbles, write_buffer in Ex, Ey.
    pose proof (fresh_spec (arrs S) (KeyToNibbles k) 0) as F1. pose proof (fresh_spec (arrs (set_arrs S (overwrite (arrs S) a i ys))) (KeyToNibbles k) 0) as F2.
    destruct (fresh_slice (arrs S) _ _) as (A1 & x1). destruct (fresh_slice (arrs (set_arrs S _)) _ _) as (A2 & x2).
    destruct (F1 _ _ eq_refl) as (_ & G1 & _). destruct (F2 _ _ eq_refl) as (_ & G2 & _).
    cbn [set_arrs ssto arrs sheap] in Ex, Ey. rewrite G1 in Ex. rewrite G2 in Ey. rewrite Ex in Ey. injection Ey as <-. reflexivity. }
  subst y. exists x. split; [exact Ex|]. split; [exact Ey|]. congruence.
Qed.
Print Assumptions C102_free_buffers_partial.

(** C102 is false of the code: the tree keeps the buffer itself, not a copy.
    For every tree and every entry, when the caller changes the first byte of
    the buffer the entry is held in, the entry changes and the root hash does not. *)
Theorem C102_held_buffers_refuted : forall grow H B S M k x c,
  sreach grow H B S M -> addr20 k -> sGetEntry S k = Ok (Some x) ->
  let S2 := write_buffer S (s_arr x) (s_off x) [c] in
  sGetEntry S2 k = Ok (Some x) /\ (exists v0 v, M !! k = Some (v0 :: v) /\ content (arrs S2) x = c :: v) /\
  sHash H S2 = sHash H S.
Proof.
  intros grow H B S M k x c Hr Hk Ex S2. destruct (sreach_reach grow H B S M Hr) as (s & L & R & I).
  pose proof (reach_inv H s M R) as Hi. pose proof (inv_GetEntry H s M k Hi Hk) as Eg.
  destruct (slices_GetEntry _ L S s k _ I Eg) as (y & Ey & Hy). rewrite Ex in Ey. injection Ey as <-.
  destruct (M !! k) as [v|] eqn:EM; [|contradiction]. destruct Hy as (Cx & (V1 & V2 & V3) & Bx).
  destruct Hi as (Hm & _). destruct (Hm k v EM) as (_ & Hne). destruct v as [|v0 v]; [congruence|].
  assert (Lx : s_len x = Datatypes.S (length v)) by (rewrite <- (content_length (arrs S) x) by (split; auto); rewrite Cx; reflexivity).
  split; [|split].
  - unfold sGetEntry, sKeyToNibbles, S2, write_buffer in *.
    pose proof (fresh_spec (arrs S) (KeyToNibbles k) 0) as F1. pose proof (fresh_spec (arrs (set_arrs S (overwrite (arrs S) (s_arr x) (s_off x) [c]))) (KeyToNibbles k) 0) as F2.
    destruct (fresh_slice (arrs S) _ _) as (A1 & x1). destruct (fresh_slice (arrs (set_arrs S _)) _ _) as (A2 & x2).
    destruct (F1 _ _ eq_refl) as (_ & G1 & _). destruct (F2 _ _ eq_refl) as (_ & G2 & _).
    cbn [set_arrs ssto arrs sheap] in *. rewrite G1 in Ex. rewrite G2. exact Ex.
  - exists v0, v. split; [reflexivity|]. unfold S2, write_buffer. cbn [set_arrs arrs]. unfold content in *.
    rewrite overwrite_array by exact V1. case_decide; [|congruence]. set (ar := array (arrs S) (s_arr x)) in *.
    rewrite drop_app_alt by (rewrite take_length; lia). rewrite Lx in *. cbn [app take]. f_equal. cbn [length].
    replace (drop (s_off x + 1) ar) with (drop 1 (drop (s_off x) ar)) by (rewrite drop_drop; reflexivity).
    destruct (drop (s_off x) ar) as [|e r]; [discriminate|]. cbn [drop]. cbn [take] in Cx. injection Cx as _ Cx. exact Cx.
  - unfold sHash, S2, write_buffer. cbn [set_arrs ssto]. rewrite (i_sto _ _ _ _ I).
    destruct (GetNode (sto s) []) as [l|] eqn:El; [|reflexivity]. unfold sas_branch. cbn [set_arrs sheap].
    destruct (i_live _ _ _ _ I _ _ El) as (Hl & _). destruct (sheap S !! l) as [[p cs|]|] eqn:Es; cbn [bind]; try reflexivity.
    destruct (i_nodes _ _ _ _ I l Hl) as (n & m & E1 & E2 & Rn). rewrite Es in E1. injection E1 as <-.
    rewrite (snode_hash_rel H _ _ m Rn). apply snode_hash_rel. eapply node_rel_frame; [exact Rn|]. intros q Hq.
    cbn [arrs set_arrs]. unfold content. destruct (decide (s_len q = 0%nat)) as [-> |Hpos]; [reflexivity|].
    rewrite overwrite_array by exact V1. case_decide as Ea; [|reflexivity]. exfalso.
    eapply (i_paths _ _ _ _ I l); eauto; [lia|]. cbn. rewrite Ea. exact Bx.
Qed.
Print Assumptions C102_held_buffers_refuted.

(** The hypotheses are met by histories in which append does overwrite bytes in
    place: after two keys that differ in the last nibble are written and the
    first is deleted, the suffix by which the merged branch (object 3) referred
    to the deleted leaf (nibble 1) reads 2, but the entries are as written. *)
Definition key_ending (b : Z) : list Z := repeat 17 19 ++ [b].
Definition spare8 : grow_policy := fun _ _ _ => 8%nat.
Definition one_hash (x : list Z) : list Z := repeat (1 + foldr Z.add 0 x mod 255) 32.
Lemma key_ending_ok b : 0 <= b < 256 -> addr20 (key_ending b).
Proof.
  intros Hb. split; [reflexivity|]. unfold key_ending. apply Forall_app. split; [|constructor; [lia|constructor]].
  apply List.Forall_forall. intros x Hx. apply repeat_spec in Hx. lia.
Qed.
Example C101_nonvacuous :
  addr20 (key_ending 1) /\ addr20 (key_ending 2) /\
  match srun spare8 one_hash snew_tree [(key_ending 1, [5]); (key_ending 2, [6]); (key_ending 1, [])] with
  | Ok T => sGetEntry T (key_ending 1) = Ok None /\
      match sGetEntry T (key_ending 2) with Ok (Some x) => content (arrs T) x = [6] | _ => False end /\
      match sheap T !! (3%nat : loc) with
      | Some (SBranch _ cs) => (fun c => (k_exists c, content (arrs T) (k_suffix c))) <$> (cs !! 1%nat) = Some (false, [2])
      | _ => False
      end
  | _ => False
  end.
Proof. split; [apply key_ending_ok; lia|]. split; [apply key_ending_ok; lia|]. vm_compute. repeat split. Qed.

(** C102 on a concrete tree: the entry is held in the very buffer that was passed. *)
Example C102_example :
  match make_buffer snew_tree [5; 7] 0 with
  | (S1, x) => match sPutEntry spare8 one_hash S1 (key_ending 1) x with
               | Ok (S2, true) => sGetEntry S2 (key_ending 1) = Ok (Some x) /\
                   content (arrs (write_buffer S2 (s_arr x) (s_off x) [9])) x = [9; 7]
               | _ => False
               end
  end.
Proof. vm_compute. split; reflexivity. Qed.
