(** Writing into a tree whose last PutEntry did not get to its end. *)
From Coq Require Import ZArith List Lia Bool.
From stdpp Require Import gmap list.
From Verif.Model Require Import Base Address Nibbles Tree TreeSteps.
From Verif.Spec Require Import AddressSpec TreeSpec TreeHistory StepSpec.
From Verif.Proofs Require Import BaseFacts NibblesFacts TreeSim TreeTrie TreeCanon TreeUpdate TreeHashes TreeReach TreeRoot TreeLocal
  StepFacts StepRepair.
Open Scope Z_scope.

(** ** An update at [k] changes only nodes on the way to [k] *)
Lemma pinvalidate_frame k path : forall V cur V', Forall (fun p => p `prefix_of` k) path ->
  pinvalidate V cur path = Ok V' -> forall r, ~ (r `prefix_of` k) -> V' !! r = V !! r.
Proof.
  induction path as [|p path IH]; intros V cur V' Hp E r Hr; cbn [pinvalidate] in E; [congruence|].
  apply Forall_cons in Hp as (Hp & Hps). bind_ok E. bind_ok E. bind_ok E.
  rewrite (IH _ _ _ Hps E r Hr), lookup_insert_ne; [reflexivity|]. intros ->. contradiction.
Qed.
Lemma pprune_frame k path : forall V cur V', Forall (fun p => p `prefix_of` k) path ->
  pprune V cur path = Ok V' -> forall r, ~ (r `prefix_of` k) -> V' !! r = V !! r.
Proof.
  induction path as [|p path IH]; intros V cur V' Hp E r Hr; cbn [pprune] in E; [congruence|].
  apply Forall_cons in Hp as (Hp & Hps). bind_ok E. bind_ok E. bind_ok E.
  assert (Hne : p <> r) by (intros ->; contradiction).
  destruct (filter _ _) as [|only [|x y]]; [case_bool_decide|case_bool_decide|].
  - rewrite (pinvalidate_frame k _ _ _ _ Hps E r Hr), lookup_insert_ne by exact Hne. reflexivity.
  - rewrite (IH _ _ _ Hps E r Hr), lookup_insert_ne by exact Hne. reflexivity.
  - rewrite (pinvalidate_frame k _ _ _ _ Hps E r Hr), lookup_delete_ne, lookup_insert_ne by exact Hne. reflexivity.
  - rewrite (pinvalidate_frame k _ _ _ _ Hps E r Hr), lookup_insert_ne by exact Hne. reflexivity.
  - rewrite (pinvalidate_frame k _ _ _ _ Hps E r Hr), lookup_insert_ne by exact Hne. reflexivity.
Qed.
Lemma pupdate_frame k v fuel : forall V np path V', Forall (fun p => p `prefix_of` k) path ->
  pupdate fuel V np k v path = Ok V' -> forall r, ~ (r `prefix_of` k) -> V' !! r = V !! r.
Proof.
  induction fuel as [|fuel IH]; intros V np path V' Hp E r Hr; cbn [pupdate] in E; [discriminate|].
  assert (Hkr : k <> r) by (intros ->; apply Hr; reflexivity).
  destruct (PrefixOf np k) eqn:Ep; cbn [negb] in E.
  - apply PrefixOf_prefix in Ep. assert (Hnr : np <> r) by (intros ->; contradiction).
    destruct (bytes_eqb np k).
    + destruct v as [|x v].
      * rewrite (pprune_frame k _ _ _ _ Hp E r Hr), lookup_delete_ne by exact Hnr. reflexivity.
      * rewrite (pinvalidate_frame k _ _ _ _ Hp E r Hr), lookup_insert_ne by exact Hnr. reflexivity.
    + bind_ok E. bind_ok E. bind_ok E. destruct (c_exists _).
      * eapply IH; [|exact E|exact Hr]. apply Forall_cons. auto.
      * bind_ok E. bind_ok E. rewrite (pinvalidate_frame k _ _ _ _ Hp E r Hr), !lookup_insert_ne by assumption. reflexivity.
  - bind_ok E. bind_ok E. bind_ok E. bind_ok E.
    rewrite (pinvalidate_frame k _ _ _ _ Hp E r Hr), !lookup_insert_ne; [reflexivity|exact Hkr|].
    intros <-. apply Hr. apply CommonPrefix_props.
Qed.

Section WithHash.
  Variable H : bytes -> bytes.

  Lemma lazy_suffixes N V : good N -> lazy H N V -> suffixes_ok V.
  Proof.
    intros Hg Hc p cs i c HV Hi Hx. specialize (Hc p). rewrite HV in Hc. cbn [shape] in Hc.
    destruct Hc as (_ & _ & _ & _ & Hq). destruct (Hq i c Hi) as ((_ & Hlk) & _).
    destruct (node_len N _ Hg (proj1 (proj2 (Hlk Hx)))) as (_ & Hnn). apply Forall_app in Hnn. apply Hnn.
  Qed.

  (** ** A tree with hashes missing takes any update *)
  Lemma lazy_update N V k v : good N -> length k = 40%nat -> Forall nib k -> (v <> [] \/ is_Some (N !! k)) -> lazy H N V ->
    exists V', pupdate tree_fuel V [] k v [] = Ok V' /\ lazy H (spec_put N (k, v)) V'.
  Proof.
    intros Hg Hk40 Hk Hv Hl. set (N' := spec_put N (k, v)).
    destruct (gpupdate_ok H True (clean_below H N V) tree_fuel N V [] k v []) as (V' & E & Hd); try assumption.
    - intros p. eapply shape_mono; [|apply Hl]. intros i c (Hlk & Hh). split; [exact Hlk|].
      intros Hx. destruct (Hh Hx) as [Hz|Hc]; [right; auto|left; exact Hc].
    - constructor.
    - unfold tree_fuel. cbn. lia.
    - exists V'. split; [exact E|]. fold N' in Hd.
      pose proof (pupdate_frame k v tree_fuel V [] [] V' (Forall_nil_2 _) E) as Hfr.
      assert (Hdiff : differ N N' k).
      { unfold N', spec_put. cbn [fst snd]. destruct v; [apply delete_differ|apply insert_differ]. }
      intros p. eapply shape_mono; [|apply Hd]. intros i c (Hlk & Hh). split; [exact Hlk|].
      intros Hx. destruct (Hh Hx) as (Hon & Hoff).
      destruct (decide (child_path p i `prefix_of` k)) as [Hp|Hp]; [left; apply Hon, Hp|].
      destruct (Hoff Hp) as [(Ehash & Hb)|[(_ & Ez)|(_ & Ez)]]; [|left; exact Ez|left; exact Ez].
      right. split; [exact Ehash|]. intros r Hr.
      assert (Hrk : ~ (r `prefix_of` k)) by (intros Hx'; apply Hp; etrans; eassumption).
      rewrite (Hfr r Hrk). apply (shape_dirty_off H N' k r); [exact Hrk|].
      eapply shape_mono; [intros j c'; apply gdirty_dirty|].
      apply (shape_off H False (fun _ => True) N N' k r); [exact Hg|exact Hdiff|exact Hrk|].
      eapply shape_mono; [|apply Hb, Hr]. intros j c'. apply clean_gclean.
  Qed.

  Lemma ready_layers s1 u k v b : fresh u -> layers_ok (sto u) -> updateEntry u k v = Ok (s1, b) -> layers_ok (sto s1).
  Proof.
    intros Hf Hlay E. unfold updateEntry in E.
    assert (Hgo : forall r, (let? s' := update tree_fuel u [] (KeyToNibbles k) v [] in Ok (s', true)) = Ok r -> layers_ok (sto r.1)).
    { intros (r & b2) E2. bind_ok E2. injection E2 as <- _. cbn.
      destruct (ext_update _ _ _ _ _ _ _ Hf E0) as (_ & Hx & _). apply Hx, Hlay. }
    destruct (GetNode (sto u) (KeyToNibbles k)) as [l|].
    - destruct (heap u !! l) as [[p cs|p w]|]; [exact (Hgo _ E)| |exact (Hgo _ E)].
      destruct (bytes_eqb w v); [injection E as <- _; exact Hlay|exact (Hgo _ E)].
    - destruct v; [injection E as <- _; exact Hlay|exact (Hgo _ E)].
  Qed.

  Lemma ready_update M u k v : keys20 M -> ready H (by_path M) u -> addr20 k ->
    exists s1, updateEntry u k v = Ok (s1, negb (bytes_eqb (default [] (M !! k)) v)) /\ ready H (by_path (spec_put M (k, v))) s1.
  Proof.
    intros Hm (Hlay & Hsim & Hlz) Hk. pose proof (keys20_good M Hm) as Hg.
    destruct Hk as (Hl & Hok). destruct (KeyToNibbles_key k Hok Hl) as (Hk40 & Hkn).
    pose proof (sim_updateEntry u (view u) k v Hsim (lazy_suffixes _ _ Hg Hlz) Hok) as Hr.
    assert (Hp : exists V1, pupdateEntry (view u) k v = Ok (V1, negb (bytes_eqb (default [] (M !! k)) v)) /\ lazy H (by_path (spec_put M (k, v))) V1).
    { rewrite by_path_put, <- by_path_lookup, <- nibs_key by exact Hok. set (N := by_path M) in *. set (kn := KeyToNibbles k) in *.
      assert (Hgo : default [] (N !! kn) <> v /\ (v <> [] \/ is_Some (N !! kn)) ->
        exists V1, (let? V' := pupdate tree_fuel (view u) [] kn v [] in Ok (V', true)) = Ok (V1, negb (bytes_eqb (default [] (N !! kn)) v)) /\
          lazy H (spec_put N (kn, v)) V1).
      { intros (C1 & C2). destruct (lazy_update N (view u) kn v Hg Hk40 Hkn C2 Hlz) as (V1 & E1 & Hl1).
        exists V1. rewrite E1, (proj2 (bytes_eqb_neq _ _) C1). cbn. auto. }
      unfold pupdateEntry. fold kn. pose proof (Hlz kn) as Hck. unfold shape in Hck.
      destruct (view u !! kn) as [[p cs|p w]|] eqn:EV.
      - exfalso. destruct Hck as (_ & _ & Hb & _).
        destruct Hb as [Hb|Hb]; [rewrite Hb in Hk40; discriminate|]. eapply full_not_branching; eassumption.
      - destruct Hck as (-> & HN). destruct (bytes_eqb w v) eqn:Ev.
        + exists (view u). rewrite HN. change (default [] (Some w)) with w. rewrite Ev. split; [reflexivity|]. apply bytes_eqb_eq in Ev. subst w.
          replace (spec_put N (kn, v)) with N; [exact Hlz|].
          unfold spec_put. cbn [fst snd]. destruct (Hg _ _ HN) as (_ & _ & Hne).
          destruct v as [|x xs]; [contradiction|]. symmetry. apply insert_id, HN.
        + apply Hgo. apply bytes_eqb_neq in Ev. split; [rewrite HN; exact Ev|right; eauto].
      - assert (HN : N !! kn = None).
        { destruct (N !! kn) as [w|] eqn:EN; [|reflexivity]. exfalso. apply Hck. right; left. eauto. }
        destruct v as [|x xs].
        + exists (view u). rewrite HN. split; [reflexivity|]. replace (spec_put N (kn, [])) with N; [exact Hlz|].
          unfold spec_put. cbn [fst snd]. symmetry. apply delete_notin, HN.
        + apply Hgo. split; [rewrite HN; discriminate|left; discriminate]. }
    destruct Hp as (V1 & Ep & Hl1). rewrite Ep in Hr.
    destruct (updateEntry u k v) as [(s1 & b)|e| |] eqn:E; cbn in Hr; try contradiction. destruct Hr as (Hsim1 & ->).
    exists s1. split; [reflexivity|]. split; [eapply ready_layers; [|exact Hlay|exact E]; exact (proj1 (proj2 (proj1 Hsim)))|].
    pose proof (proj2 Hsim1) as HV. split; [eapply sim_self, Hsim1|]. rewrite HV. exact Hl1.
  Qed.

  Lemma ready_hashes M u : keys20 M -> ready H (by_path M) u ->
    exists s2 h, updateHashes H tree_fuel u [] = Ok (s2, h) /\ inv H s2 M.
  Proof.
    intros Hm Hu. pose proof (keys20_good M Hm) as Hg.
    destruct (hashes_fixed H (by_path M) tree_fuel Hg u []) as (s2 & E2 & _ & Hfix & Hcl);
      [left; reflexivity|exact Hu|unfold tree_fuel; cbn; lia|].
    rewrite t_updateHashes_2 in E2. exists s2, (mh H (by_path M) []). split; [exact E2|].
    destruct Hfix as ((Hlay & Hsim & _) & _). split; [exact Hm|]. split; [exact Hlay|]. exists (view s2). split; [exact Hsim|].
    intros p. apply Hcl, prefix_nil.
  Qed.

  Lemma ready_PutEntry M u k v : keys20 M -> ready H (by_path M) u -> addr20 k ->
    exists s2, PutEntry H u k v = Ok (s2, negb (bytes_eqb (default [] (M !! k)) v)) /\ inv H s2 (spec_put M (k, v)).
  Proof.
    intros Hm Hu Hk. destruct (ready_update M u k v Hm Hu Hk) as (s1 & E1 & Hr1).
    destruct (ready_hashes _ s1 (keys20_put M k v Hm Hk) Hr1) as (s2 & h & E2 & Hi).
    exists s2. unfold PutEntry. rewrite E1. cbn [bind]. rewrite E2. cbn [bind]. auto.
  Qed.

  Lemma hashing_ready s M k v s1 b u : inv H s M -> addr20 k -> updateEntry s k v = Ok (s1, b) ->
    u = s1 \/ u ∈ (t_updateHashes H tree_fuel s1 []).1 -> ready H (by_path (spec_put M (k, v))) u.
  Proof.
    intros Hi Hk E Hu. pose proof (updated_ready H s M k v s1 b Hi Hk E) as Hr1.
    assert (Hm : keys20 (spec_put M (k, v))) by (apply keys20_put; [apply Hi|exact Hk]).
    destruct Hu as [->|Hu]; [exact Hr1|].
    destruct (hashes_fixed H (by_path (spec_put M (k, v))) tree_fuel (keys20_good _ Hm) s1 []) as (s2 & _ & HF & _);
      [left; reflexivity|exact Hr1|unfold tree_fuel; cbn; lia|].
    rewrite Forall_forall in HF. apply HF, Hu.
  Qed.

  (** ** The way to [k] *)
  Fixpoint leads (V : gmap nibbles node) (k : nibbles) (path : list nibbles) (top cur : nibbles) : Prop :=
    match path with
    | [] => cur = top
    | p :: path' => exists cs c d, V !! p = Some (Branch p cs) /\ p ++ [d] `prefix_of` k /\ cs !! Z.to_nat d = Some c /\
        c_exists c = true /\ p ++ c_suffix c = cur /\ leads V k path' top p
    end.
  Lemma leads_app V k l1 : forall l2 top mid cur, leads V k l1 mid cur -> leads V k l2 top mid -> leads V k (l1 ++ l2) top cur.
  Proof.
    induction l1 as [|p l1 IH]; intros l2 top mid cur; cbn [leads app].
    - intros ->. auto.
    - intros (cs & c & d & A & B & C & D & E & F) H2. exists cs, c, d. do 5 (split; [assumption|]). eapply IH; eassumption.
  Qed.
  Lemma leads_ext V V' k path : forall top cur, (forall p, p ∈ path -> V' !! p = V !! p) -> leads V k path top cur -> leads V' k path top cur.
  Proof.
    induction path as [|p path IH]; intros top cur He; cbn [leads]; [auto|].
    intros (cs & c & d & A & B & C & D & E & F). exists cs, c, d. rewrite He by left. do 5 (split; [assumption|]).
    apply IH; [|exact F]. intros q Hq. apply He. right. exact Hq.
  Qed.
  Lemma leads_update V k w path : forall f cur, leads V k path [] cur ->
    pupdate (length path + f) V [] k w [] = pupdate f V cur k w path.
  Proof. clear H.
    induction path as [|p path IH]; intros f cur; cbn [leads length].
    - intros ->. reflexivity.
    - intros (cs & c & d & A & B & C & D & E & F). replace (S (length path) + f)%nat with (length path + S f)%nat by lia.
      rewrite (IH (S f) p F). cbn [pupdate].
      assert (Hp : PrefixOf p k = true) by (apply PrefixOf_prefix; eapply pre_snoc, B). rewrite Hp. cbn [negb].
      assert (Hne : bytes_eqb p k = false) by (apply bytes_eqb_neq; eapply snoc_pre, B). rewrite Hne.
      unfold get_branch. rewrite A. cbn [bind]. rewrite index_lookup, (TreeUpdate.lookup_next p k d B). cbn [bind].
      rewrite index_lookup, C. cbn [bind]. rewrite D, E. reflexivity.
  Qed.
  Lemma chain_leads N V k path cur : good N -> length k = 40%nat -> Forall nib k -> canon N (clean_q H N) V ->
    chain N k path cur -> leads V k path [] cur.
  Proof.
    intros Hg Hk40 Hk Hc. induction 1 as [|p d path q Hch IH Hd Hh Hl]; cbn [leads]; [reflexivity|].
    assert (Hnd : nib d) by (eapply snoc_nibble; eassumption).
    destruct (canon_branch N _ V p Hg Hc (chain_node _ _ _ _ Hch) (short_none N p k d Hg Hk40 Hd)) as (cs & HV & Hlen & HQ).
    destruct (lookup_lt_is_Some_2 cs (Z.to_nat d)) as (c & Hcd); [unfold nib in Hnd; lia|].
    destruct (HQ _ _ Hcd) as ((Hex & Hlk) & _). unfold child_path in Hex, Hlk. rewrite to_of_nibble in Hex, Hlk by exact Hnd.
    assert (Hx : c_exists c = true) by (apply Hex, Hh).
    exists cs, c, d. do 4 (split; [assumption|]). split; [|exact IH].
    eapply link_unique; [exact Hg|apply Hlk, Hx|exact Hl|destruct p; discriminate].
  Qed.
  Lemma chain_lengths N k path cur : chain N k path cur -> (length path <= length cur)%nat.
  Proof. clear H.
    intros HH. induction HH as [|p d path q Hch IH Hd Hh (Hl & _)]; cbn; [lia|]. apply pre_snoc_len in Hl. lia.
  Qed.
  Lemma chain_shorter N k path cur : chain N k path cur -> forall p, p ∈ path -> (length p < length cur)%nat.
  Proof. clear H.
    intros HH. induction HH as [|p d path q Hch IH Hd Hh (Hl & _)]; intros x Hx; [inversion Hx|].
    apply pre_snoc_len in Hl. apply elem_of_cons in Hx as [->|Hx]; [lia|]. specialize (IH x Hx). lia.
  Qed.
  Lemma chain_nodup N k path cur : chain N k path cur -> NoDup path.
  Proof. clear H.
    intros HH. induction HH as [|p d path q Hch IH Hd Hh Hl]; [apply NoDup_nil_2|]. apply NoDup_cons. split; [|exact IH].
    intros Hx. pose proof (chain_shorter _ _ _ _ Hch p Hx). lia.
  Qed.

  (** ** What a tree must be like for another value to be written for [k] *)
  Notation pre := (pre_q H False (fun _ => True)).
  Definition again (N : entries) (k : nibbles) (V : gmap nibbles node) : Prop :=
    forall w, w <> [] -> exists V', pupdate tree_fuel V [] k w [] = Ok V' /\ lazy H (<[k := w]> N) V'.

  Lemma gdirty_lazy N V k : canon N (gdirty_q H False (fun _ => True) N k) V -> lazy H N V.
  Proof. intros Hc. apply (dirty_lazy H N V k). intros p. eapply shape_mono; [|apply Hc]. intros i c. apply gdirty_dirty. Qed.

  (** The tree of [N], with something left at [k] and perhaps above it, where [N] has nothing. *)
  Lemma again_child N V k x p d path cs : good N -> length k = 40%nat -> Forall nib k ->
    canon N (clean_q H N) V -> chain N k path p -> p ++ [d] `prefix_of` k -> ~ has N (p ++ [d]) ->
    V !! p = Some (Branch p cs) -> again N k (<[k := x]> V).
  Proof.
    intros Hg Hk40 Hk Hc Hch Hd Hno HV w Hw.
    assert (Hpk : p <> k) by (eapply snoc_pre, Hd). assert (Hnd : nib d) by (eapply snoc_nibble; eassumption).
    pose proof (chain_leads N V k path p Hg Hk40 Hk Hc Hch) as Hlead.
    pose proof (chain_lengths _ _ _ _ Hch) as Hlen0. apply pre_snoc_len in Hd as Hplen.
    replace tree_fuel with (length path + S (49 - length path))%nat by (unfold tree_fuel; lia).
    rewrite (leads_update (<[k := x]> V) k w path (S (49 - length path)) p).
    2:{ eapply leads_ext; [|exact Hlead]. intros q Hq. apply lookup_insert_ne. intros <-.
        pose proof (chain_shorter _ _ _ _ Hch k Hq). lia. }
    cbn [pupdate].
    assert (Hp : PrefixOf p k = true) by (apply PrefixOf_prefix; eapply pre_snoc, Hd). rewrite Hp. cbn [negb].
    rewrite (proj2 (bytes_eqb_neq p k) Hpk). unfold get_branch. rewrite lookup_insert_ne by congruence. rewrite HV. cbn [bind].
    rewrite index_lookup, (TreeUpdate.lookup_next p k d Hd). cbn [bind]. rewrite index_lookup.
    pose proof (Hc p) as Hs. rewrite HV in Hs. cbn [shape] in Hs. destruct Hs as (_ & _ & _ & Hlen & HQ).
    destruct (lookup_lt_is_Some_2 cs (Z.to_nat d)) as (c & Hcd); [unfold nib in Hnd; lia|]. rewrite Hcd. cbn [bind].
    destruct (HQ _ _ Hcd) as ((Hex & _) & _). unfold child_path in Hex. rewrite to_of_nibble in Hex by exact Hnd.
    destruct (c_exists c) eqn:Ex; [exfalso; apply Hno, Hex; reflexivity|].
    destruct (PutChild_ok cs p d k zeroHash Hlen Hnd Hd) as (P1 & S1).
    rewrite S1 in P1 |- *. cbn [bind] in P1 |- *. rewrite P1. cbn [bind]. rewrite insert_insert.
    destruct (insert_child_ok H False (fun _ => True) N V k w p d path cs) as (V' & E & Hc'); try assumption.
    - intros q. eapply shape_mono; [|apply Hc]. intros i c'. apply clean_gclean.
    - intros i c' Hi. apply clean_gclean, HQ, Hi.
    - exists V'. split; [exact E|]. eapply gdirty_lazy, Hc'.
  Qed.

  Lemma again_split N V k x y np path V1 : good N -> length k = 40%nat -> Forall nib k ->
    canon N (clean_q H N) V -> chain N k path np -> ~ (np `prefix_of` k) ->
    V1 = <[k := x]> V \/ V1 = <[CommonPrefix np k := y]> (<[k := x]> V) -> again N k V1.
  Proof.
    intros Hg Hk40 Hk Hc Hch Hnp HV1 w Hw.
    assert (Hcg : canon N (gclean_q H False (fun _ => True) N) V).
    { intros q. eapply shape_mono; [|apply Hc]. intros i c'. apply clean_gclean. }
    destruct (split_pre H False (fun _ => True) N V k w np path Hg Hk40 Hk Hw Hcg Hch Hnp)
      as (_ & _ & _ & _ & _ & _ & _ & _ & _ & Hppn & Hppk & _). set (pp := CommonPrefix np k) in *.
    pose proof (chain_leads N V k path np Hg Hk40 Hk Hc Hch) as Hlead.
    pose proof (chain_lengths _ _ _ _ Hch) as Hlen0.
    destruct (node_len N np Hg (chain_node _ _ _ _ Hch)) as (Hnl & _).
    replace tree_fuel with (length path + S (49 - length path))%nat by (unfold tree_fuel; lia).
    rewrite (leads_update V1 k w path (S (49 - length path)) np).
    2:{ eapply leads_ext; [|exact Hlead]. intros q Hq.
        assert (k <> q) by (intros <-; destruct (chain_in N k path np k Hch Hq) as (_ & d & Hd & _); apply pre_snoc_len in Hd; lia).
        assert (pp <> q) by (intros E; rewrite E in Hppn; apply Hppn, (chain_in N k path np q Hch Hq)).
        destruct HV1 as [E|E]; rewrite E; rewrite !lookup_insert_ne by assumption; reflexivity. }
    cbn [pupdate].
    assert (Hp : PrefixOf np k = false).
    { destruct (PrefixOf np k) eqn:E; [|reflexivity]. apply PrefixOf_prefix in E. contradiction. }
    rewrite Hp. cbn [negb]. fold pp.
    destruct (split_ok H False (fun _ => True) N V k w np path) as (V' & E & Hc'); try assumption. cbn zeta in E. fold pp in E.
    exists V'. split; [|eapply gdirty_lazy, Hc']. rewrite <- E.
    assert (HE : forall b : node, <[pp := b]> (<[k := Leaf k w]> V1) = <[pp := b]> (<[k := Leaf k w]> V)).
    { intros b. destruct HV1 as [E1|E1]; rewrite E1.
      - rewrite insert_insert. reflexivity.
      - rewrite (insert_commute _ k pp) by congruence. rewrite !insert_insert. reflexivity. }
    destruct (slice_from np (length pp)) as [a1|e| |]; cbn [bind]; try reflexivity.
    destruct (PutChild _ a1 zeroHash) as [a2|e| |]; cbn [bind]; try reflexivity.
    destruct (slice_from k (length pp)) as [a3|e| |]; cbn [bind]; try reflexivity.
    destruct (PutChild a2 a3 zeroHash) as [a4|e| |]; cbn [bind]; try reflexivity. rewrite HE. reflexivity.
  Qed.

  (** The tree of entries that include [k], with anything for hashes on the way to [k]. *)
  Lemma same_has (N : entries) k (v w : bytes) r : has (<[k := v]> N) r -> has (<[k := w]> N) r.
  Proof.
    intros (k' & v' & Hk' & Hr). destruct (decide (k = k')) as [<-|Hne].
    - exists k, w. rewrite lookup_insert. auto.
    - rewrite lookup_insert_ne in Hk' by exact Hne. exists k', v'. rewrite lookup_insert_ne by exact Hne. auto.
  Qed.
  Lemma same_branching (N : entries) k (v w : bytes) p : branching (<[k := v]> N) p -> branching (<[k := w]> N) p.
  Proof. intros (i & j & Hij & Hi & Hj). exists i, j. eauto using same_has. Qed.
  Lemma same_node (N : entries) k (v w : bytes) p : is_node (<[k := v]> N) p -> is_node (<[k := w]> N) p.
  Proof.
    intros [->|[(x & E)|Hb]]; [left; reflexivity| |right; right; eapply same_branching, Hb]. right; left.
    destruct (decide (k = p)) as [<-|Hne]; [rewrite lookup_insert; eauto|].
    rewrite lookup_insert_ne in E by exact Hne. rewrite lookup_insert_ne by exact Hne. eauto.
  Qed.
  Lemma same_link (N : entries) k (v w : bytes) r q : link (<[k := v]> N) r q -> link (<[k := w]> N) r q.
  Proof.
    intros (H1 & H2 & H3). split; [exact H1|]. split; [eapply same_node, H2|]. intros k' v' Hk' Hr.
    destruct (decide (k = k')) as [<-|Hne]; [eapply H3; [apply lookup_insert|exact Hr]|].
    rewrite lookup_insert_ne in Hk' by exact Hne. eapply H3; [rewrite lookup_insert_ne by exact Hne; exact Hk'|exact Hr].
  Qed.
  Lemma same_chain (N : entries) k (v w : bytes) path q : chain (<[k := v]> N) k path q -> chain (<[k := w]> N) k path q.
  Proof.
    induction 1 as [|p d path q Hch IH Hd Hh Hl]; [constructor|]. econstructor; [exact IH|exact Hd|eapply same_has, Hh|eapply same_link, Hl].
  Qed.
  Lemma same_dirty (N : entries) k (v w : bytes) p i c : good (<[k := v]> N) -> 
    gdirty_q H False (fun _ => True) (<[k := v]> N) k p i c -> gdirty_q H False (fun _ => True) (<[k := w]> N) k p i c.
  Proof.
    intros Hg ((Hex & Hlk) & Hh). split.
    - split; [rewrite Hex; split; apply same_has|]. intros Hx. eapply same_link, Hlk, Hx.
    - intros Hx. destruct (Hh Hx) as (H1 & H2). split; [exact H1|]. intros Hp.
      destruct (H2 Hp) as [(E & _)|[E|([] & _)]]; [left|right; left; exact E]. split; [|exact I]. rewrite E. unfold mh. apply (f_equal H).
      apply merkle_bytes_agree; [exact Hg|]. intros k' Hk'. rewrite !lookup_insert_ne; [reflexivity| |].
      + intros <-. apply Hp. etrans; [apply (Hlk Hx)|exact Hk'].
      + intros <-. apply Hp. etrans; [apply (Hlk Hx)|exact Hk'].
  Qed.

  Lemma again_replace N V k v path : good N -> v <> [] -> length k = 40%nat -> Forall nib k ->
    canon (<[k := v]> N) (pre (<[k := v]> N) k path) V -> chain (<[k := v]> N) k path k -> leads V k path [] k -> again N k V.
  Proof.
    intros Hg Hv Hk40 Hk Hc Hch Hlead w Hw.
    pose proof (chain_lengths _ _ _ _ Hch) as Hlen0.
    assert (Hgv : good (<[k := v]> N)) by (apply insert_good; assumption).
    assert (Hgw : good (<[k := w]> N)) by (apply insert_good; assumption).
    replace tree_fuel with (length path + S (49 - length path))%nat by (unfold tree_fuel; lia).
    rewrite (leads_update V k w path _ k Hlead). cbn [pupdate].
    assert (Hp : PrefixOf k k = true) by (apply PrefixOf_prefix; reflexivity). rewrite Hp. cbn [negb].
    rewrite (proj2 (bytes_eqb_eq k k) eq_refl). destruct w as [|x w]; [contradiction|].
    destruct (pinvalidate_ok H False (fun _ => True) (<[k := x :: w]> N) k path k (<[k := Leaf k (x :: w)]> V)) as (V' & E & Hd).
    - exact Hgw.
    - exact Hk.
    - exact Hk40.
    - intros p. destruct (decide (k = p)) as [<-|Hne].
      + rewrite lookup_insert. split; [reflexivity|apply lookup_insert].
      + rewrite lookup_insert_ne by exact Hne. specialize (Hc p). destruct (V !! p) as [[p' cs|p' v']|]; cbn [shape] in Hc |- *.
        * destruct Hc as (A & B & C & D & F). split; [exact A|]. rewrite lookup_insert_ne in B |- * by exact Hne. split; [exact B|].
          split; [destruct C as [C|C]; [left; exact C|right; eapply same_branching, C]|]. split; [exact D|].
          intros i c Hi. destruct (F i c Hi) as [G|G]; [left; exact G|right; eapply same_dirty; [exact Hgv|exact G]].
        * destruct Hc as (A & B). rewrite lookup_insert_ne in B |- * by exact Hne. auto.
        * intros Hn. apply Hc. eapply same_node, Hn.
    - eapply same_chain, Hch.
    - exists V'. split; [exact E|eapply gdirty_lazy, Hd].
  Qed.

  (** Every link leads to a node. *)
  Definition linked (V : gmap nibbles node) : Prop := forall p n, V !! p = Some n ->
    Forall nib p /\ (length p <= 40)%nat /\
    match n with
    | Leaf p' _ => p' = p
    | Branch p' cs => p' = p /\ length cs = 16%nat /\
        forall i c, cs !! i = Some c -> c_exists c = true -> c_suffix c <> [] /\ is_Some (V !! (p ++ c_suffix c))
    end.
  Lemma linked_canon N (Q : nibbles -> nat -> child -> Prop) V : good N -> (forall p i c, Q p i c -> link_ok N p i c) -> canon N Q V -> linked V.
  Proof.
    intros Hg HQ Hc p n HV. pose proof (Hc p) as Hs. rewrite HV in Hs.
    assert (Hn : is_node N p).
    { destruct n as [p' cs|p' v]; cbn [shape] in Hs; [destruct Hs as (_ & _ & [->|Hb] & _); [left; reflexivity|right; right; exact Hb]|].
      right; left. exists v. apply Hs. }
    destruct (node_len N p Hg Hn) as (H1 & H2). split; [exact H2|]. split; [exact H1|].
    destruct n as [p' cs|p' v]; cbn [shape] in Hs; [|apply Hs]. destruct Hs as (E & _ & _ & Hlen & HQc).
    split; [exact E|]. split; [exact Hlen|]. intros i c Hi Hx. destruct (HQ _ _ _ (HQc i c Hi)) as (_ & Hlk).
    destruct (Hlk Hx) as (Hpre & Hnt & _). split.
    - intros E0. rewrite E0, app_nil_r in Hpre. unfold child_path in Hpre. apply prefix_length in Hpre. rewrite app_length in Hpre. cbn in Hpre. lia.
    - pose proof (Hc (p ++ c_suffix c)) as Hs. destruct (V !! (p ++ c_suffix c)); [eauto|]. contradiction.
  Qed.
  Lemma linked_insert V p n : linked V -> Forall nib p -> (length p <= 40)%nat ->
    match n with
    | Leaf p' _ => p' = p
    | Branch p' cs => p' = p /\ length cs = 16%nat /\
        forall i c, cs !! i = Some c -> c_exists c = true -> c_suffix c <> [] /\ is_Some (<[p := n]> V !! (p ++ c_suffix c))
    end -> linked (<[p := n]> V).
  Proof.
    intros Hl Hp Hlen Hn q m Hq. destruct (decide (p = q)) as [<-|Hne].
    - rewrite lookup_insert in Hq. injection Hq as <-. auto.
    - rewrite lookup_insert_ne in Hq by exact Hne. destruct (Hl q m Hq) as (H1 & H2 & H3). split; [exact H1|]. split; [exact H2|].
      destruct m as [q' cs|q' v]; [|exact H3]. destruct H3 as (E & L & Hc). split; [exact E|]. split; [exact L|].
      intros i c Hi Hx. destruct (Hc i c Hi Hx) as (Hs & Ht). split; [exact Hs|]. 
      destruct (decide (p = q ++ c_suffix c)) as [<-|Hd]; [rewrite lookup_insert; eauto|rewrite lookup_insert_ne by exact Hd; exact Ht].
  Qed.
  Lemma linked_child V p cs suf h cs' : linked V -> V !! p = Some (Branch p cs) -> PutChild cs suf h = Ok cs' ->
    is_Some (V !! (p ++ suf)) -> linked (<[p := Branch p cs']> V).
  Proof.
    intros Hl HV HP Ht. destruct (Hl p _ HV) as (H1 & H2 & _ & Hlen & Hc).
    unfold PutChild in HP. destruct suf as [|d r]; [discriminate|]. case_bool_decide as Hlt; [|discriminate]. injection HP as <-.
    assert (Hany : forall q, is_Some (V !! q) -> is_Some (<[p := Branch p (<[Z.to_nat d := Child (d :: r) h true]> cs)]> V !! q)).
    { intros q Hq. destruct (decide (p = q)) as [<-|Hd]; [rewrite lookup_insert; eauto|rewrite lookup_insert_ne by exact Hd; exact Hq]. }
    apply linked_insert; [exact Hl|exact H1|exact H2|]. split; [reflexivity|]. split; [rewrite insert_length; exact Hlen|].
    intros i c Hi Hx. destruct (decide (i = Z.to_nat d)) as [->|Hne].
    - rewrite list_lookup_insert in Hi by exact Hlt. injection Hi as <-. cbn [c_suffix]. split; [discriminate|]. apply Hany, Ht.
    - rewrite list_lookup_insert_ne in Hi by congruence. destruct (Hc i c Hi Hx) as (Hs & Hq). split; [exact Hs|]. apply Hany, Hq.
  Qed.

  Definition has_root (V : gmap nibbles node) : Prop := exists cs, V !! [] = Some (Branch [] cs).
  Lemma has_root_leaf V p n : p <> [] -> has_root V -> has_root (<[p := n]> V).
  Proof. intros Hp (cs & HV). exists cs. rewrite lookup_insert_ne by exact Hp. exact HV. Qed.
  Lemma has_root_branch V p cs : has_root V -> has_root (<[p := Branch p cs]> V).
  Proof.
    intros HR. destruct (decide (p = [])) as [->|Hp]; [exists cs; apply lookup_insert|apply has_root_leaf; assumption].
  Qed.

  (** ** The states the update goes through *)
  Definition okay (N : entries) (k : nibbles) (u : state) : Prop :=
    layers_ok (sto u) /\ sim u (view u) /\ suffixes_ok (view u) /\ again N k (view u) /\ linked (view u) /\ has_root (view u).
  Lemma okay_intro N k u V : layers_ok (sto u) -> sim u V -> suffixes_ok V -> again N k V -> linked V -> has_root V -> okay N k u.
  Proof.
    intros Hl Hs Hx Ha Hlk Hr. pose proof (proj2 Hs) as E. split; [exact Hl|]. split; [eapply sim_self, Hs|]. rewrite E. auto.
  Qed.
  Lemma suffixes_leaf V p p' v : suffixes_ok V -> suffixes_ok (<[p := Leaf p' v]> V).
  Proof.
    intros Hs q cs i c. destruct (decide (p = q)) as [<-|Hne]; [rewrite lookup_insert; discriminate|].
    rewrite lookup_insert_ne by exact Hne. apply Hs.
  Qed.
  Lemma suffixes_branch V p cs : suffixes_ok V ->
    (forall i c, cs !! i = Some c -> c_exists c = true -> Forall is_nibble (c_suffix c)) -> suffixes_ok (<[p := Branch p cs]> V).
  Proof.
    intros Hs Hc q cs' i c. destruct (decide (p = q)) as [<-|Hne].
    - rewrite lookup_insert. intros E. injection E as <-. apply Hc.
    - rewrite lookup_insert_ne by exact Hne. apply Hs.
  Qed.
  Lemma PutChild_suffixes cs suf h cs' : PutChild cs suf h = Ok cs' -> Forall is_nibble suf ->
    (forall i c, cs !! i = Some c -> c_exists c = true -> Forall is_nibble (c_suffix c)) ->
    forall i c, cs' !! i = Some c -> c_exists c = true -> Forall is_nibble (c_suffix c).
  Proof.
    intros E Hs Hc i c. unfold PutChild in E. destruct suf as [|d r]; [discriminate|].
    case_bool_decide as Hlt; [|discriminate]. injection E as <-.
    destruct (decide (i = Z.to_nat d)) as [->|Hne].
    - rewrite list_lookup_insert by exact Hlt. intros E _. injection E as <-. exact Hs.
    - rewrite list_lookup_insert_ne by congruence. apply Hc.
  Qed.

  Lemma pre_mono (N : entries) k path path' V : (forall p, p ∈ path -> p ∈ path') ->
    canon N (pre N k path) V -> canon N (pre N k path') V.
  Proof. intros Hi Hc p. eapply shape_mono; [|apply Hc]. intros i c [(Hp & Hk)|Hd]; [left; auto|right; exact Hd]. Qed.

  (** Resetting the hashes along the path: [low] is the part of the way below it. *)
  Lemma again_invalidate N k v : good N -> v <> [] -> length k = 40%nat -> Forall nib k ->
    forall ppath path s V cur low, layers_ok (sto s) -> sim s V -> suffixes_ok V ->
    Forall2 (at_path s) path ppath -> Forall nib cur -> Forall (Forall nib) ppath ->
    canon (<[k := v]> N) (pre (<[k := v]> N) k ppath) V -> chain (<[k := v]> N) k ppath cur ->
    chain (<[k := v]> N) k (low ++ ppath) k -> leads V k low cur k ->
    match ppath with [] => True | p :: ppath' => leads V k ppath' [] p end ->
    linked V -> has_root V ->
    Forall (okay N k) (t_invalidatePath s cur path).1.
  Proof.
    intros Hg Hv Hk40 Hk. assert (Hg' : good (<[k := v]> N)) by (apply insert_good; assumption).
    induction ppath as [|p ppath IH]; intros path s V cur low Hlay Hsim Hsuf Hat Hcur Hpn Hc Hch Hfull Hlow Htail HL HR;
      inversion Hat as [|l ? path' ? Hl Hrest]; subst; cbn [t_invalidatePath]; [apply Forall_nil; exact I|].
    apply Forall_cons in Hpn as (Hp & Hpn).
    inversion Hch as [|p0 d path0 q Hch' Hd Hh Hlk]; subst.
    destruct (pinvalidate_step H False (fun _ => True) _ k p d ppath cur V Hg' Hk Hk40 Hc Hch' Hd Hh Hlk)
      as (cs & HV & Hsl & Hput & Hlen & Hc').
    pose proof (sim_branch s V l p Hsim Hl) as Hb. unfold get_branch in Hb. rewrite HV in Hb.
    destruct (as_branch s l) as [(p' & cs0)|e| |] eqn:Eb; cbn in Hb; try contradiction.
    destruct Hb as (-> & -> & Hsh & _).
    apply along_lift. intros (p' & cs0) E. injection E as <- <-.
    rewrite Hsl. apply along_lift. intros suf E. injection E as <-.
    rewrite Hput. apply along_lift. intros cs' E. injection E as <-.
    set (cs' := <[Z.to_nat d := _]> cs) in *. set (V1 := <[p := Branch p cs']> V) in *. set (s1 := write s l (Branch p cs')).
    assert (Hdn : Forall is_nibble (drop (length p) cur)) by (apply Forall_drop, Hcur).
    assert (Hsim1 : sim s1 V1).
    { apply sim_write; [exact Hsim|exact Hl|reflexivity|]. eapply PutChild_shape; [exact Hsh|exact Hdn|exact Hput]. }
    assert (Hsuf1 : suffixes_ok V1).
    { apply suffixes_branch; [exact Hsuf|]. eapply PutChild_suffixes; [exact Hput|exact Hdn|]. intros i c. exact (Hsuf p cs i c HV). }
    pose proof (chain_nodup _ _ _ _ Hfull) as Hnd. apply NoDup_app in Hnd as (_ & Hdis & Hnd2). apply NoDup_cons in Hnd2 as (Hnin & _).
    assert (Hlow1 : leads V1 k (low ++ [p]) p k).
    { eapply leads_app.
      - eapply leads_ext; [|exact Hlow]. intros q Hq. apply lookup_insert_ne. intros <-. eapply Hdis; [exact Hq|left].
      - cbn [leads]. eexists cs', _, d. split; [apply lookup_insert|]. split; [exact Hd|].
        split; [apply list_lookup_insert; rewrite Hlen; assert (nib d) as Hnd by (eapply snoc_nibble; eassumption); unfold nib in Hnd; lia|].
        split; [reflexivity|]. split; [cbn [c_suffix]; apply drop_pre; eapply pre_snoc, Hlk|reflexivity]. }
    assert (Htail1 : leads V1 k ppath [] p).
    { eapply leads_ext; [|exact Htail]. intros q Hq. apply lookup_insert_ne. intros <-. contradiction. }
    assert (Hfull1 : chain (<[k := v]> N) k ((low ++ [p]) ++ ppath) k) by (rewrite <- app_assoc; exact Hfull).
    assert (Hcurin : is_Some (V !! cur)).
    { destruct Hlk as (_ & Hnc & _). pose proof (Hc cur) as Hs. destruct (V !! cur); [eauto|contradiction]. }
    assert (HL1 : linked V1).
    { eapply linked_child; [exact HL|exact HV|exact Hput|]. rewrite drop_pre; [exact Hcurin|]. eapply pre_snoc, Hlk. }
    assert (HR1 : has_root V1) by (apply has_root_branch, HR).
    apply along_did.
    - eapply okay_intro; [exact Hlay|exact Hsim1|exact Hsuf1| |exact HL1|exact HR1].
      eapply again_replace with (path := (low ++ [p]) ++ ppath); [exact Hg|exact Hv|exact Hk40|exact Hk| |exact Hfull1|].
      + eapply pre_mono; [|exact Hc']. intros q Hq. apply elem_of_app. right. exact Hq.
      + eapply leads_app; [exact Hlow1|exact Htail1].
    - apply (IH path' s1 V1 p (low ++ [p])); try assumption.
      destruct ppath as [|p2 ppath]; [exact I|]. cbn [leads] in Htail1. destruct Htail1 as (_ & _ & _ & _ & _ & _ & _ & _ & Ht). exact Ht.
  Qed.

  Lemma chain_last (N : entries) k path V q d cs c : Forall nib k -> canon N (pre N k path) V -> chain N k path q ->
    q ++ [d] `prefix_of` k -> V !! q = Some (Branch q cs) -> cs !! Z.to_nat d = Some c -> c_exists c = true -> q ++ c_suffix c = k ->
    chain N k (q :: path) k.
  Proof.
    intros Hk Hc Hch Hd HV Hcd Hx Hs. assert (Hnd : nib d) by (eapply snoc_nibble; eassumption).
    pose proof (Hc q) as Hq. rewrite HV in Hq. cbn [shape] in Hq. destruct Hq as (_ & _ & _ & _ & HQ).
    destruct (HQ _ _ Hcd) as [(Hin & _)|((Hex & Hlk) & _)].
    { pose proof (chain_shorter _ _ _ _ Hch q Hin). lia. }
    unfold child_path in Hex, Hlk. rewrite to_of_nibble in Hex, Hlk by exact Hnd. rewrite Hs in Hlk.
    econstructor; [exact Hch|exact Hd|apply Hex, Hx|apply Hlk, Hx].
  Qed.
  Lemma leads_tail V k ppath np : leads V k ppath [] np -> match ppath with [] => True | p :: ppath' => leads V k ppath' [] p end.
  Proof. destruct ppath as [|p ppath]; [auto|]. cbn [leads]. intros (_ & _ & _ & _ & _ & _ & _ & _ & Ht). exact Ht. Qed.

  Lemma slice_from_join (p l suf : nibbles) : p `prefix_of` l -> slice_from l (length p) = Ok suf -> p ++ suf = l.
  Proof.
    intros (r & ->). unfold slice_from. rewrite drop_app. case_bool_decide; intros E; [|discriminate]. injection E as <-. reflexivity.
  Qed.

  Lemma again_update s V N k v : good N -> v <> [] -> length k = 40%nat -> Forall nib k ->
    layers_ok (sto s) -> sim s V -> canon N (clean_q H N) V ->
    forall fuel np path ppath, chain N k ppath np -> Forall2 (at_path s) path ppath ->
    Forall (okay N k) (t_update fuel s np k v path).1.
  Proof.
    intros Hg Hv Hk40 Hk Hlay Hsim Hc. pose proof (canon_suffixes H N V Hg Hc) as Hsuf.
    assert (Hcg : canon N (gclean_q H False (fun _ => True) N) V).
    { intros q. eapply shape_mono; [|apply Hc]. intros i c'. apply clean_gclean. }
    assert (Hf : fresh s) by exact (proj1 (proj2 (proj1 Hsim))).
    assert (HL : linked V) by (apply (linked_canon N (clean_q H N) V Hg); [intros p i c Hq; apply Hq|exact Hc]).
    assert (HR : has_root V).
    { pose proof (Hc []) as Hs. destruct (V !! []) as [[p cs|p v0]|] eqn:E0; cbn [shape] in Hs.
      - destruct Hs as (-> & _). exists cs. exact E0.
      - exfalso. destruct Hs as (_ & HN). destruct (Hg _ _ HN) as (L & _). discriminate L.
      - exfalso. apply Hs. left. reflexivity. }
    assert (HL2 : linked (<[k := Leaf k v]> V)) by (apply linked_insert; [exact HL|exact Hk|lia|reflexivity]).
    assert (HR2 : has_root (<[k := Leaf k v]> V)) by (apply has_root_leaf; [intros ->; discriminate Hk40|exact HR]).
    induction fuel as [|fuel IH]; intros np path ppath Hch Hat; cbn [t_update]; [apply Forall_nil; exact I|].
    pose proof (chain_leads N V k ppath np Hg Hk40 Hk Hc Hch) as Hlead.
    pose proof (chain_node _ _ _ _ Hch) as Hnode.
    assert (Hpn : Forall (Forall nib) ppath).
    { apply Forall_forall. intros q Hq. destruct (chain_in N k ppath np q Hch Hq) as (Hn & _). apply (node_len N q Hg Hn). }
    assert (Hpk : forall q, q ∈ ppath -> (length q < 40)%nat).
    { intros q Hq. destruct (chain_in N k ppath np q Hch Hq) as (_ & d & Hd & _). apply pre_snoc_len in Hd. lia. }
    assert (Hkp : forall q, q ∈ ppath -> k <> q) by (intros q Hq <-; specialize (Hpk k Hq); lia).
    (* storing the leaf *)
    destruct (sim_alloc_put s V k (Leaf k v) Hsim eq_refl I) as (s2 & E2 & Hsim2 & _ & Hother).
    assert (Hlay2 : layers_ok (sto s2)).
    { destruct (ext_put _ _ _ _ E2) as (_ & Hx & _). apply Hx. exact Hlay. }
    assert (Hsuf2 : suffixes_ok (<[k := Leaf k v]> V)) by (apply suffixes_leaf, Hsuf).
    assert (Hat2 : Forall2 (at_path s2) path ppath).
    { eapply Forall2_at_path_mono; [exact Hat|]. intros q Hq. apply Hother. intros ->. apply (Hkp k Hq). reflexivity. }
    destruct (PrefixOf np k) eqn:Ep; cbn [negb].
    - apply PrefixOf_prefix in Ep. destruct (bytes_eqb np k) eqn:Eeq.
      + (* replace *)
        apply bytes_eqb_eq in Eeq. subst np. destruct v as [|x v]; [contradiction|]. cbn [alloc].
        apply along_put. intros s' E'. cbn [alloc] in E2. rewrite E2 in E'. injection E' as <-.
        pose proof (key_node N k Hg Hk40 Hnode) as Hs.
        pose proof (replace_pre H False (fun _ => True) N V k (x :: v) ppath Hg Hk40 Hk Hv Hs Hcg Hch) as Hc'.
        assert (Hch' : chain (<[k := x :: v]> N) k ppath k) by (apply insert_chain; [exact Hch|reflexivity]).
        assert (Hlead' : leads (<[k := Leaf k (x :: v)]> V) k ppath [] k).
        { eapply leads_ext; [|exact Hlead]. intros q Hq. apply lookup_insert_ne, Hkp, Hq. }
        split.
        * eapply okay_intro; [exact Hlay2|exact Hsim2|exact Hsuf2| |exact HL2|exact HR2].
          eapply again_replace; [exact Hg|exact Hv|exact Hk40|exact Hk|exact Hc'|exact Hch'|exact Hlead'].
        * eapply (again_invalidate N k (x :: v) Hg Hv Hk40 Hk ppath path s2 _ k []); try eassumption; [reflexivity|].
          eapply leads_tail, Hlead'.
      + apply bytes_eqb_neq in Eeq. destruct (pre_next np k Ep Eeq) as (d & Hd).
        assert (HNp : N !! np = None) by (eapply short_none; eassumption).
        assert (Hnd : nib d) by (eapply snoc_nibble; eassumption).
        destruct (canon_branch N _ V np Hg Hc Hnode HNp) as (cs & HV & Hlen & HQ).
        pose proof (sim_get s V np Hsim) as Hgn. destruct (GetNode (sto s) np) as [l|] eqn:El; [|congruence].
        assert (Hl : at_path s l np) by exact El.
        pose proof (sim_branch s V l np Hsim Hl) as Hb. unfold get_branch in Hb. rewrite HV in Hb.
        destruct (as_branch s l) as [(p' & cs0)|e| |] eqn:Eb; cbn in Hb; try contradiction.
        destruct Hb as (-> & -> & Hsh & _).
        apply along_lift. intros (p' & cs0) E. injection E as <- <-.
        rewrite index_lookup, (lookup_next np k d Hd). apply along_lift. intros d' E. injection E as <-.
        rewrite index_lookup. destruct (lookup_lt_is_Some_2 cs (Z.to_nat d)) as (c & Hcd); [unfold nib in Hnd; lia|]. rewrite Hcd.
        apply along_lift. intros c' E. injection E as <-.
        destruct (HQ _ _ Hcd) as ((Hex & Hlk) & _). unfold child_path in Hex, Hlk.
        rewrite to_of_nibble in Hex, Hlk by exact Hnd.
        destruct (c_exists c) eqn:Ex.
        * apply (IH _ _ (np :: ppath)); [|constructor; assumption].
          econstructor; [exact Hch|exact Hd|apply Hex; reflexivity|apply Hlk; reflexivity].
        * assert (Hno : ~ has N (np ++ [d])) by (intros Hh; apply Hex in Hh; discriminate).
          cbn [alloc]. apply along_put. intros s' E'. cbn [alloc] in E2. rewrite E2 in E'. injection E' as <-. split.
          { eapply okay_intro; [exact Hlay2|exact Hsim2|exact Hsuf2| |exact HL2|exact HR2]. eapply again_child; eassumption. }
          destruct (PutChild_ok cs np d k zeroHash Hlen Hnd Hd) as (P1 & S1). rewrite S1 in P1 |- *. cbn [bind] in P1.
          apply along_lift. intros suf E. injection E as <-. rewrite P1. apply along_lift. intros cs' E. injection E as <-.
          set (cs' := <[Z.to_nat d := _]> cs) in *.
          assert (Hat3 : at_path s2 l np) by (unfold at_path; rewrite Hother by congruence; exact El).
          assert (Hdn : Forall is_nibble (drop (length np) k)) by (apply Forall_drop, Hk).
          assert (Hsim3 : sim (write s2 l (Branch np cs')) (<[np := Branch np cs']> (<[k := Leaf k v]> V))).
          { apply sim_write; [exact Hsim2|exact Hat3|reflexivity|]. eapply PutChild_shape; [exact Hsh|exact Hdn|exact P1]. }
          pose proof (insert_child_pre H False (fun _ => True) N V k v np d ppath cs Hg Hk40 Hk Hv Hcg Hch Hd Hno HV Hlen
            (fun i c0 Hi => clean_gclean H False N np i c0 (HQ i c0 Hi))) as Hc3. fold cs' in Hc3.
          set (V3 := <[np := Branch np cs']> (<[k := Leaf k v]> V)) in *.
          assert (Hsuf3 : suffixes_ok V3).
          { apply suffixes_branch; [exact Hsuf2|]. eapply PutChild_suffixes; [exact P1|exact Hdn|]. intros i c0. exact (Hsuf np cs i c0 HV). }
          assert (HV3 : V3 !! np = Some (Branch np cs')) by apply lookup_insert.
          assert (Hc3d : cs' !! Z.to_nat d = Some (Child (drop (length np) k) zeroHash true)).
          { apply list_lookup_insert. rewrite Hlen. unfold nib in Hnd. lia. }
          assert (Hs3 : np ++ c_suffix (Child (drop (length np) k) zeroHash true) = k) by (apply drop_pre, Ep).
          assert (Hch3 : chain (<[k := v]> N) k ppath np) by (apply insert_chain; [exact Hch|exact Ep]).
          assert (Hfull : chain (<[k := v]> N) k (np :: ppath) k).
          { eapply chain_last; [exact Hk|exact Hc3|exact Hch3|exact Hd|exact HV3|exact Hc3d|reflexivity|exact Hs3]. }
          assert (Hnnp : np ∉ ppath) by (intros Hin; pose proof (chain_shorter _ _ _ _ Hch np Hin); lia).
          assert (Hlead3 : leads V3 k ppath [] np).
          { eapply leads_ext; [|exact Hlead]. intros q Hq. unfold V3. rewrite !lookup_insert_ne; [reflexivity|apply Hkp, Hq|].
            intros <-. contradiction. }
          assert (Hlow : leads V3 k [np] np k).
          { cbn [leads]. eexists cs', _, d. split; [exact HV3|]. split; [exact Hd|]. split; [exact Hc3d|].
            split; [reflexivity|]. split; [exact Hs3|reflexivity]. }
          assert (Hagain : again N k V3).
          { eapply again_replace with (path := np :: ppath); [exact Hg|exact Hv|exact Hk40|exact Hk| |exact Hfull|].
            - eapply pre_mono; [|exact Hc3]. intros q Hq. right. exact Hq.
            - apply (leads_app V3 k [np] ppath [] np k Hlow Hlead3). }
          assert (HL3 : linked V3).
          { unfold V3. eapply linked_child; [exact HL2|rewrite lookup_insert_ne by congruence; exact HV|exact P1|].
            rewrite drop_pre by exact Ep. rewrite lookup_insert. eauto. }
          assert (HR3 : has_root V3) by (apply has_root_branch, HR2).
          apply along_did; [eapply okay_intro; [exact Hlay2|exact Hsim3|exact Hsuf3|exact Hagain|exact HL3|exact HR3]|].
          destruct (sim_put_same _ _ np l Hsim3 Hat3) as (s4 & E4 & Hsim4 & _ & Hsame).
          apply along_put. intros s' E'. rewrite E4 in E'. injection E' as <-.
          assert (Hlay4 : layers_ok (sto s4)) by (destruct (ext_put _ _ _ _ E4) as (_ & Hx & _); apply Hx; exact Hlay2).
          split; [eapply okay_intro; [exact Hlay4|exact Hsim4|exact Hsuf3|exact Hagain|exact HL3|exact HR3]|].
          eapply (again_invalidate N k v Hg Hv Hk40 Hk ppath path s4 V3 np [np]); try assumption.
          -- eapply Forall2_at_path_mono; [exact Hat2|]. intros q Hq. apply Hsame.
          -- apply (node_len N np Hg Hnode).
          -- eapply leads_tail, Hlead3.
    - (* split *)
      assert (Hnp : ~ (np `prefix_of` k)).
      { intros Hp. apply PrefixOf_prefix in Hp. congruence. }
      destruct (node_len N np Hg Hnode) as (_ & Hnpn).
      destruct (split_pre H False (fun _ => True) N V k v np ppath Hg Hk40 Hk Hv Hcg Hch Hnp)
        as (suf1 & cs1 & suf2 & cs2 & S1 & P1 & S2 & P2 & Hch4 & Hppn & Hppk & Hc4).
      destruct (CommonPrefix_props np k) as (Hpn' & Hpk' & _). set (pp := CommonPrefix np k) in *.
      cbn [alloc]. apply along_put. intros s' E'. cbn [alloc] in E2. rewrite E2 in E'. injection E' as <-. split.
      { eapply okay_intro; [exact Hlay2|exact Hsim2|exact Hsuf2| |exact HL2|exact HR2].
        eapply (again_split N V k (Leaf k v) (Leaf k v) np ppath); try eassumption. left. reflexivity. }
      rewrite S1. apply along_lift. intros a E. injection E as <-. rewrite P1. apply along_lift. intros a E. injection E as <-.
      rewrite S2. apply along_lift. intros a E. injection E as <-. rewrite P2. apply along_lift. intros a E. injection E as <-.
      assert (Hn1 : Forall is_nibble suf1) by (eapply slice_from_nibbles; [exact Hnpn|exact S1]).
      assert (Hn2 : Forall is_nibble suf2) by (eapply slice_from_nibbles; [exact Hk|exact S2]).
      assert (Hsh1 : node_shape (Branch pp cs1)) by (eapply PutChild_shape; [apply (zero_branch_shape pp)|exact Hn1|exact P1]).
      assert (Hsh2 : node_shape (Branch pp cs2)) by (eapply PutChild_shape; [exact Hsh1|exact Hn2|exact P2]).
      pose proof (sim_alloc_put s2 _ pp (Branch pp cs2) Hsim2 eq_refl Hsh2) as Hput2. cbn [alloc] in Hput2.
      destruct Hput2 as (s4 & E4 & Hsim4 & _ & Hother4). cbn [alloc].
      apply along_put. intros s' E'. rewrite E4 in E'. injection E' as <-.
      set (V4 := <[pp := Branch pp cs2]> (<[k := Leaf k v]> V)) in *.
      assert (Hlay4 : layers_ok (sto s4)) by (destruct (ext_put _ _ _ _ E4) as (_ & Hx & _); apply Hx; exact Hlay2).
      assert (Hsuf4 : suffixes_ok V4).
      { apply suffixes_branch; [exact Hsuf2|]. eapply PutChild_suffixes; [exact P2|exact Hn2|].
        eapply PutChild_suffixes; [exact P1|exact Hn1|]. intros i c Hi Hx.
        apply elem_of_list_lookup_2, elem_of_list_In, repeat_spec in Hi. subst c. discriminate. }
      assert (Hnpin : is_Some (V !! np)).
      { pose proof (Hc np) as Hs. destruct (V !! np); [eauto|contradiction]. }
      assert (HR4 : has_root V4) by (apply has_root_branch, HR2).
      assert (HL4 : linked V4).
      { set (V0 := <[pp := Branch pp (repeat zero_child 16)]> (<[k := Leaf k v]> V)).
        assert (Hppnib : Forall nib pp) by (eapply pre_nibble; [exact Hpk'|exact Hk]).
        assert (Hpplen : (length pp <= 40)%nat) by (apply prefix_length in Hpk'; lia).
        assert (L0 : linked V0).
        { apply linked_insert; [exact HL2|exact Hppnib|exact Hpplen|]. split; [reflexivity|]. split; [reflexivity|].
          intros i c Hi Hx. apply elem_of_list_lookup_2, elem_of_list_In, repeat_spec in Hi. subst c. discriminate. }
        assert (T1 : pp ++ suf1 = np) by (eapply slice_from_join; [exact Hpn'|exact S1]).
        assert (T2 : pp ++ suf2 = k) by (eapply slice_from_join; [exact Hpk'|exact S2]).
        assert (L1 : linked (<[pp := Branch pp cs1]> V0)).
        { eapply linked_child; [exact L0|apply lookup_insert|exact P1|]. rewrite T1. unfold V0.
          do 2 (apply lookup_insert_is_Some'; right). exact Hnpin. }
        unfold V0 in L1. rewrite insert_insert in L1.
        unfold V4. rewrite <- (insert_insert _ pp (Branch pp cs2) (Branch pp cs1)).
        eapply linked_child; [exact L1|apply lookup_insert|exact P2|]. rewrite T2.
        apply lookup_insert_is_Some'; right. rewrite lookup_insert. eauto. }
      split.
      { eapply okay_intro; [exact Hlay4|exact Hsim4|exact Hsuf4| |exact HL4|exact HR4].
        eapply (again_split N V k (Leaf k v) (Branch pp cs2) np ppath); try eassumption. right. reflexivity. }
      destruct (pre_next pp k Hpk' Hppk) as (d & Hd).
      assert (Hnd : nib d) by (eapply snoc_nibble; eassumption).
      destruct (PutChild_ok cs1 pp d k zeroHash (proj1 Hsh1) Hnd Hd) as (P3 & S3).
      rewrite S2 in S3. injection S3 as S3. rewrite S2 in P3. cbn [bind] in P3. rewrite P2 in P3. injection P3 as P3.
      assert (HV4 : V4 !! pp = Some (Branch pp cs2)) by apply lookup_insert.
      assert (Hc4d : cs2 !! Z.to_nat d = Some (Child (drop (length pp) k) zeroHash true)).
      { rewrite P3. apply list_lookup_insert. rewrite (proj1 Hsh1). unfold nib in Hnd. lia. }
      assert (Hs4 : pp ++ c_suffix (Child (drop (length pp) k) zeroHash true) = k) by (apply drop_pre, Hpk').
      assert (Hppin : forall q, q ∈ ppath -> pp <> q).
      { intros q Hq E. rewrite E in Hppn. apply Hppn, (chain_in N k ppath np q Hch Hq). }
      eapply (again_invalidate N k v Hg Hv Hk40 Hk ppath path s4 V4 pp [pp]); try assumption.
      + eapply Forall2_at_path_mono; [exact Hat2|]. intros q Hq. apply Hother4. intros ->. apply (Hppin pp Hq). reflexivity.
      + eapply pre_nibble; [exact Hpk'|exact Hk].
      + eapply chain_last; [exact Hk|exact Hc4|exact Hch4|exact Hd|exact HV4|exact Hc4d|reflexivity|exact Hs4].
      + cbn [leads]. eexists cs2, _, d. split; [exact HV4|]. split; [exact Hd|]. split; [exact Hc4d|].
        split; [reflexivity|]. split; [exact Hs4|reflexivity].
      + eapply leads_tail. eapply leads_ext; [|exact Hlead]. intros q Hq. unfold V4.
        rewrite !lookup_insert_ne; [reflexivity|apply Hkp, Hq|apply Hppin, Hq].
  Qed.

  Lemma okay_PutEntry M u k v w : keys20 M -> addr20 k -> okay (by_path M) (KeyToNibbles k) u ->
    GetEntry u k = Ok (Some v) -> w <> [] -> w <> v ->
    exists s2, PutEntry H u k w = Ok (s2, true) /\ inv H s2 (spec_put M (k, w)).
  Proof.
    intros Hm Hk (Hlay & Hsim & Hsuf & Hagain & _) Er Hw Hne. pose proof Hk as (Hl & Hok).
    pose proof (sim_updateEntry u (view u) k w Hsim Hsuf Hok) as Hr.
    destruct (Hagain w Hw) as (V1 & E1 & Hl1).
    assert (Ep : pupdateEntry (view u) k w = Ok (V1, true)).
    { rewrite (sim_GetEntry u _ k Hsim) in Er. unfold pGetEntry in Er. unfold pupdateEntry.
      destruct (view u !! KeyToNibbles k) as [[p cs|p v']|]; try discriminate. injection Er as ->.
      rewrite (proj2 (bytes_eqb_neq v w)) by congruence. rewrite E1. reflexivity. }
    rewrite Ep in Hr. destruct (updateEntry u k w) as [(s1 & b)|e| |] eqn:E; cbn in Hr; try contradiction. destruct Hr as (Hsim1 & ->).
    assert (Hr1 : ready H (by_path (spec_put M (k, w))) s1).
    { split; [eapply ready_layers; [|exact Hlay|exact E]; exact (proj1 (proj2 (proj1 Hsim)))|].
      pose proof (proj2 Hsim1) as HV. split; [eapply sim_self, Hsim1|]. rewrite HV, by_path_put, <- nibs_key by exact Hok.
      unfold spec_put. cbn [fst snd]. destruct w; [contradiction|]. exact Hl1. }
    destruct (ready_hashes _ s1 (keys20_put M k w Hm Hk) Hr1) as (s2 & h & E2 & Hi).
    exists s2. unfold PutEntry. rewrite E. cbn [bind]. rewrite E2. cbn [bind]. auto.
  Qed.

  Lemma updating_okay s M k v u : inv H s M -> addr20 k -> v <> [] -> u ∈ (t_updateEntry s k v).1 -> okay (by_path M) (KeyToNibbles k) u.
  Proof.
    intros (Hm & Hlay & V & Hsim & Hc) (Hl & Hok) Hv Hu. destruct (KeyToNibbles_key k Hok Hl) as (Hk40 & Hkn).
    assert (HF : Forall (okay (by_path M) (KeyToNibbles k)) (t_update tree_fuel s [] (KeyToNibbles k) v []).1).
    { eapply again_update; try eassumption; [apply keys20_good, Hm| |]; constructor. }
    assert (Hgo : u ∈ (let* s' := t_update tree_fuel s [] (KeyToNibbles k) v [] in lift (Ok (s', true))).1 -> okay (by_path M) (KeyToNibbles k) u).
    { intros Hx. unfold sbind in Hx. destruct (t_update tree_fuel s [] (KeyToNibbles k) v []) as (l & [a|e| |]); cbn in *;
        rewrite ?app_nil_r in Hx; rewrite Forall_forall in HF; apply HF, Hx. }
    unfold t_updateEntry in Hu. destruct (GetNode (sto s) (KeyToNibbles k)) as [l|].
    - destruct (heap s !! l) as [[p cs|p w]|]; [apply Hgo, Hu| |apply Hgo, Hu].
      destruct (bytes_eqb w v); [inversion Hu|apply Hgo, Hu].
    - destruct v; [inversion Hu|apply Hgo, Hu].
  Qed.

  Lemma other_value s M k v w u : inv H s M -> addr20 k -> v <> [] -> w <> [] -> w <> v -> u ∈ (t_PutEntry H s k v).1 ->
    exists s2, PutEntry H u k w = Ok (s2, true) /\ inv H s2 (spec_put M (k, w)).
  Proof.
    intros Hi Hk Hv Hw Hne Hu. pose proof (steps_read H s M k v Hi Hk) as HF. rewrite Forall_forall in HF.
    destruct (HF u Hu) as (_ & o & Eo & Ho).
    assert (Er : GetEntry u k = Ok (Some v)) by (destruct o as [x|]; cbn in Ho; subst; [exact Eo|contradiction]).
    assert (Hx : u ∈ (t_updateEntry s k v).1 \/ exists s1 b, updateEntry s k v = Ok (s1, b) /\ u ∈ (t_updateHashes H tree_fuel s1 []).1).
    { unfold t_PutEntry, sbind in Hu. pose proof (t_updateEntry_2 s k v) as E2.
      destruct (t_updateEntry s k v) as (l & [(s1 & b)|e| |]); cbn [fst snd] in Hu, E2 |- *; [|left; exact Hu..].
      apply elem_of_app in Hu as [Hu|Hu]; [left; exact Hu|right]. exists s1, b. split; [symmetry; exact E2|].
      destruct (t_updateHashes H tree_fuel s1 []) as (l2 & [(s2 & h)|e| |]); cbn [fst snd] in Hu |- *; rewrite ?app_nil_r in Hu; exact Hu. }
    destruct Hx as [Hx|(s1 & b & E1 & Hx)].
    - apply (okay_PutEntry M u k v w (proj1 Hi) Hk); [|exact Er|exact Hw|exact Hne].
      exact (updating_okay s M k v u Hi Hk Hv Hx).
    - assert (Hm : keys20 (spec_put M (k, v))) by (apply keys20_put; [apply Hi|exact Hk]).
      destruct (ready_PutEntry _ u k w Hm (hashing_ready s M k v s1 b u Hi Hk E1 (or_intror Hx)) Hk) as (s2 & E2 & Hi2).
      exists s2. unfold spec_put in Hi2, E2. cbn [fst snd] in Hi2, E2.
      destruct v as [|v0 v]; [contradiction|]. destruct w as [|w0 w]; [contradiction|]. rewrite lookup_insert in E2.
      change (default [] (Some (v0 :: v))) with (v0 :: v) in E2. rewrite (proj2 (bytes_eqb_neq (v0 :: v) (w0 :: w))) in E2 by congruence.
      rewrite insert_insert in Hi2. unfold spec_put. cbn [fst snd]. auto.
  Qed.

  Lemma inv_run hist : forall s M, inv H s M -> Forall (fun kv => addr20 kv.1) hist ->
    exists s', run H s hist = Ok s' /\ Hash H s' = Ok (merkle_root H (foldl spec_put M hist)) /\
      forall a, addr20 a -> GetEntry s' a = Ok (foldl spec_put M hist !! a).
  Proof.
    induction hist as [|(k & v) hist IH]; intros s M Hi Hh; cbn [run foldl].
    - exists s. split; [reflexivity|]. split; [apply inv_Hash, Hi|]. intros a Ha; apply (inv_GetEntry H), Ha; exact Hi.
    - apply Forall_cons in Hh as (Ha & Hh). destruct (inv_PutEntry H s M k v Hi Ha) as (s2 & E2 & Hi2). rewrite E2. cbn [bind].
      apply IH; assumption.
  Qed.
End WithHash.
