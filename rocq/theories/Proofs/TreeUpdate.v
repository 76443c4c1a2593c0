(** The pure update inserts, replaces and deletes exactly one entry. *)
From Coq Require Import ZArith List Lia Bool.
From stdpp Require Import gmap list.
From Verif.Model Require Import Base Address Nibbles Tree.
From Verif.Spec Require Import TreeSpec.
From Verif.Proofs Require Import BaseFacts NibblesFacts TreeSim TreeTrie TreeCanon.
Open Scope Z_scope.

Section WithHash.
  Variable H : bytes -> bytes.
  Variable slack : Prop.
  Variable B : nibbles -> Prop.

  Lemma key_node N k : good N -> length k = 40%nat -> is_node N k -> is_Some (N !! k).
  Proof. clear H slack B.
    intros Hg Hl [->|[Hs|Hb]]; [discriminate|exact Hs|].
    exfalso. eapply full_not_branching; eassumption.
  Qed.

  Lemma short_none N p k d : good N -> length k = 40%nat -> p ++ [d] `prefix_of` k -> N !! p = None.
  Proof. clear H slack B.
    intros Hg Hl Hd. destruct (N !! p) as [v|] eqn:E; [|reflexivity].
    apply Hg in E as (E & _). apply pre_snoc_len in Hd. lia.
  Qed.

  Lemma snoc_pre (p q : nibbles) d : p ++ [d] `prefix_of` q -> p <> q.
  Proof. clear H slack B. intros Hd ->. apply pre_snoc_not in Hd. exact Hd. Qed.

  (** A freshly written child. *)
  Lemma new_child_dirty N k p d q i c cs :
    length cs = 16%nat -> nib d -> p ++ [d] `prefix_of` k -> has N (p ++ [d]) -> link N (p ++ [d]) q ->
    (forall i c, i <> Z.to_nat d -> cs !! i = Some c -> gdirty_q H slack B N k p i c) ->
    <[Z.to_nat d := Child (drop (length p) q) zeroHash true]> cs !! i = Some c -> gdirty_q H slack B N k p i c.
  Proof.
    intros Hl Hd Hpk Hh Hlk Hother Hic. destruct (decide (i = Z.to_nat d)) as [->|Hi].
    - rewrite list_lookup_insert in Hic by (unfold nib in Hd; lia). injection Hic as <-.
      unfold gdirty_q, link_ok, child_path. cbn [c_exists c_suffix c_hash].
      rewrite to_of_nibble by exact Hd. rewrite drop_pre by (eapply pre_snoc, Hlk).
      split; [split; [split; auto|auto]|]. intros _. split; [auto|]. intros Hn. contradiction.
    - rewrite list_lookup_insert_ne in Hic by congruence. apply Hother; assumption.
  Qed.

  (** Case "child does not exist": tree.go:125-136. *)
  Lemma insert_child_pre N V k v p d path cs :
    good N -> length k = 40%nat -> Forall nib k -> v <> [] ->
    canon N (gclean_q H slack B N) V -> chain N k path p -> p ++ [d] `prefix_of` k -> ~ has N (p ++ [d]) ->
    V !! p = Some (Branch p cs) -> length cs = 16%nat ->
    (forall i c, cs !! i = Some c -> gclean_q H slack B N p i c) ->
    canon (<[k := v]> N) (pre_q H slack B (<[k := v]> N) k path)
      (<[p := Branch p (<[Z.to_nat d := Child (drop (length p) k) zeroHash true]> cs)]> (<[k := Leaf k v]> V)).
  Proof.
    intros Hg Hk40 Hk Hv Hc Hch Hpd Hno HVp Hlen HQ.
    set (N' := <[k := v]> N).
    assert (Hg' : good N') by (apply insert_good; assumption).
    assert (Hpk : p `prefix_of` k) by (eapply pre_snoc, Hpd).
    assert (Hne : p <> k) by (eapply snoc_pre, Hpd).
    assert (Hch' : chain N' k path p) by (apply insert_chain; assumption).
    assert (Hdiff : differ N N' k) by apply insert_differ.
    assert (Hnd : nib d) by (eapply snoc_nibble; eassumption).
    apply (assemble H slack B N N' k V); [exact Hg|exact Hdiff|exact Hc| |].
    { intros q Hq. rewrite !lookup_insert_ne; [reflexivity|intros ->; apply Hq; reflexivity|intros ->; contradiction]. }
    intros q Hq. destruct (decide (p = q)) as [<-|Hqp].
    - rewrite lookup_insert. cbn [shape]. split; [reflexivity|].
      split; [eapply short_none; eassumption|].
      split. { apply node_internal; [exact Hg'|eapply chain_node, Hch'|eapply short_none; eassumption]. }
      split; [rewrite insert_length; exact Hlen|].
      intros i c Hic. right. eapply new_child_dirty; [exact Hlen|exact Hnd|exact Hpd| | | |exact Hic].
      + exists k, v. split; [apply lookup_insert|exact Hpd].
      + split; [exact Hpd|]. split; [right; left; exists v; apply lookup_insert|].
        intros k' v' Hk' Hpk'. destruct (decide (k = k')) as [<-|Hkk]; [reflexivity|].
        exfalso. apply Hno. exists k', v'. split; [|exact Hpk'].
        unfold N' in Hk'. rewrite lookup_insert_ne in Hk' by exact Hkk. exact Hk'.
      + intros j c' Hj Hc'. apply (clean_dirty H slack B N); [exact Hg|exact Hdiff| |apply HQ, Hc'].
        unfold child_path. intros Hp. apply Hj. assert (Z.of_nat j = d) as <- by (eapply pre_next_uniq; eassumption). lia.
    - rewrite lookup_insert_ne by exact Hqp. destruct (decide (k = q)) as [<-|Hqk].
      + rewrite lookup_insert. split; [reflexivity|apply lookup_insert].
      + rewrite lookup_insert_ne by exact Hqk.
        destruct (decide (q ∈ path)) as [Hin|Hnin].
        * eapply shape_path; [exact Hg|exact Hg'|exact Hdiff|exact Hk40|exact Hch'|exact Hin| |apply Hc].
          apply (chain_in N k path p q Hch Hin).
        * assert (Hn' : ~ is_node N' q).
          { destruct (pre_total q p k Hq Hpk) as [Hle|Hge].
            - eapply chain_gap; [exact Hg'|exact Hch'|exact Hle|congruence|exact Hnin|exact Hq].
            - intros Hn. destruct (pre_next p q Hge Hqp) as (d' & Hd').
              assert (d' = d) as -> by (eapply pre_next_uniq; [etrans; [exact Hd'|exact Hq]|exact Hpd]).
              destruct (pre_next q k Hq ltac:(congruence)) as (e & He).
              assert (Hnq : ~ has N q) by (intros Hh; apply Hno; eapply has_pre; eassumption).
              destruct (insert_node_inv N k v q e Hg Hk40 He Hn) as [Hn0|(j & _ & Hj)].
              + apply Hnq. apply node_has; [exact Hn0|]. intros ->. apply pre_snoc_len in Hd'. cbn in Hd'. lia.
              + apply Hnq. eapply has_pre; [|exact Hj]. eexists; reflexivity. }
          rewrite (canon_none N (gclean_q H slack B N) V q Hc); [exact Hn'|].
          intros Hn. apply Hn', insert_node, Hn.
  Qed.

  Lemma insert_child_ok N V k v p d path cs :
    good N -> length k = 40%nat -> Forall nib k -> v <> [] ->
    canon N (gclean_q H slack B N) V -> chain N k path p -> p ++ [d] `prefix_of` k -> ~ has N (p ++ [d]) ->
    V !! p = Some (Branch p cs) -> length cs = 16%nat ->
    (forall i c, cs !! i = Some c -> gclean_q H slack B N p i c) ->
    exists V', pinvalidate
        (<[p := Branch p (<[Z.to_nat d := Child (drop (length p) k) zeroHash true]> cs)]> (<[k := Leaf k v]> V)) p path
        = Ok V' /\ canon (<[k := v]> N) (gdirty_q H slack B (<[k := v]> N) k) V'.
  Proof.
    intros Hg Hk40 Hk Hv Hc Hch Hpd Hno HVp Hlen HQ. apply pinvalidate_ok; [apply insert_good; assumption|exact Hk|exact Hk40| |].
    - apply insert_child_pre; assumption.
    - apply insert_chain; [exact Hch|eapply pre_snoc, Hpd].
  Qed.

  Lemma CommonPrefix_props a b :
    let c := CommonPrefix a b in
    c `prefix_of` a /\ c `prefix_of` b /\ (forall r, r `prefix_of` a -> r `prefix_of` b -> r `prefix_of` c).
  Proof. clear H slack B.
    cbn zeta. destruct (CommonPrefix_prefix a b) as ((r1 & H1) & (r2 & H2)).
    split; [exists r1; exact H1|]. split; [exists r2; exact H2|].
    intros r (x1 & E1) (x2 & E2). destruct (CommonPrefix_greatest a b r x1 x2 E1 E2) as (y & Hy). exists y. exact Hy.
  Qed.

  (** Case "split": tree.go:82-97. *)
  Lemma split_pre N V k v np path :
    good N -> length k = 40%nat -> Forall nib k -> v <> [] ->
    canon N (gclean_q H slack B N) V -> chain N k path np -> ~ (np `prefix_of` k) ->
    let pp := CommonPrefix np k in
    exists suf1 cs1 suf2 cs2, slice_from np (length pp) = Ok suf1 /\ PutChild (repeat zero_child 16) suf1 zeroHash = Ok cs1 /\
      slice_from k (length pp) = Ok suf2 /\ PutChild cs1 suf2 zeroHash = Ok cs2 /\
      chain (<[k := v]> N) k path pp /\ ~ is_node N pp /\ pp <> k /\
      canon (<[k := v]> N) (pre_q H slack B (<[k := v]> N) k path) (<[pp := Branch pp cs2]> (<[k := Leaf k v]> V)).
  Proof.
    intros Hg Hk40 Hk Hv Hc Hch Hnp. cbn zeta.
    destruct (CommonPrefix_props np k) as (Hpn & Hpk & Hmax). set (pp := CommonPrefix np k) in *.
    set (N' := <[k := v]> N).
    inversion Hch as [|p1 d1 path1 np' Hch1 Hd1 Hh1 Hl1]; subst; [exfalso; apply Hnp, prefix_nil|].
    assert (Hpp1 : p1 ++ [d1] `prefix_of` pp) by (apply Hmax; [apply Hl1|exact Hd1]).
    assert (Hpnne : pp <> np) by (intros E; apply Hnp; rewrite <- E; exact Hpk).
    destruct (pre_next pp np Hpn Hpnne) as (e1 & He1).
    assert (HnpN : Forall nib np) by (apply (node_len N np Hg), (chain_node _ _ _ _ Hch)).
    assert (Hne1 : nib e1) by (eapply snoc_nibble; [exact He1|exact HnpN]).
    assert (HkN : N !! k = None).
    { destruct (N !! k) as [w|] eqn:E; [|reflexivity]. exfalso. apply Hnp.
      destruct Hl1 as (_ & _ & Hl1). eapply Hl1; [exact E|exact Hd1]. }
    assert (Hpkne : pp <> k).
    { intros E. apply Hpnne. apply pre_eq; [exact Hpn|].
      destruct (node_len N np Hg (chain_node _ _ _ _ Hch)) as (L & _). rewrite E. lia. }
    destruct (pre_next pp k Hpk Hpkne) as (e2 & He2).
    assert (Hne2 : nib e2) by (eapply snoc_nibble; [exact He2|exact Hk]).
    assert (He12 : e1 <> e2).
    { intros ->. apply (pre_snoc_not pp e2). apply Hmax; assumption. }
    assert (Hg' : good N') by (apply insert_good; assumption).
    assert (Hdiff : differ N N' k) by apply insert_differ.
    destruct (PutChild_ok (repeat zero_child 16) pp e1 np zeroHash (repeat_length _ _) Hne1 He1) as (P1 & S1).
    rewrite S1 in P1. cbn [bind] in P1. eexists _, _, _, _. split; [exact S1|]. split; [exact P1|]. clear P1 S1.
    set (cs1 := <[Z.to_nat e1 := _]> (repeat zero_child 16)).
    assert (Hl16 : length cs1 = 16%nat) by (subst cs1; rewrite insert_length; apply repeat_length).
    destruct (PutChild_ok cs1 pp e2 k zeroHash Hl16 Hne2 He2) as (P1 & S1).
    rewrite S1 in P1. cbn [bind] in P1. split; [exact S1|]. split; [exact P1|]. clear P1 S1.
    (* keys of N' on this side *)
    assert (Hkeys : forall k' w, N' !! k' = Some w -> p1 ++ [d1] `prefix_of` k' -> k' = k \/ (N !! k' = Some w /\ np `prefix_of` k')).
    { intros k' w Hk' Hp'. destruct (decide (k = k')) as [<-|Hkk]; [left; reflexivity|right].
      unfold N' in Hk'. rewrite lookup_insert_ne in Hk' by exact Hkk. split; [exact Hk'|].
      destruct Hl1 as (_ & _ & Hl1). eapply Hl1; eassumption. }
    assert (Hhnp : has N np).
    { apply node_has; [eapply chain_node, Hch|]. intros ->. apply Hnp, prefix_nil. }
    assert (Hhe1 : has N' (pp ++ [e1])) by (apply insert_has; eapply has_pre; [exact He1|exact Hhnp]).
    assert (Hhe2 : has N' (pp ++ [e2])) by (exists k, v; split; [apply lookup_insert|exact He2]).
    assert (Hbr : branching N' pp) by (exists e1, e2; auto).
    assert (Hlpp : link N' (p1 ++ [d1]) pp).
    { split; [exact Hpp1|]. split; [right; right; exact Hbr|]. intros k' w Hk' Hp'.
      destruct (Hkeys k' w Hk' Hp') as [->|(_ & Hn)]; [exact Hpk|]. etrans; [exact Hpn|exact Hn]. }
    assert (Hch' : chain N' k (p1 :: path1) pp).
    { econstructor; [apply insert_chain; [exact Hch1|eapply pre_snoc, Hd1]|exact Hd1|apply insert_has, Hh1|exact Hlpp]. }
    split; [exact Hch'|]. split.
    { eapply link_min; [exact Hg|exact Hl1|destruct p1; discriminate|exact Hpp1|exact Hpn|exact Hpnne]. }
    split; [exact Hpkne|].
    assert (Hppnp : ~ (np `prefix_of` pp)).
    { intros Hx. apply Hpnne. apply pre_antisym; assumption. }
    apply (assemble H slack B N N' k V); [exact Hg|exact Hdiff|exact Hc| |].
    { intros q Hq. rewrite !lookup_insert_ne; [reflexivity|intros ->; apply Hq; reflexivity|intros ->; contradiction]. }
    intros q Hq. destruct (decide (pp = q)) as [<-|Hqp].
    - rewrite lookup_insert. cbn [shape]. split; [reflexivity|].
      split; [eapply branching_not_key; eassumption|]. split; [right; exact Hbr|].
      split; [rewrite insert_length; exact Hl16|].
      intros i c Hic. right. eapply new_child_dirty; [exact Hl16|exact Hne2|exact He2|exact Hhe2| | |exact Hic].
      + split; [exact He2|]. split; [right; left; exists v; apply lookup_insert|].
        intros k' w Hk' Hp'. destruct (Hkeys k' w Hk') as [->|(_ & Hn)]; [|reflexivity|].
        { etrans; [exact Hpp1|eapply pre_snoc, Hp']. }
        exfalso. apply He12. eapply pre_next_uniq; [etrans; [exact He1|exact Hn]|exact Hp'].
      + intros j c' Hj Hc'. subst cs1. destruct (decide (j = Z.to_nat e1)) as [->|Hj1].
        * rewrite list_lookup_insert in Hc' by (rewrite repeat_length; unfold nib in Hne1; lia). injection Hc' as <-.
          unfold gdirty_q, link_ok, child_path. cbn [c_exists c_suffix c_hash].
          rewrite to_of_nibble by exact Hne1. rewrite drop_pre by exact Hpn.
          assert (Hlnp : link N' (pp ++ [e1]) np).
          { split; [exact He1|]. split; [apply insert_node, (chain_node _ _ _ _ Hch)|].
            intros k' w Hk' Hp'. destruct (Hkeys k' w Hk') as [->|(_ & Hn)]; [| |exact Hn].
            - etrans; [exact Hpp1|eapply pre_snoc, Hp'].
            - exfalso. apply He12. eapply pre_next_uniq; eassumption. }
          split; [split; [split; auto|auto]|]. intros _. split; [auto|]. intros _. right; left. auto.
        * rewrite list_lookup_insert_ne in Hc' by congruence.
          apply elem_of_list_lookup_2, elem_of_list_In, repeat_spec in Hc' as E. subst c'.
          assert (Hnoh : ~ has N' (child_path pp j)).
          { intros (k' & w & Hk' & Hp'). unfold child_path in Hp'.
            destruct (Hkeys k' w Hk') as [->|(_ & Hn)].
            - etrans; [exact Hpp1|eapply pre_snoc, Hp'].
            - apply Hj. assert (Z.of_nat j = e2) as <- by (eapply pre_next_uniq; eassumption). lia.
            - apply Hj1. assert (Z.of_nat j = e1) as <- by (eapply pre_next_uniq; [exact Hp'|etrans; [exact He1|exact Hn]]). lia. }
          unfold gdirty_q, link_ok, zero_child. cbn [c_exists c_suffix c_hash].
          split; [split; [split; [discriminate|intros Hx; contradiction]|discriminate]|discriminate].
    - rewrite lookup_insert_ne by exact Hqp. destruct (decide (k = q)) as [<-|Hqk].
      + rewrite lookup_insert. split; [reflexivity|apply lookup_insert].
      + rewrite lookup_insert_ne by exact Hqk.
        destruct (decide (q ∈ p1 :: path1)) as [Hin|Hnin].
        * eapply shape_path; [exact Hg|exact Hg'|exact Hdiff|exact Hk40|exact Hch'|exact Hin| |apply Hc].
          apply (chain_in N k _ np q Hch Hin).
        * assert (Hn' : ~ is_node N' q).
          { destruct (pre_total q pp k Hq Hpk) as [Hle|Hge].
            - eapply chain_gap; [exact Hg'|exact Hch'|exact Hle|congruence|exact Hnin|exact Hq].
            - intros Hn. destruct (pre_next pp q Hge Hqp) as (d' & Hd').
              assert (d' = e2) as -> by (eapply pre_next_uniq; [etrans; [exact Hd'|exact Hq]|exact He2]).
              destruct (pre_next q k Hq ltac:(congruence)) as (e & He).
              assert (Hnq : ~ has N q).
              { intros (k' & w & Hk' & Hq'). apply He12.
                assert (Hn2 : np `prefix_of` k').
                { destruct Hl1 as (_ & _ & Hl1). eapply Hl1; [exact Hk'|]. etrans; [exact Hpp1|]. etrans; [exact Hge|exact Hq']. }
                eapply pre_next_uniq; [etrans; [exact He1|exact Hn2]|etrans; [exact Hd'|exact Hq']]. }
              destruct (insert_node_inv N k v q e Hg Hk40 He Hn) as [Hn0|(j & _ & Hj)].
              + apply Hnq. apply node_has; [exact Hn0|]. intros ->. apply pre_snoc_len in Hd'. cbn in Hd'. lia.
              + apply Hnq. eapply has_pre; [|exact Hj]. eexists; reflexivity. }
          rewrite (canon_none N (gclean_q H slack B N) V q Hc); [exact Hn'|].
          intros Hn. apply Hn', insert_node, Hn.
  Qed.

  Lemma split_ok N V k v np path :
    good N -> length k = 40%nat -> Forall nib k -> v <> [] ->
    canon N (gclean_q H slack B N) V -> chain N k path np -> ~ (np `prefix_of` k) ->
    exists V', (let pp := CommonPrefix np k in
        let? suf1 := slice_from np (length pp) in
        let? cs1 := PutChild (repeat zero_child 16) suf1 zeroHash in
        let? suf2 := slice_from k (length pp) in
        let? cs2 := PutChild cs1 suf2 zeroHash in
        pinvalidate (<[pp := Branch pp cs2]> (<[k := Leaf k v]> V)) pp path) = Ok V' /\
      canon (<[k := v]> N) (gdirty_q H slack B (<[k := v]> N) k) V'.
  Proof.
    intros Hg Hk40 Hk Hv Hc Hch Hnp. cbn zeta.
    destruct (split_pre N V k v np path Hg Hk40 Hk Hv Hc Hch Hnp) as (suf1 & cs1 & suf2 & cs2 & -> & E1 & -> & E2 & Hch' & _ & _ & Hc').
    cbn [bind]. rewrite E1. cbn [bind]. rewrite E2. cbn [bind].
    apply pinvalidate_ok; [apply insert_good; assumption|exact Hk|exact Hk40|exact Hc'|exact Hch'].
  Qed.

  (** Case "replace": tree.go:105-112. *)
  Lemma replace_pre N V k v path :
    good N -> length k = 40%nat -> Forall nib k -> v <> [] -> is_Some (N !! k) ->
    canon N (gclean_q H slack B N) V -> chain N k path k ->
    canon (<[k := v]> N) (pre_q H slack B (<[k := v]> N) k path) (<[k := Leaf k v]> V).
  Proof.
    intros Hg Hk40 Hk Hv Hs Hc Hch. set (N' := <[k := v]> N).
    assert (Hg' : good N') by (apply insert_good; assumption).
    assert (Hdiff : differ N N' k) by apply insert_differ.
    assert (Hch' : chain N' k path k) by (apply insert_chain; [assumption|reflexivity]).
    apply (assemble H slack B N N' k V); [exact Hg|exact Hdiff|exact Hc| |].
    { intros q Hq. rewrite lookup_insert_ne; [reflexivity|intros ->; apply Hq; reflexivity]. }
    intros q Hq. destruct (decide (k = q)) as [<-|Hqk].
    - rewrite lookup_insert. split; [reflexivity|apply lookup_insert].
    - rewrite lookup_insert_ne by exact Hqk.
      destruct (decide (q ∈ path)) as [Hin|Hnin].
      + eapply shape_path; [exact Hg|exact Hg'|exact Hdiff|exact Hk40|exact Hch'|exact Hin| |apply Hc].
        apply (chain_in N k path k q Hch Hin).
      + rewrite (canon_none N (gclean_q H slack B N) V q Hc).
        * eapply chain_gap; [exact Hg'|exact Hch'|exact Hq|congruence|exact Hnin|exact Hq].
        * eapply chain_gap; [exact Hg|exact Hch|exact Hq|congruence|exact Hnin|exact Hq].
  Qed.

  Lemma replace_ok N V k v path :
    good N -> length k = 40%nat -> Forall nib k -> v <> [] -> is_Some (N !! k) ->
    canon N (gclean_q H slack B N) V -> chain N k path k ->
    exists V', pinvalidate (<[k := Leaf k v]> V) k path = Ok V' /\
      canon (<[k := v]> N) (gdirty_q H slack B (<[k := v]> N) k) V'.
  Proof.
    intros Hg Hk40 Hk Hv Hs Hc Hch. apply pinvalidate_ok; [apply insert_good; assumption|exact Hk|exact Hk40| |].
    - apply replace_pre; assumption.
    - apply insert_chain; [exact Hch|reflexivity].
  Qed.

  (** *** Deletion: tree.go:101-104 and 156-188 *)
  Lemma filter_nil_lookup {A} (P : A -> Prop) `{!forall x, Decision (P x)} l i a :
    filter P l = [] -> l !! i = Some a -> P a -> False.
  Proof.
    intros Hf Hi Ha. apply elem_of_list_lookup_2 in Hi.
    assert (Hin : a ∈ filter P l) by (apply elem_of_list_filter; auto). rewrite Hf in Hin. inversion Hin.
  Qed.
  Lemma filter_one_lookup {A} (P : A -> Prop) `{!forall x, Decision (P x)} l : forall x i j a b,
    filter P l = [x] -> l !! i = Some a -> P a -> l !! j = Some b -> P b -> i = j.
  Proof.
    induction l as [|y l IH]; intros x i j a b; [discriminate|]. rewrite filter_cons.
    case_decide as Hy.
    - intros Hf. injection Hf as _ Hf. destruct i as [|i], j as [|j]; cbn; intros H1 H2 H3 H4; [reflexivity| | |];
        exfalso; eapply filter_nil_lookup; eassumption.
    - intros Hf. destruct i as [|i], j as [|j]; cbn; intros H1 H2 H3 H4; [reflexivity|congruence|congruence|].
      f_equal. eapply IH; eassumption.
  Qed.
  Lemma filter_in_lookup {A} (P : A -> Prop) `{!forall x, Decision (P x)} l x r :
    filter P l = x :: r -> exists i, l !! i = Some x /\ P x.
  Proof.
    intros Hf. assert (Hin : x ∈ filter P l) by (rewrite Hf; left).
    apply elem_of_list_filter in Hin as (Hx & Hin). apply elem_of_list_lookup in Hin as (i & Hi). eauto.
  Qed.
  Lemma filter_two_lookup {A} (P : A -> Prop) `{!forall x, Decision (P x)} l : forall x y r,
    filter P l = x :: y :: r -> exists i j a b, i <> j /\ l !! i = Some a /\ P a /\ l !! j = Some b /\ P b.
  Proof.
    induction l as [|z l IH]; intros x y r; [discriminate|]. rewrite filter_cons. case_decide as Hz.
    - intros Hf. injection Hf as -> Hf. apply filter_in_lookup in Hf as (j & Hj & Hy).
      exists 0%nat, (S j), x, y. auto.
    - intros Hf. apply IH in Hf as (i & j & a & b & Hij & H1 & H2 & H3 & H4).
      exists (S i), (S j), a, b. auto.
  Qed.

  Lemma lookup_next (p k : nibbles) d : p ++ [d] `prefix_of` k -> k !! length p = Some d.
  Proof. clear H slack B.
    intros (r & ->). rewrite <- app_assoc. rewrite lookup_app_r by lia. rewrite Nat.sub_diag. reflexivity.
  Qed.

  Lemma delete_ok N V k path :
    good N -> length k = 40%nat -> Forall nib k -> is_Some (N !! k) ->
    canon N (gclean_q H slack B N) V -> chain N k path k ->
    exists V', pprune (delete k V) k path = Ok V' /\
      canon (delete k N) (gdirty_q H slack B (delete k N) k) V'.
  Proof.
    intros Hg Hk40 Hk Hs Hc Hchk. set (N' := delete k N).
    inversion Hchk as [|p d path1 q Hch Hd Hh Hl]; subst; [discriminate|].
    assert (Hg' : good N') by (apply delete_good, Hg).
    assert (Hdiff : differ N N' k) by apply delete_differ.
    assert (Hnd : nib d) by (eapply snoc_nibble; eassumption).
    assert (HNp : N !! p = None) by (eapply short_none; eassumption).
    assert (HNp' : N' !! p = None) by (eapply (short_none N'); eassumption).
    assert (Hpk : p `prefix_of` k) by (eapply pre_snoc, Hd).
    assert (Hne : p <> k) by (eapply snoc_pre, Hd).
    assert (Hpnode : is_node N p) by (eapply chain_node, Hch).
    destruct (canon_branch N _ V p Hg Hc Hpnode HNp) as (cs & HV & Hlen & HQ).
    cbn [pprune]. unfold get_branch. rewrite lookup_delete_ne by congruence. rewrite HV. cbn [bind].
    rewrite index_lookup, (lookup_next p k d Hd). cbn [bind]. rewrite index_lookup.
    destruct (lookup_lt_is_Some_2 cs (Z.to_nat d)) as (c & Hcd); [unfold nib in Hnd; lia|].
    rewrite Hcd. cbn [bind].
    set (cs' := <[Z.to_nat d := Child (c_suffix c) (c_hash c) false]> cs).
    assert (Hlen' : length cs' = 16%nat) by (subst cs'; rewrite insert_length; exact Hlen).
    assert (Hnohas : ~ has N' (p ++ [d])).
    { intros (k' & w & Hk' & Hp'). apply lookup_delete_Some in Hk' as (Hkk & Hk').
      apply Hkk. apply pre_eq; [|apply Hg in Hk' as (L & _); lia].
      destruct Hl as (_ & _ & Hl). eapply Hl; eassumption. }
    assert (Hdirty : forall i c0, cs' !! i = Some c0 -> gdirty_q H slack B N' k p i c0).
    { intros i c0 Hi. subst cs'. destruct (decide (i = Z.to_nat d)) as [->|Hid].
      - rewrite list_lookup_insert in Hi by (unfold nib in Hnd; lia). injection Hi as <-.
        unfold gdirty_q, link_ok, child_path. cbn [c_exists]. rewrite to_of_nibble by exact Hnd.
        split; [split; [split; [discriminate|intros Hx; contradiction]|discriminate]|discriminate].
      - rewrite list_lookup_insert_ne in Hi by congruence.
        apply (clean_dirty H slack B N); [exact Hg|exact Hdiff| |apply HQ, Hi].
        unfold child_path. intros Hp. apply Hid. assert (Z.of_nat i = d) as <- by (eapply pre_next_uniq; eassumption). lia. }
    assert (Hchild : forall j, has N' (p ++ [j]) -> exists c0, cs' !! Z.to_nat j = Some c0 /\ c_exists c0 = true /\
              Z.of_nat (Z.to_nat j) = j).
    { intros j Hj. destruct (good_has_len N' _ Hg' Hj) as (_ & Hn). apply Forall_app in Hn as (_ & Hn).
      inversion Hn as [|? ? Hj16 _]; subst.
      destruct (lookup_lt_is_Some_2 cs' (Z.to_nat j)) as (c0 & Hc0); [unfold nib in Hj16; lia|].
      exists c0. split; [exact Hc0|]. split; [|apply to_of_nibble, Hj16].
      apply (proj1 (Hdirty _ _ Hc0)). unfold child_path. rewrite to_of_nibble by exact Hj16. exact Hj. }
    (* what holds of the other nodes on the path *)
    assert (Hothers : forall t V1, chain N' k path1 t ->
        (forall q, q <> k -> q <> p -> V1 !! q = V !! q) -> V1 !! k = None ->
        shape N' (pre_q H slack B N' k path1) p (V1 !! p) -> canon N' (pre_q H slack B N' k path1) V1).
    { intros t V1 Ht Hother Hk0 Hp0. apply (assemble H slack B N N' k V); [exact Hg|exact Hdiff|exact Hc| |].
      - intros q Hq. apply Hother; intros ->; [apply Hq; reflexivity|contradiction].
      - intros q Hq. destruct (decide (q = k)) as [->|Hqk].
        { rewrite Hk0. cbn [shape]. intros Hn. apply (key_node N' k Hg' Hk40) in Hn.
          unfold N' in Hn. rewrite lookup_delete in Hn. destruct Hn; discriminate. }
        destruct (decide (q = p)) as [->|Hqp]; [exact Hp0|].
        rewrite Hother by assumption. destruct (decide (q ∈ path1)) as [Hin|Hnin].
        + eapply shape_path; [exact Hg|exact Hg'|exact Hdiff|exact Hk40|exact Ht|exact Hin| |apply Hc].
          apply (chain_in N k path1 p q Hch Hin).
        + assert (Hn : ~ is_node N q).
          { eapply chain_gap; [exact Hg|exact Hchk|exact Hq|exact Hqk| |exact Hq].
            apply not_elem_of_cons. auto. }
          rewrite (canon_none N _ V q Hc Hn). intros Hn'. apply Hn. eapply delete_node, Hn'. }
    (* the branch stays *)
    assert (Hkeep : p = [] \/ branching N' p ->
      exists V', pinvalidate (<[p := Branch p cs']> (delete k V)) p path1 = Ok V' /\ canon N' (gdirty_q H slack B N' k) V').
    { intros Hb. assert (Hn' : is_node N' p) by (destruct Hb as [->|Hb]; [left; reflexivity|right; right; exact Hb]).
      assert (Ht : chain N' k path1 p).
      { apply (delete_chain N k path1 p); [exact Hg|exact Hk40|exact Hch| | |].
        - intros Hp0. apply node_has; [exact Hn'|]. intros ->. apply Hp0. eapply chain_root_inv, Hch.
        - intros ->. eapply chain_nil_inv, Hch.
        - intros r Hr (L1 & _ & L3). split; [exact L1|]. split; [exact Hn'|].
          intros k' w Hk'. apply lookup_delete_Some in Hk' as (_ & Hk'). eapply L3, Hk'. }
      apply pinvalidate_ok; [exact Hg'|exact Hk|exact Hk40| |exact Ht].
      eapply Hothers; [exact Ht| | |].
      - intros q Hqk Hqp. rewrite lookup_insert_ne, lookup_delete_ne by congruence. reflexivity.
      - rewrite lookup_insert_ne, lookup_delete by congruence. reflexivity.
      - rewrite lookup_insert. cbn [shape]. split; [reflexivity|]. split; [exact HNp'|]. split; [exact Hb|].
        split; [exact Hlen'|]. intros i c0 Hi. right. apply Hdirty, Hi. }
    destruct (filter (fun c => c_exists c = true) cs') as [|only [|x y]] eqn:Ef.
    - (* no child left *)
      case_bool_decide as Hp0.
      + apply Hkeep. left. apply length_zero_iff_nil, Hp0.
      + exfalso. destruct (node_internal N p Hg Hpnode HNp) as [->|(i & j & Hij & Hi & Hj)]; [apply Hp0; reflexivity|].
        assert (Hoff : forall i, i <> d -> has N (p ++ [i]) -> False).
        { intros i' Hi' Hhi. destruct (Hchild i') as (c0 & Hc0 & Hx & _).
          - apply delete_has_off; [|exact Hhi]. intros Hp. apply Hi'. eapply pre_next_uniq; eassumption.
          - eapply (filter_nil_lookup (fun c => c_exists c = true)); [exact Ef|exact Hc0|exact Hx]. }
        destruct (decide (i = d)) as [->|Hid]; [eapply (Hoff j); [congruence|exact Hj]|eapply (Hoff i); [exact Hid|exact Hi]].
    - (* one child left *)
      case_bool_decide as Hp0; [|apply Hkeep; left; destruct p; [reflexivity|cbn in Hp0; lia]].
      destruct (filter_in_lookup (fun c => c_exists c = true) cs' only [] Ef) as (i & Hi & Hx).
      destruct (Hdirty i only Hi) as ((Hex & Hlk) & _). specialize (Hlk Hx).
      assert (Hhi : has N' (child_path p i)) by (apply Hex, Hx).
      assert (Hone : forall j, has N' (p ++ [j]) -> j = Z.of_nat i).
      { intros j Hj. destruct (Hchild j Hj) as (c0 & Hc0 & Hx0 & Hjz).
        assert (Z.to_nat j = i) as <-.
        { eapply (filter_one_lookup (fun c => c_exists c = true)); [exact Ef|exact Hc0|exact Hx0|exact Hi|exact Hx]. }
        symmetry. exact Hjz. }
      assert (Ht : chain N' k path1 (p ++ c_suffix only)).
      { apply (delete_chain N k path1 p); [exact Hg|exact Hk40|exact Hch| | |].
        - intros _. eapply has_pre; [|exact Hhi]. eexists; reflexivity.
        - intros ->. apply chain_nil_inv in Hch. subst p. cbn in Hp0. lia.
        - intros r Hr (L1 & _ & L3). split; [etrans; [exact L1|eexists; reflexivity]|].
          split; [apply Hlk|]. intros k' w Hk' Hrk'.
          pose proof Hk' as Hk1. apply lookup_delete_Some in Hk1 as (_ & Hk1).
          assert (Hpk' : p `prefix_of` k') by (eapply L3; eassumption).
          assert (Hpne : p <> k') by (intros ->; congruence).
          destruct (pre_next p k' Hpk' Hpne) as (j & Hj).
          assert (j = Z.of_nat i) as -> by (apply Hone; exists k', w; auto).
          destruct Hlk as (_ & _ & L). eapply L; eassumption. }
      apply pinvalidate_ok; [exact Hg'|exact Hk|exact Hk40| |exact Ht].
      eapply Hothers; [exact Ht| | |].
      + intros q Hqk Hqp. rewrite lookup_delete_ne, lookup_insert_ne, lookup_delete_ne by congruence. reflexivity.
      + rewrite lookup_delete_ne, lookup_insert_ne, lookup_delete by congruence. reflexivity.
      + rewrite lookup_delete. cbn [shape]. intros Hn.
        destruct (node_internal N' p Hg' Hn HNp') as [->|(a & b & Hab & Ha & Hb)]; [cbn in Hp0; lia|].
        apply Hab. rewrite (Hone a Ha), (Hone b Hb). reflexivity.
    - (* at least two *)
      apply Hkeep. right. destruct (filter_two_lookup _ _ _ _ _ Ef) as (i & j & a & b & Hij & Hi & Ha & Hj & Hb).
      exists (Z.of_nat i), (Z.of_nat j). split; [lia|].
      split; [apply (proj1 (Hdirty i a Hi)), Ha|apply (proj1 (Hdirty j b Hj)), Hb].
  Qed.

  (** ** The whole update *)
  Lemma gpupdate_ok fuel : forall N V np k v path,
    good N -> length k = 40%nat -> Forall nib k -> (v <> [] \/ is_Some (N !! k)) ->
    canon N (gclean_q H slack B N) V -> chain N k path np -> (41 <= fuel + length np)%nat ->
    exists V', pupdate fuel V np k v path = Ok V' /\
      canon (spec_put N (k, v)) (gdirty_q H slack B (spec_put N (k, v)) k) V'.
  Proof.
    induction fuel as [|fuel IH]; intros N V np k v path Hg Hk40 Hk Hv Hc Hch Hfuel;
      pose proof (chain_node _ _ _ _ Hch) as Hnode; destruct (node_len N np Hg Hnode) as (Hnl & _); [lia|].
    cbn [pupdate]. unfold spec_put. cbn [fst snd].
    destruct (PrefixOf np k) eqn:Epre; cbn [negb].
    - apply PrefixOf_prefix in Epre. destruct (bytes_eqb np k) eqn:Eeq.
      + apply bytes_eqb_eq in Eeq. subst np. pose proof (key_node N k Hg Hk40 Hnode) as Hs.
        destruct v as [|v0 v]; [apply delete_ok; assumption|].
        apply replace_ok; try assumption. discriminate.
      + apply bytes_eqb_neq in Eeq.
        destruct (pre_next np k Epre Eeq) as (d & Hd).
        assert (HNp : N !! np = None) by (eapply short_none; eassumption).
        assert (Hnd : nib d) by (eapply snoc_nibble; eassumption).
        destruct (canon_branch N _ V np Hg Hc Hnode HNp) as (cs & HV & Hlen & HQ).
        unfold get_branch. rewrite HV. cbn [bind].
        rewrite index_lookup, (lookup_next np k d Hd). cbn [bind]. rewrite index_lookup.
        destruct (lookup_lt_is_Some_2 cs (Z.to_nat d)) as (c & Hcd); [unfold nib in Hnd; lia|].
        rewrite Hcd. cbn [bind].
        destruct (HQ _ _ Hcd) as ((Hex & Hlk) & _). unfold child_path in Hex, Hlk.
        rewrite to_of_nibble in Hex, Hlk by exact Hnd.
        destruct (c_exists c) eqn:Ex.
        * apply (IH N); try assumption.
          -- econstructor; [exact Hch|exact Hd|apply Hex; reflexivity|apply Hlk; reflexivity].
          -- destruct (Hlk eq_refl) as (L & _). apply pre_snoc_len in L. lia.
        * assert (Hno : ~ has N (np ++ [d])) by (intros Hh; apply Hex in Hh; discriminate).
          assert (Hv' : v <> []).
          { destruct Hv as [Hv|(w & Hw)]; [exact Hv|]. exfalso. apply Hno. exists k, w. auto. }
          destruct (PutChild_ok cs np d k zeroHash Hlen Hnd Hd) as (P1 & S1).
          rewrite S1 in P1 |- *. cbn [bind] in P1 |- *. rewrite P1. cbn [bind].
          destruct v as [|v0 v]; [contradiction|].
          apply insert_child_ok; assumption.
    - assert (Hnp : ~ (np `prefix_of` k)).
      { intros Hp. apply PrefixOf_prefix in Hp. congruence. }
      assert (Hv' : v <> []).
      { destruct Hv as [Hv|(w & Hw)]; [exact Hv|]. exfalso.
        inversion Hch as [|p1 d1 path1 np' Hch1 Hd1 Hh1 (_ & _ & Hl1)]; subst; [apply Hnp, prefix_nil|].
        apply Hnp. eapply Hl1; eassumption. }
      destruct v as [|v0 v]; [contradiction|].
      apply split_ok; assumption.
  Qed.
End WithHash.

Lemma clean_gclean H slack N p i c : clean_q H N p i c -> gclean_q H slack (fun _ => True) N p i c.
Proof. intros (Hl & Hh). split; [exact Hl|]. intros Hx. left. split; [apply Hh, Hx|exact I]. Qed.
Lemma gdirty_dirty H N k p i c : gdirty_q H False (fun _ => True) N k p i c -> dirty_q H N k p i c.
Proof.
  intros (Hl & Hh). split; [exact Hl|]. intros Hx. destruct (Hh Hx) as (H1 & H2). split; [exact H1|].
  intros Hp. destruct (H2 Hp) as [(E & _)|[E|([] & _)]]; auto.
Qed.
Lemma pupdate_ok H fuel N V np k v path :
  good N -> length k = 40%nat -> Forall nib k -> (v <> [] \/ is_Some (N !! k)) ->
  canon N (clean_q H N) V -> chain N k path np -> (41 <= fuel + length np)%nat ->
  exists V', pupdate fuel V np k v path = Ok V' /\
    canon (spec_put N (k, v)) (dirty_q H (spec_put N (k, v)) k) V'.
Proof.
  intros Hg Hk40 Hk Hv Hc Hch Hf.
  destruct (gpupdate_ok H False (fun _ => True) fuel N V np k v path) as (V' & E & Hd); try assumption.
  - intros p. eapply shape_mono; [|apply Hc]. intros i c. apply clean_gclean.
  - exists V'. split; [exact E|]. intros p. eapply shape_mono; [|apply Hd]. intros i c. apply gdirty_dirty.
Qed.
