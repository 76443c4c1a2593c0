(** updateHashes brings every hash up to date. *)
From Coq Require Import ZArith List Lia Bool.
From stdpp Require Import gmap list.
From Verif.Model Require Import Base Address Nibbles Tree.
From Verif.Spec Require Import TreeSpec.
From Verif.Proofs Require Import BaseFacts NibblesFacts TreeSim TreeTrie TreeCanon TreeUpdate.
Open Scope Z_scope.

Section WithHash.
  Variable H : bytes -> bytes.

  Lemma w8_small z : 0 <= z < 256 -> w8 z = z.
  Proof. intros Hz. unfold w8, two8. apply Z.mod_small, Hz. Qed.

  Lemma hexs_ok l : Forall nib l -> HexBytes l = Ok (hexs l).
  Proof. intros Hl. rewrite HexBytes_ok by exact Hl. reflexivity. Qed.

  Lemma children_bytes N q cs : forall i0, good N ->
    (forall j c, cs !! j = Some c -> clean_q H N q (i0 + j) c) ->
    let ds := filter (fun d => below N (q ++ [d]) <> ∅) (map Z.of_nat (seq i0 (length cs))) in
    children_marshal cs = Ok (flat_map (child_bytes H N q) ds) /\
    length (filter (fun c => c_exists c = true) cs) = length ds.
  Proof.
    induction cs as [|c cs IH]; intros i0 Hg Hq; [split; reflexivity|].
    cbn zeta. cbn [length seq map children_marshal]. rewrite !filter_cons.
    destruct (Hq 0%nat c eq_refl) as ((Hex & Hlk) & Hh). rewrite Nat.add_0_r in Hex, Hlk.
    assert (Hrest : forall j c0, cs !! j = Some c0 -> clean_q H N q (S i0 + j) c0).
    { intros j c0 Hj. replace (S i0 + j)%nat with (i0 + S j)%nat by lia. apply Hq. exact Hj. }
    destruct (IH (S i0) Hg Hrest) as (IH1 & IH2). cbn zeta in IH1, IH2.
    rewrite has_below in Hex. unfold child_path in Hex, Hlk.
    destruct (c_exists c) eqn:Ex.
    - rewrite (decide_True (P := true = true)) by reflexivity.
      rewrite decide_True by (apply Hex; reflexivity).
      specialize (Hlk eq_refl). specialize (Hh eq_refl).
      assert (Hhas : has N (q ++ [Z.of_nat i0])) by (apply has_below, Hex; reflexivity).
      assert (Ht : target N (q ++ [Z.of_nat i0]) = q ++ c_suffix c).
      { apply target_unique; [exact Hg|destruct q; discriminate|exact Hhas|exact Hlk]. }
      destruct (node_len N _ Hg (proj1 (proj2 Hlk))) as (Hl40 & Hnn).
      rewrite app_length in Hl40. apply Forall_app in Hnn as (_ & Hnn).
      rewrite hexs_ok by exact Hnn. cbn [bind]. rewrite IH1. cbn [bind]. split; [|cbn [length]; f_equal; exact IH2].
      cbn [flat_map]. unfold child_bytes at 2. rewrite Ht. cbn zeta. rewrite drop_app, Hh.
      unfold mh, len8, zlen. rewrite w8_small by lia.
      rewrite <- !app_assoc. reflexivity.
    - rewrite (decide_False (P := false = true)) by discriminate.
      rewrite decide_False by (intros Hx; apply Hex in Hx; discriminate).
      split; assumption.
  Qed.

  Lemma branch_bytes N q cs : good N -> is_node N q -> N !! q = None -> length cs = 16%nat ->
    (forall j c, cs !! j = Some c -> clean_q H N q j c) ->
    branch_hash H q cs = Ok (mh H N q).
  Proof.
    intros Hg Hn HN Hlen Hq. destruct (node_len N q Hg Hn) as (Hl40 & Hnn).
    destruct (children_bytes N q cs 0 Hg Hq) as (H1 & H2). cbn zeta in H1, H2. rewrite Hlen in H1, H2.
    change (map Z.of_nat (seq 0 16)) with digits in H1, H2. fold (used N q) in H1, H2.
    unfold branch_hash, branch_marshal. rewrite hexs_ok by exact Hnn. cbn [bind]. rewrite H1. cbn [bind].
    unfold mh. rewrite merkle_bytes_branch by assumption. do 2 f_equal.
    unfold childCount, zlen, len8. rewrite H2.
    assert (Hu : (length (used N q) <= 16)%nat).
    { unfold used. etrans; [apply filter_length|]. cbn. lia. }
    rewrite !w8_small by lia. reflexivity.
  Qed.

  Lemma leaf_bytes N q v : good N -> N !! q = Some v -> leaf_hash H q v = Ok (mh H N q).
  Proof.
    intros Hg HN. destruct (Hg _ _ HN) as (_ & Hnn & _). unfold leaf_hash, leaf_marshal.
    rewrite hexs_ok by exact Hnn. cbn [bind]. unfold mh. rewrite (merkle_bytes_leaf H N q v HN). reflexivity.
  Qed.

  Lemma shape_none N Q Q' p on : ~ is_node N p -> shape N Q p on -> shape N Q' p on.
  Proof.
    intros Hn. destruct on as [[p' cs|p' v]|]; cbn [shape]; [| |auto].
    - intros (_ & _ & Hb & _). exfalso. apply Hn. destruct Hb as [->|Hb]; [left; reflexivity|right; right; exact Hb].
    - intros (-> & E). auto.
  Qed.

  Lemma shape_dirty_off N k p on : ~ (p `prefix_of` k) ->
    shape N (dirty_q H N k) p on -> shape N (clean_q H N) p on.
  Proof.
    intros Hoff. apply shape_mono. intros i c (Hlk & Hh). split; [exact Hlk|].
    intros Hx. destruct (Hh Hx) as (_ & Hh').
    destruct Hh' as [E|(Hp & _)]; [|exact E|contradiction].
    intros Hp. apply Hoff. eapply pre_snoc, Hp.
  Qed.

  Lemma snoc_disjoint (q r : nibbles) i j : q ++ [i] `prefix_of` r -> q ++ [j] `prefix_of` r -> i = j.
  Proof. apply pre_next_uniq. Qed.

  (** Result of hashing below [q]. *)
  Definition hashed (N : entries) (V V' : gmap nibbles node) (q : nibbles) : Prop :=
    (forall r, ~ (q `prefix_of` r) -> V' !! r = V !! r) /\
    (forall r, q `prefix_of` r -> shape N (clean_q H N) r (V' !! r)).

  Definition hash_inv (N : entries) (k q : nibbles) (V0 V : gmap nibbles node) (i : nat) : Prop :=
    (exists cs, V !! q = Some (Branch q cs) /\ length cs = 16%nat /\
       forall j c, cs !! j = Some c -> if decide (j < i)%nat then clean_q H N q j c else dirty_q H N k q j c) /\
    (forall r d, q ++ [d] `prefix_of` r ->
       if decide (0 <= d < Z.of_nat i) then shape N (clean_q H N) r (V !! r) else shape N (dirty_q H N k) r (V !! r)) /\
    (forall r, ~ (q `prefix_of` r) -> V !! r = V0 !! r).

  Lemma hash_step (N : entries) (k q : nibbles) (V0 V : gmap nibbles node) (i : nat) (rec : gmap nibbles node -> nibbles -> res (gmap nibbles node * bytes)) :
    good N ->
    (forall V t, (length q < length t)%nat -> is_node N t -> (forall r, t `prefix_of` r -> shape N (dirty_q H N k) r (V !! r)) ->
       exists V', rec V t = Ok (V', mh H N t) /\ hashed N V V' t) ->
    (i < 16)%nat -> hash_inv N k q V0 V i ->
    exists V', phash_child rec q V i = Ok V' /\ hash_inv N k q V0 V' (S i).
  Proof.
    intros Hg Hrec Hi ((cs & HV & Hlen & Hcs) & Hbelow & Hout).
    unfold phash_child, get_branch. rewrite HV. cbn [bind]. rewrite index_lookup.
    destruct (lookup_lt_is_Some_2 cs i) as (c & Hc); [lia|]. rewrite Hc. cbn [bind].
    pose proof (Hcs i c Hc) as Hd. rewrite decide_False in Hd by lia. destruct Hd as ((Hex & Hlk) & Hh).
    assert (Hbi : forall r, child_path q i `prefix_of` r -> shape N (dirty_q H N k) r (V !! r)).
    { intros r Hr. pose proof (Hbelow r _ Hr) as Hx. rewrite decide_False in Hx by lia. exact Hx. }
    (* when the state is unchanged *)
    assert (Hsame : clean_q H N q i c ->
      (forall r, child_path q i `prefix_of` r -> shape N (clean_q H N) r (V !! r)) ->
      hash_inv N k q V0 V (S i)).
    { intros Hci Hri. split; [|split; [|exact Hout]].
      - exists cs. split; [exact HV|]. split; [exact Hlen|]. intros j c' Hj. pose proof (Hcs j c' Hj) as Hx.
        destruct (decide (j = i)) as [->|Hne].
        + rewrite decide_True by lia. assert (c' = c) as -> by congruence. exact Hci.
        + destruct (decide (j < i)%nat); [rewrite decide_True by lia|rewrite decide_False by lia]; exact Hx.
      - intros r d Hr. pose proof (Hbelow r d Hr) as Hx.
        destruct (decide (d = Z.of_nat i)) as [->|Hne].
        + rewrite decide_True by lia. apply Hri, Hr.
        + destruct (decide (0 <= d < Z.of_nat i)); [rewrite decide_True by lia|rewrite decide_False by lia]; exact Hx. }
    destruct (c_exists c) eqn:Ex; cbn [negb].
    2: { exists V. split; [reflexivity|]. apply Hsame.
         - split; [split; [rewrite Ex; exact Hex|rewrite Ex; discriminate]|rewrite Ex; discriminate].
         - intros r Hr. eapply shape_none; [|apply Hbi, Hr].
           intros Hn. assert (Hhr : has N r).
           { apply node_has; [exact Hn|]. intros ->. apply pre_snoc_len in Hr. cbn in Hr. lia. }
           assert (Hx : has N (child_path q i)) by (eapply has_pre; [exact Hr|exact Hhr]).
           apply Hex in Hx. discriminate. }
    specialize (Hlk eq_refl). destruct (Hh eq_refl) as (Hon & Hoff). pose proof Hlk as (Hlt & Hnt & Hkt).
    destruct (bytes_eqb (c_hash c) zeroHash) eqn:Ez.
    - (* recompute *)
      assert (Hlent : (length q < length (q ++ c_suffix c))%nat) by (apply pre_snoc_len in Hlt; lia).
      destruct (Hrec V (q ++ c_suffix c) Hlent Hnt) as (V' & -> & Hsameout & Hclean).
      { intros r Hr. apply Hbi. etrans; [exact Hlt|exact Hr]. }
      cbn [bind]. rewrite Hsameout by (intros Hp; apply pre_len in Hp; lia). rewrite HV. cbn [bind].
      rewrite index_lookup, Hc. cbn [bind]. eexists. split; [reflexivity|].
      split; [|split].
      + eexists. split; [apply lookup_insert|]. split; [rewrite insert_length; exact Hlen|].
        intros j c' Hj. destruct (decide (j = i)) as [->|Hne].
        * rewrite list_lookup_insert in Hj by lia. injection Hj as <-. rewrite decide_True by lia.
          split; [split; cbn [c_exists c_suffix]; rewrite Ex; [exact Hex|intros _; exact Hlk]|].
          cbn [c_hash c_suffix]. intros _. reflexivity.
        * rewrite list_lookup_insert_ne in Hj by congruence. pose proof (Hcs j c' Hj) as Hx.
          destruct (decide (j < i)%nat); [rewrite decide_True by lia|rewrite decide_False by lia]; exact Hx.
      + intros r d Hr. rewrite lookup_insert_ne by (intros ->; apply pre_snoc_not in Hr; exact Hr).
        destruct (decide (d = Z.of_nat i)) as [->|Hne].
        * rewrite decide_True by lia. destruct (decide (q ++ c_suffix c `prefix_of` r)) as [Ht|Ht]; [apply Hclean, Ht|].
          rewrite Hsameout by exact Ht. eapply shape_none; [|apply Hbi, Hr].
          intros Hn. assert (Hhr : has N r).
          { apply node_has; [exact Hn|]. intros ->. apply pre_snoc_len in Hr. cbn in Hr. lia. }
          destruct Hhr as (k' & v' & Hk' & Hrk').
          assert (Htk : q ++ c_suffix c `prefix_of` k') by (eapply Hkt; [exact Hk'|etrans; [exact Hr|exact Hrk']]).
          destruct (pre_total r (q ++ c_suffix c) k' Hrk' Htk) as [Hle|Hge]; [|contradiction].
          eapply link_min; [exact Hg|exact Hlk|destruct q; discriminate|exact Hr|exact Hle| |exact Hn].
          intros E. apply Ht. rewrite E. reflexivity.
        * rewrite Hsameout.
          -- pose proof (Hbelow r d Hr) as Hx.
             destruct (decide (0 <= d < Z.of_nat i)); [rewrite decide_True by lia|rewrite decide_False by lia]; exact Hx.
          -- intros Ht. apply Hne. eapply snoc_disjoint; [exact Hr|]. etrans; [exact Hlt|exact Ht].
      + intros r Hr. rewrite lookup_insert_ne by (intros ->; apply Hr; reflexivity).
        rewrite Hsameout; [apply Hout, Hr|]. intros Ht. apply Hr. etrans; [|exact Ht]. eexists; reflexivity.
    - (* up to date *)
      apply bytes_eqb_neq in Ez. exists V. split; [reflexivity|].
      assert (Hnon : ~ (child_path q i `prefix_of` k)) by (intros Hp; apply Ez, Hon, Hp).
      apply Hsame.
      + split; [split; rewrite Ex; [exact Hex|intros _; exact Hlk]|]. intros _.
        destruct (Hoff Hnon) as [E|(_ & E)]; [exact E|contradiction].
      + intros r Hr. eapply (shape_dirty_off N k); [|apply Hbi, Hr]. intros Hp. apply Hnon. etrans; [exact Hr|exact Hp].
  Qed.

  Lemma hash_loop (N : entries) (k q : nibbles) (V0 : gmap nibbles node) (rec : gmap nibbles node -> nibbles -> res (gmap nibbles node * bytes)) :
    good N ->
    (forall V t, (length q < length t)%nat -> is_node N t -> (forall r, t `prefix_of` r -> shape N (dirty_q H N k) r (V !! r)) ->
       exists V', rec V t = Ok (V', mh H N t) /\ hashed N V V' t) ->
    forall n i V, (i + n <= 16)%nat -> hash_inv N k q V0 V i ->
    exists V', for_each (phash_child rec q) (seq i n) V = Ok V' /\ hash_inv N k q V0 V' (i + n).
  Proof.
    intros Hg Hrec n. induction n as [|n IH]; intros i V Hi Hinv; cbn [seq for_each].
    - exists V. rewrite Nat.add_0_r. auto.
    - destruct (hash_step N k q V0 V i rec Hg Hrec) as (V1 & -> & Hinv1); [lia|exact Hinv|]. cbn [bind].
      destruct (IH (S i) V1) as (V2 & -> & Hinv2); [lia|exact Hinv1|].
      exists V2. replace (i + S n)%nat with (S i + n)%nat by lia. auto.
  Qed.

  Lemma phashes_ok fuel : forall N k V q, good N -> is_node N q ->
    (forall r, q `prefix_of` r -> shape N (dirty_q H N k) r (V !! r)) ->
    (41 <= fuel + length q)%nat ->
    exists V', phashes H fuel V q = Ok (V', mh H N q) /\ hashed N V V' q.
  Proof.
    induction fuel as [|fuel IH]; intros N k V q Hg Hn Hd Hfuel;
      destruct (node_len N q Hg Hn) as (Hl40 & _); [lia|]. cbn [phashes].
    pose proof (Hd q ltac:(reflexivity)) as Hq. unfold shape in Hq.
    destruct (V !! q) as [[p cs|p v]|] eqn:EV; [| |contradiction].
    - destruct Hq as (-> & HN & Hb & Hlen & Hcs).
      destruct (hash_loop N k q V (phashes H fuel) Hg) with (n := 16%nat) (i := 0%nat) (V := V) as (V1 & -> & Hinv).
      + intros V1 t Ht Hnt Hdt. eapply (IH N k); [exact Hg|exact Hnt|exact Hdt|lia].
      + lia.
      + split; [|split; [|intros r _; reflexivity]].
        * exists cs. split; [exact EV|]. split; [exact Hlen|]. intros j c Hj. rewrite decide_False by lia. apply Hcs, Hj.
        * intros r d Hr. rewrite decide_False by lia. apply Hd. eapply pre_snoc, Hr.
      + cbn [bind]. destruct Hinv as ((cs1 & HV1 & Hlen1 & Hcs1) & Hbelow & Hout).
        unfold get_branch. rewrite HV1. cbn [bind].
        assert (Hclean : forall j c, cs1 !! j = Some c -> clean_q H N q j c).
        { intros j c Hj. pose proof (Hcs1 j c Hj) as Hx. rewrite decide_True in Hx; [exact Hx|].
          apply lookup_lt_Some in Hj. lia. }
        rewrite (branch_bytes N q cs1 Hg Hn HN Hlen1 Hclean). cbn [bind].
        exists V1. split; [reflexivity|]. split; [exact Hout|].
        intros r Hr. destruct (decide (q = r)) as [<-|Hne].
        * rewrite HV1. cbn [shape]. auto 10.
        * destruct (pre_next q r Hr Hne) as (d & Hdr). pose proof (Hbelow r d Hdr) as Hx.
          destruct (decide (0 <= d < Z.of_nat (0 + 16))) as [_|Hnd]; [exact Hx|].
          eapply shape_none; [|exact Hx]. intros Hnr. destruct (node_len N r Hg Hnr) as (_ & Hnn).
          apply (snoc_nibble nib) in Hdr; [|exact Hnn]. unfold nib in Hdr. lia.
    - destruct Hq as (-> & HN). rewrite (leaf_bytes N q v Hg HN). cbn [bind].
      exists V. split; [reflexivity|]. split; [intros r _; reflexivity|].
      intros r Hr. destruct (decide (q = r)) as [<-|Hne].
      + rewrite EV. split; [reflexivity|exact HN].
      + eapply shape_none; [|apply Hd, Hr]. intros Hnr. apply Hne.
        apply pre_eq; [exact Hr|]. destruct (node_len N r Hg Hnr) as (Lr & _), (Hg _ _ HN) as (Lq & _). lia.
  Qed.

  (** ** One PutEntry *)
  Lemma KeyToNibbles_key key : bytes_ok key -> length key = 20%nat ->
    length (KeyToNibbles key) = 40%nat /\ Forall nib (KeyToNibbles key).
  Proof.
    intros Hok Hl. split; [rewrite KeyToNibbles_length, Hl; reflexivity|apply KeyToNibbles_ok, Hok].
  Qed.

  Lemma clean_of_dirty_root N V V' : hashed N V V' [] -> canon N (clean_q H N) V'.
  Proof. intros (_ & Hc) p. apply Hc, prefix_nil. Qed.


  Lemma pPutEntry_ok N V key value :
    good N -> bytes_ok key -> length key = 20%nat -> canon N (clean_q H N) V ->
    let k := KeyToNibbles key in
    exists V', pPutEntry H V key value = Ok (V', negb (bytes_eqb (default [] (N !! k)) value)) /\
      canon (spec_put N (k, value)) (clean_q H (spec_put N (k, value))) V'.
  Proof.
    intros Hg Hok Hl Hc k. destruct (KeyToNibbles_key key Hok Hl) as (Hk40 & Hk). fold k in Hk40, Hk.
    (* unchanged: nothing but re-hashing *)
    assert (Hno : default [] (N !! k) = value -> spec_put N (k, value) = N ->
      exists V', (let? (V2, _) := phashes H tree_fuel V [] in Ok (V2, false)) =
         Ok (V', negb (bytes_eqb (default [] (N !! k)) value)) /\
        canon (spec_put N (k, value)) (clean_q H (spec_put N (k, value))) V').
    { intros E1 E2. rewrite E2.
      assert (Hbad : ~ ([16] `prefix_of` k)).
      { intros Hp. apply (snoc_nibble nib [] 16) in Hp; [|exact Hk]. unfold nib in Hp. lia. }
      destruct (phashes_ok tree_fuel N [16] V []) as (V' & -> & Hh); [exact Hg|left; reflexivity| |unfold tree_fuel; cbn; lia|].
      - intros r _. eapply shape_mono; [|apply Hc]. intros i c ((Hex & Hlk) & Hhc).
        split; [split; assumption|]. intros Hx. split; [|intros _; left; apply Hhc, Hx].
        intros Hp. exfalso. destruct (good_has_len N _ Hg (proj1 Hex Hx)) as (_ & Hnn).
        unfold child_path in *. assert (Hl1 : (length (r ++ [Z.of_nat i]) <= 1)%nat) by (apply pre_len in Hp; exact Hp).
        destruct r as [|x r]; [|cbn in Hl1; rewrite app_length in Hl1; cbn in Hl1; lia].
        destruct Hp as (y & Ey). cbn in Ey. injection Ey as Ei _. cbn in Hnn. inversion Hnn as [|? ? Hi _]; subst.
        unfold nib in Hi. lia.
      - cbn [bind]. exists V'. split; [|apply (clean_of_dirty_root N V V' Hh)].
        rewrite E1. do 2 f_equal. rewrite (proj2 (bytes_eqb_eq value value) eq_refl). reflexivity. }
    (* changed *)
    assert (Hgo : default [] (N !! k) <> value -> value <> [] \/ is_Some (N !! k) ->
      exists V', (let? (V1, changed) := (let? V' := pupdate tree_fuel V [] k value [] in Ok (V', true)) in
                  let? (V2, _) := phashes H tree_fuel V1 [] in Ok (V2, changed)) =
         Ok (V', negb (bytes_eqb (default [] (N !! k)) value)) /\
        canon (spec_put N (k, value)) (clean_q H (spec_put N (k, value))) V').
    { intros E1 E2.
      destruct (pupdate_ok H tree_fuel N V [] k value []) as (V1 & -> & Hd); try assumption.
      - constructor.
      - unfold tree_fuel. cbn. lia.
      - cbn [bind].
        assert (Hg' : good (spec_put N (k, value))).
        { unfold spec_put. cbn [fst snd]. destruct value as [|x xs]; [apply delete_good, Hg|].
          apply insert_good; try assumption. discriminate. }
        destruct (phashes_ok tree_fuel (spec_put N (k, value)) k V1 []) as (V' & -> & Hh);
          [exact Hg'|left; reflexivity|intros r _; apply Hd|unfold tree_fuel; cbn; lia|].
        cbn [bind]. exists V'. split; [|apply (clean_of_dirty_root _ V1 V' Hh)].
        do 2 f_equal. apply bytes_eqb_neq in E1. rewrite E1. reflexivity. }
    unfold pPutEntry, pupdateEntry. fold k. pose proof (Hc k) as Hck. unfold shape in Hck.
    destruct (V !! k) as [[p cs|p v]|] eqn:EV.
    - exfalso. destruct Hck as (_ & _ & Hb & _).
      destruct Hb as [Hb|Hb]; [rewrite Hb in Hk40; discriminate|]. eapply full_not_branching; eassumption.
    - destruct Hck as (-> & HN). rewrite HN in Hno, Hgo |- *. cbn [default] in Hno, Hgo |- *.
      destruct (bytes_eqb v value) eqn:Ev.
      + apply bytes_eqb_eq in Ev. subst v. apply Hno; [reflexivity|].
        unfold spec_put. cbn [fst snd]. destruct (Hg _ _ HN) as (_ & _ & Hne).
        destruct value as [|x xs]; [contradiction|]. apply insert_id, HN.
      + apply Hgo; [apply bytes_eqb_neq, Ev|right; eauto].
    - assert (HN : N !! k = None).
      { destruct (N !! k) as [v|] eqn:E; [|reflexivity]. exfalso. apply Hck. right; left. eauto. }
      rewrite HN in Hno, Hgo |- *. cbn [default] in Hno, Hgo |- *. destruct value as [|x xs].
      + apply Hno; [reflexivity|]. unfold spec_put. cbn [fst snd]. apply delete_notin, HN.
      + apply Hgo; [discriminate|left; discriminate].
  Qed.
End WithHash.
