(** Hashing can be interrupted and taken up again. *)
From Coq Require Import ZArith List Lia Bool.
From stdpp Require Import gmap list.
From Verif.Model Require Import Base Address Nibbles Tree TreeSteps.
From Verif.Spec Require Import AddressSpec TreeSpec TreeHistory StepSpec.
From Verif.Proofs Require Import BaseFacts NibblesFacts TreeSim TreeTrie TreeCanon TreeUpdate TreeHashes TreeReach TreeRoot TreeLocal StepFacts.
Open Scope Z_scope.

Lemma sbind_lift_ok {A B} (a : A) (f : A -> steps B) : sbind (lift (Ok a)) f = f a.
Proof. unfold sbind. cbn. destruct (f a); reflexivity. Qed.

Section WithHash.
  Variable H : bytes -> bytes.

  Definition clean_below (N : entries) (V : gmap nibbles node) (q : nibbles) : Prop :=
    forall r, q `prefix_of` r -> shape N (clean_q H N) r (V !! r).

  (** A hash is either zero, or right, and then everything below is right. *)
  Definition lazy_q (N : entries) (V : gmap nibbles node) (p : nibbles) (i : nat) (c : child) : Prop :=
    link_ok N p i c /\
    (c_exists c = true -> c_hash c = zeroHash \/ (c_hash c = mh H N (p ++ c_suffix c) /\ clean_below N V (child_path p i))).
  Definition lazy (N : entries) (V : gmap nibbles node) : Prop := canon N (lazy_q N V) V.

  Lemma clean_lazy N V : canon N (clean_q H N) V -> lazy N V.
  Proof.
    intros Hc p. eapply shape_mono; [|apply Hc]. intros i c (Hlk & Hh). split; [exact Hlk|].
    intros Hx. right. split; [apply Hh, Hx|]. intros r _. apply Hc.
  Qed.
  Lemma dirty_lazy N V k : canon N (dirty_q H N k) V -> lazy N V.
  Proof.
    intros Hc p. eapply shape_mono; [|apply Hc]. intros i c (Hlk & Hh). split; [exact Hlk|].
    intros Hx. destruct (Hh Hx) as (Hon & Hoff). destruct (decide (child_path p i `prefix_of` k)) as [Hp|Hp]; [left; apply Hon, Hp|].
    destruct (Hoff Hp) as [E|(_ & E)]; [right|left; exact E]. split; [exact E|].
    intros r Hr. eapply (shape_dirty_off H N k); [|apply Hc]. intros Hk. apply Hp. etrans; eassumption.
  Qed.

  (** Nothing but hashing below a link that does not exist or around its target. *)
  Lemma clean_no_link N V q i : good N -> lazy N V -> ~ has N (child_path q i) -> clean_below N V (child_path q i).
  Proof.
    intros Hg Hl Hno r Hr. eapply shape_none; [|apply Hl]. intros Hn. apply Hno. eapply has_pre; [exact Hr|].
    apply node_has; [exact Hn|]. intros ->. apply pre_snoc_len in Hr. cbn in Hr. lia.
  Qed.
  Lemma clean_link N V q i t : good N -> lazy N V -> link N (child_path q i) t -> clean_below N V t -> clean_below N V (child_path q i).
  Proof.
    intros Hg Hl Hlk Hc r Hr. destruct (decide (t `prefix_of` r)) as [Ht|Ht]; [apply Hc, Ht|].
    eapply shape_none; [|apply Hl]. intros Hn. pose proof Hlk as (Hlt & Hnt & Hkt).
    assert (Hhr : has N r).
    { apply node_has; [exact Hn|]. intros ->. apply pre_snoc_len in Hr. cbn in Hr. lia. }
    destruct Hhr as (k' & v' & Hk' & Hrk').
    assert (Htk : t `prefix_of` k') by (eapply Hkt; [exact Hk'|etrans; [exact Hr|exact Hrk']]).
    destruct (pre_total r t k' Hrk' Htk) as [Hle|Hge]; [|contradiction].
    eapply link_min; [exact Hg|exact Hlk|unfold child_path; destruct q; discriminate|exact Hr|exact Hle| |exact Hn].
    intros E. apply Ht. rewrite E. reflexivity.
  Qed.

  (** Setting one right hash, with everything below it right, keeps all this. *)
  Lemma lazy_set N V q cs i c : lazy N V -> V !! q = Some (Branch q cs) -> cs !! i = Some c ->
    c_exists c = true -> clean_below N V (child_path q i) ->
    let V' := <[q := Branch q (<[i := Child (c_suffix c) (mh H N (q ++ c_suffix c)) (c_exists c)]> cs)]> V in
    lazy N V' /\ (forall r, shape N (clean_q H N) r (V !! r) -> shape N (clean_q H N) r (V' !! r)).
  Proof.
    intros Hl HV Hi Hx Hb. cbn zeta. set (cs' := <[i := _]> cs). set (V' := <[q := _]> V).
    assert (Hkeep : forall r, shape N (clean_q H N) r (V !! r) -> shape N (clean_q H N) r (V' !! r)).
    { intros r Hr. unfold V'. destruct (decide (q = r)) as [<-|Hne]; [|rewrite lookup_insert_ne by exact Hne; exact Hr].
      rewrite lookup_insert. rewrite HV in Hr. cbn [shape] in Hr |- *. destruct Hr as (A & B & C & D & E).
      do 3 (split; [assumption|]). split; [unfold cs'; rewrite insert_length; exact D|].
      intros j c' Hj. unfold cs' in Hj. destruct (decide (i = j)) as [<-|Hne].
      - rewrite list_lookup_insert in Hj by (eapply lookup_lt_Some, Hi). injection Hj as <-.
        destruct (E _ _ Hi) as (Hlk & _). split; [exact Hlk|]. cbn. reflexivity.
      - rewrite list_lookup_insert_ne in Hj by exact Hne. apply E, Hj. }
    assert (Hbk : forall p, clean_below N V p -> clean_below N V' p).
    { intros p Hp r Hr. apply Hkeep, Hp, Hr. }
    assert (Hq : forall p j c', lazy_q N V p j c' -> lazy_q N V' p j c').
    { intros p j c' (Hlk & Hh). split; [exact Hlk|]. intros Hx'. destruct (Hh Hx') as [E|(E & Hc)]; [left; exact E|right; auto]. }
    split; [|exact Hkeep]. intros p. destruct (decide (q = p)) as [<-|Hne].
    - unfold V'. rewrite lookup_insert. pose proof (Hl q) as Hs. rewrite HV in Hs. cbn [shape] in Hs |- *.
      destruct Hs as (A & B & C & D & E). do 3 (split; [assumption|]). split; [unfold cs'; rewrite insert_length; exact D|].
      intros j c' Hj. unfold cs' in Hj. destruct (decide (i = j)) as [<-|Hne].
      + rewrite list_lookup_insert in Hj by (eapply lookup_lt_Some, Hi). injection Hj as <-.
        destruct (E _ _ Hi) as (Hlk & _). split; [exact Hlk|]. cbn. intros _. right. split; [reflexivity|]. apply Hbk, Hb.
      + rewrite list_lookup_insert_ne in Hj by exact Hne. apply Hq, E, Hj.
    - unfold V'. rewrite lookup_insert_ne by exact Hne. eapply shape_mono; [|apply Hl]. intros j c'. apply Hq.
  Qed.

  (** The states hashing goes through. *)
  Definition ready (N : entries) (s : state) : Prop := layers_ok (sto s) /\ sim s (view s) /\ lazy N (view s).

  Lemma sim_self s V : sim s V -> sim s (view s).
  Proof. intros (Hw & _). split; [exact Hw|reflexivity]. Qed.
  Lemma ready_labelled N s : ready N s -> labelled s.
  Proof.
    intros (_ & ((_ & _ & Hg) & _) & _) p l n El En. destruct (Hg _ _ El) as (n' & En' & Hp & _). congruence.
  Qed.

  (** What hashing below [q] achieves. *)
  Definition fixed (N : entries) (s s' : state) (q : nibbles) : Prop :=
    ready N s' /\ rehashed s s' /\
    (forall r, ~ (q `prefix_of` r) -> view s' !! r = view s !! r) /\
    (forall r, shape N (clean_q H N) r (view s !! r) -> shape N (clean_q H N) r (view s' !! r)).
  Lemma fixed_refl N s q : ready N s -> fixed N s s q.
  Proof. intros Hr. split; [exact Hr|]. split; [apply rehashed_refl|]. auto. Qed.
  Lemma fixed_trans N a b c q : fixed N a b q -> fixed N b c q -> fixed N a c q.
  Proof.
    intros (A1 & A2 & A3 & A4) (B1 & B2 & B3 & B4). split; [exact B1|]. split; [eapply rehashed_trans; eassumption|].
    split; [|auto]. intros r Hr. rewrite B3, A3; auto.
  Qed.
  Lemma fixed_mono N a b q q' : q `prefix_of` q' -> fixed N a b q' -> fixed N a b q.
  Proof.
    intros Hq (A1 & A2 & A3 & A4). split; [exact A1|]. split; [exact A2|]. split; [|exact A4].
    intros r Hr. apply A3. intros Hx. apply Hr. etrans; eassumption.
  Qed.

  Section Loop.
    Variables (N : entries) (q : nibbles) (l : loc) (rec : state -> nibbles -> steps (state * bytes)).
    Hypothesis Hg : good N.
    Hypothesis Hrec : forall s t, (length q < length t)%nat -> is_node N t -> ready N s ->
      exists s', (rec s t).2 = Ok (s', mh H N t) /\ Forall (ready N) (rec s t).1 /\ fixed N s s' t /\ clean_below N (view s') t.

    (** Child [i] of the node at [q] is done. *)
    Definition done (s : state) (i : nat) : Prop :=
      exists cs c, view s !! q = Some (Branch q cs) /\ cs !! i = Some c /\ clean_q H N q i c /\ clean_below N (view s) (child_path q i).

    Lemma hash_child_fixed s i : (i < 16)%nat -> ready N s -> GetNode (sto s) q = Some l ->
      (exists cs, view s !! q = Some (Branch q cs)) ->
      exists s', (t_hash_child rec l q s i).2 = Ok s' /\ Forall (ready N) (t_hash_child rec l q s i).1 /\
        fixed N s s' q /\ done s' i /\ (forall j, j <> i -> done s j -> done s' j) /\
        (exists cs, view s' !! q = Some (Branch q cs)).
    Proof.
      intros Hi Hr Hl (cs & HV). pose proof Hr as (Hlay & Hsim & Hlz).
      assert (Hh : heap s !! l = Some (Branch q cs)).
      { rewrite view_lookup, Hl in HV. exact HV. }
      pose proof (Hlz q) as Hs. rewrite HV in Hs. cbn [shape] in Hs. destruct Hs as (_ & HN & Hbr & Hlen & Hcs).
      destruct (lookup_lt_is_Some_2 cs i) as (c & Hc); [lia|].
      destruct (Hcs i c Hc) as ((Hex & Hlk) & Hhash).
      unfold t_hash_child, as_branch. rewrite Hh, sbind_lift_ok, index_lookup, Hc, sbind_lift_ok.
      assert (Hstay : clean_q H N q i c -> clean_below N (view s) (child_path q i) ->
        exists s', (lift (Ok s)).2 = Ok s' /\ Forall (ready N) (lift (Ok s)).1 /\
        fixed N s s' q /\ done s' i /\ (forall j, j <> i -> done s j -> done s' j) /\
        (exists cs, view s' !! q = Some (Branch q cs))).
      { intros H1 H2. exists s. split; [reflexivity|]. split; [apply Forall_nil; exact I|]. split; [apply fixed_refl, Hr|].
        split; [exists cs, c; auto|]. split; [auto|eauto]. }
      destruct (c_exists c) eqn:Ex; cbn [negb].
      2:{ apply Hstay.
          - split; [split; [rewrite Ex; exact Hex|rewrite Ex; discriminate]|rewrite Ex; discriminate].
          - apply clean_no_link; [exact Hg|exact Hlz|]. intros Hx. apply Hex in Hx. discriminate. }
      specialize (Hlk eq_refl).
      destruct (bytes_eqb (c_hash c) zeroHash) eqn:Ez.
      2:{ apply bytes_eqb_neq in Ez. destruct (Hhash eq_refl) as [E|(E & Hb)]; [contradiction|]. apply Hstay; [|exact Hb].
          split; [split; rewrite Ex; [exact Hex|intros _; exact Hlk]|]. intros _. exact E. }
      pose proof Hlk as (Hlt & Hnt & _).
      assert (Hlent : (length q < length (q ++ c_suffix c))%nat) by (apply pre_snoc_len in Hlt; lia).
      destruct (Hrec s (q ++ c_suffix c) Hlent Hnt Hr) as (s1 & E1 & HF & Hfix & Hcl).
      pose proof Hfix as (Hr1 & Hre & Hout & Hkeep). pose proof Hr1 as (Hlay1 & Hsim1 & Hlz1).
      assert (HV1 : view s1 !! q = Some (Branch q cs)).
      { rewrite Hout; [exact HV|]. intros Hx. apply pre_len in Hx. lia. }
      assert (Hl1 : GetNode (sto s1) q = Some l) by (rewrite (re_get _ _ Hre); exact Hl).
      assert (Hh1 : heap s1 !! l = Some (Branch q cs)).
      { rewrite view_lookup, Hl1 in HV1. exact HV1. }
      set (s' := write s1 l (Branch q (<[i := Child (c_suffix c) (mh H N (q ++ c_suffix c)) (c_exists c)]> cs))).
      assert (Hsteps : sbind (rec s (q ++ c_suffix c)) (fun '(s', h) =>
          let* (p', cs') := lift (match heap s' !! l with Some (Branch p cs) => Ok (p, cs) | _ => Panic end) in
          let* c' := lift (index cs' i) in
          did (write s' l (Branch p' (<[i := Child (c_suffix c') h (c_exists c')]> cs')))) =
        ((rec s (q ++ c_suffix c)).1 ++ [s'], Ok s')).
      { unfold sbind at 1. rewrite E1. cbn zeta. rewrite Hh1, sbind_lift_ok, index_lookup, Hc, sbind_lift_ok. reflexivity. }
      setoid_rewrite Hsteps. cbn [fst snd].
      destruct (lazy_set N (view s1) q cs i c Hlz1 HV1 Hc Ex) as (Hlz' & Hkeep').
      { eapply clean_link; eassumption. }
      assert (Hsim' : sim s' (<[q := Branch q (<[i := Child (c_suffix c) (mh H N (q ++ c_suffix c)) (c_exists c)]> cs)]> (view s1))).
      { apply (sim_write s1 (view s1) l q); [exact Hsim1|exact Hl1|reflexivity|].
        destruct Hsim1 as ((_ & _ & Hg1) & _). destruct (Hg1 _ _ Hl1) as (n & En & _ & Hn). rewrite Hh1 in En. injection En as <-.
        destruct Hn as (Hn1 & Hn2). split; [rewrite insert_length; exact Hn1|].
        intros j c' Hj Hx. destruct (decide (i = j)) as [<-|Hne].
        - rewrite list_lookup_insert in Hj by (eapply lookup_lt_Some, Hc). injection Hj as <-. cbn in *. eapply Hn2; eassumption.
        - rewrite list_lookup_insert_ne in Hj by exact Hne. eapply Hn2; eassumption. }
      assert (HV' : view s' = <[q := Branch q (<[i := Child (c_suffix c) (mh H N (q ++ c_suffix c)) (c_exists c)]> cs)]> (view s1)) by apply Hsim'.
      assert (Hr' : ready N s').
      { split; [exact Hlay1|]. split; [rewrite HV'; exact Hsim'|]. rewrite HV'. exact Hlz'. }
      assert (Hfix' : fixed N s1 s' q).
      { split; [exact Hr'|]. split.
        - unfold s'. eapply write_hash_rehashed; [exact Hl1|unfold as_branch; rewrite Hh1; reflexivity|rewrite index_lookup, Hc; reflexivity|exact Ex].
        - split; [|rewrite HV'; exact Hkeep'].
          intros r Hx. rewrite HV', lookup_insert_ne; [reflexivity|]. intros ->. apply Hx. reflexivity. }
      exists s'. split; [reflexivity|]. split; [apply Forall_app; split; [exact HF|apply Forall_cons; split; [exact Hr'|apply Forall_nil; exact I]]|].
      split; [eapply fixed_trans; [eapply fixed_mono; [|exact Hfix]; eexists; reflexivity|exact Hfix']|].
      assert (Hkb : forall p, clean_below N (view s1) p -> clean_below N (view s') p).
      { intros p Hp r Hx. rewrite HV'. apply Hkeep', Hp, Hx. }
      split; [|split].
      - eexists _, _. rewrite HV', lookup_insert. split; [reflexivity|].
        split; [apply list_lookup_insert; eapply lookup_lt_Some, Hc|]. split.
        + split; [split; cbn [c_exists c_suffix]; rewrite Ex; [exact Hex|intros _; exact Hlk]|]. cbn. reflexivity.
        + rewrite <- HV'. apply Hkb. eapply clean_link; eassumption.
      - intros j Hne (cs0 & c0 & HV0 & Hj & Hcl0 & Hb0). rewrite HV in HV0. injection HV0 as <-.
        eexists _, c0. rewrite HV', lookup_insert. split; [reflexivity|]. rewrite list_lookup_insert_ne by congruence.
        split; [exact Hj|]. split; [exact Hcl0|]. rewrite <- HV'. apply Hkb. intros r Hx. apply Hkeep, Hb0, Hx.
      - rewrite HV', lookup_insert. eauto.
    Qed.

    Lemma hash_loop_fixed n : forall i s, (i + n <= 16)%nat -> ready N s -> GetNode (sto s) q = Some l ->
      (exists cs, view s !! q = Some (Branch q cs)) -> (forall j, (j < i)%nat -> done s j) ->
      exists s', (t_for_each (t_hash_child rec l q) (seq i n) s).2 = Ok s' /\
        Forall (ready N) (t_for_each (t_hash_child rec l q) (seq i n) s).1 /\
        fixed N s s' q /\ (forall j, (j < i + n)%nat -> done s' j) /\ (exists cs, view s' !! q = Some (Branch q cs)).
    Proof.
      induction n as [|n IH]; intros i s Hi Hr Hl Hcs Hd; cbn [seq t_for_each].
      - exists s. split; [reflexivity|]. split; [apply Forall_nil; exact I|]. split; [apply fixed_refl, Hr|].
        split; [|exact Hcs]. intros j Hj. apply Hd. lia.
      - destruct (hash_child_fixed s i) as (s1 & E1 & F1 & Hfix & Hdi & Hdj & Hcs1); [lia|exact Hr|exact Hl|exact Hcs|].
        pose proof Hfix as (Hr1 & Hre & _).
        destruct (IH (S i) s1) as (s2 & E2 & F2 & Hfix2 & Hd2 & Hcs2).
        + lia.
        + exact Hr1.
        + rewrite (re_get _ _ Hre). exact Hl.
        + exact Hcs1.
        + intros j Hj. destruct (decide (j = i)) as [->|Hne]; [exact Hdi|]. apply Hdj; [exact Hne|]. apply Hd. lia.
        + exists s2. unfold sbind. rewrite E1. cbn [fst snd]. split; [exact E2|].
          split; [apply Forall_app; auto|]. split; [eapply fixed_trans; eassumption|].
          split; [|exact Hcs2]. intros j Hj. apply Hd2. lia.
    Qed.
  End Loop.

  Lemma hashes_fixed N fuel : good N -> forall s q, is_node N q -> ready N s -> (41 <= fuel + length q)%nat ->
    exists s', (t_updateHashes H fuel s q).2 = Ok (s', mh H N q) /\ Forall (ready N) (t_updateHashes H fuel s q).1 /\
      fixed N s s' q /\ clean_below N (view s') q.
  Proof.
    intros Hg. induction fuel as [|fuel IH]; intros s q Hn Hr Hfuel;
      destruct (node_len N q Hg Hn) as (Hl40 & _); [lia|]. cbn [t_updateHashes].
    pose proof Hr as (Hlay & Hsim & Hlz). pose proof (Hlz q) as Hq.
    rewrite view_lookup in Hq. destruct (GetNode (sto s) q) as [l|] eqn:El; [|contradiction]. cbn in Hq.
    assert (HV : view s !! q = heap s !! l) by (rewrite view_lookup, El; reflexivity).
    destruct (heap s !! l) as [[p cs|p v]|] eqn:Eh; [| |contradiction].
    - destruct Hq as (-> & HN & Hb & Hlen & Hcs).
      destruct (hash_loop_fixed N q l (t_updateHashes H fuel) Hg) with (n := 16%nat) (i := 0%nat) (s := s)
        as (s1 & E1 & F1 & Hfix & Hd & (cs1 & HV1)).
      + intros s1 t Ht Hnt Hr1. apply IH; [exact Hnt|exact Hr1|lia].
      + lia.
      + exact Hr.
      + exact El.
      + eauto.
      + lia.
      + pose proof Hfix as (Hr1 & Hre & Hout & Hkeep). pose proof Hr1 as (Hlay1 & Hsim1 & Hlz1).
        assert (El1 : GetNode (sto s1) q = Some l) by (rewrite (re_get _ _ Hre); exact El).
        assert (Eh1 : heap s1 !! l = Some (Branch q cs1)) by (rewrite view_lookup, El1 in HV1; exact HV1).
        pose proof (Hlz1 q) as Hq1. rewrite HV1 in Hq1. cbn [shape] in Hq1. destruct Hq1 as (_ & _ & _ & Hlen1 & _).
        assert (Hcl1 : forall j c, cs1 !! j = Some c -> clean_q H N q j c).
        { intros j c Hj. pose proof (lookup_lt_Some _ _ _ Hj) as Hlt. rewrite Hlen1 in Hlt.
          destruct (Hd j Hlt) as (cs2 & c2 & HV2 & Hj2 & Hc2 & _). rewrite HV1 in HV2. injection HV2 as <-.
          rewrite Hj in Hj2. injection Hj2 as <-. exact Hc2. }
        destruct (sim_put_same s1 (view s1) q l Hsim1 El1) as (s2 & E2 & Hsim2 & _ & _).
        assert (HV2 : view s2 = view s1) by apply Hsim2.
        exists s2.
        assert (Hall : t_updateHashes H (S fuel) s q = ((t_for_each (t_hash_child (t_updateHashes H fuel) l q) (seq 0 16) s).1 ++ [s2], Ok (s2, mh H N q))).
        { cbn [t_updateHashes]. rewrite El, Eh. unfold sbind at 1. rewrite E1. unfold as_branch. rewrite Eh1.
          unfold t_put, sbind, lift. cbn [fst snd]. rewrite E2. cbn [fst snd did app].
          rewrite (branch_bytes H N q cs1 Hg Hn HN Hlen1 Hcl1). reflexivity. }
        cbn [t_updateHashes] in Hall. rewrite El, Eh in Hall. rewrite Hall. cbn [fst snd].
        assert (Hr2 : ready N s2).
        { split; [|split; [rewrite HV2; exact Hsim2|rewrite HV2; exact Hlz1]].
          destruct (ext_put _ _ _ _ E2) as (_ & Hx & _). apply Hx, Hlay1. }
        split; [reflexivity|]. split; [apply Forall_app; split; [exact F1|apply Forall_cons; split; [exact Hr2|apply Forall_nil; exact I]]|].
        split.
        * eapply fixed_trans; [exact Hfix|]. split; [exact Hr2|].
          split; [eapply put_same_rehashed; [eapply ready_labelled, Hr1|exact El1|exact E2]|]. rewrite HV2. auto.
        * rewrite HV2. intros r Hx. destruct (decide (q = r)) as [<-|Hne].
          -- rewrite HV1. cbn [shape]. auto 10.
          -- destruct (pre_next q r Hx Hne) as (d & Hdr).
             destruct (decide (0 <= d < 16)) as [Hd16|Hnd].
             ++ destruct (Hd (Z.to_nat d)) as (_ & _ & _ & _ & _ & Hcb); [lia|]. apply Hcb. unfold child_path.
                rewrite Z2Nat.id by lia. exact Hdr.
             ++ eapply shape_none; [|apply Hlz1]. intros Hnr. destruct (node_len N r Hg Hnr) as (_ & Hnn).
                apply (snoc_nibble nib) in Hdr; [|exact Hnn]. unfold nib in Hdr. lia.
    - destruct Hq as (-> & HN). unfold sbind, lift. cbn [fst snd]. rewrite (leaf_bytes H N q v Hg HN). cbn [fst snd app].
      exists s. split; [reflexivity|]. split; [apply Forall_nil; exact I|]. split; [apply fixed_refl, Hr|].
      intros r Hx. destruct (decide (q = r)) as [<-|Hne].
      + rewrite HV. split; [reflexivity|exact HN].
      + eapply shape_none; [|apply Hlz]. intros Hnr. apply Hne.
        apply pre_eq; [exact Hx|]. destruct (node_len N r Hg Hnr) as (Lr & _), (Hg _ _ HN) as (Lq & _). lia.
  Qed.
End WithHash.

Section Resumed.
  Variable H : bytes -> bytes.

  Lemma updated_ready s M k v s1 b : inv H s M -> addr20 k -> updateEntry s k v = Ok (s1, b) ->
    ready H (by_path (spec_put M (k, v))) s1.
  Proof.
    intros Hi Hk E. pose proof Hi as (Hm & Hlay & V & Hsim & Hc). pose proof (keys20_good M Hm) as Hg.
    destruct Hk as (Hl & Hok). destruct (KeyToNibbles_key k Hok Hl) as (Hk40 & Hkn).
    pose proof (sim_updateEntry s V k v Hsim (canon_suffixes H _ V Hg Hc) Hok) as Hr. rewrite E in Hr.
    destruct (pupdateEntry V k v) as [(V1 & b')|e| |] eqn:Ep; cbn in Hr; try contradiction.
    destruct Hr as (Hsim1 & <-).
    assert (Hlay1 : layers_ok (sto s1)).
    { assert (Hf : fresh s) by exact (proj1 (proj2 (proj1 Hsim))). unfold updateEntry in E.
      assert (Hgo : forall r, (let? s' := update tree_fuel s [] (KeyToNibbles k) v [] in Ok (s', true)) = Ok r -> layers_ok (sto r.1)).
      { intros (r & b2) E2. bind_ok E2. injection E2 as <- _. cbn.
        destruct (ext_update _ _ _ _ _ _ _ Hf E0) as (_ & Hx & _). apply Hx, Hlay. }
      destruct (GetNode (sto s) (KeyToNibbles k)) as [l|].
      - destruct (heap s !! l) as [[p cs|p w]|]; [exact (Hgo _ E)| |exact (Hgo _ E)].
        destruct (bytes_eqb w v); [injection E as <- _; exact Hlay|exact (Hgo _ E)].
      - destruct v; [injection E as <- _; exact Hlay|exact (Hgo _ E)]. }
    assert (Hlz : lazy H (by_path (spec_put M (k, v))) V1).
    { rewrite by_path_put, <- nibs_key by exact Hok. set (N := by_path M) in *. set (kn := KeyToNibbles k) in *.
      assert (Hgo : default [] (N !! kn) <> v /\ (v <> [] \/ is_Some (N !! kn)) -> (let? V' := pupdate tree_fuel V [] kn v [] in Ok (V', true)) = Ok (V1, b) ->
        lazy H (spec_put N (kn, v)) V1).
      { intros (C1 & C2) E1. bind_ok E1. injection E1 as -> _.
        destruct (pupdate_ok H tree_fuel N V [] kn v []) as (V2 & E2 & Hd); try assumption.
        - constructor.
        - unfold tree_fuel. cbn. lia.
        - rewrite E0 in E2. injection E2 as <-. eapply dirty_lazy, Hd. }
      unfold pupdateEntry in Ep. fold kn in Ep. pose proof (Hc kn) as Hck. unfold shape in Hck.
      destruct (V !! kn) as [[p cs|p w]|] eqn:EV.
      - exfalso. destruct Hck as (_ & _ & Hb & _).
        destruct Hb as [Hb|Hb]; [rewrite Hb in Hk40; discriminate|]. eapply full_not_branching; eassumption.
      - destruct Hck as (-> & HN). destruct (bytes_eqb w v) eqn:Ev.
        + injection Ep as <- _. apply bytes_eqb_eq in Ev. subst w.
          replace (spec_put N (kn, v)) with N; [apply clean_lazy, Hc|].
          unfold spec_put. cbn [fst snd]. destruct (Hg _ _ HN) as (_ & _ & Hne).
          destruct v as [|x xs]; [contradiction|]. symmetry. apply insert_id, HN.
        + apply Hgo; [|exact Ep]. apply bytes_eqb_neq in Ev. split; [rewrite HN; exact Ev|right; eauto].
      - assert (HN : N !! kn = None).
        { destruct (N !! kn) as [w|] eqn:EN; [|reflexivity]. exfalso. apply Hck. right; left. eauto. }
        destruct v as [|x xs].
        + injection Ep as <- _. replace (spec_put N (kn, [])) with N; [apply clean_lazy, Hc|].
          unfold spec_put. cbn [fst snd]. symmetry. apply delete_notin, HN.
        + apply Hgo; [|exact Ep]. split; [rewrite HN; discriminate|left; discriminate]. }
    split; [exact Hlay1|]. pose proof (proj2 Hsim1) as HV. split; [eapply sim_self, Hsim1|]. rewrite HV. exact Hlz.
  Qed.

  Lemma ready_read M s k : keys20 M -> ready H (by_path M) s -> addr20 k -> GetEntry s k = Ok (M !! k).
  Proof.
    intros Hm (_ & Hsim & Hlz) (Hl & Hok). pose proof (keys20_good M Hm) as Hg.
    rewrite (sim_GetEntry s _ k Hsim). unfold pGetEntry. rewrite <- by_path_lookup, <- nibs_key by exact Hok.
    destruct (KeyToNibbles_key k Hok Hl) as (Hk40 & _).
    specialize (Hlz (KeyToNibbles k)). unfold shape in Hlz. destruct (view s !! KeyToNibbles k) as [[p cs|p v]|].
    - exfalso. destruct Hlz as (_ & _ & [Hb|Hb] & _); [rewrite Hb in Hk40; discriminate|].
      eapply full_not_branching; eassumption.
    - destruct Hlz as (_ & ->). reflexivity.
    - destruct (by_path M !! KeyToNibbles k) as [v|] eqn:E; [|reflexivity].
      exfalso. apply Hlz. right; left. eauto.
  Qed.

  Lemma ready_put M u k v : keys20 M -> ready H (by_path M) u -> addr20 k -> holds_entry u k v ->
    exists s2, PutEntry H u k v = Ok (s2, false) /\ inv H s2 M.
  Proof.
    intros Hm Hu Hk (o & Eo & Ho). pose proof (keys20_good M Hm) as Hg.
    assert (Eu : updateEntry u k v = Ok (u, false)).
    { rewrite (ready_read M u k Hm Hu Hk) in Eo. pose proof (ready_read M u k Hm Hu Hk) as Er.
      unfold updateEntry. unfold GetEntry in Er.
      destruct (GetNode (sto u) (KeyToNibbles k)) as [l|].
      - destruct (heap u !! l) as [[p cs|p w]|]; try discriminate. injection Er as Er. rewrite <- Er in Eo. injection Eo as <-.
        cbn in Ho. subst w. rewrite (proj2 (bytes_eqb_eq v v) eq_refl). reflexivity.
      - injection Er as Er. rewrite <- Er in Eo. injection Eo as <-. cbn in Ho. subst v. reflexivity. }
    destruct (hashes_fixed H (by_path M) tree_fuel Hg u []) as (s2 & E2 & _ & Hfix & Hcl);
      [left; reflexivity|exact Hu|unfold tree_fuel; cbn; lia|].
    rewrite t_updateHashes_2 in E2. exists s2. unfold PutEntry. rewrite Eu. cbn [bind]. rewrite E2. split; [reflexivity|].
    destruct Hfix as ((Hlay & Hsim & _) & _). split; [exact Hm|]. split; [exact Hlay|]. exists (view s2). split; [exact Hsim|].
    intros p. apply Hcl, prefix_nil.
  Qed.

  Lemma resumed s M k v s1 b u k' v' : inv H s M -> addr20 k -> updateEntry s k v = Ok (s1, b) ->
    u = s1 \/ u ∈ (t_updateHashes H tree_fuel s1 []).1 -> addr20 k' -> holds_entry u k' v' ->
    exists s2, PutEntry H u k' v' = Ok (s2, false) /\ inv H s2 (spec_put M (k, v)).
  Proof.
    intros Hi Hk E Hu Hk' Ho. pose proof (updated_ready s M k v s1 b Hi Hk E) as Hr1.
    assert (Hm : keys20 (spec_put M (k, v))) by (apply keys20_put; [apply Hi|exact Hk]).
    apply ready_put; [exact Hm| |exact Hk'|exact Ho]. destruct Hu as [->|Hu]; [exact Hr1|].
    destruct (hashes_fixed H (by_path (spec_put M (k, v))) tree_fuel (keys20_good _ Hm) s1 []) as (s2 & _ & HF & _);
      [left; reflexivity|exact Hr1|unfold tree_fuel; cbn; lia|].
    rewrite Forall_forall in HF. apply HF, Hu.
  Qed.
End Resumed.
