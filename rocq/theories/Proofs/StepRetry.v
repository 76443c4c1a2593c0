(** Repeating an interrupted PutEntry of a value: it returns, and only the hashes change. *)
From Coq Require Import ZArith List Lia Bool.
From stdpp Require Import gmap list.
From Verif.Model Require Import Base Address Nibbles Tree TreeSteps.
From Verif.Spec Require Import AddressSpec TreeSpec TreeHistory StepSpec.
From Verif.Proofs Require Import BaseFacts NibblesFacts TreeSim TreeTrie TreeCanon TreeUpdate TreeHashes TreeReach TreeRoot TreeLocal
  StepFacts StepWalk StepRepair StepAgain.
Open Scope Z_scope.

Section Retry.
  Variable H : bytes -> bytes.

  (** The nodes stay: branches as branches, leaves as they are. *)
  Definition kept (V V' : gmap nibbles node) : Prop := forall p n, V !! p = Some n ->
    match n with Branch _ _ => exists cs', V' !! p = Some (Branch p cs') | Leaf _ _ => V' !! p = Some n end.
  Lemma kept_refl V : linked V -> kept V V.
  Proof. intros Hl p n HV. destruct n as [p' cs|p' v]; [|exact HV]. destruct (Hl p _ HV) as (_ & _ & -> & _). eauto. Qed.
  Lemma kept_trans V1 V2 V3 : kept V1 V2 -> kept V2 V3 -> kept V1 V3.
  Proof.
    intros H1 H2 p n HV. specialize (H1 p n HV). destruct n as [p' cs|p' v].
    - destruct H1 as (cs' & E). apply (H2 p _ E).
    - apply (H2 p _ H1).
  Qed.
  Lemma kept_some V V' p : kept V V' -> is_Some (V !! p) -> is_Some (V' !! p).
  Proof. intros Hk (n & HV). specialize (Hk p n HV). destruct n; [destruct Hk as (cs' & E)|]; eauto. Qed.

  Lemma linked_branch_hash V q cs : linked V -> V !! q = Some (Branch q cs) -> exists h, branch_hash H q cs = Ok h.
  Proof.
    intros Hl HV. destruct (Hl q _ HV) as (Hq & _ & _ & _ & Hc). unfold branch_hash, branch_marshal. rewrite (hexs_ok q Hq). cbn [bind].
    assert (Hm : exists b, children_marshal cs = Ok b).
    { assert (Hs : Forall (fun c => c_exists c = true -> Forall nib (c_suffix c)) cs).
      { apply Forall_lookup. intros i c Hi Hx. destruct (Hc i c Hi Hx) as (_ & (n & Hn)). destruct (Hl _ _ Hn) as (Hb & _).
        apply Forall_app in Hb. apply Hb. }
      clear - Hs. induction Hs as [|c cs Hc _ IH]; cbn [children_marshal]; [eauto|]. destruct IH as (b & ->).
      destruct (c_exists c) eqn:Ex; [|eauto]. rewrite (hexs_ok _ (Hc eq_refl)). cbn [bind]. eauto. }
    destruct Hm as (b & ->). cbn [bind]. eauto.
  Qed.

  Lemma phash_child_linked rec q V i cs : (forall V t, linked V -> is_Some (V !! t) -> (length q < length t)%nat ->
      exists V' h, rec V t = Ok (V', h) /\ linked V' /\ kept V V') ->
    linked V -> V !! q = Some (Branch q cs) -> (i < 16)%nat ->
    exists V', phash_child rec q V i = Ok V' /\ linked V' /\ kept V V'.
  Proof.
    intros Hrec Hl HV Hi. destruct (Hl q _ HV) as (Hq & Hqlen & _ & Hlen & Hc). unfold phash_child, get_branch. rewrite HV. cbn [bind].
    rewrite index_lookup. destruct (lookup_lt_is_Some_2 cs i) as (c & Hci); [lia|]. rewrite Hci. cbn [bind].
    destruct (c_exists c) eqn:Ex; cbn [negb]; [|exists V; split; [reflexivity|]; split; [exact Hl|apply kept_refl, Hl]].
    destruct (bytes_eqb (c_hash c) zeroHash); [|exists V; split; [reflexivity|]; split; [exact Hl|apply kept_refl, Hl]].
    destruct (Hc i c Hci Ex) as (Hs & Ht).
    destruct (Hrec V (q ++ c_suffix c) Hl Ht) as (V1 & h & -> & Hl1 & Hk1).
    { rewrite app_length. destruct (c_suffix c); [contradiction|]. cbn. lia. }
    cbn [bind]. destruct (Hk1 q _ HV) as (cs1 & HV1). rewrite HV1. cbn [bind].
    destruct (Hl1 q _ HV1) as (_ & _ & _ & Hlen1 & Hc1).
    rewrite index_lookup. destruct (lookup_lt_is_Some_2 cs1 i) as (c1 & Hci1); [lia|]. rewrite Hci1. cbn [bind].
    set (cs2 := <[i := Child (c_suffix c1) h (c_exists c1)]> cs1). exists (<[q := Branch q cs2]> V1). split; [reflexivity|].
    assert (Hany : forall r, is_Some (V1 !! r) -> is_Some (<[q := Branch q cs2]> V1 !! r)).
    { intros r Hr. apply lookup_insert_is_Some'. right. exact Hr. }
    split.
    - apply linked_insert; [exact Hl1|exact Hq|exact Hqlen|]. split; [reflexivity|]. split; [unfold cs2; rewrite insert_length; exact Hlen1|].
      intros j cj Hj Hx. destruct (decide (i = j)) as [<-|Hne].
      + unfold cs2 in Hj. rewrite list_lookup_insert in Hj by lia. injection Hj as <-. cbn [c_suffix c_exists] in Hx |- *.
        destruct (Hc1 i c1 Hci1 Hx) as (A & B). split; [exact A|]. apply Hany, B.
      + unfold cs2 in Hj. rewrite list_lookup_insert_ne in Hj by exact Hne. destruct (Hc1 j cj Hj Hx) as (A & B). split; [exact A|]. apply Hany, B.
    - eapply kept_trans; [exact Hk1|]. intros r n Hr. destruct (decide (q = r)) as [<-|Hne].
      + rewrite HV1 in Hr. injection Hr as <-. exists cs2. apply lookup_insert.
      + rewrite lookup_insert_ne by exact Hne. apply (kept_refl V1 Hl1 r n Hr).
  Qed.

  Lemma phash_loop_linked rec q : (forall V t, linked V -> is_Some (V !! t) -> (length q < length t)%nat ->
      exists V' h, rec V t = Ok (V', h) /\ linked V' /\ kept V V') ->
    forall l V cs, Forall (fun i => (i < 16)%nat) l -> linked V -> V !! q = Some (Branch q cs) ->
    exists V', for_each (phash_child rec q) l V = Ok V' /\ linked V' /\ kept V V'.
  Proof.
    intros Hrec. induction l as [|i l IH]; intros V cs Hf Hl HV; cbn [for_each].
    - exists V. split; [reflexivity|]. split; [exact Hl|apply kept_refl, Hl].
    - apply Forall_cons in Hf as (Hi & Hf). destruct (phash_child_linked rec q V i cs Hrec Hl HV Hi) as (V1 & -> & Hl1 & Hk1). cbn [bind].
      destruct (Hk1 q _ HV) as (cs1 & HV1). destruct (IH V1 cs1 Hf Hl1 HV1) as (V2 & -> & Hl2 & Hk2).
      exists V2. split; [reflexivity|]. split; [exact Hl2|]. eapply kept_trans; eassumption.
  Qed.

  Lemma phashes_linked fuel : forall V q, linked V -> is_Some (V !! q) -> (41 <= fuel + length q)%nat ->
    exists V' h, phashes H fuel V q = Ok (V', h) /\ linked V' /\ kept V V'.
  Proof.
    induction fuel as [|fuel IH]; intros V q Hl (n & HV) Hfuel; destruct (Hl q _ HV) as (Hq & Hlen & Hn); [lia|].
    cbn [phashes]. rewrite HV. destruct n as [p cs|p v].
    - destruct Hn as (-> & _). destruct (phash_loop_linked (phashes H fuel) q) with (l := seq 0 16) (V := V) (cs := cs) as (V1 & -> & Hl1 & Hk1).
      + intros V1 t H1 H2 H3. apply IH; [exact H1|exact H2|lia].
      + apply Forall_forall. intros i Hi. apply elem_of_seq in Hi. lia.
      + exact Hl.
      + exact HV.
      + cbn [bind]. destruct (Hk1 q _ HV) as (cs1 & HV1). unfold get_branch. rewrite HV1. cbn [bind].
        destruct (linked_branch_hash V1 q cs1 Hl1 HV1) as (h & ->). cbn [bind]. eauto.
    - subst p. unfold leaf_hash, leaf_marshal. rewrite (hexs_ok q Hq). cbn [bind]. eexists V, _. split; [reflexivity|].
      split; [exact Hl|apply kept_refl, Hl].
  Qed.

  (** The same value again. *)
  Lemma okay_same N kk u k v : okay H N kk u -> GetEntry u k = Ok (Some v) ->
    exists s2, PutEntry H u k v = Ok (s2, false) /\ forall a o, GetEntry u a = Ok o -> GetEntry s2 a = Ok o.
  Proof.
    intros (Hlay & Hsim & Hsuf & _ & HL & HR) Er.
    destruct HR as (rcs & HR). destruct (phashes_linked tree_fuel (view u) [] HL (ex_intro _ _ HR)) as (V' & h & E & Hl' & Hk); [unfold tree_fuel; cbn; lia|].
    pose proof (sim_hashes H tree_fuel u (view u) [] Hsim) as Hr. rewrite E in Hr.
    destruct (updateHashes H tree_fuel u []) as [(s2 & h2)|e| |] eqn:E2; cbn in Hr; try contradiction. destruct Hr as (Hsim2 & <- & Hsame).
    exists s2. split.
    - unfold PutEntry.
      assert (Eu : updateEntry u k v = Ok (u, false)).
      { unfold GetEntry in Er. unfold updateEntry. destruct (GetNode (sto u) (KeyToNibbles k)) as [l|]; [|discriminate].
        destruct (heap u !! l) as [[p cs|p w]|]; try discriminate. injection Er as ->. rewrite (proj2 (bytes_eqb_eq v v) eq_refl). reflexivity. }
      rewrite Eu. cbn [bind]. rewrite E2. reflexivity.
    - intros a o Ea. destruct (GetNode (sto u) (KeyToNibbles a)) as [l|] eqn:El.
      + rewrite (sim_GetEntry u _ a Hsim) in Ea. rewrite (sim_GetEntry s2 _ a Hsim2). unfold pGetEntry in *.
        destruct (view u !! KeyToNibbles a) as [[p cs|p w]|] eqn:Ev; try discriminate; [rewrite (Hk _ _ Ev); exact Ea|].
        exfalso. pose proof (sim_get u (view u) (KeyToNibbles a) Hsim) as Hg. rewrite El in Hg.
        destruct Hg as (n & _ & Hn & _). congruence.
      + unfold GetEntry in *. rewrite Hsame, El in *. exact Ea.
  Qed.

  (** The hash of the root can be computed on every such tree. *)
  Lemma linked_Hash u : sim u (view u) -> linked (view u) -> has_root (view u) -> exists h, Hash H u = Ok h.
  Proof.
    intros Hsim HL (cs & HR). rewrite (sim_Hash H u _ Hsim). unfold pHash, get_branch. rewrite HR. cbn [bind].
    apply (linked_branch_hash _ _ _ HL HR).
  Qed.
  Lemma ready_Hash N u : good N -> ready H N u -> exists h, Hash H u = Ok h.
  Proof.
    intros Hg (_ & Hsim & Hlz). apply linked_Hash; [exact Hsim| |].
    - apply (linked_canon H N (lazy_q H N (view u)) (view u) Hg); [intros p i c Hq; apply Hq|exact Hlz].
    - pose proof (Hlz []) as Hs. destruct (view u !! []) as [[p cs|p v0]|] eqn:E0; cbn [shape] in Hs.
      + destruct Hs as (-> & _). exists cs. exact E0.
      + exfalso. destruct Hs as (_ & HN). destruct (Hg _ _ HN) as (L & _). discriminate L.
      + exfalso. apply Hs. left. reflexivity.
  Qed.
End Retry.
