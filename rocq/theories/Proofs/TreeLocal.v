(** What a write to the tree leaves alone: every node object that is not on the
    path of the key, and every path of the store that is not a prefix of it. *)
From Coq Require Import ZArith List Lia Bool.
From stdpp Require Import gmap list.
From Verif.Model Require Import Base Address Nibbles Tree.
From Verif.Spec Require Import AddressSpec TreeSpec TreeHistory.
From Verif.Proofs Require Import BaseFacts NibblesFacts TreeSim TreeTrie TreeCanon TreeUpdate TreeHashes TreeReach TreeRoot.
Open Scope Z_scope.

Lemma CommonPrefix_l a b : CommonPrefix a b `prefix_of` b.
Proof.
  revert b. induction a as [|x a IH]; intros [|y b]; cbn; try apply prefix_nil.
  destruct (x =? y) eqn:E; [|apply prefix_nil]. apply Z.eqb_eq in E. subst y. apply prefix_cons, IH.
Qed.

Section Local.
  (** The locations below [B] exist at the beginning; [P] are those on the path of [k]. *)
  Variable B : nat.
  Variable P : loc -> Prop.
  Variable k : nibbles.

  Record local (s s' : state) : Prop := Local {
    loc_get : forall p, ~ (p `prefix_of` k) -> GetNode (sto s') p = GetNode (sto s) p;
    loc_heap : forall l, (l < B)%nat -> ~ P l -> heap s' !! l = heap s !! l;
    loc_old : forall p l, (l < B)%nat -> ~ P l -> GetNode (sto s') p = Some l -> GetNode (sto s) p = Some l;
    loc_next : (next s <= next s')%nat }.

  Lemma local_refl s : local s s.
  Proof. constructor; auto. Qed.
  Lemma local_trans s1 s2 s3 : local s1 s2 -> local s2 s3 -> local s1 s3.
  Proof.
    intros [a b c d] [a' b' c' d']. constructor; intros.
    - rewrite a', a; auto.
    - rewrite b', b; auto.
    - eauto.
    - lia.
  Qed.

  Lemma local_alloc s n : (B <= next s)%nat -> local s (alloc s n).1.
  Proof.
    intros Hb. constructor; cbn; intros; auto. apply lookup_insert_ne. lia.
  Qed.
  Lemma local_put s p l s' : put_node s p l = Ok s' -> p `prefix_of` k -> (B <= l)%nat \/ P l -> local s s'.
  Proof.
    unfold put_node. intros E Hp Hl. bind_ok E. injection E as <-. constructor; cbn; intros; auto.
    - rewrite (PutNode_get _ _ _ _ p0 E0). case_decide; [subst; contradiction|reflexivity].
    - rewrite (PutNode_get _ _ _ _ p0 E0) in *. case_decide; [|assumption].
      exfalso. simplify_eq. destruct Hl; [lia|contradiction].
  Qed.
  Lemma DelNode_get' st p st' q : DelNode st p = Ok st' -> GetNode st' q = if decide (q = p) then None else GetNode st q.
  Proof.
    destruct st as [m|lower [d|]]; cbn; intros E; [| |discriminate]; injection E as <-; cbn; case_decide; subst.
    - apply lookup_delete.
    - apply lookup_delete_ne; congruence.
    - rewrite lookup_insert; reflexivity.
    - rewrite lookup_insert_ne by congruence; reflexivity.
  Qed.
  Lemma local_del s p s' : del_node s p = Ok s' -> p `prefix_of` k -> local s s'.
  Proof.
    unfold del_node. intros E Hp. bind_ok E. injection E as <-. constructor; cbn; intros; auto.
    - rewrite (DelNode_get' _ _ _ p0 E0). case_decide; [subst; contradiction|reflexivity].
    - rewrite (DelNode_get' _ _ _ p0 E0) in *. case_decide; [discriminate|assumption].
  Qed.
  Lemma local_write s l n : P l -> local s (write s l n).
  Proof.
    intros Hl. constructor; cbn; intros; auto. apply lookup_insert_ne. intros ->. contradiction.
  Qed.

  Lemma local_invalidate path : forall s cur s', Forall P path -> invalidatePath s cur path = Ok s' -> local s s'.
  Proof.
    induction path as [|l path IH]; intros s cur s' Hp E; cbn [invalidatePath] in E.
    - injection E as <-. apply local_refl.
    - apply Forall_cons in Hp as (Hl & Hp).
      bind_ok E. destruct a as (p & cs). bind_ok E. bind_ok E.
      eapply local_trans; [apply (local_write s l (Branch p a0) Hl)|eapply IH; eassumption].
  Qed.

  (** Objects that hold branches on the path of the key. *)
  Definition held (s : state) (l : loc) : Prop :=
    P l /\ exists p cs, heap s !! l = Some (Branch p cs) /\ p `prefix_of` k.
  Lemma held_P s path : Forall (held s) path -> Forall P path.
  Proof. intros Hf. eapply Forall_impl; [exact Hf|]. intros l (Hl & _). exact Hl. Qed.
  Lemma held_write s l p cs cs' l' : heap s !! l = Some (Branch p cs) -> held s l' -> held (write s l (Branch p cs')) l'.
  Proof.
    intros E (Hl & p' & cs0 & E' & Hp). split; [exact Hl|]. cbn. destruct (decide (l = l')) as [<-|Hne].
    - rewrite lookup_insert. rewrite E in E'. injection E' as <- <-. eauto.
    - rewrite lookup_insert_ne by exact Hne. eauto.
  Qed.

  Lemma local_prune path : forall s cur s', Forall (held s) path -> prune s cur path = Ok s' -> local s s'.
  Proof.
    induction path as [|l path IH]; intros s cur s' Hh E; cbn [prune] in E.
    - injection E as <-. apply local_refl.
    - apply Forall_cons in Hh as ((Hl & p0 & cs0 & E00 & Hp0) & Hh).
      bind_ok E. destruct a as (p & cs). bind_ok E. bind_ok E.
      set (cs' := <[Z.to_nat a := _]> cs) in *.
      apply as_branch_heap in E0. rewrite E0 in E00. injection E00 as <- <-.
      pose proof (local_write s l (Branch p cs') Hl) as Hw.
      pose proof (held_P _ _ Hh) as HP.
      destruct (filter _ _) as [|only [|x y]]; [case_bool_decide|case_bool_decide|].
      + bind_ok E. eapply local_trans; [exact Hw|]. eapply local_trans; [eapply local_put; [eassumption|exact Hp0|right; exact Hl]|].
        eapply local_invalidate; eassumption.
      + eapply local_trans; [exact Hw|]. eapply IH; [|exact E].
        eapply Forall_impl; [exact Hh|]. intros l' Hl'. eapply held_write; eassumption.
      + bind_ok E. eapply local_trans; [exact Hw|]. eapply local_trans; [eapply local_del; eassumption|].
        eapply local_invalidate; eassumption.
      + bind_ok E. eapply local_trans; [exact Hw|]. eapply local_trans; [eapply local_put; [eassumption|exact Hp0|right; exact Hl]|].
        eapply local_invalidate; eassumption.
      + bind_ok E. eapply local_trans; [exact Hw|]. eapply local_trans; [eapply local_put; [eassumption|exact Hp0|right; exact Hl]|].
        eapply local_invalidate; eassumption.
  Qed.
End Local.

(** Every object in the store carries the path it is stored at. *)
Definition labelled (s : state) : Prop :=
  forall p l n, GetNode (sto s) p = Some l -> heap s !! l = Some n -> node_prefix n = p.

Definition on_path (s : state) (k : nibbles) (l : loc) : Prop :=
  exists p, GetNode (sto s) p = Some l /\ p `prefix_of` k.

Lemma local_update s k v fuel : labelled s -> forall np path s',
  Forall (held (on_path s k) k s) path ->
  update fuel s np k v path = Ok s' -> local (next s) (on_path s k) k s s'.
Proof.
  intros Hlab. induction fuel as [|fuel IH]; intros np path s' Hp E; cbn [update] in E; [discriminate|].
  pose proof (held_P _ _ _ _ Hp) as HP.
  destruct (PrefixOf np k) eqn:Ep; cbn [negb] in E.
  2:{ cbn [alloc] in E. bind_ok E. bind_ok E. bind_ok E. bind_ok E. bind_ok E. bind_ok E.
    eapply local_trans; [apply (local_alloc _ _ k s (Leaf k v)); lia|].
    eapply local_trans; [eapply local_put; [eassumption|reflexivity|left; lia]|].
    assert (Hn : (next s <= next a)%nat).
    { unfold put_node in E0. bind_ok E0. injection E0 as <-. cbn. lia. }
    eapply local_trans; [apply (local_alloc _ _ k a (Branch (CommonPrefix np k) a3)); exact Hn|].
    eapply local_trans; [eapply local_put; [eassumption|apply CommonPrefix_l|left; exact Hn]|].
    eapply local_invalidate; eassumption. }
  apply PrefixOf_prefix in Ep.
  destruct (bytes_eqb np k) eqn:Eq.
  - apply bytes_eqb_eq in Eq. subst np. destruct v as [|x v].
    + bind_ok E. eapply local_trans; [eapply local_del; [eassumption|reflexivity]|].
      eapply local_prune; [|exact E]. unfold del_node in E0. bind_ok E0. injection E0 as <-. exact Hp.
    + cbn [alloc] in E. bind_ok E.
      eapply local_trans; [apply (local_alloc _ _ k s (Leaf k (x :: v))); lia|].
      eapply local_trans; [eapply local_put; [eassumption|reflexivity|left; lia]|].
      eapply local_invalidate; eassumption.
  - destruct (GetNode (sto s) np) as [l|] eqn:El; [|discriminate].
    bind_ok E. destruct a as (p & cs). bind_ok E. bind_ok E.
    pose proof (as_branch_heap _ _ _ _ E0) as Hl.
    pose proof (Hlab _ _ _ El Hl) as Hpn. cbn in Hpn. subst p.
    assert (Hon : on_path s k l) by (exists np; auto).
    destruct (c_exists a0) eqn:Ex.
    + eapply IH; [|exact E]. constructor; [|exact Hp]. split; [exact Hon|eauto].
    + cbn [alloc] in E. bind_ok E. bind_ok E. bind_ok E. bind_ok E.
      eapply local_trans; [apply (local_alloc _ _ k s (Leaf k v)); lia|].
      eapply local_trans; [eapply local_put; [eassumption|reflexivity|left; lia]|].
      eapply local_trans; [apply (local_write _ _ k a1 l (Branch np a3)); exact Hon|].
      eapply local_trans; [eapply local_put; [eassumption|exact Ep|right; exact Hon]|].
      eapply local_invalidate; eassumption.
Qed.

(** ** Hashing *)
(** The same node, but for the hashes of its existing children. *)
Definition up_child (c c' : child) : Prop :=
  c_suffix c' = c_suffix c /\ c_exists c' = c_exists c /\ (c_exists c = false -> c_hash c' = c_hash c).
Definition up (n n' : node) : Prop :=
  match n, n' with
  | Leaf p v, Leaf p' v' => p' = p /\ v' = v
  | Branch p cs, Branch p' cs' => p' = p /\ Forall2 up_child cs cs'
  | _, _ => False
  end.
Lemma up_child_refl c : up_child c c.
Proof. repeat split. Qed.
Lemma up_refl n : up n n.
Proof.
  destruct n as [p cs|p v]; cbn; auto. split; [reflexivity|]. induction cs; constructor; [apply up_child_refl|assumption].
Qed.
Lemma up_child_trans a b c : up_child a b -> up_child b c -> up_child a c.
Proof.
  intros (A & B & C) (A' & B' & C'). repeat split; [congruence|congruence|].
  intros Hx. rewrite C', C; [reflexivity|exact Hx|congruence].
Qed.
Lemma up_trans a b c : up a b -> up b c -> up a c.
Proof.
  destruct a, b, c; cbn; try contradiction; intros (-> & H1) (-> & H2).
  - split; [reflexivity|]. revert H2. generalize children1 as x. induction H1 as [|c c' cs cs' Hc Hcs IH]; intros x H2.
    + inversion H2. constructor.
    + inversion H2; subst. constructor; [eapply up_child_trans; eassumption|]. apply IH. assumption.
  - split; congruence.
Qed.
Lemma up_prefix n n' : up n n' -> node_prefix n' = node_prefix n.
Proof. destruct n, n'; cbn; try contradiction; intros (-> & _); reflexivity. Qed.

Record rehashed (s s' : state) : Prop := Rehashed {
  re_get : forall p, GetNode (sto s') p = GetNode (sto s) p;
  re_some : forall l n, heap s !! l = Some n -> exists n', heap s' !! l = Some n' /\ up n n';
  re_none : forall l, heap s !! l = None -> heap s' !! l = None;
  re_out : forall l, (forall p, GetNode (sto s) p <> Some l) -> heap s' !! l = heap s !! l }.

Lemma rehashed_refl s : rehashed s s.
Proof. constructor; auto. intros l n E. exists n. split; [exact E|apply up_refl]. Qed.
Lemma rehashed_trans a b c : rehashed a b -> rehashed b c -> rehashed a c.
Proof.
  intros [A B C D] [A' B' C' D']. constructor.
  - intros p. rewrite A', A. reflexivity.
  - intros l n E. destruct (B _ _ E) as (n1 & E1 & U1). destruct (B' _ _ E1) as (n2 & E2 & U2).
    exists n2. split; [exact E2|eapply up_trans; eassumption].
  - auto.
  - intros l Hl. rewrite D', D; auto. intros p. rewrite A. apply Hl.
Qed.
Lemma rehashed_labelled s s' : rehashed s s' -> labelled s -> labelled s'.
Proof.
  intros [A B C D] Hlab p l n' Hg E'. rewrite A in Hg. destruct (heap s !! l) as [n|] eqn:E; [|rewrite C in E'; congruence].
  destruct (B _ _ E) as (n2 & E2 & U). rewrite E' in E2. injection E2 as <-. rewrite (up_prefix _ _ U). eapply Hlab; eassumption.
Qed.

Section WithHash.
  Variable H : bytes -> bytes.

  Lemma rehashed_hashes fuel : forall s q s' h, labelled s -> updateHashes H fuel s q = Ok (s', h) -> rehashed s s'.
  Proof.
    induction fuel as [|fuel IH]; intros s q s' h Hlab E; cbn [updateHashes] in E; [discriminate|].
    destruct (GetNode (sto s) q) as [l|] eqn:El; [|discriminate].
    destruct (heap s !! l) as [[p cs|p v]|] eqn:Eh; [| |discriminate].
    - bind_ok E. bind_ok E. destruct a0 as (p1 & cs1). bind_ok E. bind_ok E. injection E as <- _.
      pose proof (as_branch_heap _ _ _ _ E1) as E1'.
      assert (Hre : rehashed s a).
      { clear E1 E2 E3 E1' Eh. revert s a Hlab El E0. generalize (seq 0 16) as is.
        induction is as [|i is IHi]; intros s a Hlab El E0; cbn [for_each] in E0.
        { injection E0 as <-. apply rehashed_refl. }
        destruct (hash_child (updateHashes H fuel) l q s i) as [sx|e| |] eqn:Eh; cbn [bind] in E0; try discriminate E0.
        assert (Hs : rehashed s sx).
        { clear E0 IHi. unfold hash_child in Eh.
          destruct (as_branch s l) as [(p2 & cs2)|e| |] eqn:Ea; cbn [bind] in Eh; try discriminate Eh.
          destruct (index cs2 i) as [c2|e| |] eqn:Ei; cbn [bind] in Eh; try discriminate Eh.
          destruct (c_exists c2) eqn:Ex; cbn [negb] in Eh; [|injection Eh as <-; apply rehashed_refl].
          destruct (bytes_eqb (c_hash c2) zeroHash); [|injection Eh as <-; apply rehashed_refl].
          destruct (updateHashes H fuel s (q ++ c_suffix c2)) as [(s3 & h3)|e| |] eqn:Eu; cbn [bind] in Eh; try discriminate Eh.
          destruct (as_branch s3 l) as [(p3 & cs3)|e| |] eqn:Eb; cbn [bind] in Eh; try discriminate Eh.
          destruct (index cs3 i) as [c3|e| |] eqn:Ei3; cbn [bind] in Eh; try discriminate Eh.
          injection Eh as <-. pose proof (IH _ _ _ _ Hlab Eu) as Hr.
          eapply rehashed_trans; [exact Hr|].
          apply as_branch_heap in Eb, Ea.
          assert (Hx3 : c_exists c3 = true).
          { destruct (re_some _ _ Hr _ _ Ea) as (n' & En' & Un'). rewrite Eb in En'. injection En' as <-.
            cbn in Un'. destruct Un' as (_ & Un'). rewrite index_lookup in Ei, Ei3.
            destruct (cs2 !! i) as [x|] eqn:X; [injection Ei as ->|discriminate].
            destruct (cs3 !! i) as [y|] eqn:Y; [injection Ei3 as ->|discriminate].
            destruct (Forall2_lookup_lr _ _ _ _ _ _ Un' X Y) as (_ & Hy & _). congruence. }
          constructor; cbn.
          - reflexivity.
          - intros l0 n0 E0. destruct (decide (l = l0)) as [<-|Hne].
            + rewrite lookup_insert. eexists; split; [reflexivity|]. rewrite Eb in E0. injection E0 as <-.
              split; [reflexivity|]. rewrite index_lookup in Ei3. destruct (cs3 !! i) as [y|] eqn:Y; [injection Ei3 as ->|discriminate].
              rewrite <- (list_insert_id cs3 i c3 Y) at 1.
              apply Forall2_insert; [|split; [reflexivity|split; [reflexivity|cbn; congruence]]].
              clear. induction cs3; constructor; [apply up_child_refl|assumption].
            + rewrite lookup_insert_ne by exact Hne. exists n0. split; [exact E0|apply up_refl].
          - intros l0 E0. rewrite lookup_insert_ne; [exact E0|]. intros ->. congruence.
          - intros l0 Hl0. apply lookup_insert_ne. intros <-. apply (Hl0 q). rewrite (re_get _ _ Hr). exact El. }
        eapply rehashed_trans; [exact Hs|]. eapply IHi; [|rewrite (re_get _ _ Hs); exact El|exact E0].
        eapply rehashed_labelled; eassumption. }
      eapply rehashed_trans; [exact Hre|].
      pose proof (rehashed_labelled _ _ Hre Hlab) as Hlab1.
      assert (Hg : GetNode (sto a) q = Some l) by (rewrite (re_get _ _ Hre); exact El).
      pose proof (Hlab1 _ _ _ Hg E1') as Hq. cbn in Hq. subst p1.
      unfold put_node in E2. destruct (PutNode (sto a) q l) as [st|e| |] eqn:Ep; cbn [bind] in E2; try discriminate E2.
      injection E2 as <-. constructor; cbn; auto.
      + intros p0. rewrite (PutNode_get _ _ _ _ p0 Ep). case_decide; [subst; symmetry; exact Hg|reflexivity].
      + intros l0 n0 E0'. exists n0. split; [exact E0'|apply up_refl].
    - bind_ok E. injection E as <- _. apply rehashed_refl.
  Qed.

  Lemma reach_labelled s M : inv H s M -> labelled s.
  Proof.
    intros (_ & _ & V & ((_ & _ & Hg) & _) & _) p l n El En.
    destruct (Hg _ _ El) as (n' & En' & Hp & _). congruence.
  Qed.

  Lemma local_updateEntry s M k v s' b : inv H s M -> updateEntry s k v = Ok (s', b) ->
    local (next s) (on_path s (KeyToNibbles k)) (KeyToNibbles k) s s'.
  Proof.
    intros Hi E. pose proof (reach_labelled _ _ Hi) as Hlab.
    assert (Hgo : forall r, (let? s' := update tree_fuel s [] (KeyToNibbles k) v [] in Ok (s', true)) = Ok r ->
      local (next s) (on_path s (KeyToNibbles k)) (KeyToNibbles k) s r.1).
    { intros (r & b2) E2. bind_ok E2. injection E2 as <- _. cbn.
      eapply local_update; [exact Hlab|constructor|eassumption]. }
    unfold updateEntry in E.
    destruct (GetNode (sto s) (KeyToNibbles k)) as [l|].
    - destruct (heap s !! l) as [[p cs|p w]|]; [exact (Hgo _ E)| |exact (Hgo _ E)].
      destruct (bytes_eqb w v); [injection E as <- _; apply local_refl|exact (Hgo _ E)].
    - destruct v; [injection E as <- _; apply local_refl|exact (Hgo _ E)].
  Qed.

  (** Two versions of a node that are both right are the same, if what lies
      under the node is the same. *)
  Lemma right_same N N' p n n' : good N -> agree N N' p ->
    shape N (clean_q H N) p (Some n) -> shape N' (clean_q H N') p (Some n') -> up n n' -> n' = n.
  Proof.
    intros Hg Ha Hs Hs' Hu. destruct n as [q cs|q v], n' as [q' cs'|q' v']; cbn in Hu; try contradiction.
    - destruct Hu as (-> & Hu). f_equal. cbn in Hs, Hs'. destruct Hs as (-> & _ & _ & _ & Hcs), Hs' as (_ & _ & _ & _ & Hcs').
      apply list_eq. intros i.
      destruct (cs !! i) as [c|] eqn:Ec.
      + destruct (Forall2_lookup_l _ _ _ _ _ Hu Ec) as (c' & Ec' & Hsuf & Hex & Hh). rewrite Ec'. f_equal.
        destruct (Hcs _ _ Ec) as ((_ & Hlk) & Hm). destruct (Hcs' _ _ Ec') as (_ & Hm').
        destruct c as [su h ex], c' as [su' h' ex']. cbn in *. subst su' ex'. f_equal.
        destruct ex; [|apply Hh; reflexivity]. rewrite Hm, Hm' by reflexivity. unfold mh. f_equal. symmetry.
        apply merkle_bytes_agree; [exact Hg|]. eapply agree_pre; [exact Ha|eexists; reflexivity].
      + apply lookup_ge_None in Ec. apply lookup_ge_None. rewrite <- (Forall2_length _ _ _ Hu). exact Ec.
    - destruct Hu as (-> & ->). reflexivity.
  Qed.

  Lemma inv_shape s M p l n : inv H s M -> GetNode (sto s) p = Some l -> heap s !! l = Some n ->
    shape (by_path M) (clean_q H (by_path M)) p (Some n).
  Proof.
    intros (_ & _ & V & Hsim & Hc) El En. pose proof (sim_get s V p Hsim) as Hp. rewrite El in Hp.
    destruct Hp as (n' & En' & HV & _). specialize (Hc p). rewrite HV in Hc. congruence.
  Qed.

  Lemma updateEntry_labelled s M k v s' b : inv H s M -> addr20 k -> updateEntry s k v = Ok (s', b) -> labelled s'.
  Proof.
    intros (Hm & Hlay & V & Hsim & Hc) (Hl & Hok) E. pose proof (keys20_good M Hm) as Hg.
    pose proof (sim_updateEntry s V k v Hsim (canon_suffixes H _ V Hg Hc) Hok) as Hr. rewrite E in Hr.
    destruct (pupdateEntry V k v) as [(V' & b')|e| |]; cbn in Hr; try contradiction.
    destruct Hr as (((_ & _ & Hx) & _) & _). intros p l n El En.
    destruct (Hx _ _ El) as (n' & En' & Hp & _). congruence.
  Qed.

  Lemma PutEntry_local s M k v s' b : inv H s M -> addr20 k -> PutEntry H s k v = Ok (s', b) ->
    (forall p, ~ (p `prefix_of` KeyToNibbles k) -> GetNode (sto s') p = GetNode (sto s) p) /\
    (forall l n, heap s !! l = Some n -> (forall p, GetNode (sto s) p = Some l -> ~ (p `prefix_of` KeyToNibbles k)) ->
       heap s' !! l = Some n).
  Proof.
    intros Hi Hk E. destruct (inv_PutEntry H s M k v Hi Hk) as (s2 & E2 & Hi2).
    rewrite E in E2. injection E2 as <- _.
    unfold PutEntry in E. bind_ok E. destruct a as (s1 & b1). bind_ok E. destruct a as (s2 & h). injection E as <- _.
    pose proof (local_updateEntry _ _ _ _ _ _ Hi E0) as Hlo.
    pose proof (rehashed_hashes _ _ _ _ _ (updateEntry_labelled _ _ _ _ _ _ Hi Hk E0) E1) as Hre.
    assert (Hget : forall p, ~ (p `prefix_of` KeyToNibbles k) -> GetNode (sto s2) p = GetNode (sto s) p).
    { intros p Hp. rewrite (re_get _ _ Hre). apply (loc_get _ _ _ _ _ Hlo), Hp. }
    split; [exact Hget|]. intros l n El Hoff.
    assert (HnP : ~ on_path s (KeyToNibbles k) l).
    { intros (p & Hp & Hpk). exact (Hoff p Hp Hpk). }
    assert (Hlt : (l < next s)%nat).
    { destruct Hi as (_ & _ & V & ((_ & Hf & _) & _) & _). eapply Hf, El. }
    assert (El1 : heap s1 !! l = Some n) by (rewrite (loc_heap _ _ _ _ _ Hlo) by assumption; exact El).
    destruct (re_some _ _ Hre _ _ El1) as (n' & En' & Hu). rewrite En'. f_equal.
    destruct (decide (GetNode (sto s) (node_prefix n) = Some l)) as [Hg|Hng].
    - assert (Hg2 : GetNode (sto s2) (node_prefix n) = Some l) by (rewrite Hget; [exact Hg|apply Hoff, Hg]).
      destruct Hk as (Hl20 & Hok).
      eapply (right_same (by_path M) (by_path (spec_put M (k, v)))); [| |eapply inv_shape; eassumption|eapply inv_shape; eassumption|exact Hu].
      + apply keys20_good, Hi.
      + eapply (agree_off _ _ (nibs k)); [|rewrite <- nibs_key by exact Hok; apply Hoff, Hg].
        intros k' Hne. rewrite by_path_put. unfold spec_put. cbn [fst snd]. destruct v.
        * rewrite lookup_delete_ne by congruence. reflexivity.
        * rewrite lookup_insert_ne by congruence. reflexivity.
    - assert (Hno : forall p, GetNode (sto s) p <> Some l).
      { intros p Hp. apply Hng. rewrite (reach_labelled _ _ Hi _ _ _ Hp El). exact Hp. }
      rewrite (re_out _ _ Hre) in En'; [congruence|].
      intros p Hp. apply (Hno p). eapply (loc_old _ _ _ _ _ Hlo); eassumption.
  Qed.

  Lemma PutEntry_false s M k v s' : inv H s M -> addr20 k -> PutEntry H s k v = Ok (s', false) ->
    (forall p, GetNode (sto s') p = GetNode (sto s) p) /\ heap s' = heap s.
  Proof.
    intros Hi Hk E. destruct (inv_PutEntry H s M k v Hi Hk) as (s2 & E2 & Hi2).
    rewrite E in E2. injection E2 as <- Hb.
    assert (Hsame : spec_put M (k, v) = M).
    { symmetry in Hb. apply negb_false_iff, bytes_eqb_eq in Hb. unfold spec_put. cbn [fst snd].
      destruct v as [|x v]; destruct (M !! k) as [w|] eqn:Ew; cbn in Hb.
      - subst w. destruct Hi as (Hm & _). destruct (Hm _ _ Ew) as (_ & Hne). exfalso. exact (Hne eq_refl).
      - apply delete_notin, Ew.
      - subst w. apply insert_id, Ew.
      - discriminate. }
    rewrite Hsame in Hi2.
    unfold PutEntry in E. bind_ok E. destruct a as (s1 & b1). bind_ok E. destruct a as (s2 & h). injection E as <- ->.
    assert (s1 = s) as ->.
    { unfold updateEntry in E0. destruct (GetNode (sto s) (KeyToNibbles k)) as [l|].
      - destruct (heap s !! l) as [[p cs|p w]|]; [bind_ok E0; discriminate E0| |bind_ok E0; discriminate E0].
        destruct (bytes_eqb w v); [injection E0 as <-; reflexivity|bind_ok E0; discriminate E0].
      - destruct v; [injection E0 as <-; reflexivity|bind_ok E0; discriminate E0]. }
    pose proof (rehashed_hashes _ _ _ _ _ (reach_labelled _ _ Hi) E1) as Hre.
    split; [apply (re_get _ _ Hre)|]. apply map_eq. intros l.
    destruct (heap s !! l) as [n|] eqn:El; [|apply (re_none _ _ Hre), El].
    destruct (re_some _ _ Hre _ _ El) as (n' & En' & Hu). rewrite En'. f_equal.
    destruct (decide (GetNode (sto s) (node_prefix n) = Some l)) as [Hg|Hng].
    - assert (Hg2 : GetNode (sto s2) (node_prefix n) = Some l) by (rewrite (re_get _ _ Hre); exact Hg).
      eapply (right_same (by_path M) (by_path M)); [| |exact (inv_shape _ _ _ _ _ Hi Hg El)|exact (inv_shape _ _ _ _ _ Hi2 Hg2 En')|exact Hu].
      + apply keys20_good, Hi.
      + intros k' _. reflexivity.
    - rewrite (re_out _ _ Hre) in En'; [congruence|].
      intros p Hp. apply Hng. rewrite (reach_labelled _ _ Hi _ _ _ Hp El). exact Hp.
  Qed.
End WithHash.
