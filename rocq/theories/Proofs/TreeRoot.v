(** The root branch of a tree is one node object for the tree's whole life:
    it is allocated once and then only mutated in place. *)
From Coq Require Import ZArith List Lia Bool.
From stdpp Require Import gmap list.
From Verif.Model Require Import Base Address Nibbles Tree.
From Verif.Spec Require Import AddressSpec TreeSpec TreeHistory.
From Verif.Proofs Require Import BaseFacts NibblesFacts TreeSim TreeTrie TreeCanon TreeUpdate TreeHashes TreeReach.
Open Scope Z_scope.

Definition rooted (r : loc) (s : state) : Prop :=
  GetNode (sto s) [] = Some r /\ forall l cs, heap s !! l = Some (Branch [] cs) -> l = r.

Lemma PutNode_get s k l s' q : PutNode s k l = Ok s' -> GetNode s' q = if decide (q = k) then Some l else GetNode s q.
Proof.
  destruct s as [m|lower [d|]]; cbn; intros E; [| |discriminate]; injection E as <-; cbn.
  - case_decide; [subst; apply lookup_insert|apply lookup_insert_ne; congruence].
  - case_decide; [subst; rewrite lookup_insert; reflexivity|rewrite lookup_insert_ne by congruence; reflexivity].
Qed.
Lemma DelNode_get s k s' q : q <> k -> DelNode s k = Ok s' -> GetNode s' q = GetNode s q.
Proof.
  destruct s as [m|lower [d|]]; cbn; intros Hne E; [| |discriminate]; injection E as <-; cbn.
  - apply lookup_delete_ne; congruence.
  - rewrite lookup_insert_ne by congruence; reflexivity.
Qed.

Lemma rooted_alloc r s n : (forall cs, n <> Branch [] cs) -> rooted r s -> rooted r (alloc s n).1.
Proof.
  intros Hn (Hg & Hu). split; [exact Hg|]. cbn. intros l cs. destruct (decide (next s = l)) as [<-|Hne].
  - rewrite lookup_insert. intros E. injection E as E. exfalso. eapply Hn, E.
  - rewrite lookup_insert_ne by exact Hne. apply Hu.
Qed.
Lemma rooted_put r s k l s' : put_node s k l = Ok s' -> (k = [] -> exists cs, heap s !! l = Some (Branch [] cs)) ->
  rooted r s -> rooted r s'.
Proof.
  unfold put_node. intros E Hk (Hg & Hu). bind_ok E. injection E as <-. split; [|exact Hu].
  cbn. rewrite (PutNode_get _ _ _ _ [] E0). case_decide as Hd; [|exact Hg].
  destruct (Hk (eq_sym Hd)) as (cs & Hl). rewrite (Hu _ _ Hl). reflexivity.
Qed.
Lemma rooted_del r s k s' : del_node s k = Ok s' -> k <> [] -> rooted r s -> rooted r s'.
Proof.
  unfold del_node. intros E Hk (Hg & Hu). bind_ok E. injection E as <-. split; [|exact Hu].
  cbn. rewrite (DelNode_get _ k _ [] ltac:(congruence) E0). exact Hg.
Qed.
Lemma as_branch_heap s l p cs : as_branch s l = Ok (p, cs) -> heap s !! l = Some (Branch p cs).
Proof. unfold as_branch. destruct (heap s !! l) as [[]|]; try discriminate. intros E. injection E as -> ->. reflexivity. Qed.
Lemma rooted_write r s l p cs cs' : as_branch s l = Ok (p, cs) -> rooted r s -> rooted r (write s l (Branch p cs')).
Proof.
  intros E (Hg & Hu). apply as_branch_heap in E. split; [exact Hg|]. cbn. intros l' cs0.
  destruct (decide (l = l')) as [<-|Hne].
  - rewrite lookup_insert. intros E1. injection E1 as -> _. eapply Hu, E.
  - rewrite lookup_insert_ne by exact Hne. apply Hu.
Qed.

Lemma rooted_invalidate r path : forall s cur s', invalidatePath s cur path = Ok s' -> rooted r s -> rooted r s'.
Proof.
  induction path as [|l path IH]; intros s cur s' E Hr; cbn [invalidatePath] in E.
  - injection E as <-. exact Hr.
  - bind_ok E. destruct a as (p & cs). bind_ok E. bind_ok E.
    eapply IH; [exact E|]. eapply rooted_write; eassumption.
Qed.

Lemma rooted_put_write r s l p cs s' : put_node (write s l (Branch p cs)) p l = Ok s' ->
  rooted r (write s l (Branch p cs)) -> rooted r s'.
Proof. intros E. eapply rooted_put; [exact E|]. intros ->. exists cs. cbn. apply lookup_insert. Qed.

Lemma rooted_prune r path : forall s cur s', prune s cur path = Ok s' -> rooted r s -> rooted r s'.
Proof.
  induction path as [|l path IH]; intros s cur s' E Hr; cbn [prune] in E.
  - injection E as <-. exact Hr.
  - bind_ok E. destruct a as (p & cs). bind_ok E. bind_ok E.
    set (cs' := <[Z.to_nat a := _]> cs) in *.
    pose proof (rooted_write r s l p cs cs' E0 Hr) as Hw.
    destruct (filter _ _) as [|only [|x y]]; [case_bool_decide|case_bool_decide|].
    + bind_ok E. eapply rooted_invalidate; [exact E|]. eapply rooted_put_write; eassumption.
    + eapply IH; [exact E|exact Hw].
    + bind_ok E. eapply rooted_invalidate; [exact E|]. eapply rooted_del; [eassumption| |exact Hw].
      intros ->. cbn in *. lia.
    + bind_ok E. eapply rooted_invalidate; [exact E|]. eapply rooted_put_write; eassumption.
    + bind_ok E. eapply rooted_invalidate; [exact E|]. eapply rooted_put_write; eassumption.
Qed.

(** Descending from the root keeps to nodes whose path begins like the key. *)
Definition along (np k : nibbles) : Prop := np = [] \/ exists d np' k', np = d :: np' /\ k = d :: k'.

Lemma rooted_update r N fuel : forall s V Q np k v path s',
  fresh s -> sim s V -> canon N Q V ->
  (forall p i c, Q p i c -> c_exists c = true -> link N (child_path p i) (p ++ c_suffix c)) ->
  k <> [] -> Forall (fun d => 0 <= d) k -> along np k ->
  update fuel s np k v path = Ok s' -> rooted r s -> rooted r s'.
Proof.
  induction fuel as [|fuel IH]; intros s V Q np k v path s' Hf Hsim Hc HQ Hk0 Hkn Ha E Hr; cbn [update] in E; [discriminate|].
  destruct (PrefixOf np k) eqn:Ep; cbn [negb] in E.
  2:{ cbn [alloc] in E. bind_ok E. bind_ok E. bind_ok E. bind_ok E. bind_ok E. bind_ok E.
    assert (Hpp : CommonPrefix np k <> []).
    { destruct Ha as [->|(d & np' & k' & -> & ->)]; [discriminate Ep|]. cbn. rewrite Z.eqb_refl. discriminate. }
    eapply rooted_invalidate; [exact E|]. eapply rooted_put; [eassumption|intros Hx; contradiction|].
    apply (rooted_alloc r a (Branch (CommonPrefix np k) _)); [intros cs Hx; injection Hx as Hx _; contradiction|].
    eapply rooted_put; [eassumption|intros Hx; contradiction|].
    apply (rooted_alloc r s (Leaf k v)); [discriminate|exact Hr]. }
  destruct (bytes_eqb np k) eqn:Eq.
  - apply bytes_eqb_eq in Eq. subst np. destruct v as [|x v].
    + bind_ok E. eapply rooted_prune; [exact E|]. eapply rooted_del; eassumption.
    + cbn [alloc] in E. bind_ok E. eapply rooted_invalidate; [exact E|].
      eapply rooted_put; [eassumption|intros Hx; contradiction|].
      apply (rooted_alloc r s (Leaf k (x :: v))); [discriminate|exact Hr].
  - destruct (GetNode (sto s) np) as [l|] eqn:El; [|discriminate].
    bind_ok E. destruct a as (p & cs). bind_ok E. bind_ok E.
    pose proof (as_branch_heap _ _ _ _ E0) as Hl.
    assert (HV : V !! np = Some (Branch p cs)).
    { destruct Hsim as (_ & <-). rewrite view_lookup, El. cbn. exact Hl. }
    pose proof (Hc np) as Hs. rewrite HV in Hs. cbn [shape] in Hs. destruct Hs as (-> & _ & _ & _ & Hq).
    destruct (c_exists a0) eqn:Ex.
    + eapply (IH s V Q); [exact Hf|exact Hsim|exact Hc|exact HQ|exact Hk0|exact Hkn| |exact E|exact Hr].
      destruct Ha as [->|(d & np' & k' & -> & ->)]; [|right; exists d, (np' ++ c_suffix a0), k'; auto].
      right. cbn [app length] in *. destruct k as [|d k']; [congruence|]. cbn in E1. injection E1 as <-.
      assert (Hi : cs !! Z.to_nat d = Some a0).
      { rewrite index_lookup in E2. destruct (cs !! Z.to_nat d); [|discriminate]. injection E2 as ->. reflexivity. }
      destruct (HQ [] _ _ (Hq _ _ Hi) Ex) as (Hp & _). cbn in Hp.
      destruct Hp as (t & Et). cbn in Et. exists d, t, k'. split; [|reflexivity].
      rewrite Et. inversion Hkn; subst. rewrite Z2Nat.id by assumption. reflexivity.
    + cbn [alloc] in E. bind_ok E. bind_ok E. bind_ok E. bind_ok E.
      eapply rooted_invalidate; [exact E|].
      eapply rooted_put_write; [eassumption|].
      eapply (rooted_write r _ _ _ cs).
      { eapply as_branch_mono; [exact E0|]. rewrite (put_node_heap _ _ _ _ E3). cbn. apply lookup_insert_ne.
        apply Hf in Hl. lia. }
      eapply rooted_put; [eassumption|intros Hx; contradiction|].
      apply (rooted_alloc r s (Leaf k v)); [discriminate|exact Hr].
Qed.

Section WithHash.
  Variable H : bytes -> bytes.

  Lemma rooted_hashes r fuel : forall s q s' h, updateHashes H fuel s q = Ok (s', h) -> rooted r s -> rooted r s'.
  Proof.
    induction fuel as [|fuel IH]; intros s q s' h E Hr; cbn [updateHashes] in E; [discriminate|].
    destruct (GetNode (sto s) q) as [l|]; [|discriminate].
    destruct (heap s !! l) as [[p cs|p v]|]; [| |discriminate].
    - bind_ok E. bind_ok E. destruct a0 as (p1 & cs1). bind_ok E. bind_ok E. injection E as <- _.
      eapply rooted_put; [eassumption|intros ->; eexists; eapply as_branch_heap; eassumption|].
      clear E1 E2 E3. revert s a Hr E0. generalize (seq 0 16) as is.
      induction is as [|i is IHi]; intros s a Hr E0; cbn [for_each] in E0.
      { injection E0 as <-. exact Hr. }
      destruct (hash_child (updateHashes H fuel) l q s i) as [sx|e| |] eqn:Eh; cbn [bind] in E0; try discriminate E0.
      eapply IHi; [|exact E0]. clear E0 IHi. unfold hash_child in Eh.
      destruct (as_branch s l) as [(p2 & cs2)|e| |]; cbn [bind] in Eh; try discriminate Eh.
      destruct (index cs2 i) as [c2|e| |]; cbn [bind] in Eh; try discriminate Eh.
      destruct (negb (c_exists c2)); [injection Eh as <-; exact Hr|].
      destruct (bytes_eqb (c_hash c2) zeroHash); [|injection Eh as <-; exact Hr].
      destruct (updateHashes H fuel s (q ++ c_suffix c2)) as [(s3 & h3)|e| |] eqn:Eu; cbn [bind] in Eh; try discriminate Eh.
      destruct (as_branch s3 l) as [(p3 & cs3)|e| |] eqn:Eb; cbn [bind] in Eh; try discriminate Eh.
      destruct (index cs3 i) as [c3|e| |]; cbn [bind] in Eh; try discriminate Eh.
      injection Eh as <-. eapply rooted_write; [exact Eb|]. eapply IH; eassumption.
    - bind_ok E. injection E as <- _. exact Hr.
  Qed.

  Lemma rooted_PutEntry r s M k v s' b : inv H s M -> addr20 k -> PutEntry H s k v = Ok (s', b) -> rooted r s -> rooted r s'.
  Proof.
    intros (Hm & _ & V & Hsim & Hc) (Hl & Hok) E Hr.
    pose proof (proj1 (proj2 (proj1 Hsim))) as Hf.
    unfold PutEntry in E. bind_ok E. destruct a as (s1 & b1). bind_ok E. destruct a as (s2 & h).
    injection E as <- _. eapply rooted_hashes; [eassumption|].
    unfold updateEntry in E0.
    assert (Hgo : forall r0, (let? s' := update tree_fuel s [] (KeyToNibbles k) v [] in Ok (s', true)) = Ok r0 -> rooted r r0.1).
    { intros (r0 & b2) E2. bind_ok E2. injection E2 as <- _. cbn.
      destruct (KeyToNibbles_key k Hok Hl) as (Hk40 & Hkn).
      eapply (rooted_update r (by_path M) tree_fuel s V); try eassumption.
      - intros p i c ((_ & Hlk) & _) Hx. apply Hlk, Hx.
      - intros Hx. rewrite Hx in Hk40. discriminate.
      - eapply Forall_impl; [exact Hkn|]. unfold nib. cbn. intros; lia.
      - left; reflexivity. }
    destruct (GetNode (sto s) (KeyToNibbles k)) as [l|].
    - destruct (heap s !! l) as [[p cs|p w]|]; [exact (Hgo _ E0)| |exact (Hgo _ E0)].
      destruct (bytes_eqb w v); [injection E0 as <- _; exact Hr|exact (Hgo _ E0)].
    - destruct v; [injection E0 as <- _; exact Hr|exact (Hgo _ E0)].
  Qed.

  Lemma rooted_run r hist : forall s M s', inv H s M -> Forall (fun kv => addr20 kv.1) hist ->
    run H s hist = Ok s' -> rooted r s -> rooted r s'.
  Proof.
    induction hist as [|(k & v) hist IH]; intros s M s' Hi Hk E Hr; cbn [run] in E; [injection E as <-; exact Hr|].
    apply Forall_cons_1 in Hk as (Hk1 & Hk2). cbn in Hk1.
    destruct (PutEntry H s k v) as [(s1 & b)|e| |] eqn:E0; cbn [bind] in E; try discriminate E.
    destruct (inv_PutEntry H s M k v Hi Hk1) as (s1' & E1 & Hi1). rewrite E0 in E1. injection E1 as -> _.
    eapply IH; [exact Hi1|exact Hk2|exact E|]. eapply rooted_PutEntry; [exact Hi|exact Hk1|exact E0|exact Hr].
  Qed.
End WithHash.
