(** Consecutive recorded states differ by one change. *)
From Coq Require Import ZArith List Lia Bool.
From stdpp Require Import gmap list.
From Verif.Model Require Import Base Address Nibbles Tree TreeSteps.
From Verif.Spec Require Import AddressSpec TreeSpec TreeHistory StepSpec.
From Verif.Proofs Require Import BaseFacts NibblesFacts TreeSim TreeTrie TreeCanon TreeUpdate TreeHashes TreeReach TreeRoot TreeLocal StepFacts.
Open Scope Z_scope.

Lemma walk_app s l1 s1 l2 s2 : walk s l1 s1 -> walk s1 l2 s2 -> walk s (l1 ++ l2) s2.
Proof.
  revert s. induction l1 as [|u l1 IH]; intros s; cbn [walk app].
  - intros ->. auto.
  - intros (Hu & Hl) H2. split; [exact Hu|]. apply IH; assumption.
Qed.

Definition walks {A} (s : state) (m : steps A) (r : A -> state) : Prop :=
  forall a, m.2 = Ok a -> walk s m.1 (r a).

Lemma walks_bind {A B} s (m : steps A) (f : A -> steps B) r r' :
  walks s m r -> (forall a, m.2 = Ok a -> walks (r a) (f a) r') -> walks s (sbind m f) r'.
Proof.
  unfold walks, sbind. destruct m as (l & [a|e| |]); cbn; intros Hm Hf b E; try discriminate.
  eapply walk_app; [apply Hm; reflexivity|apply Hf; [reflexivity|exact E]].
Qed.
Lemma walks_lift {A B} s (m : res A) (f : A -> steps B) r' :
  (forall a, m = Ok a -> walks s (f a) r') -> walks s (let* a := lift m in f a) r'.
Proof. intros Hf. eapply (walks_bind s (lift m) f (fun _ => s)); [intros a _; reflexivity|exact Hf]. Qed.
Lemma walks_ok {A} s (a : A) r : r a = s -> walks s (lift (Ok a)) r.
Proof. intros Hr b E. injection E as <-. symmetry. exact Hr. Qed.

Lemma change_write s l p cs cs' : as_branch s l = Ok (p, cs) -> one_change s (write s l (Branch p cs')).
Proof. intros E. left. exists l, p, cs, cs'. split; [apply as_branch_heap, E|reflexivity]. Qed.
Lemma change_put s p l s' : put_node s p l = Ok s' -> one_change s s'.
Proof.
  unfold put_node. intros E. bind_ok E. injection E as <-. right. exists (OPut p l). split; [exact E0|]. auto.
Qed.
Lemma change_del s p s' : del_node s p = Ok s' -> one_change s s'.
Proof.
  unfold del_node. intros E. bind_ok E. injection E as <-. right. exists (ODel p). split; [exact E0|]. auto.
Qed.
Lemma change_alloc_put s n p s' : fresh s -> put_node (alloc s n).1 p (next s) = Ok s' -> one_change s s'.
Proof.
  unfold put_node. intros Hf E. bind_ok E. injection E as <-. right. exists (OPut p (next s)). split; [exact E0|].
  cbn. intros l n' E'. rewrite lookup_insert_ne; [exact E'|]. apply Hf in E'. lia.
Qed.

Lemma walks_did s u {A} (f : state -> steps A) r : one_change s u -> walks u (f u) r -> walks s (let* s1 := did u in f s1) r.
Proof.
  intros Hc Hf. eapply (walks_bind s (did u) f (fun a => a)).
  - intros a E. injection E as <-. cbn. auto.
  - intros a E. injection E as <-. exact Hf.
Qed.
Lemma walks_put s s0 p l {A} (f : state -> steps A) r :
  (forall s', put_node s0 p l = Ok s' -> one_change s s' /\ walks s' (f s') r) -> walks s (let* s1 := t_put s0 p l in f s1) r.
Proof.
  intros Hf. eapply (walks_bind s (t_put s0 p l) f (fun a => a)).
  - intros a E. pose proof E as E'. rewrite t_put_2 in E'. destruct (Hf _ E') as (Hc & _).
    unfold t_put, sbind, lift. cbn. rewrite E'. cbn. auto.
  - intros a E. rewrite t_put_2 in E. apply Hf, E.
Qed.
Lemma walks_del s p {A} (f : state -> steps A) r :
  (forall s', del_node s p = Ok s' -> walks s' (f s') r) -> walks s (let* s1 := t_del s p in f s1) r.
Proof.
  intros Hf. eapply (walks_bind s (t_del s p) f (fun a => a)).
  - intros a E. pose proof E as E'. rewrite t_del_2 in E'.
    unfold t_del, sbind, lift. cbn. rewrite E'. cbn. split; [eapply change_del, E'|reflexivity].
  - intros a E. rewrite t_del_2 in E. apply Hf, E.
Qed.

Lemma walks_invalidate path : forall s cur, walks s (t_invalidatePath s cur path) (fun a => a).
Proof.
  induction path as [|l path IH]; intros s cur; cbn [t_invalidatePath]; [apply walks_ok; reflexivity|].
  apply walks_lift. intros (p & cs) E. apply walks_lift. intros su _. apply walks_lift. intros cs' _.
  apply walks_did; [eapply change_write, E|apply IH].
Qed.
Lemma walks_prune path : forall s cur, walks s (t_prune s cur path) (fun a => a).
Proof.
  induction path as [|l path IH]; intros s cur; cbn [t_prune]; [apply walks_ok; reflexivity|].
  apply walks_lift. intros (p & cs) E. apply walks_lift. intros d _. apply walks_lift. intros c _.
  apply walks_did; [eapply change_write, E|].
  destruct (filter _ _) as [|only [|x y]]; [case_bool_decide|case_bool_decide|].
  - apply walks_put. intros s2 E2. split; [eapply change_put, E2|apply walks_invalidate].
  - apply IH.
  - apply walks_del. intros s2 E2. apply walks_invalidate.
  - apply walks_put. intros s2 E2. split; [eapply change_put, E2|apply walks_invalidate].
  - apply walks_put. intros s2 E2. split; [eapply change_put, E2|apply walks_invalidate].
Qed.
Lemma walks_update fuel : forall s np k v path, fresh s -> walks s (t_update fuel s np k v path) (fun a => a).
Proof.
  induction fuel as [|fuel IH]; intros s np k v path Hf; cbn [t_update]; [intros a E; discriminate|].
  destruct (negb (PrefixOf np k)).
  - cbn [alloc]. apply walks_put. intros s2 E2. split; [exact (change_alloc_put s (Leaf k v) k s2 Hf E2)|].
    assert (Hf2 : fresh s2).
    { eapply ext_fresh; [|eapply ext_fresh; [exact (ext_alloc s (Leaf k v))|exact Hf]]. eapply ext_put, E2. }
    apply walks_lift. intros a1 _. apply walks_lift. intros a2 _. apply walks_lift. intros a3 _. apply walks_lift. intros cs2 _.
    apply walks_put. intros s4 E4. split; [|apply walks_invalidate].
    exact (change_alloc_put s2 (Branch (CommonPrefix np k) cs2) _ s4 Hf2 E4).
  - destruct (bytes_eqb np k).
    + destruct v as [|x v].
      * apply walks_del. intros s1 E1. apply walks_prune.
      * cbn [alloc]. apply walks_put. intros s2 E2. split; [exact (change_alloc_put s (Leaf np (x :: v)) np s2 Hf E2)|apply walks_invalidate].
    + destruct (GetNode (sto s) np) as [l|]; [|intros a E; discriminate].
      apply walks_lift. intros (p & cs) E0. apply walks_lift. intros d _. apply walks_lift. intros c _.
      destruct (c_exists c); [apply IH, Hf|].
      cbn [alloc]. apply walks_put. intros s2 E2. split; [exact (change_alloc_put s (Leaf k v) k s2 Hf E2)|].
      apply walks_lift. intros su _. apply walks_lift. intros cs' _. apply walks_did.
      * eapply change_write. eapply as_branch_mono; [exact E0|]. rewrite (put_node_heap _ _ _ _ E2). cbn. apply lookup_insert_ne.
        apply as_branch_heap in E0. apply Hf in E0. lia.
      * apply walks_put. intros s4 E4. split; [eapply change_put, E4|apply walks_invalidate].
Qed.
Lemma walks_updateEntry s k v : fresh s -> walks s (t_updateEntry s k v) fst.
Proof.
  intros Hf. unfold t_updateEntry.
  assert (Hgo : walks s (let* s' := t_update tree_fuel s [] (KeyToNibbles k) v [] in lift (Ok (s', true))) fst).
  { eapply (walks_bind s _ _ (fun a => a)); [apply walks_update, Hf|]. intros a _. apply walks_ok. reflexivity. }
  destruct (GetNode (sto s) (KeyToNibbles k)) as [l|].
  - destruct (heap s !! l) as [[p cs|p w]|]; [exact Hgo| |exact Hgo].
    destruct (bytes_eqb w v); [apply walks_ok; reflexivity|exact Hgo].
  - destruct v; [apply walks_ok; reflexivity|exact Hgo].
Qed.
Lemma walks_hashes H fuel : forall s q, walks s (t_updateHashes H fuel s q) fst.
Proof.
  induction fuel as [|fuel IH]; intros s q; cbn [t_updateHashes]; [intros a E; discriminate|].
  destruct (GetNode (sto s) q) as [l|]; [|intros a E; discriminate].
  destruct (heap s !! l) as [[p cs|p v]|]; [| |intros a E; discriminate].
  2:{ apply walks_lift. intros h _. apply walks_ok. reflexivity. }
  assert (Hloop : forall is s, walks s (t_for_each (t_hash_child (t_updateHashes H fuel) l q) is s) (fun a => a)).
  { clear s p cs. induction is as [|i is IHi]; intros s; cbn [t_for_each]; [apply walks_ok; reflexivity|].
    eapply (walks_bind s _ _ (fun a => a)); [|intros a _; apply IHi].
    unfold t_hash_child. apply walks_lift. intros (p & cs) E. apply walks_lift. intros c _.
    destruct (negb (c_exists c)); [apply walks_ok; reflexivity|]. destruct (bytes_eqb (c_hash c) zeroHash); [|apply walks_ok; reflexivity].
    eapply (walks_bind s _ _ fst); [apply IH|]. intros (s1 & h) _. cbn [fst].
    apply walks_lift. intros (p' & cs') E'. apply walks_lift. intros c' _.
    intros a Ea. injection Ea as <-. cbn. split; [eapply change_write, E'|reflexivity]. }
  eapply (walks_bind s _ _ (fun a => a)); [apply Hloop|]. intros s1 _.
  apply walks_lift. intros (p1 & cs1) _. apply walks_put. intros s2 E2. split; [eapply change_put, E2|].
  apply walks_lift. intros h _. apply walks_ok. reflexivity.
Qed.
Theorem walks_PutEntry H s k v : fresh s -> walks s (t_PutEntry H s k v) fst.
Proof.
  intros Hf. unfold t_PutEntry. eapply (walks_bind s _ _ fst); [apply walks_updateEntry, Hf|]. intros (s1 & b) _. cbn [fst].
  eapply (walks_bind s1 _ _ fst); [apply walks_hashes|]. intros (s2 & h) _. apply walks_ok. reflexivity.
Qed.
