(** Several trees on one store: what a write through one of them does to the others. *)
From Coq Require Import ZArith List Lia Bool.
From stdpp Require Import gmap list.
From Verif.Model Require Import Base Address Nibbles Tree TreeCrash TreeSteps.
From Verif.Spec Require Import AddressSpec TreeSpec TreeHistory StepSpec SharedHistory.
From Verif.Proofs Require Import BaseFacts NibblesFacts TreeSim TreeTrie TreeCanon TreeUpdate TreeHashes TreeReach TreeRoot TreeLocal TreeCollide StepFacts.
From Verif.Props Require Import TreeProps.
Open Scope Z_scope.

(** ** Heaps on which the code cannot go beyond 40 nibbles *)
Definition short_child (p : nibbles) (c : child) : Prop := c_exists c = true -> (length p + length (c_suffix c) <= 40)%nat.
Definition sound (s : state) : Prop :=
  fresh s /\
  forall l p cs, heap s !! l = Some (Branch p cs) -> (length p < 40)%nat /\ Forall (short_child p) cs.

Lemma PutChild_Forall (Q : child -> Prop) cs su h cs' : PutChild cs su h = Ok cs' -> Forall Q cs -> Q (Child su h true) -> Forall Q cs'.
Proof.
  unfold PutChild. destruct su as [|d su]; [discriminate|]. case_bool_decide; [|discriminate].
  intros E Hc Hq. injection E as <-. apply Forall_insert; assumption.
Qed.
Lemma zero_short p : Forall (short_child p) (repeat zero_child 16).
Proof. apply Forall_forall. intros c Hc. apply elem_of_list_In, repeat_spec in Hc. subst c. intros E. discriminate. Qed.
Lemma slice_from_len su l n : slice_from l n = Ok su -> (n + length su = length l)%nat.
Proof. unfold slice_from. case_bool_decide; [|discriminate]. intros E. injection E as <-. rewrite drop_length. lia. Qed.

(** What a store itself records at a path. *)
Definition own (st : store) (q : nibbles) : option (option loc) :=
  match st with
  | MemStore m => Some (m !! q)
  | OverlayStore _ d => d ≫= (fun d => d !! q)
  end.
Lemma GetNode_own st q : GetNode st q = match own st q with Some o => o | None => lower_of st ≫= (fun l => GetNode l q) end.
Proof. destruct st as [m|lower [d|]]; cbn; [reflexivity| |reflexivity]. destruct (d !! q); reflexivity. Qed.
Lemma PutNode_own st p l st' q : PutNode st p l = Ok st' -> own st' q = if decide (q = p) then Some (Some l) else own st q.
Proof.
  destruct st as [m|lower [d|]]; cbn; intros E; [| |discriminate]; injection E as <-; cbn; case_decide as X.
  - subst. rewrite lookup_insert. reflexivity.
  - rewrite lookup_insert_ne by congruence. reflexivity.
  - subst. rewrite lookup_insert. reflexivity.
  - rewrite lookup_insert_ne by congruence. reflexivity.
Qed.
Lemma DelNode_own st p st' q : DelNode st p = Ok st' -> own st' q = if decide (q = p) then Some None else own st q.
Proof.
  destruct st as [m|lower [d|]]; cbn; intros E; [| |discriminate]; injection E as <-; cbn; case_decide as X.
  - subst. rewrite lookup_delete. reflexivity.
  - rewrite lookup_delete_ne by congruence. reflexivity.
  - subst. rewrite lookup_insert. reflexivity.
  - rewrite lookup_insert_ne by congruence. reflexivity.
Qed.
Lemma PutNode_lower st p l st' : PutNode st p l = Ok st' -> lower_of st' = lower_of st.
Proof. destruct st as [m|lower [d|]]; cbn; intros E; [| |discriminate]; injection E as <-; reflexivity. Qed.
Lemma DelNode_lower st p st' : DelNode st p = Ok st' -> lower_of st' = lower_of st.
Proof. destruct st as [m|lower [d|]]; cbn; intros E; [| |discriminate]; injection E as <-; reflexivity. Qed.

(** ** Steps that leave all 40-nibble records alone *)
Record calm (s u : state) : Prop := Calm {
  ca_sound : sound u;
  ca_leaf : forall l p v, heap s !! l = Some (Leaf p v) -> heap u !! l = Some (Leaf p v);
  ca_own : forall q, length q = 40%nat -> own (sto u) q = own (sto s) q;
  ca_low : lower_of (sto u) = lower_of (sto s);
  ca_lay : layers_ok (sto s) -> layers_ok (sto u) }.
Lemma calm_refl s : sound s -> calm s s.
Proof. intros. constructor; auto. Qed.
Lemma calm_trans a b c : calm a b -> calm b c -> calm a c.
Proof.
  intros [A1 A2 A3 A4 A5] [B1 B2 B3 B4 B5]. constructor; auto; [|congruence].
  intros q Hq. rewrite B3, A3; auto.
Qed.
Lemma sound_alloc s n : sound s -> match n with Branch p cs => (length p < 40)%nat /\ Forall (short_child p) cs | Leaf _ _ => True end ->
  sound (alloc s n).1.
Proof.
  intros (Hf & Hb) Hn. split.
  - intros l n' E. cbn in *. apply lookup_insert_Some in E as [(<- & _)|(_ & E)]; [lia|]. apply Hf in E. lia.
  - intros l p cs E. cbn in E. apply lookup_insert_Some in E as [(<- & E)|(_ & E)]; [|exact (Hb _ _ _ E)]. subst n. exact Hn.
Qed.
Lemma calm_alloc s n : sound s -> match n with Branch p cs => (length p < 40)%nat /\ Forall (short_child p) cs | Leaf _ _ => True end ->
  calm s (alloc s n).1.
Proof.
  intros Hs Hn. constructor; cbn; auto; [apply sound_alloc; assumption|].
  intros l p v E. rewrite lookup_insert_ne; [exact E|]. apply (proj1 Hs) in E. lia.
Qed.
Lemma calm_write s l p cs cs' : sound s -> as_branch s l = Ok (p, cs) -> Forall (short_child p) cs' -> calm s (write s l (Branch p cs')).
Proof.
  intros (Hf & Hb) E Hc. apply as_branch_heap in E. constructor; cbn; auto.
  - split.
    + intros l' n' E'. cbn in *. apply lookup_insert_Some in E' as [(<- & _)|(_ & E')]; [exact (Hf _ _ E)|exact (Hf _ _ E')].
    + intros l' p' c' E'. cbn in E'. apply lookup_insert_Some in E' as [(<- & E')|(_ & E')]; [|exact (Hb _ _ _ E')].
      injection E' as <- <-. split; [exact (proj1 (Hb _ _ _ E))|exact Hc].
  - intros l' p' v E'. rewrite lookup_insert_ne; [exact E'|congruence].
Qed.
Lemma calm_put s p l s' : sound s -> put_node s p l = Ok s' -> length p <> 40%nat -> calm s s'.
Proof.
  intros Hs E Hp. unfold put_node in E. bind_ok E. injection E as <-. constructor; cbn; auto.
  - intros q Hq. rewrite (PutNode_own _ _ _ _ q E0), decide_False by congruence. reflexivity.
  - exact (PutNode_lower _ _ _ _ E0).
  - exact (PutNode_layers _ _ _ _ E0).
Qed.
Lemma calm_del s p s' : sound s -> del_node s p = Ok s' -> length p <> 40%nat -> calm s s'.
Proof.
  intros Hs E Hp. unfold del_node in E. bind_ok E. injection E as <-. constructor; cbn; auto.
  - intros q Hq. rewrite (DelNode_own _ _ _ q E0), decide_False by congruence. reflexivity.
  - exact (DelNode_lower _ _ _ E0).
  - exact (DelNode_layers _ _ _ E0).
Qed.

(** ** The record at [k] alone is replaced, by one for [v] *)
Record stored (k : nibbles) (v : bytes) (s u : state) : Prop := Stored {
  st_sound : sound u;
  st_leaf : forall l p w, heap s !! l = Some (Leaf p w) -> heap u !! l = Some (Leaf p w);
  st_own : forall q, length q = 40%nat -> q <> k -> own (sto u) q = own (sto s) q;
  st_low : lower_of (sto u) = lower_of (sto s);
  st_lay : layers_ok (sto s) -> layers_ok (sto u);
  st_new : exists o, own (sto u) k = Some o /\
    match o with Some l => exists p, heap u !! l = Some (Leaf p v) | None => v = [] end }.
Lemma stored_calm k v s u w : length k = 40%nat -> stored k v s u -> calm u w -> stored k v s w.
Proof.
  intros Hk [A1 A2 A3 A4 A5 (o & Ao & A6)] [B1 B2 B3 B4 B5]. constructor; auto; [|congruence|].
  - intros q Hq Hne. rewrite B3 by exact Hq. auto.
  - exists o. rewrite B3 by exact Hk. split; [exact Ao|]. destruct o as [l|]; [|exact A6].
    destruct A6 as (p & A6). exists p. auto.
Qed.
Lemma stored_leaf k v p s s' : sound s -> put_node (alloc s (Leaf p v)).1 k (next s) = Ok s' -> stored k v s s'.
Proof.
  intros Hs E. pose proof (calm_alloc s (Leaf p v) Hs I) as [A1 A2 A3 A4 A5]. cbn in A2, A3, A4, A5.
  unfold put_node in E. bind_ok E. injection E as <-. cbn [alloc fst sto heap next] in *. constructor; cbn; auto.
  - intros q Hq Hne. rewrite (PutNode_own _ _ _ _ q E0), decide_False by congruence. reflexivity.
  - exact (PutNode_lower _ _ _ _ E0).
  - exact (PutNode_layers _ _ _ _ E0).
  - exists (Some (next s)). rewrite (PutNode_own _ _ _ _ k E0), decide_True by reflexivity. split; [reflexivity|].
    exists p. apply lookup_insert.
Qed.
Lemma stored_del k s s' : sound s -> del_node s k = Ok s' -> stored k [] s s'.
Proof.
  intros Hs E. unfold del_node in E. bind_ok E. injection E as <-. constructor; cbn; auto.
  - intros q Hq Hne. rewrite (DelNode_own _ _ _ q E0), decide_False by congruence. reflexivity.
  - exact (DelNode_lower _ _ _ E0).
  - exact (DelNode_layers _ _ _ E0).
  - exists None. rewrite (DelNode_own _ _ _ k E0), decide_True by reflexivity. auto.
Qed.

(** ** Every state of a run *)
Definition keeps {A} (P : state -> Prop) (m : steps A) (Q : A -> Prop) : Prop :=
  Forall P m.1 /\ forall a, m.2 = Ok a -> Q a.
Lemma keeps_bind {A B} P (m : steps A) Q (f : A -> steps B) R :
  keeps P m Q -> (forall a, Q a -> keeps P (f a) R) -> keeps P (sbind m f) R.
Proof.
  intros (Hm & Ha) Hf. split.
  - apply sbind_1; [exact Hm|]. intros a E. apply (Hf a (Ha a E)).
  - intros b E. rewrite sbind_2 in E. destruct (m.2) as [a|e| |]; cbn in E; try discriminate.
    exact (proj2 (Hf a (Ha a eq_refl)) b E).
Qed.
Lemma keeps_lift {A} P (r : res A) (Q : A -> Prop) : (forall a, r = Ok a -> Q a) -> keeps P (lift r) Q.
Proof. intros Hq. split; [apply Forall_nil; exact I|exact Hq]. Qed.
Lemma keeps_lift_bind {A B} P (r : res A) (f : A -> steps B) R :
  (forall a, r = Ok a -> keeps P (f a) R) -> keeps P (let* a := lift r in f a) R.
Proof. intros Hf. eapply keeps_bind; [apply (keeps_lift P r (fun a => r = Ok a)); auto|exact Hf]. Qed.
Lemma keeps_did {B} (P : state -> Prop) u (f : state -> steps B) R : P u -> keeps P (f u) R -> keeps P (let* s1 := did u in f s1) R.
Proof.
  intros Hu Hf. eapply (keeps_bind P (did u) (fun a => a = u)); [|intros a ->; exact Hf].
  split; [apply Forall_cons; split; [exact Hu|apply Forall_nil; exact I]|]. intros a E. injection E as <-. reflexivity.
Qed.
Lemma keeps_put {B} (P : state -> Prop) s p l (f : state -> steps B) R :
  (forall s', put_node s p l = Ok s' -> P s' /\ keeps P (f s') R) -> keeps P (let* s1 := t_put s p l in f s1) R.
Proof.
  intros Hf. eapply (keeps_bind P _ (fun s' => put_node s p l = Ok s')); [|intros s' E; apply (Hf s' E)].
  split; [|intros a; rewrite t_put_2; auto]. unfold t_put. apply along_lift. intros s' E. cbn.
  apply Forall_cons. split; [apply (Hf s' E)|apply Forall_nil; exact I].
Qed.
Lemma keeps_del {B} (P : state -> Prop) s p (f : state -> steps B) R :
  (forall s', del_node s p = Ok s' -> P s' /\ keeps P (f s') R) -> keeps P (let* s1 := t_del s p in f s1) R.
Proof.
  intros Hf. eapply (keeps_bind P _ (fun s' => del_node s p = Ok s')); [|intros s' E; apply (Hf s' E)].
  split; [|intros a; rewrite t_del_2; auto]. unfold t_del. apply along_lift. intros s' E. cbn.
  apply Forall_cons. split; [apply (Hf s' E)|apply Forall_nil; exact I].
Qed.

Section Calm.
  Variable P : state -> Prop.
  Hypothesis Pq : forall s u, P s -> calm s u -> P u.
  Hypothesis Ps : forall s, P s -> sound s.

  Lemma keeps_invalidate path : forall s cur, P s -> (length cur <= 40)%nat -> keeps P (t_invalidatePath s cur path) P.
  Proof.
    induction path as [|l path IH]; intros s cur Hs Hc; cbn [t_invalidatePath].
    { apply keeps_lift. intros a E. injection E as <-. exact Hs. }
    apply keeps_lift_bind. intros (p & cs) E. apply keeps_lift_bind. intros su Es. apply keeps_lift_bind. intros cs' Ec.
    destruct (proj2 (Ps _ Hs) _ _ _ (as_branch_heap _ _ _ _ E)) as (Hp & Hcs).
    assert (Hw : P (write s l (Branch p cs'))).
    { eapply Pq; [exact Hs|]. eapply calm_write; [apply Ps, Hs|exact E|]. eapply PutChild_Forall; [exact Ec|exact Hcs|].
      intros _. cbn. apply slice_from_len in Es. lia. }
    apply keeps_did; [exact Hw|]. apply IH; [exact Hw|lia].
  Qed.

  Lemma keeps_prune path : forall s cur, P s -> keeps P (t_prune s cur path) P.
  Proof.
    induction path as [|l path IH]; intros s cur Hs; cbn [t_prune].
    { apply keeps_lift. intros a E. injection E as <-. exact Hs. }
    apply keeps_lift_bind. intros (p & cs) E. apply keeps_lift_bind. intros d _. apply keeps_lift_bind. intros c _.
    destruct (proj2 (Ps _ Hs) _ _ _ (as_branch_heap _ _ _ _ E)) as (Hp & Hcs).
    set (cs' := <[Z.to_nat d := _]> cs).
    assert (Hcs' : Forall (short_child p) cs') by (apply Forall_insert; [exact Hcs|discriminate]).
    assert (Hw : P (write s l (Branch p cs'))) by (eapply Pq; [exact Hs|]; eapply calm_write; [apply Ps, Hs|exact E|exact Hcs']).
    apply keeps_did; [exact Hw|].
    assert (Hput : keeps P (let* s2 := t_put (write s l (Branch p cs')) p l in t_invalidatePath s2 p path) P).
    { apply keeps_put. intros s' E'. assert (Hs' : P s') by (eapply Pq; [exact Hw|]; eapply calm_put; [apply Ps, Hw|exact E'|lia]).
      split; [exact Hs'|apply keeps_invalidate; [exact Hs'|lia]]. }
    destruct (filter _ _) as [|only [|x y]] eqn:Ef; [case_bool_decide|case_bool_decide|].
    - exact Hput.
    - apply IH, Hw.
    - apply keeps_del. intros s' E'. assert (Hs' : P s') by (eapply Pq; [exact Hw|]; eapply calm_del; [apply Ps, Hw|exact E'|lia]).
      split; [exact Hs'|apply keeps_invalidate; [exact Hs'|]].
      assert (Hin : only ∈ filter (fun c => c_exists c = true) cs') by (rewrite Ef; constructor).
      apply elem_of_list_filter in Hin as (Hx & Hin). rewrite Forall_forall in Hcs'. rewrite app_length. exact (Hcs' _ Hin Hx).
    - exact Hput.
    - exact Hput.
  Qed.

  Section WithHash.
    Variable H : bytes -> bytes.
    Lemma keeps_hashes fuel : forall s q, P s -> keeps P (t_updateHashes H fuel s q) (fun r => P r.1).
    Proof.
      induction fuel as [|fuel IH]; intros s q Hs; cbn [t_updateHashes]; [apply keeps_lift; discriminate|].
      destruct (GetNode (sto s) q) as [l|] eqn:El; [|apply keeps_lift; discriminate].
      destruct (heap s !! l) as [[p cs|p v]|] eqn:Eh; [| |apply keeps_lift; discriminate].
      2:{ apply keeps_lift_bind. intros h _. apply keeps_lift. intros a E. injection E as <-. exact Hs. }
      assert (Hstep : forall i s, P s -> keeps P (t_hash_child (t_updateHashes H fuel) l q s i) P).
      { clear s p cs El Eh Hs. intros i s Hs. unfold t_hash_child.
        apply keeps_lift_bind. intros (p & cs) Ea. apply keeps_lift_bind. intros c Ei.
        assert (Hdone : keeps P (lift (Ok s)) P) by (apply keeps_lift; intros a E; injection E as <-; exact Hs).
        destruct (negb (c_exists c)); [exact Hdone|]. destruct (bytes_eqb (c_hash c) zeroHash); [|exact Hdone].
        eapply keeps_bind; [apply IH, Hs|]. intros (s1 & h1) Hs1. cbn [fst] in Hs1.
        apply keeps_lift_bind. intros (p' & cs') Eb. apply keeps_lift_bind. intros c' Ei'.
        destruct (proj2 (Ps _ Hs1) _ _ _ (as_branch_heap _ _ _ _ Eb)) as (Hp & Hcs).
        assert (Hw : P (write s1 l (Branch p' (<[i := Child (c_suffix c') h1 (c_exists c')]> cs')))).
        { eapply Pq; [exact Hs1|]. eapply calm_write; [apply Ps, Hs1|exact Eb|]. apply Forall_insert; [exact Hcs|].
          rewrite index_lookup in Ei'. destruct (cs' !! i) as [y|] eqn:Y; [injection Ei' as ->|discriminate].
          rewrite Forall_forall in Hcs. exact (Hcs _ (elem_of_list_lookup_2 _ _ _ Y)). }
        split; [cbn; apply Forall_cons; split; [exact Hw|apply Forall_nil; exact I]|]. intros a E. injection E as <-. exact Hw. }
      assert (Hloop : forall is s, P s -> keeps P (t_for_each (t_hash_child (t_updateHashes H fuel) l q) is s) P).
      { intros is. induction is as [|i is IHi]; intros s0 Hs0; cbn [t_for_each].
        - apply keeps_lift. intros a E. injection E as <-. exact Hs0.
        - eapply keeps_bind; [apply Hstep, Hs0|exact IHi]. }
      eapply keeps_bind; [apply Hloop, Hs|]. intros s1 Hs1. apply keeps_lift_bind. intros (p1 & cs1) Ea.
      destruct (proj2 (Ps _ Hs1) _ _ _ (as_branch_heap _ _ _ _ Ea)) as (Hp & _).
      apply keeps_put. intros s2 E2. assert (Hs2 : P s2) by (eapply Pq; [exact Hs1|]; eapply calm_put; [apply Ps, Hs1|exact E2|lia]).
      split; [exact Hs2|]. apply keeps_lift_bind. intros h _. apply keeps_lift. intros a E. injection E as <-. exact Hs2.
    Qed.
  End WithHash.
End Calm.

Lemma keeps_update k v s : sound s -> length k = 40%nat -> forall fuel np path, (length np <= 40)%nat ->
  keeps (stored k v s) (t_update fuel s np k v path) (stored k v s).
Proof.
  intros Hs Hk. pose proof (fun u w => stored_calm k v s u w Hk) as Wq. pose proof (st_sound k v s) as Ws.
  induction fuel as [|fuel IH]; intros np path Hnp; cbn [t_update]; [apply keeps_lift; discriminate|].
  destruct (PrefixOf np k) eqn:Ep; cbn [negb].
  2:{ cbn [alloc]. apply keeps_put. intros s2 E2. pose proof (stored_leaf k v k s s2 Hs E2) as W2. split; [exact W2|].
    apply keeps_lift_bind. intros a1 Ea1. apply keeps_lift_bind. intros a2 Ea2. apply keeps_lift_bind. intros a3 Ea3. apply keeps_lift_bind. intros cs2 Ecs2.
    apply keeps_put. intros s4 E4.
    destruct (CommonPrefix_prefix np k) as ((r1 & Er1) & (r2 & Er2)).
    pose proof (f_equal (@List.length Z) Er1) as L1. pose proof (f_equal (@List.length Z) Er2) as L2. rewrite app_length in L1, L2.
    assert (Hpp : (length (CommonPrefix np k) < 40)%nat).
    { destruct (decide (length (CommonPrefix np k) = 40%nat)) as [Hl|Hl]; [|lia]. exfalso.
      assert (HnE : ~ (np `prefix_of` k)) by (intros Hx; apply PrefixOf_prefix in Hx; congruence).
      assert (r1 = []) as -> by (destruct r1; [reflexivity|cbn in L1; lia]).
      rewrite app_nil_r in Er1. apply HnE. exists r2. rewrite Er1 at 1. exact Er2. }
    assert (Hcs2 : Forall (short_child (CommonPrefix np k)) cs2).
    { eapply PutChild_Forall; [exact Ecs2| |intros _; cbn; apply slice_from_len in Ea3; lia].
      eapply PutChild_Forall; [exact Ea2|apply zero_short|intros _; cbn; apply slice_from_len in Ea1; lia]. }
    assert (W4 : stored k v s s4).
    { eapply Wq; [exact W2|]. pose proof (calm_alloc s2 (Branch (CommonPrefix np k) cs2) (Ws _ W2) (conj Hpp Hcs2)) as Q.
      eapply calm_trans; [exact Q|]. eapply calm_put; [apply Q|exact E4|lia]. }
    split; [exact W4|]. apply keeps_invalidate; [exact Wq|exact Ws|exact W4|lia]. }
  apply PrefixOf_prefix in Ep.
  destruct (bytes_eqb np k) eqn:Eq.
  - apply bytes_eqb_eq in Eq. subst np. destruct v as [|x v].
    + apply keeps_del. intros s1 E1. pose proof (stored_del k s s1 Hs E1) as W1. split; [exact W1|].
      apply keeps_prune; [exact Wq|exact Ws|exact W1].
    + cbn [alloc]. apply keeps_put. intros s2 E2. pose proof (stored_leaf k (x :: v) k s s2 Hs E2) as W2.
      split; [exact W2|]. apply keeps_invalidate; [exact Wq|exact Ws|exact W2|lia].
  - apply bytes_eqb_neq in Eq.
    destruct (GetNode (sto s) np) as [l|] eqn:El; [|apply keeps_lift; discriminate].
    apply keeps_lift_bind. intros (p & cs) E0. apply keeps_lift_bind. intros d _. apply keeps_lift_bind. intros c Ec.
    pose proof (as_branch_heap _ _ _ _ E0) as Hl. destruct (proj2 Hs _ _ _ Hl) as (Hp & Hcs).
    destruct (c_exists c) eqn:Ex.
    + apply IH. rewrite index_lookup in Ec. destruct (cs !! Z.to_nat d) as [c'|] eqn:X; [injection Ec as ->|discriminate].
      rewrite Forall_forall in Hcs. rewrite app_length. exact (Hcs _ (elem_of_list_lookup_2 _ _ _ X) Ex).
    + cbn [alloc]. apply keeps_put. intros s2 E2. pose proof (stored_leaf k v k s s2 Hs E2) as W2. split; [exact W2|].
      apply keeps_lift_bind. intros su Esu. apply keeps_lift_bind. intros cs' Ecs'.
      assert (Hl2 : as_branch s2 l = Ok (p, cs)).
      { eapply as_branch_mono; [exact E0|]. rewrite (put_node_heap _ _ _ _ E2). cbn. apply lookup_insert_ne.
        apply (proj1 Hs) in Hl. lia. }
      assert (W3 : stored k v s (write s2 l (Branch p cs'))).
      { eapply Wq; [exact W2|]. eapply calm_write; [apply (Ws _ W2)|exact Hl2|]. eapply PutChild_Forall; [exact Ecs'|exact Hcs|].
        intros _. cbn. apply slice_from_len in Esu. lia. }
      apply keeps_did; [exact W3|]. apply keeps_put. intros s4 E4.
      assert (W4 : stored k v s s4) by (eapply Wq; [exact W3|]; eapply calm_put; [apply (Ws _ W3)|exact E4|lia]).
      split; [exact W4|]. apply keeps_invalidate; [exact Wq|exact Ws|exact W4|lia].
Qed.

(** Nothing changed because the entry was there already, or it was stored. *)
Definition effect (k : nibbles) (v : bytes) (s u : state) : Prop :=
  (calm s u /\ exists o, read s k = Ok o /\ default [] o = v) \/ stored k v s u.
Lemma keeps_updateEntry k v s : sound s -> length (KeyToNibbles k) = 40%nat ->
  keeps (effect (KeyToNibbles k) v s) (t_updateEntry s k v) (fun r => effect (KeyToNibbles k) v s r.1).
Proof.
  intros Hs Hk. unfold t_updateEntry.
  assert (Hgo : keeps (effect (KeyToNibbles k) v s) (let* s' := t_update tree_fuel s [] (KeyToNibbles k) v [] in lift (Ok (s', true))) (fun r => effect (KeyToNibbles k) v s r.1)).
  { eapply (keeps_bind _ _ (stored (KeyToNibbles k) v s)).
    - destruct (keeps_update (KeyToNibbles k) v s Hs Hk tree_fuel [] [] ltac:(cbn; lia)) as (A & B). split; [|exact B].
      eapply Forall_impl; [exact A|]. intros u Hu. right. exact Hu.
    - intros s' Hs'. apply keeps_lift. intros a E. injection E as <-. right. exact Hs'. }
  assert (Hno : (exists o, read s (KeyToNibbles k) = Ok o /\ default [] o = v) ->
    keeps (effect (KeyToNibbles k) v s) (lift (Ok (s, false))) (fun r => effect (KeyToNibbles k) v s r.1)).
  { intros Ho. apply keeps_lift. intros a E. injection E as <-. left. split; [apply calm_refl, Hs|exact Ho]. }
  unfold read in Hno. destruct (GetNode (sto s) (KeyToNibbles k)) as [l|].
  - destruct (heap s !! l) as [[p cs|p w]|]; [exact Hgo| |exact Hgo]. destruct (bytes_eqb w v) eqn:E; [|exact Hgo].
    apply bytes_eqb_eq in E. subst w. apply Hno. exists (Some v). auto.
  - destruct v; [|exact Hgo]. apply Hno. exists None. auto.
Qed.

Section WithHash.
  Variable H : bytes -> bytes.
  Lemma keeps_PutEntry k v s : sound s -> length (KeyToNibbles k) = 40%nat ->
    keeps (effect (KeyToNibbles k) v s) (t_PutEntry H s k v) (fun r => effect (KeyToNibbles k) v s r.1).
  Proof.
    intros Hs Hk. unfold t_PutEntry. eapply keeps_bind; [apply keeps_updateEntry; assumption|].
    intros (s1 & b) H1. cbn [fst] in H1. eapply (keeps_bind _ _ (fun r => effect (KeyToNibbles k) v s r.1)).
    - apply keeps_hashes; [| |exact H1].
      + intros a c [(A & B)|A] Hc; [left; split; [eapply calm_trans; eassumption|exact B]|right; eapply stored_calm; eassumption].
      + intros a [(A & _)|A]; apply A.
    - intros (s2 & h) H2. apply keeps_lift. intros a E. injection E as <-. exact H2.
  Qed.
  Lemma effect_put s k v u : sound s -> length (KeyToNibbles k) = 40%nat -> during_put H s k v u -> effect (KeyToNibbles k) v s u.
  Proof.
    intros Hs Hk. destruct (keeps_PutEntry k v s Hs Hk) as (A & B). intros [Hu|(b & E)].
    - rewrite Forall_forall in A. apply A, Hu.
    - rewrite <- (t_PutEntry_2 H s k v) in E. exact (B _ E).
  Qed.
  Lemma effect_sound k v s u : effect k v s u -> sound u.
  Proof. intros [(A & _)|A]; apply A. Qed.

  (** An entry that is there already is not stored again. *)
  Lemma calm_put_same s k v u : sound s -> (exists o, read s (KeyToNibbles k) = Ok o /\ default [] o = v) ->
    during_put H s k v u -> calm s u.
  Proof.
    intros Hs (o & Eo & Hv).
    assert (E : t_updateEntry s k v = lift (Ok (s, false))).
    { unfold t_updateEntry. unfold read in Eo. destruct (GetNode (sto s) (KeyToNibbles k)) as [l|].
      - destruct (heap s !! l) as [[p cs|p w]|]; try discriminate. injection Eo as <-. cbn in Hv. subst w.
        rewrite (proj2 (bytes_eqb_eq v v) eq_refl). reflexivity.
      - injection Eo as <-. cbn in Hv. subst v. reflexivity. }
    assert (Hk : keeps (calm s) (t_PutEntry H s k v) (fun r => calm s r.1)).
    { unfold t_PutEntry. rewrite E. apply keeps_lift_bind. intros a Ea. injection Ea as <-.
      eapply (keeps_bind _ _ (fun r => calm s r.1)).
      - apply keeps_hashes; [intros a c; apply calm_trans|intros a Ha; apply Ha|apply calm_refl, Hs].
      - intros (s2 & h) H2. apply keeps_lift. intros a Ea. injection Ea as <-. exact H2. }
    destruct Hk as (A & B). intros [Hu|(b & Eu)].
    - rewrite Forall_forall in A. apply A, Hu.
    - rewrite <- (t_PutEntry_2 H s k v) in Eu. exact (B _ Eu).
  Qed.

  Lemma reach_sound s M : reach H s M -> sound s.
  Proof.
    induction 1 as [|s M k v s' b Hr IH Hk E|s M Hr IH|s M lower d order st Hr IH|s M lower d order n st Hr IH|s M lower Hr IH]; try exact IH.
    - split.
      + intros l n E. cbn in *. apply lookup_singleton_Some in E as (<- & _). lia.
      + intros l p cs E. cbn in E. apply lookup_singleton_Some in E as (_ & E). injection E as <- <-. cbn [length]. split; [lia|apply zero_short].
    - eapply effect_sound, effect_put; [exact IH|apply KeyToNibbles_key; apply Hk|]. right. exists b. exact E.
  Qed.
End WithHash.

(** ** What is read *)
Definition points (s : state) (q : nibbles) : Prop :=
  forall l, GetNode (sto s) q = Some l -> exists p v, heap s !! l = Some (Leaf p v).
Definition leaves_stay (s u : state) : Prop := forall l p v, heap s !! l = Some (Leaf p v) -> heap u !! l = Some (Leaf p v).
Lemma points_read s q : points s q -> exists o, read s q = Ok o.
Proof.
  intros Hp. unfold read, points in *. destruct (GetNode (sto s) q) as [l|]; [|eauto].
  destruct (Hp l eq_refl) as (p & v & ->). eauto.
Qed.
Lemma read_same s u q : GetNode (sto u) q = GetNode (sto s) q -> points s q -> leaves_stay s u -> read u q = read s q /\ points u q.
Proof.
  intros Eg Hp Hl. unfold read, points in *. rewrite Eg. destruct (GetNode (sto s) q) as [l|]; [|split; [reflexivity|discriminate]].
  destruct (Hp l eq_refl) as (p & v & E). rewrite E, (Hl _ _ _ E). split; [reflexivity|].
  intros l' E'. injection E' as <-. eauto.
Qed.
Lemma own_get st st' q : lower_of st' = lower_of st -> own st' q = own st q -> GetNode st' q = GetNode st q.
Proof. intros A B. rewrite !GetNode_own, A, B. reflexivity. Qed.
Lemma effect_leaves k v s u : effect k v s u -> leaves_stay s u.
Proof. intros [(A & _)|A]; intros l p w E; [exact (ca_leaf _ _ A _ _ _ E)|exact (st_leaf _ _ _ _ A _ _ _ E)]. Qed.
Lemma effect_low k v s u : effect k v s u -> lower_of (sto u) = lower_of (sto s).
Proof. intros [(A & _)|A]; apply A. Qed.
Lemma effect_layers k v s u : effect k v s u -> layers_ok (sto s) -> layers_ok (sto u).
Proof. intros [(A & _)|A]; apply A. Qed.
Lemma effect_own k v s u q : effect k v s u -> length q = 40%nat -> q <> k -> own (sto u) q = own (sto s) q.
Proof. intros [(A & _)|A] Hq Hne; [apply (ca_own _ _ A _ Hq)|apply (st_own _ _ _ _ A _ Hq Hne)]. Qed.
Lemma effect_other k v s u q : effect k v s u -> length q = 40%nat -> q <> k -> points s q -> read u q = read s q /\ points u q.
Proof.
  intros He Hq Hne Hp. apply read_same; [|exact Hp|exact (effect_leaves _ _ _ _ He)].
  apply own_get; [exact (effect_low _ _ _ _ He)|exact (effect_own _ _ _ _ _ He Hq Hne)].
Qed.
Lemma effect_at k v s u : effect k v s u -> length k = 40%nat -> points s k ->
  (exists o, read u k = Ok o /\ default [] o = v) /\ points u k.
Proof.
  intros He Hk Hp. pose proof (effect_leaves _ _ _ _ He) as Hl. destruct He as [(A & B)|A].
  - destruct (read_same s u k) as (C & D); [|exact Hp|exact Hl|].
    + apply own_get; [apply A|apply (ca_own _ _ A _ Hk)].
    + rewrite C. split; [exact B|exact D].
  - destruct (st_new _ _ _ _ A) as (o & Eo & Ho). unfold read, points. rewrite GetNode_own, Eo. destruct o as [l|].
    + destruct Ho as (p & E). rewrite E. split; [exists (Some v); auto|]. intros l' E'. injection E' as <-. eauto.
    + subst v. split; [exists None; auto|discriminate].
Qed.

(** ** All trees *)
Definition leafy (h : gmap loc node) (o : option loc) : Prop := forall l, o = Some l -> exists p v, h !! l = Some (Leaf p v).
Record trees_ok (T : trees) : Prop := TreesOk {
  tk_sound : forall st, sound (State (t_heap T) (t_next T) st);
  tk_lay : layers_ok (t_base T);
  tk_base : forall k, addr20 k -> leafy (t_heap T) (GetNode (t_base T) (KeyToNibbles k));
  tk_over : forall i d k o, t_overlays T !! i = Some d -> addr20 k -> d !! KeyToNibbles k = Some o -> leafy (t_heap T) o }.

Lemma sound_store s st : sound s -> sound (with_store s st).
Proof. intros Hs. exact Hs. Qed.
Lemma key40 k : addr20 k -> length (KeyToNibbles k) = 40%nat.
Proof. intros (Hl & Hok). apply KeyToNibbles_key; assumption. Qed.
Lemma key_ne k k' : addr20 k -> addr20 k' -> k' <> k -> KeyToNibbles k' <> KeyToNibbles k.
Proof. intros (_ & H1) (_ & H2) Hne E. rewrite !nibs_key in E by assumption. apply nibs_inj in E. contradiction. Qed.

Lemma view_ok T w s : trees_ok T -> tree_of T w = Some s ->
  sound s /\ layers_ok (sto s) /\ heap s = t_heap T /\ next s = t_next T /\ forall k, addr20 k -> points s (KeyToNibbles k).
Proof.
  intros [A B C D] E. destruct w as [|i]; cbn in E.
  - injection E as <-. split; [apply A|]. split; [exact B|]. split; [reflexivity|]. split; [reflexivity|]. exact C.
  - destruct (t_overlays T !! i) as [d|] eqn:Ei; [|discriminate]. injection E as <-.
    split; [apply A|]. split; [exact B|]. split; [reflexivity|]. split; [reflexivity|].
    intros k Hk l. cbn. destruct (d !! KeyToNibbles k) as [o|] eqn:Eo.
    + intros ->. exact (D i d k _ Ei Hk Eo l eq_refl).
    + exact (C k Hk l).
Qed.

(** The store of the overlay [i] after a write. *)
Lemma over_store T i d s k v u : trees_ok T -> t_overlays T !! i = Some d -> tree_of T (Over i) = Some s -> effect k v s u -> length k = 40%nat ->
  exists d', sto u = OverlayStore (t_base T) (Some d') /\
    (forall q, length q = 40%nat -> q <> k -> d' !! q = d !! q) /\
    (d' !! k = d !! k \/ exists o, d' !! k = Some o /\ leafy (heap u) o).
Proof.
  intros Hok Ei Ev He Hk. destruct (view_ok T _ s Hok Ev) as (_ & Hlay & _). cbn in Ev. rewrite Ei in Ev. injection Ev as <-.
  pose proof (effect_low _ _ _ _ He) as Hlow. pose proof (effect_layers _ _ _ _ He Hlay) as Hl'. cbn in Hlow.
  pose proof (fun q => effect_own _ _ _ _ q He) as Ho.
  destruct (sto u) as [m|lower [d'|]] eqn:Es; cbn in Hlow; [discriminate| |destruct Hl']. injection Hlow as ->.
  exists d'. split; [reflexivity|]. split; [intros q Hq Hne; exact (Ho q Hq Hne)|].
  destruct He as [(A & _)|A].
  - left. pose proof (ca_own _ _ A k Hk) as E. rewrite Es in E. exact E.
  - right. destruct (st_new _ _ _ _ A) as (o & Eo & Hn). rewrite Es in Eo. exists o. split; [exact Eo|].
    intros l ->. destruct Hn as (p & Hn). eauto.
Qed.
Lemma leafy_stay s u o : leaves_stay s u -> leafy (heap s) o -> leafy (heap u) o.
Proof. intros Hl Ho l E. destruct (Ho l E) as (p & v & X). eauto. Qed.

Lemma ok_put T w s k v u : trees_ok T -> tree_of T w = Some s -> addr20 k -> effect (KeyToNibbles k) v s u -> trees_ok (with_tree T w u).
Proof.
  intros Hok Ev Hk He. pose proof (view_ok T w s Hok Ev) as (Hs & Hlay & Eh & En & Hpt). destruct Hok as [A B C D].
  pose proof (effect_leaves _ _ _ _ He) as Hl. pose proof (effect_sound _ _ _ _ He) as Hsu.
  destruct w as [|i].
  - cbn in Ev. assert (Hb : sto s = t_base T) by (injection Ev as <-; reflexivity).
    replace (with_tree T Base u) with (Trees (heap u) (next u) (sto u) (t_overlays T)) by (cbn; destruct (sto u) as [m|? [?|]]; reflexivity).
    constructor; cbn.
    + intros st. exact Hsu.
    + exact (effect_layers _ _ _ _ He Hlay).
    + intros k' Hk'. destruct (decide (k' = k)) as [->|Hne].
      * exact (proj2 (effect_at _ _ _ _ He (key40 _ Hk) (Hpt k Hk))).
      * exact (proj2 (effect_other _ _ _ _ _ He (key40 _ Hk') (key_ne _ _ Hk Hk' Hne) (Hpt k' Hk'))).
    + intros i d k' o Ei Hk' Eo. eapply leafy_stay; [exact Hl|]. rewrite Eh. exact (D i d k' o Ei Hk' Eo).
  - destruct (t_overlays T !! i) as [d|] eqn:Ei; [|cbn in Ev; rewrite Ei in Ev; discriminate].
    destruct (over_store T i d s _ v u (TreesOk T A B C D) Ei Ev He (key40 _ Hk)) as (d' & Es & Hoth & Hat).
    cbn [with_tree]. rewrite Es. constructor; cbn.
    + intros st. exact Hsu.
    + exact B.
    + intros k' Hk'. eapply leafy_stay; [exact Hl|]. rewrite Eh. exact (C k' Hk').
    + intros j dj k' o Ej Hk' Eo. destruct (decide (i = j)) as [<-|Hij].
      * rewrite list_lookup_insert in Ej by (eapply lookup_lt_Some, Ei). injection Ej as <-.
        destruct (decide (k' = k)) as [->|Hne].
        -- destruct Hat as [Eq|(o' & Eo' & Ho')].
           ++ eapply leafy_stay; [exact Hl|]. rewrite Eh. apply (D i d k o Ei Hk'). congruence.
           ++ assert (o = o') as -> by congruence; exact Ho'.
        -- eapply leafy_stay; [exact Hl|]. rewrite Eh. apply (D i d k' o Ei Hk').
           rewrite <- (Hoth _ (key40 _ Hk') (key_ne _ _ Hk Hk' Hne)). exact Eo.
      * rewrite list_lookup_insert_ne in Ej by exact Hij. eapply leafy_stay; [exact Hl|]. rewrite Eh. exact (D j dj k' o Ej Hk' Eo).
Qed.

(** ** Flushing *)
Lemma flush_view T i d s order n st : trees_ok T -> t_overlays T !! i = Some d -> tree_of T (Over i) = Some s ->
  order ≡ₚ map_to_list d -> FlushUpTo n order (sto s) = Ok st ->
  exists lower' d', st = OverlayStore lower' (Some d') /\ layers_ok lower' /\
    with_tree T (Over i) (with_store s st) = Trees (t_heap T) (t_next T) lower' (<[i := d']> (t_overlays T)) /\
    (forall q, GetNode st q = GetNode (sto s) q) /\
    (forall q, GetNode lower' q = GetNode (t_base T) q \/ GetNode lower' q = GetNode (sto s) q) /\
    ((2 * length order <= n)%nat -> forall q, GetNode lower' q = GetNode (sto s) q) /\
    (forall q o, d' !! q = Some o -> d !! q = Some o).
Proof.
  intros [A B C D] Ei Ev Hp E. cbn in Ev. rewrite Ei in Ev. injection Ev as <-. cbn [sto] in *.
  assert (Hnd : NoDup order.*1) by (rewrite Hp; apply NoDup_fst_map_to_list).
  destruct (FlushUpTo_spec order n (t_base T) d B Hnd) as (lower' & E1 & Hl' & Hg).
  destruct (FlushUpTo_perm n order (t_base T) d B Hp) as (lower2 & d2 & E2 & _ & Hg2).
  rewrite E in E1, E2. injection E2 as ->. injection E1 as -> ->. eexists _, _. split; [reflexivity|]. split; [exact Hl'|]. split; [reflexivity|].
  split; [exact Hg2|]. split; [|split].
  - intros q. rewrite Hg, (order_lookup order d _ q Hp). case_decide; [|left; reflexivity].
    cbn. destruct (d !! q); [right; reflexivity|left; reflexivity].
  - intros Hn q. rewrite FlushUpTo_all in E by exact Hn. destruct (Flush_ok (t_base T) d order B Hp) as (l3 & E3 & _ & Hg3).
    rewrite E3 in E. injection E as E4 _. subst l3. exact (Hg3 q).
  - intros q o. rewrite foldl_delete_lookup. case_decide; [discriminate|auto].
Qed.
Lemma ok_flush T i d s order n st : trees_ok T -> t_overlays T !! i = Some d -> tree_of T (Over i) = Some s ->
  order ≡ₚ map_to_list d -> FlushUpTo n order (sto s) = Ok st -> trees_ok (with_tree T (Over i) (with_store s st)).
Proof.
  intros Hok Ei Ev Hp E. destruct (flush_view _ _ _ _ _ _ _ Hok Ei Ev Hp E) as (lower' & d' & -> & Hl' & -> & _ & Hlow & _ & Hd).
  pose proof (view_ok T _ s Hok Ev) as (_ & _ & Eh & _ & Hpt). destruct Hok as [A B C D]. constructor; cbn.
  - exact A.
  - exact Hl'.
  - intros k Hk. destruct (Hlow (KeyToNibbles k)) as [->| ->]; [exact (C k Hk)|]. rewrite <- Eh. exact (Hpt k Hk).
  - intros j dj k o Ej Hk Eo. destruct (decide (i = j)) as [<-|Hij].
    + rewrite list_lookup_insert in Ej by (eapply lookup_lt_Some, Ei). injection Ej as <-. exact (D i d k o Ei Hk (Hd _ _ Eo)).
    + rewrite list_lookup_insert_ne in Ej by exact Hij. exact (D j dj k o Ej Hk Eo).
Qed.

Section Shared.
  Variable H : bytes -> bytes.
  Lemma shared_ok T : shared H T -> trees_ok T.
  Proof.
    induction 1 as [s M Hr|T _ IH|T w s k v u _ IH Ev Hk Hd|T i d s order n st _ IH Ev Ei Hp E].
    - pose proof (reach_inv H s M Hr) as Hi. constructor; cbn.
      + intros st. exact (reach_sound H s M Hr).
      + apply Hi.
      + intros k Hk l E. pose proof (inv_GetEntry H s M k Hi Hk) as Eg. unfold GetEntry in Eg. rewrite E in Eg.
        destruct (heap s !! l) as [[p cs|p v]|]; try discriminate. eauto.
      + intros i d k o E. discriminate.
    - destruct IH as [A B C D]. constructor; cbn; auto. intros i d k o Ei Hk Eo.
      apply lookup_app_Some in Ei as [Ei|(_ & Ei)]; [exact (D i d k o Ei Hk Eo)|].
      apply list_lookup_singleton_Some in Ei as (_ & <-). rewrite lookup_empty in Eo. discriminate.
    - eapply ok_put; [exact IH|exact Ev|exact Hk|]. eapply effect_put; [apply (view_ok T w s IH Ev)|exact (key40 k Hk)|exact Hd].
    - eapply ok_flush; eassumption.
  Qed.
End Shared.
