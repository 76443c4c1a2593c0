(** PutEntry one access at a time: the recorded states. *)
From Coq Require Import ZArith List Lia Bool.
From stdpp Require Import gmap list.
From Verif.Model Require Import Base Address Nibbles Tree TreeSteps.
From Verif.Spec Require Import AddressSpec TreeSpec TreeHistory.
From Verif.Proofs Require Import BaseFacts NibblesFacts TreeSim TreeTrie TreeCanon TreeUpdate TreeHashes TreeReach TreeRoot TreeLocal.
Open Scope Z_scope.

(** ** Same outcome *)
Lemma sbind_2 {A B} (m : steps A) (f : A -> steps B) : (sbind m f).2 = bind m.2 (fun a => (f a).2).
Proof. unfold sbind. destruct m as (l & [a|e| |]); reflexivity. Qed.
Lemma bind_same {A B} (m m' : res A) (f g : A -> res B) : m = m' -> (forall a, f a = g a) -> bind m f = bind m' g.
Proof. intros <- Hf. destruct m; cbn; auto. Qed.

Lemma t_put_2 s k l : (t_put s k l).2 = put_node s k l.
Proof. unfold t_put. rewrite sbind_2. cbn. destruct (put_node s k l); reflexivity. Qed.
Lemma t_del_2 s k : (t_del s k).2 = del_node s k.
Proof. unfold t_del. rewrite sbind_2. cbn. destruct (del_node s k); reflexivity. Qed.

Ltac er := rewrite sbind_2; apply bind_same; [solve [apply t_put_2|apply t_del_2|reflexivity]|].
Lemma t_invalidatePath_2 path : forall s cur, (t_invalidatePath s cur path).2 = invalidatePath s cur path.
Proof.
  induction path as [|l path IH]; intros s cur; [reflexivity|]. cbn [t_invalidatePath invalidatePath].
  er. intros (p & cs). er. intros su. er. intros cs'. rewrite sbind_2. cbn. apply IH.
Qed.
Lemma t_prune_2 path : forall s cur, (t_prune s cur path).2 = prune s cur path.
Proof.
  induction path as [|l path IH]; intros s cur; [reflexivity|]. cbn [t_prune prune].
  er. intros (p & cs). er. intros d. er. intros c. rewrite sbind_2. cbn [did snd bind].
  destruct (filter _ _) as [|only [|x y]]; [case_bool_decide|case_bool_decide|].
  - er. intros s2. apply t_invalidatePath_2.
  - apply IH.
  - er. intros s2. apply t_invalidatePath_2.
  - er. intros s2. apply t_invalidatePath_2.
  - er. intros s2. apply t_invalidatePath_2.
Qed.
Lemma t_update_2 fuel : forall s np k v path, (t_update fuel s np k v path).2 = update fuel s np k v path.
Proof.
  induction fuel as [|fuel IH]; intros s np k v path; [reflexivity|]. cbn [t_update update].
  destruct (negb (PrefixOf np k)).
  - cbn [alloc]. er. intros s2. er. intros a1. er. intros a2. er. intros a3. er. intros a4. cbn [alloc]. er. intros a5.
    apply t_invalidatePath_2.
  - destruct (bytes_eqb np k).
    + destruct v as [|x v].
      * er. intros s1. apply t_prune_2.
      * cbn [alloc]. er. intros s1. apply t_invalidatePath_2.
    + destruct (GetNode (sto s) np) as [l|]; [|reflexivity].
      er. intros (p & cs). er. intros d. er. intros c. destruct (c_exists c); [apply IH|].
      cbn [alloc]. er. intros s2. er. intros su. er. intros cs'. rewrite sbind_2. cbn [did snd bind]. er. intros s4.
      apply t_invalidatePath_2.
Qed.
Lemma t_updateEntry_2 s k v : (t_updateEntry s k v).2 = updateEntry s k v.
Proof.
  unfold t_updateEntry, updateEntry.
  assert (Hgo : (let* s' := t_update tree_fuel s [] (KeyToNibbles k) v [] in lift (Ok (s', true))).2 =
    (let? s' := update tree_fuel s [] (KeyToNibbles k) v [] in Ok (s', true))).
  { rewrite sbind_2. apply bind_same; [apply t_update_2|reflexivity]. }
  destruct (GetNode (sto s) (KeyToNibbles k)) as [l|].
  - destruct (heap s !! l) as [[p cs|p w]|]; [exact Hgo| |exact Hgo]. destruct (bytes_eqb w v); [reflexivity|exact Hgo].
  - destruct v; [reflexivity|exact Hgo].
Qed.
Lemma t_for_each_2 {S A} (f : S -> A -> steps S) (g : S -> A -> res S) l : (forall s a, (f s a).2 = g s a) ->
  forall s, (t_for_each f l s).2 = for_each g l s.
Proof.
  intros Hf. induction l as [|a l IH]; intros s; [reflexivity|]. cbn [t_for_each for_each].
  rewrite sbind_2. apply bind_same; [apply Hf|exact IH].
Qed.
Lemma t_hash_child_2 rec rec' l q s i : (forall s p, (rec s p).2 = rec' s p) ->
  (t_hash_child rec l q s i).2 = hash_child rec' l q s i.
Proof.
  intros Hr. unfold t_hash_child, hash_child. er. intros (p & cs). er. intros c.
  destruct (negb (c_exists c)); [reflexivity|]. destruct (bytes_eqb (c_hash c) zeroHash); [|reflexivity].
  rewrite sbind_2. apply bind_same; [apply Hr|]. intros (s' & h). er. intros (p' & cs'). er. intros c'. reflexivity.
Qed.
Lemma t_updateHashes_2 H fuel : forall s q, (t_updateHashes H fuel s q).2 = updateHashes H fuel s q.
Proof.
  induction fuel as [|fuel IH]; intros s q; [reflexivity|]. cbn [t_updateHashes updateHashes].
  destruct (GetNode (sto s) q) as [l|]; [|reflexivity].
  destruct (heap s !! l) as [[p cs|p v]|]; [| |reflexivity].
  - rewrite sbind_2. apply bind_same.
    + apply t_for_each_2. intros s' i. apply t_hash_child_2. exact IH.
    + intros s1. er. intros (p1 & cs1). er. intros s2. er. reflexivity.
  - er. reflexivity.
Qed.
Lemma t_PutEntry_2 H s k v : (t_PutEntry H s k v).2 = PutEntry H s k v.
Proof.
  unfold t_PutEntry, PutEntry. rewrite sbind_2. apply bind_same; [apply t_updateEntry_2|]. intros (s1 & b).
  rewrite sbind_2. apply bind_same; [apply t_updateHashes_2|]. intros (s2 & h). reflexivity.
Qed.

(** ** The recorded states: in each of them [P] holds *)
Lemma sbind_1 {A B} (m : steps A) (f : A -> steps B) (P : state -> Prop) :
  Forall P m.1 -> (forall a, m.2 = Ok a -> Forall P (f a).1) -> Forall P (sbind m f).1.
Proof.
  unfold sbind. destruct m as (l & [a|e| |]); cbn; intros Hm Hf; try exact Hm.
  apply Forall_app. split; [exact Hm|]. apply Hf. reflexivity.
Qed.

(** Reading along a path. *)
Definition read (s : state) (p : nibbles) : res (option bytes) :=
  match GetNode (sto s) p with
  | None => Ok None
  | Some l => match heap s !! l with Some (Leaf _ v) => Ok (Some v) | _ => Panic end
  end.
Lemma GetEntry_read s k : GetEntry s k = read s (KeyToNibbles k).
Proof. reflexivity. Qed.

Definition below_next (s : state) : Prop := forall p l, GetNode (sto s) p = Some l -> (l < next s)%nat.

(** Nothing a reader of 40-nibble paths can see. *)
Record quiet (s u : state) : Prop := Quiet {
  q_read : forall p, length p = 40%nat -> read u p = read s p;
  q_next : below_next s -> below_next u }.
Lemma quiet_refl s : quiet s s.
Proof. constructor; auto. Qed.
Lemma quiet_trans a b c : quiet a b -> quiet b c -> quiet a c.
Proof. intros [A B] [A' B']. constructor; auto. intros p Hp. rewrite A', A; auto. Qed.

Lemma quiet_alloc s n : below_next s -> quiet s (alloc s n).1.
Proof.
  intros Hb. constructor.
  - intros p _. unfold read. cbn. destruct (GetNode (sto s) p) as [l|] eqn:E; [|reflexivity].
    rewrite lookup_insert_ne; [reflexivity|]. apply Hb in E. lia.
  - intros _ p l E. cbn in *. apply Hb in E. lia.
Qed.
Lemma quiet_write s l p cs cs' : as_branch s l = Ok (p, cs) -> quiet s (write s l (Branch p cs')).
Proof.
  intros E. apply as_branch_heap in E. constructor.
  - intros q _. unfold read. cbn. destruct (GetNode (sto s) q) as [l'|]; [|reflexivity].
    destruct (decide (l = l')) as [<-|Hne]; [rewrite lookup_insert, E; reflexivity|].
    rewrite lookup_insert_ne by exact Hne. reflexivity.
  - intros Hb q l' E'. exact (Hb q l' E').
Qed.
Lemma quiet_put s p l s' : put_node s p l = Ok s' -> length p <> 40%nat -> (l < next s)%nat -> quiet s s'.
Proof.
  unfold put_node. intros E Hp Hl. bind_ok E. injection E as <-. constructor.
  - intros q Hq. unfold read. cbn. rewrite (PutNode_get _ _ _ _ q E0), decide_False by congruence. reflexivity.
  - intros Hb q l' Hq. cbn in *. rewrite (PutNode_get _ _ _ _ q E0) in Hq. case_decide; [congruence|exact (Hb _ _ Hq)].
Qed.
Lemma quiet_del s p s' : del_node s p = Ok s' -> length p <> 40%nat -> quiet s s'.
Proof.
  unfold del_node. intros E Hp. bind_ok E. injection E as <-. constructor.
  - intros q Hq. unfold read. cbn. rewrite (DelNode_get' _ _ _ q E0), decide_False by congruence. reflexivity.
  - intros Hb q l' Hq. cbn in *. rewrite (DelNode_get' _ _ _ q E0) in Hq. case_decide; [discriminate|exact (Hb _ _ Hq)].
Qed.

(** What stays true along quiet steps. *)
Section Along.
  Variable P : state -> Prop.
  Hypothesis Pq : forall s u, P s -> quiet s u -> P u.

  Lemma along_did s (f : state -> steps state) : P s -> Forall P (f s).1 -> Forall P (let* s1 := did s in f s1).1.
  Proof. intros Hs Hf. apply sbind_1; [apply Forall_cons; split; [exact Hs|apply Forall_nil; exact I]|]. intros a E. injection E as <-. exact Hf. Qed.
  Lemma along_lift {A B} (r : res A) (f : A -> steps B) : (forall a, r = Ok a -> Forall P (f a).1) -> Forall P (let* a := lift r in f a).1.
  Proof. intros Hf. apply sbind_1; [apply Forall_nil; exact I|exact Hf]. Qed.
  Lemma along_put s p l (f : state -> steps state) :
    (forall s', put_node s p l = Ok s' -> P s' /\ Forall P (f s').1) -> Forall P (let* s1 := t_put s p l in f s1).1.
  Proof.
    intros Hf. apply sbind_1.
    - unfold t_put. apply along_lift. intros s' E. cbn. apply Forall_cons. split; [apply (Hf s' E)|apply Forall_nil; exact I].
    - intros s' E. rewrite t_put_2 in E. apply (Hf s' E).
  Qed.
  Lemma along_del s p (f : state -> steps state) :
    (forall s', del_node s p = Ok s' -> P s' /\ Forall P (f s').1) -> Forall P (let* s1 := t_del s p in f s1).1.
  Proof.
    intros Hf. apply sbind_1.
    - unfold t_del. apply along_lift. intros s' E. cbn. apply Forall_cons. split; [apply (Hf s' E)|apply Forall_nil; exact I].
    - intros s' E. rewrite t_del_2 in E. apply (Hf s' E).
  Qed.

  Lemma along_invalidate path : forall s cur, P s -> Forall P (t_invalidatePath s cur path).1.
  Proof.
    induction path as [|l path IH]; intros s cur Hs; cbn [t_invalidatePath]; [apply Forall_nil; exact I|].
    apply along_lift. intros (p & cs) E. apply along_lift. intros su _. apply along_lift. intros cs' _.
    assert (Hw : P (write s l (Branch p cs'))) by (eapply Pq; [exact Hs|eapply quiet_write, E]).
    apply along_did; [exact Hw|]. apply IH, Hw.
  Qed.

  (** Branch objects with short labels. *)
  Definition short (s : state) (l : loc) : Prop :=
    exists p cs, heap s !! l = Some (Branch p cs) /\ (length p < 40)%nat /\ (l < next s)%nat.
  Lemma short_write s l p cs cs' l' : heap s !! l = Some (Branch p cs) -> short s l' -> short (write s l (Branch p cs')) l'.
  Proof.
    intros E (p' & cs0 & E' & Hp & Hl). exists p'. destruct (decide (l = l')) as [<-|Hne].
    - rewrite E in E'. injection E' as <- <-. exists cs'. cbn. rewrite lookup_insert. auto.
    - exists cs0. cbn. rewrite lookup_insert_ne by exact Hne. auto.
  Qed.
  Lemma along_prune path : forall s cur, P s -> Forall (short s) path -> Forall P (t_prune s cur path).1.
  Proof.
    induction path as [|l path IH]; intros s cur Hs Hp; cbn [t_prune]; [apply Forall_nil; exact I|].
    apply Forall_cons in Hp as ((p0 & cs0 & E0 & Hp0 & Hl) & Hp).
    apply along_lift. intros (p & cs) E. apply along_lift. intros d _. apply along_lift. intros c _.
    set (cs' := <[Z.to_nat d := _]> cs).
    assert (Hw : P (write s l (Branch p cs'))) by (eapply Pq; [exact Hs|eapply quiet_write, E]).
    pose proof (as_branch_heap _ _ _ _ E) as Eh. rewrite E0 in Eh. injection Eh as -> ->.
    apply along_did; [exact Hw|].
    assert (Hput : Forall P (let* s2 := t_put (write s l (Branch p cs')) p l in t_invalidatePath s2 p path).1).
    { apply along_put. intros s' E'. assert (Hs' : P s') by (eapply Pq; [exact Hw|]; eapply quiet_put; [exact E'|lia|exact Hl]).
      split; [exact Hs'|apply along_invalidate, Hs']. }
    destruct (filter _ _) as [|only [|x y]]; [case_bool_decide|case_bool_decide|].
    - exact Hput.
    - apply IH; [exact Hw|]. eapply Forall_impl; [exact Hp|]. intros l' Hl'. eapply short_write; eassumption.
    - apply along_del. intros s' E'. assert (Hs' : P s') by (eapply Pq; [exact Hw|]; eapply quiet_del; [exact E'|lia]).
      split; [exact Hs'|apply along_invalidate, Hs'].
    - exact Hput.
    - exact Hput.
  Qed.
End Along.

(** The new entry can be read, all other entries are as in [s]. *)
Definition wrote (s : state) (k : nibbles) (v : bytes) (u : state) : Prop :=
  below_next u /\
  (forall p, length p = 40%nat -> p <> k -> read u p = read s p) /\
  exists o, read u k = Ok o /\ default [] o = v.
Lemma wrote_quiet s k v u w : length k = 40%nat -> wrote s k v u -> quiet u w -> wrote s k v w.
Proof.
  intros Hk (A & B & o & C & D) [Q1 Q2]. split; [auto|]. split.
  - intros p Hp Hne. rewrite Q1 by exact Hp. auto.
  - exists o. rewrite Q1 by exact Hk. auto.
Qed.
Lemma wrote_leaf s k v p' s' : below_next s -> put_node (alloc s (Leaf p' v)).1 k (next s) = Ok s' -> wrote s k v s' /\ next s' = S (next s).
Proof.
  intros Hb. pose proof (quiet_alloc s (Leaf p' v) Hb) as [Q1 Q2]. unfold put_node. intros E. bind_ok E. injection E as <-.
  cbn in E0 |- *. split; [|reflexivity]. split; [|split].
  - intros q l Hq. cbn in *. rewrite (PutNode_get _ _ _ _ q E0) in Hq. case_decide; [injection Hq as <-; lia|].
    apply Hb in Hq. lia.
  - intros q Hq Hne. rewrite <- Q1 by exact Hq. unfold read. cbn. rewrite (PutNode_get _ _ _ _ q E0), decide_False by congruence. reflexivity.
  - exists (Some v). split; [|reflexivity]. unfold read. cbn. rewrite (PutNode_get _ _ _ _ k E0), decide_True by reflexivity.
    rewrite lookup_insert. reflexivity.
Qed.
Lemma wrote_del s k s' : below_next s -> del_node s k = Ok s' -> wrote s k [] s'.
Proof.
  intros Hb. unfold del_node. intros E. bind_ok E. injection E as <-. split; [|split].
  - intros q l Hq. cbn in *. rewrite (DelNode_get' _ _ _ q E0) in Hq. case_decide; [discriminate|apply Hb in Hq; exact Hq].
  - intros q Hq Hne. unfold read. cbn. rewrite (DelNode_get' _ _ _ q E0), decide_False by congruence. reflexivity.
  - exists None. split; [|reflexivity]. unfold read. cbn. rewrite (DelNode_get' _ _ _ k E0), decide_True by reflexivity. reflexivity.
Qed.

Section WithHash.
  Variable H : bytes -> bytes.

  Lemma wrote_update s M k v : inv H s M -> length k = 40%nat -> forall fuel np path,
    (length np <= 40)%nat -> Forall (short s) path ->
    Forall (wrote s k v) (t_update fuel s np k v path).1.
  Proof.
    intros Hi Hk. pose proof (reach_labelled H _ _ Hi) as Hlab.
    pose proof (keys20_good M (proj1 Hi)) as Hgood.
    assert (Hb : below_next s).
    { destruct Hi as (_ & _ & V & ((_ & Hf & Hg) & _) & _). intros p l E. destruct (Hg _ _ E) as (n & En & _). eapply Hf, En. }
    pose proof (fun u w => wrote_quiet s k v u w Hk) as Wq.
    induction fuel as [|fuel IH]; intros np path Hnp Hp; cbn [t_update]; [apply Forall_nil; exact I|].
    destruct (PrefixOf np k) eqn:Ep; cbn [negb].
    2:{ cbn [alloc]. apply along_put. intros s2 E2.
      destruct (wrote_leaf s k v k s2 Hb E2) as (W2 & N2). split; [exact W2|].
      apply along_lift. intros a1 _. apply along_lift. intros a2 _. apply along_lift. intros a3 _. apply along_lift. intros cs2 _.
      apply along_put. intros s4 E4.
      assert (Hpp : (length (CommonPrefix np k) <> 40)%nat).
      { intros Hl. assert (HnE : ~ (np `prefix_of` k)) by (intros Hx; apply PrefixOf_prefix in Hx; congruence).
        destruct (CommonPrefix_prefix np k) as ((r1 & Er1) & (r2 & Er2)).
        pose proof (f_equal (@List.length Z) Er1) as L1. pose proof (f_equal (@List.length Z) Er2) as L2.
        rewrite app_length in L1, L2.
        assert (r1 = []) as -> by (destruct r1; [reflexivity|cbn in L1; lia]).
        rewrite app_nil_r in Er1. apply HnE. exists r2. rewrite Er1 at 1. exact Er2. }
      assert (W4 : wrote s k v s4).
      { eapply Wq; [exact W2|]. eapply quiet_trans; [apply (quiet_alloc s2 (Branch (CommonPrefix np k) cs2)), W2|].
        eapply quiet_put; [exact E4|exact Hpp|cbn; lia]. }
      split; [exact W4|]. apply along_invalidate; [exact Wq|exact W4]. }
    apply PrefixOf_prefix in Ep.
    destruct (bytes_eqb np k) eqn:Eq.
    - apply bytes_eqb_eq in Eq. subst np. destruct v as [|x v].
      + apply along_del. intros s1 E1. pose proof (wrote_del s k s1 Hb E1) as W1. split; [exact W1|].
        apply along_prune; [exact Wq|exact W1|]. unfold del_node in E1. bind_ok E1. injection E1 as <-. exact Hp.
      + cbn [alloc]. apply along_put. intros s2 E2. destruct (wrote_leaf s k (x :: v) k s2 Hb E2) as (W2 & _).
        split; [exact W2|]. apply along_invalidate; [exact Wq|exact W2].
    - apply bytes_eqb_neq in Eq.
      destruct (GetNode (sto s) np) as [l|] eqn:El; [|apply Forall_nil; exact I].
      apply along_lift. intros (p & cs) E0. apply along_lift. intros d _. apply along_lift. intros c Ec.
      pose proof (as_branch_heap _ _ _ _ E0) as Hl.
      pose proof (Hlab _ _ _ El Hl) as Hpn. cbn in Hpn. subst p.
      assert (Hlt : (length np < 40)%nat).
      { destruct (decide (length np = 40%nat)) as [Hx|Hx]; [|lia]. exfalso. apply Eq. apply pre_eq; [exact Ep|lia]. }
      destruct (c_exists c) eqn:Ex.
      + apply IH.
        * pose proof (inv_shape H s M np l _ Hi El Hl) as Hs. cbn [shape] in Hs. destruct Hs as (_ & _ & _ & _ & Hq).
          rewrite index_lookup in Ec. destruct (cs !! Z.to_nat d) as [c'|] eqn:X; [injection Ec as ->|discriminate].
          destruct (Hq _ _ X) as ((_ & Hlk) & _). exact (proj1 (node_len _ _ Hgood (proj1 (proj2 (Hlk Ex))))).
        * apply Forall_cons. split; [|exact Hp]. exists np, cs. split; [exact Hl|]. split; [exact Hlt|exact (Hb _ _ El)].
      + cbn [alloc]. apply along_put. intros s2 E2.
        destruct (wrote_leaf s k v k s2 Hb E2) as (W2 & N2). split; [exact W2|].
        apply along_lift. intros su _. apply along_lift. intros cs' _.
        assert (Hl2 : as_branch s2 l = Ok (np, cs)).
        { eapply as_branch_mono; [exact E0|]. rewrite (put_node_heap _ _ _ _ E2). cbn. apply lookup_insert_ne.
          pose proof (Hb _ _ El). lia. }
        assert (W3 : wrote s k v (write s2 l (Branch np cs'))) by (eapply Wq; [exact W2|eapply quiet_write, Hl2]).
        apply along_did; [exact W3|]. apply along_put. intros s4 E4.
        assert (W4 : wrote s k v s4).
        { eapply Wq; [exact W3|]. eapply quiet_put; [exact E4|lia|cbn]. pose proof (Hb _ _ El). lia. }
        split; [exact W4|]. apply along_invalidate; [exact Wq|exact W4].
  Qed.

  (** ** Hashing *)
  Lemma put_same_rehashed s q l s' : labelled s -> GetNode (sto s) q = Some l -> put_node s q l = Ok s' -> rehashed s s'.
  Proof.
    intros Hlab Hg E. unfold put_node in E. bind_ok E. injection E as <-. constructor; cbn; auto.
    - intros p0. rewrite (PutNode_get _ _ _ _ p0 E0). case_decide; [subst; symmetry; exact Hg|reflexivity].
    - intros l0 n0 E0'. exists n0. split; [exact E0'|apply up_refl].
  Qed.

  (** Writing the hash of an existing child. *)
  Lemma write_hash_rehashed s q l p cs i c h : GetNode (sto s) q = Some l -> as_branch s l = Ok (p, cs) ->
    index cs i = Ok c -> c_exists c = true ->
    rehashed s (write s l (Branch p (<[i := Child (c_suffix c) h (c_exists c)]> cs))).
  Proof.
    intros El Eb Ei Hx. apply as_branch_heap in Eb. rewrite index_lookup in Ei.
    destruct (cs !! i) as [y|] eqn:Y; [injection Ei as ->|discriminate].
    constructor; cbn.
    - reflexivity.
    - intros l0 n0 E0. destruct (decide (l = l0)) as [<-|Hne].
      + rewrite lookup_insert. eexists; split; [reflexivity|]. rewrite Eb in E0. injection E0 as <-.
        split; [reflexivity|]. rewrite <- (list_insert_id cs i c Y) at 1.
        apply Forall2_insert; [|split; [reflexivity|split; [reflexivity|cbn; congruence]]].
        clear. induction cs; constructor; [apply up_child_refl|assumption].
      + rewrite lookup_insert_ne by exact Hne. exists n0. split; [exact E0|apply up_refl].
    - intros l0 E0. rewrite lookup_insert_ne; [exact E0|]. intros ->. congruence.
    - intros l0 Hl0. apply lookup_insert_ne. intros <-. apply (Hl0 q). exact El.
  Qed.

  Lemma rehashed_child s s' l p cs p' cs' i c c' : rehashed s s' -> as_branch s l = Ok (p, cs) -> as_branch s' l = Ok (p', cs') ->
    index cs i = Ok c -> index cs' i = Ok c' -> c_exists c' = c_exists c.
  Proof.
    intros Hr Ea Eb Ei Ei3. apply as_branch_heap in Ea, Eb.
    destruct (re_some _ _ Hr _ _ Ea) as (n' & En' & Un'). rewrite Eb in En'. injection En' as <-.
    cbn in Un'. destruct Un' as (_ & Un'). rewrite index_lookup in Ei, Ei3.
    destruct (cs !! i) as [x|] eqn:X; [injection Ei as ->|discriminate].
    destruct (cs' !! i) as [y|] eqn:Y; [injection Ei3 as ->|discriminate].
    destruct (Forall2_lookup_lr _ _ _ _ _ _ Un' X Y) as (_ & Hy & _). congruence.
  Qed.

  Lemma steps_rehashed fuel : forall s q, labelled s -> Forall (rehashed s) (t_updateHashes H fuel s q).1.
  Proof.
    induction fuel as [|fuel IH]; intros s q Hlab; cbn [t_updateHashes]; [apply Forall_nil; exact I|].
    destruct (GetNode (sto s) q) as [l|] eqn:El; [|apply Forall_nil; exact I].
    destruct (heap s !! l) as [[p cs|p v]|] eqn:Eh; [| |apply Forall_nil; exact I].
    2:{ apply along_lift. intros h _. apply Forall_nil; exact I. }
    assert (Hloop : forall is s, labelled s -> GetNode (sto s) q = Some l ->
      Forall (rehashed s) (t_for_each (t_hash_child (t_updateHashes H fuel) l q) is s).1 /\
      (forall s', (t_for_each (t_hash_child (t_updateHashes H fuel) l q) is s).2 = Ok s' -> rehashed s s')).
    { clear s p cs Hlab El Eh.
      assert (Hstep : forall i s, labelled s -> GetNode (sto s) q = Some l ->
        Forall (rehashed s) (t_hash_child (t_updateHashes H fuel) l q s i).1 /\
        (forall s', (t_hash_child (t_updateHashes H fuel) l q s i).2 = Ok s' -> rehashed s s')).
      { intros i s Hlab El.
        assert (Hone : forall p cs c, as_branch s l = Ok (p, cs) -> index cs i = Ok c -> c_exists c = true ->
          forall s1 h1, (t_updateHashes H fuel s (q ++ c_suffix c)).2 = Ok (s1, h1) ->
          forall p' cs' c', as_branch s1 l = Ok (p', cs') -> index cs' i = Ok c' ->
          rehashed s (write s1 l (Branch p' (<[i := Child (c_suffix c') h1 (c_exists c')]> cs')))).
        { intros p cs c Ea Ei Ex s1 h1 E1 p' cs' c' Eb Ei'. rewrite t_updateHashes_2 in E1.
          pose proof (rehashed_hashes H _ _ _ _ _ Hlab E1) as Hr.
          eapply rehashed_trans; [exact Hr|]. eapply (write_hash_rehashed s1 q); [rewrite (re_get _ _ Hr); exact El|exact Eb|exact Ei'|].
          rewrite (rehashed_child _ _ _ _ _ _ _ _ _ _ Hr Ea Eb Ei Ei'). exact Ex. }
        unfold t_hash_child. split.
        - apply along_lift. intros (p & cs) Ea. apply along_lift. intros c Ei.
          destruct (c_exists c) eqn:Ex; cbn [negb]; [|apply Forall_nil; exact I].
          destruct (bytes_eqb (c_hash c) zeroHash); [|apply Forall_nil; exact I].
          apply sbind_1; [apply IH, Hlab|]. intros (s1 & h1) E1.
          apply along_lift. intros (p' & cs') Eb. apply along_lift. intros c' Ei'.
          cbn. apply Forall_cons. split; [|apply Forall_nil; exact I]. eapply Hone; eassumption.
        - intros s' E. rewrite sbind_2 in E. cbn [lift snd] in E. bind_ok E. destruct a as (p & cs).
          rewrite sbind_2 in E. cbn [lift snd] in E. bind_ok E. rename a into c.
          destruct (c_exists c) eqn:Ex; cbn [negb] in E; [|injection E as <-; apply rehashed_refl].
          destruct (bytes_eqb (c_hash c) zeroHash); [|injection E as <-; apply rehashed_refl].
          rewrite sbind_2 in E. bind_ok E. destruct a as (s1 & h1).
          rewrite sbind_2 in E. cbn [lift snd] in E. bind_ok E. destruct a as (p' & cs').
          rewrite sbind_2 in E. cbn [lift snd] in E. bind_ok E. injection E as <-. exact (Hone _ _ _ eq_refl E1 Ex _ _ E2 _ _ _ E3 E4). }
      induction is as [|i is IHi]; intros s Hlab El; cbn [t_for_each].
      { split; [apply Forall_nil; exact I|]. intros s' E. injection E as <-. apply rehashed_refl. }
      destruct (Hstep i s Hlab El) as (HsF & HsE).
      split.
      - apply sbind_1; [exact HsF|]. intros s1 E1. pose proof (HsE _ E1) as Hr.
        destruct (IHi s1) as (HF & _); [eapply rehashed_labelled; eassumption|rewrite (re_get _ _ Hr); exact El|].
        eapply Forall_impl; [exact HF|]. intros u Hu. eapply rehashed_trans; eassumption.
      - intros s' E. rewrite sbind_2 in E. bind_ok E. pose proof (HsE _ eq_refl) as Hr.
        eapply rehashed_trans; [exact Hr|]. eapply IHi; [eapply rehashed_labelled; eassumption|rewrite (re_get _ _ Hr); exact El|exact E]. }
    destruct (Hloop (seq 0 16) s Hlab El) as (HF & HE).
    apply sbind_1; [exact HF|]. intros s1 E1. pose proof (HE _ E1) as Hr.
    apply along_lift. intros (p1 & cs1) Ea.
    pose proof (rehashed_labelled _ _ Hr Hlab) as Hlab1.
    assert (Hg1 : GetNode (sto s1) q = Some l) by (rewrite (re_get _ _ Hr); exact El).
    pose proof (Hlab1 _ _ _ Hg1 (as_branch_heap _ _ _ _ Ea)) as Hq. cbn in Hq. subst p1.
    apply sbind_1.
    - unfold t_put. apply along_lift. intros s2 E2. cbn. apply Forall_cons. split; [|apply Forall_nil; exact I].
      eapply rehashed_trans; [exact Hr|]. eapply put_same_rehashed; eassumption.
    - intros s2 _. apply along_lift. intros h _. apply Forall_nil; exact I.
  Qed.

  Lemma rehashed_read s u p : rehashed s u -> read u p = read s p.
  Proof.
    intros Hr. unfold read. rewrite (re_get _ _ Hr). destruct (GetNode (sto s) p) as [l|]; [|reflexivity].
    destruct (heap s !! l) as [n|] eqn:E; [|rewrite (re_none _ _ Hr _ E); reflexivity].
    destruct (re_some _ _ Hr _ _ E) as (n' & -> & Hu). destruct n, n'; cbn in Hu; try contradiction; [reflexivity|].
    destruct Hu as (_ & ->). reflexivity.
  Qed.

  (** ** PutEntry *)
  Theorem steps_read s M k v : inv H s M -> addr20 k ->
    Forall (fun u => (forall k', addr20 k' -> k' <> k -> GetEntry u k' = Ok (M !! k')) /\
                     exists o, GetEntry u k = Ok o /\ default [] o = v) (t_PutEntry H s k v).1.
  Proof.
    intros Hi Hk. destruct Hk as (Hl & Hok) eqn:Ek. destruct (KeyToNibbles_key k Hok Hl) as (Hk40 & _).
    assert (Hwrote : forall u, wrote s (KeyToNibbles k) v u -> (forall k', addr20 k' -> k' <> k -> GetEntry u k' = Ok (M !! k')) /\
                     exists o, GetEntry u k = Ok o /\ default [] o = v).
    { intros u (_ & W1 & W2). split; [|exact W2]. intros k' Hk' Hne. rewrite GetEntry_read, W1.
      - rewrite <- GetEntry_read. eapply inv_GetEntry; eassumption.
      - apply KeyToNibbles_key; apply Hk'.
      - destruct Hk' as (_ & Hok'). rewrite !nibs_key by assumption. intros E. apply nibs_inj in E. contradiction. }
    unfold t_PutEntry. apply sbind_1.
    - assert (Hgo : Forall (wrote s (KeyToNibbles k) v) (let* s' := t_update tree_fuel s [] (KeyToNibbles k) v [] in lift (Ok (s', true))).1).
      { apply sbind_1; [|intros; apply Forall_nil; exact I].
        apply (wrote_update s M); [exact Hi|exact Hk40|cbn; lia|apply Forall_nil; exact I]. }
      eapply Forall_impl; [|exact Hwrote]. unfold t_updateEntry.
      destruct (GetNode (sto s) (KeyToNibbles k)) as [l|].
      + destruct (heap s !! l) as [[p cs|p w]|]; [exact Hgo| |exact Hgo]. destruct (bytes_eqb w v); [apply Forall_nil; exact I|exact Hgo].
      + destruct v; [apply Forall_nil; exact I|exact Hgo].
    - intros (s1 & b) E1. rewrite t_updateEntry_2 in E1.
      apply sbind_1; [|intros (s2 & h) _; apply Forall_nil; exact I].
      pose proof (updateEntry_labelled H s M k v s1 b Hi Hk E1) as Hlab.
      destruct (inv_PutEntry H s M k v Hi Hk) as (s2 & E2 & Hi2).
      unfold PutEntry in E2. rewrite E1 in E2. cbn [bind] in E2. bind_ok E2. destruct a as (s3 & h). injection E2 as -> _.
      pose proof (rehashed_hashes H _ _ _ _ _ Hlab E) as Hr2.
      eapply Forall_impl; [apply (steps_rehashed _ _ _ Hlab)|]. intros u Hr.
      assert (Hsame : forall k', GetEntry u k' = GetEntry s2 k').
      { intros k'. rewrite !GetEntry_read, (rehashed_read _ _ _ Hr), (rehashed_read _ _ _ Hr2). reflexivity. }
      split.
      + intros k' Hk' Hne. rewrite Hsame, (inv_GetEntry H _ _ _ Hi2 Hk'). f_equal. unfold spec_put. cbn [fst snd].
        destruct v; [apply lookup_delete_ne|apply lookup_insert_ne]; congruence.
      + exists (spec_put M (k, v) !! k). rewrite Hsame. split; [apply (inv_GetEntry H _ _ _ Hi2 Hk)|].
        unfold spec_put. cbn [fst snd]. destruct v; [rewrite lookup_delete|rewrite lookup_insert]; reflexivity.
  Qed.
End WithHash.
