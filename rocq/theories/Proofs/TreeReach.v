(** Reachable trees represent their contents. *)
From Coq Require Import ZArith List Lia Bool.
From stdpp Require Import gmap list.
From Verif.Model Require Import Base Address Nibbles Tree.
From Verif.Spec Require Import AddressSpec TreeSpec TreeHistory.
From Verif.Proofs Require Import BaseFacts NibblesFacts TreeSim TreeTrie TreeCanon TreeUpdate TreeHashes.
Open Scope Z_scope.

(** ** Keys and paths *)
Global Instance nibs_inj : Inj (=) (=) nibs.
Proof.
  intros a. induction a as [|x a IH]; intros [|y b]; try discriminate; [reflexivity|].
  unfold nibs in *. cbn [flat_map app]. intros E. injection E as E1 E2 E3.
  f_equal; [|apply IH; exact E3]. rewrite (Z.div_mod x 16), (Z.div_mod y 16) by lia. congruence.
Qed.

Lemma nibs_key k : bytes_ok k -> KeyToNibbles k = nibs k.
Proof.
  induction 1 as [|b k Hb Hk IH]; [reflexivity|]. cbn [KeyToNibbles]. unfold nibs. cbn [flat_map app].
  destruct (nibble_split b Hb) as (-> & ->). do 2 f_equal. exact IH.
Qed.

Lemma by_path_kmap M : by_path M = kmap nibs M.
Proof. reflexivity. Qed.

Lemma by_path_lookup M k : by_path M !! nibs k = M !! k.
Proof. rewrite by_path_kmap. apply lookup_kmap. apply _. Qed.

Lemma by_path_lookup_Some M p v : by_path M !! p = Some v -> exists k, p = nibs k /\ M !! k = Some v.
Proof. rewrite by_path_kmap. intros E. apply (lookup_kmap_Some nibs) in E. exact E. Qed.

Lemma by_path_put M k v : by_path (spec_put M (k, v)) = spec_put (by_path M) (nibs k, v).
Proof.
  rewrite !by_path_kmap. unfold spec_put. cbn [fst snd]. destruct v; [apply kmap_delete|apply kmap_insert]; apply _.
Qed.

Lemma by_path_inj M1 M2 : by_path M1 = by_path M2 -> M1 = M2.
Proof. intros E. apply map_eq. intros k. rewrite <- (by_path_lookup M1 k), <- (by_path_lookup M2 k), E. reflexivity. Qed.

(** Entries written through the API: 20-byte keys, non-empty values. *)
Definition keys20 (M : entries) : Prop := forall k v, M !! k = Some v -> addr20 k /\ v <> [].

Lemma keys20_empty : keys20 ∅.
Proof. intros k v E. rewrite lookup_empty in E. discriminate. Qed.
Lemma keys20_put M k v : keys20 M -> addr20 k -> keys20 (spec_put M (k, v)).
Proof.
  intros Hm Hk k' v'. unfold spec_put. cbn [fst snd]. destruct v as [|x xs].
  - intros E. apply lookup_delete_Some in E as (_ & E). apply Hm, E.
  - destruct (decide (k = k')) as [<-|Hne].
    + rewrite lookup_insert. intros E. injection E as <-. split; [exact Hk|discriminate].
    + rewrite lookup_insert_ne by exact Hne. apply Hm.
Qed.
Lemma keys20_good M : keys20 M -> good (by_path M).
Proof.
  intros Hm p v E. apply by_path_lookup_Some in E as (k & -> & E). destruct (Hm _ _ E) as ((Hl & Hok) & Hv).
  rewrite <- nibs_key by exact Hok. destruct (KeyToNibbles_key k Hok Hl). auto.
Qed.

(** ** Stores all of whose layers are writable *)
Lemma layers_writable s : layers_ok s -> writable s.
Proof. destruct s as [m|lower [d|]]; cbn; auto. Qed.
Lemma PutNode_layers s k l s' : PutNode s k l = Ok s' -> layers_ok s -> layers_ok s'.
Proof. destruct s as [m|lower [d|]]; cbn; intros E; [| |discriminate]; injection E as <-; auto. Qed.
Lemma DelNode_layers s k s' : DelNode s k = Ok s' -> layers_ok s -> layers_ok s'.
Proof. destruct s as [m|lower [d|]]; cbn; intros E; [| |discriminate]; injection E as <-; auto. Qed.

(** The layer below the top and the leaf objects never change. *)
Definition ext (s s' : state) : Prop :=
  lower_of (sto s') = lower_of (sto s) /\
  (layers_ok (sto s) -> layers_ok (sto s')) /\
  ((forall l n, heap s !! l = Some n -> (l < next s)%nat) -> (forall l n, heap s' !! l = Some n -> (l < next s')%nat)) /\
  ((forall l n, heap s !! l = Some n -> (l < next s)%nat) ->
     forall l p v, heap s !! l = Some (Leaf p v) -> heap s' !! l = Some (Leaf p v)).

Lemma ext_refl s : ext s s.
Proof. split; [reflexivity|]. split; [auto|]. split; auto. Qed.
Lemma ext_trans s1 s2 s3 : ext s1 s2 -> ext s2 s3 -> ext s1 s3.
Proof.
  intros (A1 & A2 & A3 & A4) (B1 & B2 & B3 & B4). split; [congruence|]. split; [intros Hx; apply B2, A2, Hx|]. split; [intros Hx; apply B3, A3, Hx|].
  intros Hf l p v Hl. apply B4; [apply A3, Hf|]. apply A4; assumption.
Qed.
Lemma ext_alloc s n : ext s (alloc s n).1.
Proof.
  split; [reflexivity|]. split; [auto|]. cbn. split.
  - intros Hf l n'. destruct (decide (next s = l)) as [<-|Hne]; [lia|].
    rewrite lookup_insert_ne by exact Hne. intros E. apply Hf in E. lia.
  - intros Hf l p v E. rewrite lookup_insert_ne; [exact E|]. apply Hf in E. lia.
Qed.
Lemma ext_put s k l s' : put_node s k l = Ok s' -> ext s s'.
Proof.
  unfold put_node. destruct (PutNode (sto s) k l) as [st|e| |] eqn:E; cbn; try discriminate.
  intros Es. injection Es as <-. split; [|split; [cbn; eapply PutNode_layers, E|split; auto]].
  cbn. destruct (sto s) as [m|lower [d|]]; cbn in E; [| |discriminate]; injection E as <-; reflexivity.
Qed.
Lemma ext_del s k s' : del_node s k = Ok s' -> ext s s'.
Proof.
  unfold del_node. destruct (DelNode (sto s) k) as [st|e| |] eqn:E; cbn; try discriminate.
  intros Es. injection Es as <-. split; [|split; [cbn; eapply DelNode_layers, E|split; auto]].
  cbn. destruct (sto s) as [m|lower [d|]]; cbn in E; [| |discriminate]; injection E as <-; reflexivity.
Qed.
Lemma ext_write s l p cs n : as_branch s l = Ok (p, cs) -> ext s (write s l n).
Proof.
  unfold as_branch. destruct (heap s !! l) as [[p' cs'|]|] eqn:E; try discriminate. intros _.
  split; [reflexivity|]. split; [auto|]. cbn. split.
  - intros Hf l' n'. destruct (decide (l = l')) as [<-|Hne]; [intros _; eapply Hf, E|].
    rewrite lookup_insert_ne by exact Hne. apply Hf.
  - intros Hf l' p0 v E'. rewrite lookup_insert_ne; [exact E'|]. intros ->. congruence.
Qed.

Ltac bind_ok E :=
  match type of E with
  | bind ?x ?f = Ok _ => let E1 := fresh "E" in destruct x eqn:E1; cbn [bind] in E; [|discriminate E ..]
  end.

Lemma ext_invalidate path : forall s cur s', invalidatePath s cur path = Ok s' -> ext s s'.
Proof.
  induction path as [|l path IH]; intros s cur s' E; cbn [invalidatePath] in E.
  - injection E as <-. apply ext_refl.
  - bind_ok E. destruct a as (p & cs). bind_ok E. bind_ok E.
    eapply ext_trans; [eapply ext_write; eassumption|]. eapply IH, E.
Qed.

Lemma ext_prune path : forall s cur s', prune s cur path = Ok s' -> ext s s'.
Proof.
  induction path as [|l path IH]; intros s cur s' E; cbn [prune] in E.
  - injection E as <-. apply ext_refl.
  - bind_ok E. destruct a as (p & cs). bind_ok E. bind_ok E.
    eapply ext_trans; [eapply ext_write; eassumption|].
    destruct (filter _ _) as [|only [|x y]]; [case_bool_decide|case_bool_decide|].
    + bind_ok E. eapply ext_trans; [eapply ext_put; eassumption|eapply ext_invalidate, E].
    + eapply IH, E.
    + bind_ok E. eapply ext_trans; [eapply ext_del; eassumption|eapply ext_invalidate, E].
    + bind_ok E. eapply ext_trans; [eapply ext_put; eassumption|eapply ext_invalidate, E].
    + bind_ok E. eapply ext_trans; [eapply ext_put; eassumption|eapply ext_invalidate, E].
Qed.

Lemma as_branch_mono s s' l p cs : as_branch s l = Ok (p, cs) -> heap s' !! l = heap s !! l -> as_branch s' l = Ok (p, cs).
Proof. unfold as_branch. intros E ->. exact E. Qed.

Lemma put_node_heap s k l s' : put_node s k l = Ok s' -> heap s' = heap s.
Proof. unfold put_node. destruct (PutNode _ _ _); cbn; try discriminate. intros E. injection E as <-. reflexivity. Qed.

Lemma ext_write_any s l n : (forall l' n', heap s !! l' = Some n' -> (l' < next s)%nat) ->
  (forall p v, heap s !! l <> Some (Leaf p v)) -> (l < next s)%nat -> ext s (write s l n).
Proof.
  intros Hf Hb Hl. split; [reflexivity|]. split; [auto|]. cbn. split.
  - intros _ l' n'. destruct (decide (l = l')) as [<-|Hne]; [auto|]. rewrite lookup_insert_ne by exact Hne. apply Hf.
  - intros _ l' p0 v E'. rewrite lookup_insert_ne; [exact E'|]. intros ->. eapply Hb, E'.
Qed.

Definition fresh (s : state) : Prop := forall l n, heap s !! l = Some n -> (l < next s)%nat.

Lemma ext_update fuel : forall s np k v path s', fresh s -> update fuel s np k v path = Ok s' -> ext s s'.
Proof.
  induction fuel as [|fuel IH]; intros s np k v path s' Hf E; cbn [update] in E; [discriminate|].
  destruct (negb (PrefixOf np k)).
  - cbn [alloc] in E. bind_ok E. bind_ok E. bind_ok E. bind_ok E. bind_ok E. bind_ok E.
    eapply ext_trans; [apply (ext_alloc s (Leaf k v))|]. eapply ext_trans; [eapply ext_put; eassumption|].
    eapply ext_trans; [|eapply ext_trans; [eapply ext_put; eassumption|eapply ext_invalidate, E]].
    apply (ext_alloc a (Branch (CommonPrefix np k) a3)).
  - destruct (bytes_eqb np k).
    + destruct v as [|x v].
      * bind_ok E. eapply ext_trans; [eapply ext_del; eassumption|eapply ext_prune, E].
      * cbn [alloc] in E. bind_ok E. eapply ext_trans; [apply (ext_alloc s (Leaf np (x :: v)))|].
        eapply ext_trans; [eapply ext_put; eassumption|eapply ext_invalidate, E].
    + destruct (GetNode (sto s) np) as [l|]; [|discriminate].
      bind_ok E. destruct a as (p & cs). bind_ok E. bind_ok E. destruct (c_exists a0).
      * eapply IH; eassumption.
      * cbn [alloc] in E. bind_ok E. bind_ok E. bind_ok E. bind_ok E.
        eapply ext_trans; [apply (ext_alloc s (Leaf k v))|]. eapply ext_trans; [eapply ext_put; eassumption|].
        eapply ext_trans; [|eapply ext_trans; [eapply ext_put; eassumption|eapply ext_invalidate, E]].
        eapply (ext_write _ _ p cs). eapply as_branch_mono; [exact E0|].
        rewrite (put_node_heap _ _ _ _ E3). cbn. apply lookup_insert_ne.
        unfold as_branch in E0. destruct (heap s !! l) as [n|] eqn:El; [|discriminate]. apply Hf in El. lia.
Qed.

Lemma ext_fresh s s' : ext s s' -> fresh s -> fresh s'.
Proof. intros (_ & _ & Hf & _). exact Hf. Qed.

Lemma ext_for_each {A} (f : state -> A -> res state) l : forall s s',
  (forall s a s', f s a = Ok s' -> ext s s') -> for_each f l s = Ok s' -> ext s s'.
Proof.
  induction l as [|a l IH]; intros s s' Hfe E; cbn [for_each] in E; [injection E as <-; apply ext_refl|].
  bind_ok E. eapply ext_trans; [eapply Hfe; eassumption|eapply IH; eassumption].
Qed.

Section WithHash.
  Variable H : bytes -> bytes.

  Lemma ext_hashes fuel : forall s q s' h, updateHashes H fuel s q = Ok (s', h) -> ext s s'.
  Proof.
    induction fuel as [|fuel IH]; intros s q s' h E; cbn [updateHashes] in E; [discriminate|].
    destruct (GetNode (sto s) q) as [l|]; [|discriminate].
    destruct (heap s !! l) as [[p cs|p v]|]; [| |discriminate].
    - bind_ok E. bind_ok E. destruct a0 as (p1 & cs1). bind_ok E. bind_ok E. injection E as <- _.
      eapply ext_trans; [|eapply ext_put; eassumption].
      eapply ext_for_each; [|exact E0]. intros s1 i s2 E5. unfold hash_child in E5.
      bind_ok E5. destruct a2 as (p2 & cs2). bind_ok E5. destruct (negb (c_exists a2)); [injection E5 as <-; apply ext_refl|].
      destruct (bytes_eqb (c_hash a2) zeroHash); [|injection E5 as <-; apply ext_refl].
      bind_ok E5. destruct a3 as (s3 & h3). bind_ok E5. destruct a3 as (p3 & cs3). bind_ok E5.
      injection E5 as <-. eapply ext_trans; [eapply IH; eassumption|eapply ext_write; eassumption].
    - bind_ok E. injection E as <- _. apply ext_refl.
  Qed.

  Lemma ext_PutEntry s k v s' b : fresh s -> PutEntry H s k v = Ok (s', b) -> ext s s'.
  Proof.
    intros Hf E. unfold PutEntry in E. bind_ok E. destruct a as (s1 & b1). bind_ok E. destruct a as (s2 & h).
    injection E as <- _. eapply ext_trans; [|eapply ext_hashes; eassumption].
    unfold updateEntry in E0.
    assert (Hgo : forall r, (let? s' := update tree_fuel s [] (KeyToNibbles k) v [] in Ok (s', true)) = Ok r -> ext s r.1).
    { intros (r & b2) E2. bind_ok E2. injection E2 as <- _. cbn. eapply ext_update; eassumption. }
    destruct (GetNode (sto s) (KeyToNibbles k)) as [l|].
    - destruct (heap s !! l) as [[p cs|p w]|]; [exact (Hgo _ E0)| |exact (Hgo _ E0)].
      destruct (bytes_eqb w v); [injection E0 as <- _; apply ext_refl|exact (Hgo _ E0)].
    - destruct v; [injection E0 as <- _; apply ext_refl|exact (Hgo _ E0)].
  Qed.

  Lemma ext_run hist : forall s s', fresh s -> run H s hist = Ok s' -> ext s s'.
  Proof.
    induction hist as [|(k & v) hist IH]; intros s s' Hf E; cbn [run] in E; [injection E as <-; apply ext_refl|].
    bind_ok E. destruct a as (s1 & b). pose proof (ext_PutEntry s k v s1 b Hf E0) as Hx.
    eapply ext_trans; [exact Hx|]. apply IH; [eapply ext_fresh; eassumption|exact E].
  Qed.

  (** ** Representation *)
  Definition inv (s : state) (M : entries) : Prop :=
    keys20 M /\ layers_ok (sto s) /\ exists V, sim s V /\ canon (by_path M) (clean_q H (by_path M)) V.

  Lemma canon_suffixes N V : good N -> canon N (clean_q H N) V -> suffixes_ok V.
  Proof.
    intros Hg Hc p cs i c HV Hi Hx. specialize (Hc p). rewrite HV in Hc. cbn [shape] in Hc.
    destruct Hc as (_ & _ & _ & _ & Hq). destruct (Hq i c Hi) as ((_ & Hlk) & _).
    destruct (node_len N _ Hg (proj1 (proj2 (Hlk Hx)))) as (_ & Hnn). apply Forall_app in Hnn. apply Hnn.
  Qed.

  Lemma inv_new : inv new_tree ∅.
  Proof.
    split; [apply keys20_empty|]. split; [exact I|]. exists {[ [] := new_branch [] ]}. split; [split|].
    - split; [exact I|]. split.
      + cbn. intros l n E. apply lookup_singleton_Some in E as (<- & _). lia.
      + cbn. intros k l E. apply lookup_singleton_Some in E as (<- & <-).
        exists (new_branch []). split; [apply lookup_singleton|]. split; [reflexivity|apply zero_branch_shape].
    - apply map_eq. intros k. rewrite view_lookup. cbn.
      destruct (decide (k = [])) as [->|Hne].
      + rewrite lookup_singleton. cbn. rewrite !lookup_singleton. reflexivity.
      + rewrite !lookup_singleton_ne by congruence. reflexivity.
    - assert (Hno : forall r, ~ has (by_path ∅) r).
      { intros r (k & v & E & _). apply by_path_lookup_Some in E as (k' & _ & E). rewrite lookup_empty in E. discriminate. }
      intros p. destruct (decide (p = [])) as [->|Hne].
      + rewrite lookup_singleton. cbn [shape]. split; [reflexivity|].
        split; [apply good_no_root, keys20_good, keys20_empty|]. split; [left; reflexivity|].
        split; [reflexivity|]. intros i c Hc.
        apply elem_of_list_lookup_2, elem_of_list_In, repeat_spec in Hc. subst c.
        split; [split; [split; [discriminate|intros Hh; exfalso; eapply Hno, Hh]|discriminate]|discriminate].
      + rewrite lookup_singleton_ne by congruence. cbn [shape]. intros Hn. eapply Hno, node_has; eassumption.
  Qed.

  Lemma inv_GetEntry s M k : inv s M -> addr20 k -> GetEntry s k = Ok (M !! k).
  Proof.
    intros (Hm & _ & V & Hsim & Hc) (Hl & Hok). pose proof (keys20_good M Hm) as Hg.
    rewrite (sim_GetEntry s V k Hsim). unfold pGetEntry. rewrite <- by_path_lookup, <- nibs_key by exact Hok.
    destruct (KeyToNibbles_key k Hok Hl) as (Hk40 & _).
    specialize (Hc (KeyToNibbles k)). unfold shape in Hc. destruct (V !! KeyToNibbles k) as [[p cs|p v]|].
    - exfalso. destruct Hc as (_ & _ & [Hb|Hb] & _); [rewrite Hb in Hk40; discriminate|].
      eapply full_not_branching; eassumption.
    - destruct Hc as (_ & ->). reflexivity.
    - destruct (by_path M !! KeyToNibbles k) as [v|] eqn:E; [|reflexivity].
      exfalso. apply Hc. right; left. eauto.
  Qed.

  Lemma inv_Hash s M : inv s M -> Hash H s = Ok (merkle_root H M).
  Proof.
    intros (Hm & _ & V & Hsim & Hc). pose proof (keys20_good M Hm) as Hg.
    rewrite (sim_Hash H s V Hsim). unfold pHash.
    destruct (canon_branch (by_path M) _ V [] Hg Hc) as (cs & HV & Hlen & Hq);
      [left; reflexivity|apply good_no_root, Hg|].
    unfold get_branch. rewrite HV. cbn [bind].
    rewrite (branch_bytes H (by_path M) [] cs Hg); [reflexivity|left; reflexivity|apply good_no_root, Hg|exact Hlen|exact Hq].
  Qed.

  Lemma inv_PutEntry s M k v : inv s M -> addr20 k ->
    exists s', PutEntry H s k v = Ok (s', negb (bytes_eqb (default [] (M !! k)) v)) /\ inv s' (spec_put M (k, v)).
  Proof.
    intros (Hm & Hlay & V & Hsim & Hc) (Hl & Hok). pose proof (keys20_good M Hm) as Hg.
    destruct (pPutEntry_ok H (by_path M) V k v Hg Hok Hl Hc) as (V' & E & Hc').
    rewrite nibs_key in E, Hc' by exact Hok. rewrite by_path_lookup in E. rewrite <- by_path_put in Hc'.
    pose proof (sim_PutEntry H s V k v Hsim (canon_suffixes _ V Hg Hc) Hok) as Hr. rewrite E in Hr.
    destruct (PutEntry H s k v) as [(s' & b)|e| |] eqn:Ep; cbn in Hr; try contradiction.
    destruct Hr as (Hsim' & ->). exists s'. split; [reflexivity|].
    split; [apply keys20_put; [exact Hm|split; assumption]|].
    split; [|exists V'; split; assumption].
    destruct (ext_PutEntry s k v s' _ (proj1 (proj2 (proj1 Hsim))) Ep) as (_ & Hx & _). apply Hx, Hlay.
  Qed.

  (** Changing the store without changing the mapping it denotes. *)
  Lemma inv_same_map s M st : inv s M -> layers_ok st -> (forall k, GetNode st k = GetNode (sto s) k) ->
    inv (State (heap s) (next s) st) M.
  Proof.
    intros (Hm & _ & V & ((Hw & Hf & Hg) & HV) & Hc) Hlay Hsame. split; [exact Hm|]. split; [exact Hlay|].
    exists V. split; [|exact Hc]. split.
    - split; [apply layers_writable, Hlay|]. split; [exact Hf|]. cbn. intros k l E. rewrite Hsame in E. apply Hg, E.
    - apply map_eq. intros k. rewrite <- HV, !view_lookup. cbn. rewrite Hsame. reflexivity.
  Qed.
End WithHash.
