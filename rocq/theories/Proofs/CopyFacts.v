(** The tree over a store that copies nodes: its root only ever refers to whole
    paths, so every call can be followed completely. *)
From Coq Require Import ZArith List Lia Bool.
From stdpp Require Import gmap list.
From Verif.Model Require Import Base Address Nibbles Tree TreeCopy.
From Verif.Spec Require Import AddressSpec TreeSpec.
From Verif.Proofs Require Import BaseFacts NibblesFacts TreeSim.
Open Scope Z_scope.

Definition path40 (q : nibbles) : Prop := length q = 40%nat /\ Forall is_nibble q.
Definition childok (s : cstore) (i : nat) (c : child) : Prop :=
  path40 (c_suffix c) /\ (exists t, c_suffix c = Z.of_nat i :: t) /\ is_Some (s !! c_suffix c).
Definition childrenok (s : cstore) (cs : list child) : Prop :=
  length cs = 16%nat /\ forall i c, cs !! i = Some c -> c_exists c = true -> childok s i c.
Definition leafok (s : cstore) : Prop :=
  forall q n, length q = 40%nat -> s !! q = Some n -> exists v, n = Leaf q v.
(** [V]: the value stored under each path. *)
Definition cinv (s : cstore) (cs : list child) : Prop :=
  s !! [] = Some (Branch [] cs) /\ childrenok s cs /\ leafok s.

Lemma path40_cons q : path40 q -> exists d t, q = d :: t /\ is_nibble d.
Proof. intros (Hl & Hn). destruct q as [|d t]; [discriminate|]. exists d, t. split; [reflexivity|]. inversion Hn; assumption. Qed.
Lemma path40_ne q : path40 q -> q <> [].
Proof. intros (Hl & _) ->. discriminate. Qed.
Lemma nibble_nat d : is_nibble d -> (Z.to_nat d < 16)%nat /\ Z.of_nat (Z.to_nat d) = d.
Proof. unfold is_nibble. lia. Qed.
Lemma path40_key k : addr20 k -> path40 (KeyToNibbles k).
Proof. intros (Hl & Hb). split; [rewrite KeyToNibbles_length, Hl; reflexivity|apply KeyToNibbles_ok, Hb]. Qed.
Lemma key_inj k k' : addr20 k -> addr20 k' -> KeyToNibbles k = KeyToNibbles k' -> k = k'.
Proof.
  intros (H1 & H2) (H3 & H4) E. pose proof (ToKey_KeyToNibbles k H1 H2) as E1. pose proof (ToKey_KeyToNibbles k' H3 H4) as E2.
  rewrite E in E1. congruence.
Qed.
Lemma index_some {A} (l : list A) i a : l !! i = Some a -> index l i = Ok a.
Proof. intros E. rewrite index_lookup, E. reflexivity. Qed.

Lemma PutChild_digit cs d t h : length cs = 16%nat -> is_nibble d ->
  PutChild cs (d :: t) h = Ok (<[Z.to_nat d := Child (d :: t) h true]> cs).
Proof. intros Hl Hd. cbn. rewrite bool_decide_eq_true_2; [reflexivity|]. rewrite Hl. apply nibble_nat, Hd. Qed.

Lemma invalidate_root cs d t : length cs = 16%nat -> is_nibble d -> c_invalidatePath (d :: t) [([], cs)] = Ok tt.
Proof.
  intros Hl Hd. cbn [c_invalidatePath length]. unfold slice_from. rewrite bool_decide_eq_true_2 by lia. cbn [bind]. rewrite drop_0.
  rewrite PutChild_digit by assumption. reflexivity.
Qed.

(** What [update] does from the root. *)
Inductive updated (s : cstore) (cs : list child) (q : nibbles) (v : bytes) : cstore -> Prop :=
| up_new d t c : (* nothing under the first digit *)
    q = d :: t -> cs !! Z.to_nat d = Some c -> c_exists c = false ->
    updated s cs q v (<[[] := Branch [] (<[Z.to_nat d := Child q zeroHash true]> cs)]> (<[q := Leaf q v]> s))
| up_same d t c : (* the first digit leads to the path itself *)
    q = d :: t -> cs !! Z.to_nat d = Some c -> c_exists c = true -> c_suffix c = q -> v <> [] ->
    updated s cs q v (<[q := Leaf q v]> s)
| up_delete d t c :
    q = d :: t -> cs !! Z.to_nat d = Some c -> c_exists c = true -> c_suffix c = q -> v = [] ->
    updated s cs q v (<[[] := Branch [] (<[Z.to_nat d := Child (c_suffix c) (c_hash c) false]> cs)]> (delete q s))
| up_split d t c pp n : (* it leads to another path *)
    q = d :: t -> cs !! Z.to_nat d = Some c -> c_exists c = true -> c_suffix c <> q -> pp <> [] -> (length pp < 40)%nat ->
    updated s cs q v (<[pp := n]> (<[q := Leaf q v]> s)).

Lemma update_root s cs q v : cinv s cs -> path40 q ->
  exists s', c_update tree_fuel s [] q v [] = Ok s' /\ updated s cs q v s'.
Proof.
  intros (Hroot & (Hlen & Hch) & Hleaf) Hq. destruct (path40_cons q Hq) as (d & t & -> & Hd).
  destruct (nibble_nat d Hd) as (Hd16 & Hdz). destruct (lookup_lt_is_Some_2 cs (Z.to_nat d) ltac:(lia)) as (c & Ec).
  unfold tree_fuel. cbn [c_update]. change (PrefixOf [] (d :: t)) with true. cbn [negb]. change (bytes_eqb [] (d :: t)) with false.
  rewrite Hroot. cbn [length]. rewrite (index_some (d :: t) 0 d eq_refl). cbn [bind]. rewrite (index_some _ _ _ Ec). cbn [bind].
  destruct (c_exists c) eqn:Ex.
  2:{ unfold slice_from. rewrite bool_decide_eq_true_2 by lia. cbn [bind]. rewrite drop_0. rewrite PutChild_digit by assumption. cbn [bind c_invalidatePath].
      eexists. split; [reflexivity|]. eapply up_new; eauto. }
  destruct (Hch _ _ Ec Ex) as ((Hel & Hen) & (t' & Ee) & _). rewrite Hdz in Ee. cbn [app].
  destruct (decide (c_suffix c = d :: t)) as [E|Hne].
  - rewrite E. rewrite (proj2 (PrefixOf_spec _ _)) by (exists []; rewrite app_nil_r; reflexivity). cbn [negb].
    rewrite bytes_eqb_refl. destruct v as [|v0 v].
    + cbn [c_prune length]. rewrite (index_some (d :: t) 0 d eq_refl). cbn [bind]. rewrite (index_some _ _ _ Ec). cbn [bind c_invalidatePath].
      rewrite (bool_decide_eq_false_2 (0 < 0)%nat) by lia. rewrite (bool_decide_eq_true_2 (0 = 0)%nat) by reflexivity.
      destruct (filter _ _) as [|x [|y r]]; (eexists; split; [reflexivity|eapply up_delete; eauto]).
    + rewrite invalidate_root by assumption. cbn [bind]. eexists. split; [reflexivity|]. eapply up_same; eauto.
  - assert (HnP : PrefixOf (c_suffix c) (d :: t) = false).
    { destruct (PrefixOf _ _) eqn:EP; [|reflexivity]. apply PrefixOf_spec in EP as (r & Er). destruct Hne.
      destruct Hq as (Hql & _). apply (f_equal length) in Er as Er'. rewrite app_length, Hql, Hel in Er'. destruct r; [|cbn in Er'; lia]. rewrite app_nil_r in Er. symmetry; exact Er. }
    rewrite HnP. cbn [negb]. set (e := c_suffix c) in *. set (pp := CommonPrefix e (d :: t)).
    destruct (CommonPrefix_prefix e (d :: t)) as ((r1 & E1) & (r2 & E2)). fold pp in E1, E2.
    assert (Hpp : exists u, pp = d :: u).
    { destruct (CommonPrefix_greatest e (d :: t) [d] t' t) as (u & Eu); [exact Ee|reflexivity|]. exists u. exact Eu. }
    destruct Hpp as (u & Epp). destruct Hq as (Hql & Hqn).
    assert (Hl1 : (length pp + length r1 = 40)%nat) by (rewrite <- app_length, <- E1; exact Hel).
    assert (Hl2 : (length pp + length r2 = 40)%nat) by (rewrite <- app_length, <- E2; exact Hql).
    destruct r1 as [|a1 r1].
    { destruct r2; [|cbn in Hl1, Hl2; lia]. destruct Hne. rewrite E1, E2. rewrite !app_nil_r. reflexivity. }
    destruct r2 as [|a2 r2]; [cbn in Hl1, Hl2; lia|].
    assert (Hn1 : is_nibble a1). { rewrite E1 in Hen. rewrite Forall_app in Hen. destruct Hen as (_ & Hen). inversion Hen; assumption. }
    assert (Hn2 : is_nibble a2). { rewrite E2 in Hqn. rewrite Forall_app in Hqn. destruct Hqn as (_ & Hqn). inversion Hqn; assumption. }
    assert (D1 : slice_from e (length pp) = Ok (a1 :: r1)). { unfold slice_from. rewrite bool_decide_eq_true_2 by lia. rewrite E1 at 1. rewrite drop_app. reflexivity. }
    assert (D2 : slice_from (d :: t) (length pp) = Ok (a2 :: r2)). { unfold slice_from. rewrite bool_decide_eq_true_2 by lia. rewrite E2 at 1. rewrite drop_app. reflexivity. }
    rewrite D1. cbn [bind]. rewrite PutChild_digit by (try reflexivity; assumption). cbn [bind]. rewrite D2. cbn [bind].
    rewrite PutChild_digit by (try assumption; rewrite insert_length; reflexivity). cbn [bind].
    assert (Hinv : c_invalidatePath pp [([], cs)] = Ok tt) by (rewrite Epp; apply invalidate_root; assumption). rewrite Hinv. cbn [bind]. eexists. split; [reflexivity|].
    eapply up_split; eauto; [rewrite Epp; discriminate|cbn in Hl1; lia].
Qed.

(** Lookups after [update]. *)
Lemma updated_leaf s cs q v s' q' : updated s cs q v s' -> path40 q -> length q' = 40%nat ->
  s' !! q' = if decide (q' = q) then (if decide (v = []) then s' !! q else Some (Leaf q v)) else s !! q'.
Proof.
  intros Hu (Hq & _) Hq'. assert (Hn : forall p : nibbles, (length p < 40)%nat -> p <> q' /\ p <> q) by (intros p Hp; split; intros ->; lia).
  destruct Hu as [d t c -> Ec Ex|d t c -> Ec Ex Es Hv|d t c -> Ec Ex Es Hv|d t c pp n -> Ec Ex Es Hpp Hl].
  - destruct (Hn [] ltac:(cbn; lia)) as (N1 & N2). rewrite !lookup_insert_ne by assumption.
    case_decide as E; [subst q'; rewrite lookup_insert; case_decide; [|reflexivity]|rewrite lookup_insert_ne by congruence; reflexivity].
    rewrite lookup_insert_ne by exact N2. rewrite lookup_insert. reflexivity.
  - case_decide as E; [subst q'; rewrite lookup_insert, decide_False by exact Hv; reflexivity|rewrite lookup_insert_ne by congruence; reflexivity].
  - destruct (Hn [] ltac:(cbn; lia)) as (N1 & N2). rewrite (decide_True (P := v = [])) by exact Hv. rewrite !lookup_insert_ne by assumption.
    case_decide as E; [subst q'; reflexivity|rewrite lookup_delete_ne by congruence; reflexivity].
  - destruct (Hn pp Hl) as (N1 & N2). rewrite !lookup_insert_ne by assumption.
    case_decide as E; [subst q'; rewrite lookup_insert; case_decide; [|reflexivity]|rewrite lookup_insert_ne by congruence; reflexivity].
    rewrite lookup_insert_ne by exact N2. rewrite lookup_insert. reflexivity.
Qed.
Lemma updated_value s cs q v s' : updated s cs q v s' -> path40 q -> v = [] -> s' !! q = None \/ s' !! q = Some (Leaf q []).
Proof.
  intros Hu (Hq & _) ->. assert (Hn : forall p : nibbles, (length p < 40)%nat -> p <> q) by (intros p Hp ->; lia).
  destruct Hu as [d t c -> Ec Ex|d t c -> Ec Ex Es Hv|d t c -> Ec Ex Es Hv|d t c pp n -> Ec Ex Es Hpp Hl].
  - right. rewrite lookup_insert_ne by (apply Hn; cbn; lia). apply lookup_insert.
  - congruence.
  - left. rewrite lookup_insert_ne by (apply Hn; cbn; lia). apply lookup_delete.
  - right. rewrite lookup_insert_ne by (apply Hn; lia). apply lookup_insert.
Qed.

(** The invariant is kept. *)
Lemma updated_cinv s cs q v s' : updated s cs q v s' -> path40 q -> cinv s cs -> exists cs', cinv s' cs'.
Proof.
  intros Hu Hq (Hroot & (Hlen & Hch) & Hleaf).
  assert (Hl' : leafok s').
  { intros q' n Hq' E. rewrite (updated_leaf _ _ _ _ _ q' Hu Hq Hq') in E. case_decide as E1; [|eapply Hleaf; eauto]. subst q'.
    case_decide as E2; [|injection E as <-; eauto]. destruct (updated_value _ _ _ _ _ Hu Hq E2) as [E3|E3]; rewrite E3 in E; [discriminate|]. injection E as <-. eauto. }
  assert (Hkeep : forall i c, childok s i c -> (v <> [] \/ s' !! q <> None \/ c_suffix c <> q) -> childok s' i c).
  { intros i c ((H1 & H1') & H2 & H3) Hor. split; [split; assumption|]. split; [exact H2|]. rewrite (updated_leaf _ _ _ _ _ _ Hu Hq H1).
    case_decide as E1; [|exact H3]. case_decide as E2; [|eauto]. destruct Hor as [Hor|[Hor|Hor]]; [contradiction| |contradiction].
    destruct (s' !! q); [eauto|contradiction]. }
  pose proof Hu as Hu'. destruct Hu' as [d t c -> Ec Ex|d t c -> Ec Ex Es Hv|d t c -> Ec Ex Es Hv|d t c pp n -> Ec Ex Es Hpp Hl].
  - eexists. split; [apply lookup_insert|]. split; [|exact Hl']. split; [rewrite insert_length; exact Hlen|].
    assert (Hin : (<[[] := Branch [] (<[Z.to_nat d := Child (d :: t) zeroHash true]> cs)]> (<[d :: t := Leaf (d :: t) v]> s)) !! (d :: t) = Some (Leaf (d :: t) v)).
    { rewrite lookup_insert_ne by discriminate. apply lookup_insert. }
    intros i ci Ei Exi. destruct (decide (i = Z.to_nat d)) as [->|Hne].
    + rewrite list_lookup_insert in Ei by (eapply lookup_lt_Some; eauto). injection Ei as <-. split; [exact Hq|]. cbn [c_suffix].
      destruct Hq as (_ & Hn). inversion Hn as [|? ? Hd _]; subst. split; [exists t; f_equal; symmetry; apply nibble_nat, Hd|]. rewrite Hin. eauto.
    + rewrite list_lookup_insert_ne in Ei by congruence. apply Hkeep; [eapply Hch; eauto|]. right. left. rewrite Hin. discriminate.
  - exists cs. split; [rewrite lookup_insert_ne by discriminate; exact Hroot|]. split; [|exact Hl']. split; [exact Hlen|].
    intros i ci Ei Exi. apply Hkeep; [eapply Hch; eauto|]. left. exact Hv.
  - eexists. split; [apply lookup_insert|]. split; [|exact Hl']. split; [rewrite insert_length; exact Hlen|].
    intros i ci Ei Exi. destruct (decide (i = Z.to_nat d)) as [->|Hne].
    + rewrite list_lookup_insert in Ei by (eapply lookup_lt_Some; eauto). injection Ei as <-. discriminate Exi.
    + rewrite list_lookup_insert_ne in Ei by congruence. pose proof (Hch _ _ Ei Exi) as Hc. apply Hkeep; [exact Hc|]. right. right. intros E.
      destruct Hc as (_ & (t' & Et) & _). rewrite E in Et. injection Et as Et _. lia.
  - exists cs. split; [rewrite !lookup_insert_ne by (discriminate || exact Hpp); exact Hroot|]. split; [|exact Hl']. split; [exact Hlen|].
    intros i ci Ei Exi. apply Hkeep; [eapply Hch; eauto|]. right. left. rewrite lookup_insert_ne by (intros ->; destruct Hq; lia). rewrite lookup_insert. discriminate.
Qed.

Section Hashes.
  Variable H : bytes -> bytes.

  (** The children after [updateHashes]: hashes are filled in where they were zero. *)
  Definition filled (cs cs' : list child) : Prop :=
    length cs' = length cs /\ forall i c, cs !! i = Some c ->
      exists h, cs' !! i = Some (Child (c_suffix c) h (c_exists c)) /\ (c_hash c <> zeroHash -> h = c_hash c) /\ (c_exists c = false -> h = c_hash c).

  Lemma filled_ok s cs cs' : filled cs cs' -> childrenok s cs -> childrenok s cs'.
  Proof.
    intros (Hl & Hf) (Hlen & Hch). split; [lia|]. intros i c' Ei Ex. destruct (lookup_lt_is_Some_2 cs i) as (c & Ec).
    { rewrite <- Hl. eapply lookup_lt_Some; eauto. }
    destruct (Hf _ _ Ec) as (h & E & _). rewrite E in Ei. injection Ei as <-. exact (Hch _ _ Ec Ex).
  Qed.

  Lemma hash_loop s fuel l : leafok s -> forall cs, childrenok s cs -> Forall (fun i => (i < 16)%nat) l ->
    exists cs', for_each (c_hash_child (c_updateHashes H (S fuel)) []) l (s, cs) = Ok (s, cs') /\ filled cs cs' /\
      ((forall x, H x <> zeroHash) -> forall i c, i ∈ l -> cs' !! i = Some c -> c_exists c = true -> c_hash c <> zeroHash).
  Proof.
    intros Hleaf. induction l as [|i l IH]; intros cs Hok Hi.
    - exists cs. split; [reflexivity|]. split; [|intros _ i c Hx; inversion Hx]. split; [reflexivity|]. intros i c E. exists (c_hash c). destruct c; auto.
    - inversion Hi as [|? ? Hi0 Hi']; subst. pose proof Hok as (Hlen & Hch). destruct (lookup_lt_is_Some_2 cs i ltac:(lia)) as (c & Ec).
      cbn [for_each c_hash_child]. rewrite (index_some _ _ _ Ec). cbn [bind].
      assert (Hskip : (c_exists c = true -> c_hash c <> zeroHash) -> exists cs', for_each (c_hash_child (c_updateHashes H (S fuel)) []) l (s, cs) = Ok (s, cs') /\ filled cs cs' /\
        ((forall x, H x <> zeroHash) -> forall j cj, j ∈ i :: l -> cs' !! j = Some cj -> c_exists cj = true -> c_hash cj <> zeroHash)).
      { intros Hz. destruct (IH cs Hok Hi') as (cs' & E & Hf & Hn). exists cs'. split; [exact E|]. split; [exact Hf|].
        intros HH j cj Hj Ej Exj. apply elem_of_cons in Hj as [->|Hj]; [|exact (Hn HH _ _ Hj Ej Exj)].
        destruct Hf as (_ & Hf). destruct (Hf _ _ Ec) as (h & E1 & E2 & _). rewrite E1 in Ej. injection Ej as <-. cbn in Exj |- *. specialize (Hz Exj). rewrite (E2 Hz). exact Hz. }
      destruct (c_exists c) eqn:Ex; cbn [negb]; [|apply Hskip; discriminate].
      destruct (bytes_eqb (c_hash c) zeroHash) eqn:Ez; [|apply Hskip; intros _ Hx; apply bytes_eqb_eq in Hx; congruence]. clear Hskip.
      destruct (Hch _ _ Ec Ex) as ((Hsl & Hsn) & Ht & (nd & End)). destruct (Hleaf _ _ Hsl End) as (v & ->).
      cbn [app c_updateHashes]. rewrite End. unfold leaf_hash, leaf_marshal. rewrite (HexBytes_ok _ Hsn). cbn [bind].
      set (h := H _). set (cs1 := <[i := Child (c_suffix c) h true]> cs).
      assert (Hf1 : filled cs cs1).
      { split; [apply insert_length|]. intros j cj Ej. destruct (decide (j = i)) as [->|Hne].
        - rewrite Ec in Ej. injection Ej as <-. exists h. unfold cs1. rewrite list_lookup_insert by lia. rewrite Ex. split; [reflexivity|].
          split; [intros Hx; apply bytes_eqb_eq in Ez; contradiction|discriminate].
        - exists (c_hash cj). unfold cs1. rewrite list_lookup_insert_ne by congruence. rewrite Ej. destruct cj; auto. }
      destruct (IH cs1 (filled_ok _ _ _ Hf1 Hok) Hi') as (cs' & E & (Hl2 & Hf2) & Hn). exists cs'. split; [exact E|]. split.
      + destruct Hf1 as (Hl1 & Hf1). split; [lia|]. intros j cj Ej. destruct (Hf1 _ _ Ej) as (h1 & E1 & E2 & E3). destruct (Hf2 _ _ E1) as (h2 & E4 & E5 & E6). cbn in *.
        exists h2. split; [exact E4|]. split; [intros Hz; rewrite <- (E2 Hz); apply E5; rewrite (E2 Hz); exact Hz|]. intros Hz. rewrite <- (E3 Hz). apply E6, Hz.
      + intros HH j cj Hj Ej Exj. apply elem_of_cons in Hj as [->|Hj]; [|exact (Hn HH _ _ Hj Ej Exj)].
        assert (E1 : cs1 !! i = Some (Child (c_suffix c) h true)) by (unfold cs1; apply list_lookup_insert; lia).
        destruct (Hf2 _ _ E1) as (h2 & E4 & E5 & _). rewrite E4 in Ej. injection Ej as <-. cbn in *. rewrite E5 by apply HH. apply HH.
  Qed.

  Lemma children_marshal_ok s cs : childrenok s cs -> exists b, children_marshal cs = Ok b.
  Proof.
    intros (_ & Hch). assert (G : forall c, In c cs -> c_exists c = true -> Forall is_nibble (c_suffix c)).
    { intros c Hc Ex. apply elem_of_list_In, elem_of_list_lookup in Hc as (i & Ei). apply (Hch _ _ Ei Ex). }
    clear Hch. induction cs as [|c cs IH]; [eexists; reflexivity|]. destruct (IH (fun c' Hc => G c' (or_intror Hc))) as (b & E).
    cbn [children_marshal]. rewrite E. destruct (c_exists c) eqn:Ex; [|eauto]. rewrite (HexBytes_ok _ (G c (or_introl eq_refl) Ex)). eauto.
  Qed.

  Lemma hashes_root s cs : cinv s cs -> exists cs' h, c_updateHashes H tree_fuel s [] = Ok (<[[] := Branch [] cs']> s, h) /\ filled cs cs' /\
    cinv (<[[] := Branch [] cs']> s) cs' /\
    ((forall x, H x <> zeroHash) -> forall i c, cs' !! i = Some c -> c_exists c = true -> c_hash c <> zeroHash).
  Proof.
    intros (Hroot & Hok & Hleaf). unfold tree_fuel. change 50%nat with (S (S 48)).
    destruct (hash_loop s 48 (seq 0 16) Hleaf cs Hok) as (cs' & E & Hf & Hn). { apply Forall_seq. lia. }
    pose proof (filled_ok _ _ _ Hf Hok) as Hok'. destruct (children_marshal_ok _ _ Hok') as (b & Eb).
    change (c_updateHashes H (S (S 48)) s []) with (match s !! [] with
        | None => Panic
        | Some (Leaf p v) => let? h := leaf_hash H p v in Ok (s, h)
        | Some (Branch p cs) =>
            let? (s1, cs1) := for_each (c_hash_child (c_updateHashes H (S 48)) []) (seq 0 16) (s, cs) in
            let? h := branch_hash H p cs1 in
            Ok (<[p := Branch p cs1]> s1, h)
        end).
    rewrite Hroot, E. cbn [bind]. unfold branch_hash, branch_marshal. rewrite Eb. cbn. eexists cs', _. split; [reflexivity|]. split; [exact Hf|]. split.
    - split; [apply lookup_insert|]. split.
      + destruct Hok' as (Hl & Hch). split; [exact Hl|]. intros i c Ei Ex. destruct (Hch _ _ Ei Ex) as (H1 & H2 & H3). split; [exact H1|]. split; [exact H2|].
        rewrite lookup_insert_ne by (intros Hx; destruct H1 as (H1 & _); rewrite <- Hx in H1; discriminate). exact H3.
      + intros q n Hq Eq. rewrite lookup_insert_ne in Eq by (intros <-; discriminate). eapply Hleaf; eauto.
    - intros HH i c Ei Ex. eapply Hn; eauto. apply elem_of_seq. apply lookup_lt_Some in Ei. destruct Hok' as (Hl & _). lia.
  Qed.
End Hashes.
