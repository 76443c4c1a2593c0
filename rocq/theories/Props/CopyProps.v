(** Property C108: the tree over a storage engine that keeps nodes by value
    (tree/store.go:3-8, tree/tree.go). *)
From Coq Require Import ZArith List Lia Bool.
From stdpp Require Import gmap list.
From Verif.Model Require Import Base Address Nibbles Tree TreeCopy.
From Verif.Spec Require Import AddressSpec TreeSpec TreeHistory.
From Verif.Proofs Require Import BaseFacts NibblesFacts CopyFacts.
From Verif.Props Require Import TreeProps.
Open Scope Z_scope.

Definition value_at (s : cstore) (q : nibbles) : bytes :=
  match s !! q with Some (Leaf _ v) => v | _ => [] end.
Definition holds_values (s : cstore) (M : entries) : Prop :=
  forall k, addr20 k -> value_at s (KeyToNibbles k) = default [] (M !! k).

Lemma updated_values s cs k v s' M : updated s cs (KeyToNibbles k) v s' -> addr20 k -> holds_values s M -> holds_values s' (spec_put M (k, v)).
Proof.
  intros Hu Hk Hv k' Hk'. pose proof (path40_key k Hk) as Hq. unfold value_at.
  rewrite (updated_leaf _ _ _ _ _ (KeyToNibbles k') Hu Hq (proj1 (path40_key k' Hk'))). case_decide as E.
  - apply key_inj in E; [|assumption..]. subst k'. unfold spec_put. cbn. case_decide as E2.
    + rewrite E2, lookup_delete. destruct (updated_value _ _ _ _ _ Hu Hq E2) as [-> | ->]; reflexivity.
    + destruct v; [contradiction|]. rewrite lookup_insert. reflexivity.
  - assert (Hne : k <> k') by (intros ->; contradiction). pose proof (Hv k' Hk') as Ev. unfold value_at in Ev. rewrite Ev.
    unfold spec_put. cbn. destruct v; [rewrite lookup_delete_ne by exact Hne|rewrite lookup_insert_ne by exact Hne]; reflexivity.
Qed.
Lemma rooted_values s cs M : holds_values s M -> holds_values (<[[] := Branch [] cs]> s) M.
Proof.
  intros Hv k Hk. rewrite <- (Hv k Hk). unfold value_at. rewrite lookup_insert_ne; [reflexivity|].
  intros E. destruct (path40_key k Hk) as (Hl & _). rewrite <- E in Hl. discriminate.
Qed.

(** One call: either nothing but hashes changes, or [update] ran. *)
Lemma put_step H s cs k v M : cinv s cs -> addr20 k -> holds_values s M ->
  exists s1 cs1 cs' h b, c_updateEntry s k v = Ok (s1, b) /\ cinv s1 cs1 /\
    c_updateHashes H tree_fuel s1 [] = Ok (<[[] := Branch [] cs']> s1, h) /\ filled cs1 cs' /\
    c_PutEntry H s k v = Ok (<[[] := Branch [] cs']> s1, b) /\ cinv (<[[] := Branch [] cs']> s1) cs' /\
    ((forall x, H x <> zeroHash) -> forall i c, cs' !! i = Some c -> c_exists c = true -> c_hash c <> zeroHash) /\
    holds_values (<[[] := Branch [] cs']> s1) (spec_put M (k, v)) /\
    ((default [] (M !! k) = v /\ s1 = s) \/ (default [] (M !! k) <> v /\ updated s cs (KeyToNibbles k) v s1)).
Proof.
  intros Hi Hk Hv. pose proof (path40_key k Hk) as Hq. pose proof (Hv k Hk) as Hvk.
  assert (Hgo : default [] (M !! k) <> v -> c_updateEntry s k v = (let? s' := c_update tree_fuel s [] (KeyToNibbles k) v [] in Ok (s', true))).
  { intros Hne. unfold c_updateEntry. destruct (s !! KeyToNibbles k) as [nd|] eqn:En.
    - destruct Hi as (_ & _ & Hleaf). destruct (Hleaf _ _ (proj1 Hq) En) as (w & ->). unfold value_at in Hvk. rewrite En in Hvk.
      destruct (bytes_eqb w v) eqn:Eb; [|reflexivity]. apply bytes_eqb_eq in Eb. congruence.
    - unfold value_at in Hvk. rewrite En in Hvk. destruct v; [congruence|reflexivity]. }
  destruct (decide (default [] (M !! k) = v)) as [E|Hne].
  - assert (Eu : c_updateEntry s k v = Ok (s, false)).
    { unfold c_updateEntry. unfold value_at in Hvk. destruct (s !! KeyToNibbles k) as [nd|] eqn:En.
      - destruct Hi as (_ & _ & Hleaf). destruct (Hleaf _ _ (proj1 Hq) En) as (w & ->). rewrite Hvk, E, bytes_eqb_refl. reflexivity.
      - rewrite <- E, <- Hvk. reflexivity. }
    destruct (hashes_root H s cs Hi) as (cs' & h & Eh & Hf & Hi' & Hn). exists s, cs, cs', h, false.
    split; [exact Eu|]. split; [exact Hi|]. split; [exact Eh|]. split; [exact Hf|]. split; [unfold c_PutEntry; rewrite Eu; cbn [bind]; rewrite Eh; reflexivity|].
    split; [exact Hi'|]. split; [exact Hn|]. split; [|left; auto]. apply rooted_values. intros k' Hk'. rewrite (Hv k' Hk'). unfold spec_put. cbn.
    destruct (decide (k = k')) as [<-|Hne].
    + destruct v; [rewrite lookup_delete; exact E|rewrite lookup_insert; exact E].
    + destruct v; [rewrite lookup_delete_ne by exact Hne|rewrite lookup_insert_ne by exact Hne]; reflexivity.
  - destruct (update_root s cs _ v Hi Hq) as (s1 & Eu & Hu). destruct (updated_cinv _ _ _ _ _ Hu Hq Hi) as (cs1 & Hi1).
    destruct (hashes_root H s1 cs1 Hi1) as (cs' & h & Eh & Hf & Hi' & Hn). exists s1, cs1, cs', h, true.
    assert (Eu' : c_updateEntry s k v = Ok (s1, true)) by (rewrite (Hgo Hne), Eu; reflexivity).
    split; [exact Eu'|]. split; [exact Hi1|]. split; [exact Eh|]. split; [exact Hf|]. split; [unfold c_PutEntry; rewrite Eu'; cbn [bind]; rewrite Eh; reflexivity|].
    split; [exact Hi'|]. split; [exact Hn|]. split; [|right; auto]. apply rooted_values. eapply updated_values; eauto.
Qed.

Lemma run_step H hist : Forall (fun kv => addr20 kv.1) hist -> forall s cs M, cinv s cs -> holds_values s M ->
  exists s' cs', c_run H s hist = Ok s' /\ cinv s' cs' /\ holds_values s' (foldl spec_put M hist).
Proof.
  induction 1 as [|(k, v) hist Hk Hh IH]; intros s cs M Hi Hv; [exists s, cs; auto|].
  destruct (put_step H s cs k v M Hi Hk Hv) as (s1 & cs1 & cs' & h & b & _ & _ & _ & _ & Ep & Hi' & _ & Hv' & _).
  destruct (IH _ _ _ Hi' Hv') as (s' & cs'' & E & Hi2 & Hv2). exists s', cs''. cbn [c_run foldl]. rewrite Ep. auto.
Qed.
Lemma new_cinv : cinv c_new (repeat zero_child 16).
Proof.
  split; [apply lookup_singleton|]. split.
  - split; [apply repeat_length|]. intros i c E Ex. apply elem_of_list_lookup_2 in E. apply elem_of_list_In, repeat_spec in E. subst c. discriminate.
  - intros q n Hq E. unfold c_new in E. rewrite lookup_singleton_ne in E by (intros <-; discriminate). discriminate.
Qed.
Lemma new_values : holds_values c_new ∅.
Proof.
  intros k Hk. unfold value_at, c_new. rewrite lookup_empty. destruct (path40_key k Hk) as (Hl & _).
  rewrite lookup_singleton_ne by (intros E; rewrite <- E in Hl; discriminate). reflexivity.
Qed.
Lemma run_app_c H h1 : forall s h2, c_run H s (h1 ++ h2) = (let? s' := c_run H s h1 in c_run H s' h2).
Proof. induction h1 as [|(k, v) h1 IH]; intros s h2; [reflexivity|]. cbn. destruct (c_PutEntry H s k v) as [(s', b)|e| |]; cbn; [apply IH|reflexivity..]. Qed.

Lemma GetEntry_value s cs k : cinv s cs -> addr20 k -> exists r, c_GetEntry s k = Ok r /\ default [] r = value_at s (KeyToNibbles k).
Proof.
  intros (_ & _ & Hleaf) Hk. unfold c_GetEntry, value_at. destruct (s !! KeyToNibbles k) as [nd|] eqn:E; [|exists None; auto].
  destruct (Hleaf _ _ (proj1 (path40_key k Hk)) E) as (v & ->). exists (Some v). auto.
Qed.

(** What holds: over such a store no call panics or loops, and every entry reads
    back as last written (a deleted one as no entry or as the empty value). *)
Theorem C108_entries_partial :
  forall H hist, Forall (fun kv => addr20 kv.1) hist ->
  exists s, c_run H c_new hist = Ok s /\
    (exists h, c_Hash H s = Ok h) /\
    forall k, addr20 k -> exists r, c_GetEntry s k = Ok r /\ default [] r = default [] (contents hist !! k).
Proof.
  intros H hist Hh. destruct (run_step H hist Hh _ _ _ new_cinv new_values) as (s & cs & E & Hi & Hv). exists s. split; [exact E|]. split.
  - destruct Hi as (Hroot & Hok & _). unfold c_Hash. rewrite Hroot. unfold branch_hash, branch_marshal.
    destruct (children_marshal_ok _ _ Hok) as (b & Eb). rewrite Eb. cbn. eauto.
  - intros k Hk. destruct (GetEntry_value s cs k Hi Hk) as (r & Er & Ev). exists r. split; [exact Er|]. rewrite Ev. apply Hv, Hk.
Qed.
Print Assumptions C108_entries_partial.

(** ** The root hash does not follow the entries *)
Lemma contents_snoc hist k v : contents (hist ++ [(k, v)]) = spec_put (contents hist) (k, v).
Proof. unfold contents. rewrite foldl_app. reflexivity. Qed.
Lemma contents_nonempty hist k : contents hist !! k <> Some [].
Proof.
  induction hist as [|(k', v) hist IH] using rev_ind; [cbn; rewrite lookup_empty; discriminate|]. rewrite contents_snoc. unfold spec_put. cbn.
  destruct v as [|x v]; [destruct (decide (k' = k)) as [->|Hne]; [rewrite lookup_delete; discriminate|rewrite lookup_delete_ne by exact Hne; exact IH]|].
  destruct (decide (k' = k)) as [->|Hne]; [rewrite lookup_insert; discriminate|rewrite lookup_insert_ne by exact Hne; exact IH].
Qed.
Definition digit (k : bytes) : Z := hd 0 k / 16.
Lemma digit_nibbles k : addr20 k -> exists t, KeyToNibbles k = digit k :: t.
Proof.
  intros (Hl & Hb). destruct k as [|x k]; [discriminate|]. inversion Hb as [|? ? Hx _]; subst. unfold digit. cbn [KeyToNibbles hd].
  destruct (nibble_split x Hx) as (E & _). eexists. rewrite E. reflexivity.
Qed.

(** The children of the root after each kind of [update]. *)
Lemma updated_child s cs k v s1 cs1 : updated s cs (KeyToNibbles k) v s1 -> addr20 k -> cinv s cs -> cinv s1 cs1 -> v <> [] ->
  (exists c, cs1 !! Z.to_nat (digit k) = Some c /\ c_exists c = true) /\
  (forall c, cs !! Z.to_nat (digit k) = Some c -> c_exists c = true -> cs1 = cs).
Proof.
  intros Hu Hk (Hroot & (Hlen & _) & _) (Hroot1 & _) Hv. destruct (digit_nibbles k Hk) as (t0 & Ek). rewrite Ek in Hu.
  pose proof (path40_key k Hk) as Hq. rewrite Ek in Hq. destruct Hq as (_ & Hn). inversion Hn as [|? ? Hd _]; subst.
  destruct (nibble_nat _ Hd) as (Hd16 & _).
  destruct Hu as [d t c E Ec Ex|d t c E Ec Ex Es Hv'|d t c E Ec Ex Es Hv'|d t c pp n E Ec Ex Es Hpp Hl]; injection E as <- <-.
  - rewrite lookup_insert in Hroot1. injection Hroot1 as <-. split.
    + eexists. split; [apply list_lookup_insert; lia|reflexivity].
    + intros c' Ec' Ex'. congruence.
  - rewrite lookup_insert_ne in Hroot1 by discriminate. rewrite Hroot in Hroot1. injection Hroot1 as <-. split; eauto.
  - contradiction.
  - rewrite !lookup_insert_ne in Hroot1 by (discriminate || exact Hpp). rewrite Hroot in Hroot1. injection Hroot1 as <-. split; eauto.
Qed.
Lemma filled_same cs cs' : filled cs cs' -> (forall i c, cs !! i = Some c -> c_exists c = true -> c_hash c <> zeroHash) -> cs' = cs.
Proof.
  intros (Hl & Hf) Hn. apply list_eq. intros i. destruct (cs !! i) as [c|] eqn:E.
  - destruct (Hf _ _ E) as (h & E1 & E2 & E3). rewrite E1. destruct c as [x y e]. cbn in *. do 2 f_equal.
    destruct e; [apply E2, (Hn _ _ E); reflexivity|apply E3; reflexivity].
  - apply lookup_ge_None_2. rewrite Hl. apply lookup_ge_None_1, E.
Qed.
Lemma root_hash H s cs : cinv s cs -> c_Hash H s = branch_hash H [] cs.
Proof. intros (E & _). unfold c_Hash. rewrite E. reflexivity. Qed.

(** Two writes under one first digit. *)
Lemma two_writes H s cs M k0 v0 k v : (forall x, H x <> zeroHash) -> cinv s cs -> holds_values s M ->
  addr20 k0 -> addr20 k -> digit k0 = digit k -> v0 <> [] -> v <> [] -> default [] (M !! k0) <> v0 ->
  exists s1 s2 cs1, c_run H s [(k0, v0)] = Ok s1 /\ c_run H s1 [(k, v)] = Ok s2 /\ cinv s1 cs1 /\ cinv s2 cs1 /\
    holds_values s1 (spec_put M (k0, v0)) /\ holds_values s2 (spec_put (spec_put M (k0, v0)) (k, v)) /\
    (forall i c, cs1 !! i = Some c -> c_exists c = true -> c_hash c <> zeroHash) /\
    ((forall i c, cs !! i = Some c -> c_exists c = false) ->
      (exists h, cs1 !! Z.to_nat (digit k0) = Some (Child (KeyToNibbles k0) h true)) /\
      forall i c, i <> Z.to_nat (digit k0) -> cs1 !! i = Some c -> c_exists c = false).
Proof.
  intros HH Hi Hv Hk0 Hk Ed Hv0 Hvn Hne.
  destruct (put_step H s cs k0 v0 M Hi Hk0 Hv) as (sa & csa & cs1 & h1 & b1 & _ & Hia & _ & Hf1 & Ep1 & Hi1 & Hn1 & Hv1 & Hor1).
  destruct Hor1 as [(E & _)|(_ & Hu1)]; [contradiction|]. specialize (Hn1 HH).
  destruct (updated_child _ _ _ _ _ _ Hu1 Hk0 Hi Hia Hv0) as ((c & Ec & Ex) & _).
  assert (Hc1 : exists c1, cs1 !! Z.to_nat (digit k) = Some c1 /\ c_exists c1 = true).
  { destruct Hf1 as (_ & Hf1). destruct (Hf1 _ _ Ec) as (h & E & _). rewrite <- Ed. eauto. }
  destruct Hc1 as (c1 & Ec1 & Ex1). set (s1 := <[[] := Branch [] cs1]> sa) in *.
  destruct (put_step H s1 cs1 k v _ Hi1 Hk Hv1) as (sb & csb & cs2 & h2 & b2 & _ & Hib & _ & Hf2 & Ep2 & Hi2 & _ & Hv2 & Hor2).
  assert (Ecs : csb = cs1).
  { destruct Hor2 as [(_ & ->)|(_ & Hu2)].
    - destruct Hib as (E & _). destruct Hi1 as (E' & _). rewrite E in E'. injection E' as ->. reflexivity.
    - destruct (updated_child _ _ _ _ _ _ Hu2 Hk Hi1 Hib Hvn) as (_ & Hs). exact (Hs _ Ec1 Ex1). }
  subst csb. pose proof (filled_same _ _ Hf2 Hn1) as ->. exists s1, (<[[] := Branch [] cs1]> sb), cs1.
  cbn [c_run]. rewrite Ep1, Ep2. do 2 (split; [reflexivity|]). split; [exact Hi1|]. split; [exact Hi2|].
  split; [exact Hv1|]. split; [exact Hv2|]. split; [exact Hn1|].
  intros Hno. destruct (digit_nibbles k0 Hk0) as (t0 & Ek). rewrite Ek in Hu1. destruct Hia as (Hra & _). destruct Hi as (Hroot & (Hlen & _) & _).
  destruct Hf1 as (Hlf & Hf1).
  destruct Hu1 as [d t c' E Ec' Ex'|d t c' E Ec' Ex' Es Hv'|d t c' E Ec' Ex' Es Hv'|d t c' pp n E Ec' Ex' Es Hpp Hl];
    try (pose proof (Hno _ _ Ec'); congruence). injection E as <- <-. rewrite lookup_insert in Hra. injection Hra as <-. rewrite Ek. split.
  - destruct (Hf1 (Z.to_nat (digit k0)) (Child (digit k0 :: t0) zeroHash true)) as (h & E & _); [apply list_lookup_insert; eapply lookup_lt_Some; eauto|]. eauto.
  - intros i ci Hd Ei. destruct (lookup_lt_is_Some_2 cs i) as (c0 & E0). { rewrite insert_length in Hlf. rewrite <- Hlf. eapply lookup_lt_Some; eauto. }
    destruct (Hf1 i c0) as (h & E & _); [rewrite list_lookup_insert_ne by congruence; exact E0|]. rewrite E in Ei. injection Ei as <-. exact (Hno _ _ E0).
Qed.

(** After any history: write under some first digit, then write anything else under
    the same digit.  The second write is readable, and the root hash does not move. *)
Theorem C108_root_refuted :
  forall H, (forall x, H x <> repeat 0 32) ->
  forall hist k0 v0 k v, Forall (fun kv => addr20 kv.1) hist -> addr20 k0 -> addr20 k ->
    hd 0 k0 / 16 = hd 0 k / 16 -> v0 <> [] -> v <> [] -> contents hist !! k0 <> Some v0 ->
  exists s1 s2, c_run H c_new (hist ++ [(k0, v0)]) = Ok s1 /\ c_run H c_new (hist ++ [(k0, v0); (k, v)]) = Ok s2 /\
    c_Hash H s2 = c_Hash H s1 /\ c_GetEntry s2 k = Ok (Some v).
Proof.
  intros H HH hist k0 v0 k v Hh Hk0 Hk Ed Hv0 Hvn Hne.
  destruct (run_step H hist Hh _ _ _ new_cinv new_values) as (s & cs & E & Hi & Hv).
  destruct (two_writes H s cs (contents hist) k0 v0 k v HH Hi Hv Hk0 Hk Ed Hv0 Hvn) as (s1 & s2 & cs1 & E1 & E2 & Hi1 & Hi2 & _ & Hv2 & _ & _).
  { destruct (contents hist !! k0) as [w|] eqn:Ew; cbn; congruence. }
  exists s1, s2. rewrite run_app_c, E. cbn [bind]. split; [exact E1|]. split.
  - rewrite run_app_c, E. cbn [bind]. change [(k0, v0); (k, v)] with ([(k0, v0)] ++ [(k, v)]). rewrite run_app_c, E1. exact E2.
  - split; [rewrite (root_hash H s1 cs1 Hi1), (root_hash H s2 cs1 Hi2); reflexivity|].
    destruct (GetEntry_value s2 cs1 k Hi2 Hk) as (r & Er & Ev). rewrite Er. rewrite (Hv2 k Hk) in Ev. unfold spec_put at 1 in Ev. cbn in Ev.
    destruct v as [|x v]; [contradiction|]. rewrite lookup_insert in Ev. cbn in Ev. destruct r as [r|]; [|discriminate]. cbn in Ev. rewrite Ev. reflexivity.
Qed.
Print Assumptions C108_root_refuted.

Lemma marshal_none cs : (forall c, In c cs -> c_exists c = false) -> children_marshal cs = Ok [] /\ childCount cs = 0.
Proof.
  induction cs as [|c cs IH]; intros Hc; [auto|]. destruct (IH (fun c' H' => Hc c' (or_intror H'))) as (E1 & E2).
  pose proof (Hc c (or_introl eq_refl)) as Ex. split.
  - cbn [children_marshal]. rewrite E1. rewrite Ex. reflexivity.
  - unfold childCount in *. rewrite filter_cons_False by (rewrite Ex; discriminate). exact E2.
Qed.

(** Deleting one of two entries under one first digit gives the root hash of the
    empty tree, while the other entry is still readable. *)
Theorem C108_lost_entry_refuted :
  forall H, (forall x, H x <> repeat 0 32) ->
  forall k1 v1 k2 v2, addr20 k1 -> addr20 k2 -> k1 <> k2 -> hd 0 k1 / 16 = hd 0 k2 / 16 -> v1 <> [] -> v2 <> [] ->
  exists s, c_run H c_new [(k1, v1); (k2, v2); (k1, [])] = Ok s /\
    c_Hash H s = Ok (merkle_root H ∅) /\ c_GetEntry s k2 = Ok (Some v2).
Proof.
  intros H HH k1 v1 k2 v2 Hk1 Hk2 Hne Ed Hv1 Hv2.
  destruct (two_writes H c_new _ ∅ k1 v1 k2 v2 HH new_cinv new_values Hk1 Hk2 Ed Hv1 Hv2) as (s1 & s2 & cs1 & E1 & E2 & _ & Hi2 & _ & Hva & _ & Hno).
  { rewrite lookup_empty. cbn. congruence. }
  destruct Hno as ((h1 & Ec1) & Hno).
  { intros i c E. apply elem_of_list_lookup_2 in E. apply elem_of_list_In, repeat_spec in E. subst c. reflexivity. }
  destruct (put_step H s2 cs1 k1 [] _ Hi2 Hk1 Hva) as (sb & csb & cs3 & h3 & b3 & _ & Hib & _ & Hf3 & Ep3 & Hi3 & _ & Hv3 & Hor).
  assert (Em : forall r, spec_put (spec_put ∅ (k1, v1)) (k2, v2) !! k1 = r -> r = Some v1).
  { intros r <-. unfold spec_put. cbn. destruct v1; [contradiction|]. destruct v2; [contradiction|]. rewrite lookup_insert_ne by congruence. apply lookup_insert. }
  rewrite (Em _ eq_refl) in Hor. destruct Hor as [(E & _)|(_ & Hu)]; [cbn in E; congruence|].
  exists (<[[] := Branch [] cs3]> sb). split; [|split].
  - change [(k1, v1); (k2, v2); (k1, [])] with ([(k1, v1)] ++ [(k2, v2)] ++ [(k1, [])]). rewrite run_app_c, E1. cbn [bind]. rewrite run_app_c, E2. cbn [bind c_run].
    rewrite Ep3. reflexivity.
  - rewrite (root_hash H _ _ Hi3). destruct (digit_nibbles k1 Hk1) as (t1 & Ek). rewrite Ek in Hu, Ec1.
    assert (Ecs : forall c, In c cs3 -> c_exists c = false).
    { intros c Hc. apply elem_of_list_In, elem_of_list_lookup in Hc as (i & Ei). destruct Hib as (Hrb & _).
      destruct Hu as [d t c' E Ec' Ex'|d t c' E Ec' Ex' Es Hv'|d t c' E Ec' Ex' Es Hv'|d t c' pp n E Ec' Ex' Es Hpp Hl]; injection E as <- <-;
        rewrite Ec1 in Ec'; injection Ec' as <-; cbn in *; try congruence.
      rewrite lookup_insert in Hrb. injection Hrb as <-. destruct Hf3 as (Hlf & Hf3). rewrite insert_length in Hlf.
      destruct (decide (i = Z.to_nat (digit k1))) as [->|Hd].
      - destruct (Hf3 (Z.to_nat (digit k1)) (Child (digit k1 :: t1) h1 false)) as (h & E & _); [apply list_lookup_insert; eapply lookup_lt_Some; eauto|].
        rewrite E in Ei. injection Ei as <-. reflexivity.
      - destruct (lookup_lt_is_Some_2 cs1 i) as (c0 & E0). { rewrite <- Hlf. eapply lookup_lt_Some; eauto. }
        destruct (Hf3 i c0) as (h & E & _); [rewrite list_lookup_insert_ne by congruence; exact E0|]. rewrite E in Ei. injection Ei as <-. exact (Hno _ _ Hd E0). }
    destruct (marshal_none cs3 Ecs) as (M1 & M2). unfold branch_hash, branch_marshal. rewrite M1, M2. reflexivity.
  - destruct (GetEntry_value _ cs3 k2 Hi3 Hk2) as (r & Er & Ev). rewrite Er. rewrite (Hv3 k2 Hk2) in Ev. unfold spec_put in Ev. cbn in Ev.
    rewrite lookup_delete_ne in Ev by congruence. destruct v2 as [|x v2]; [contradiction|]. rewrite lookup_insert in Ev. cbn in Ev.
    destruct r as [r|]; [|discriminate]. cbn in Ev. rewrite Ev. reflexivity.
Qed.
Print Assumptions C108_lost_entry_refuted.

(** Non-vacuity: such hashes and such keys exist; over the repository's own store the
    same calls do move the root hash. *)
Definition sum_hash (x : bytes) : bytes := 1 :: repeat (fold_left (fun a b => (31 * a + b) mod 256) x 0) 31.
Example C108_nonvacuous :
  (forall x, sum_hash x <> repeat 0 32) /\
  let a := 0x11 :: repeat 0 19 in let b := 0x12 :: repeat 0 19 in
  addr20 a /\ addr20 b /\ a <> b /\ hd 0 a / 16 = hd 0 b / 16 /\ contents [] !! a <> Some [7].
Proof.
  split; [intros x E; discriminate|]. cbn zeta. unfold addr20. repeat split; try discriminate.
  - cbn. repeat constructor; lia.
  - cbn. repeat constructor; lia.
Qed.
Goal let a := 0x11 :: repeat 0 19 in let b := 0x12 :: repeat 0 19 in
  (let? s := run sum_hash new_tree [(a, [7])] in Hash sum_hash s) <> (let? s := run sum_hash new_tree [(a, [7]); (b, [8])] in Hash sum_hash s) /\
  (let? s := c_run sum_hash c_new [(a, [7])] in c_Hash sum_hash s) = (let? s := run sum_hash new_tree [(a, [7])] in Hash sum_hash s) /\
  (let? s := c_run sum_hash c_new [(a, [7]); (b, [8])] in c_Hash sum_hash s) = (let? s := run sum_hash new_tree [(a, [7])] in Hash sum_hash s).
Proof. vm_compute. split; [discriminate|]. split; reflexivity. Abort.
