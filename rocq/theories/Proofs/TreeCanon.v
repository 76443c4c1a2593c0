(** Layer B of the tree proofs: the pure update of Proofs/TreeSim.v keeps the
    set of nodes equal to the specification trie of the entries. *)
From Coq Require Import ZArith List Lia Bool.
From stdpp Require Import gmap list.
From Verif.Model Require Import Base Address Nibbles Tree.
From Verif.Spec Require Import TreeSpec.
From Verif.Proofs Require Import BaseFacts NibblesFacts TreeSim TreeTrie.
Open Scope Z_scope.

Global Opaque merkle_bytes zeroHash.

Section WithHash.
  Variable H : bytes -> bytes.

  (** The right hash of the node at [q]. *)
  Definition mh (N : entries) (q : nibbles) : bytes := H (merkle_bytes H N q).

  Definition child_path (p : nibbles) (i : nat) : nibbles := p ++ [Z.of_nat i].

  Definition link_ok (N : entries) (p : nibbles) (i : nat) (c : child) : Prop :=
    (c_exists c = true <-> has N (child_path p i)) /\
    (c_exists c = true -> link N (child_path p i) (p ++ c_suffix c)).

  Definition shape (N : entries) (Q : nibbles -> nat -> child -> Prop) (p : nibbles) (on : option node) : Prop :=
    match on with
    | None => ~ is_node N p
    | Some (Leaf p' v) => p' = p /\ N !! p = Some v
    | Some (Branch p' cs) => p' = p /\ N !! p = None /\ (p = [] \/ branching N p) /\ length cs = 16%nat /\
        forall i c, cs !! i = Some c -> Q p i c
    end.

  Definition clean_q (N : entries) (p : nibbles) (i : nat) (c : child) : Prop :=
    link_ok N p i c /\ (c_exists c = true -> c_hash c = mh N (p ++ c_suffix c)).

  (** After an update at [k]: hashes on the path to [k] are zeroed, and those of
      siblings of the path may be. *)
  Definition dirty_q (N : entries) (k : nibbles) (p : nibbles) (i : nat) (c : child) : Prop :=
    link_ok N p i c /\ (c_exists c = true ->
      (child_path p i `prefix_of` k -> c_hash c = zeroHash) /\
      (~ (child_path p i `prefix_of` k) ->
         c_hash c = mh N (p ++ c_suffix c) \/ (p `prefix_of` k /\ c_hash c = zeroHash))).

  (** The same, but zero hashes are tolerated everywhere if [slack], and what is below a
      right one is required to be [B]. *)
  Variable slack : Prop.
  Variable B : nibbles -> Prop.
  Definition gclean_q (N : entries) (p : nibbles) (i : nat) (c : child) : Prop :=
    link_ok N p i c /\ (c_exists c = true ->
      (c_hash c = mh N (p ++ c_suffix c) /\ B (child_path p i)) \/ (slack /\ c_hash c = zeroHash)).
  Definition gdirty_q (N : entries) (k : nibbles) (p : nibbles) (i : nat) (c : child) : Prop :=
    link_ok N p i c /\ (c_exists c = true ->
      (child_path p i `prefix_of` k -> c_hash c = zeroHash) /\
      (~ (child_path p i `prefix_of` k) ->
         (c_hash c = mh N (p ++ c_suffix c) /\ B (child_path p i)) \/ (p `prefix_of` k /\ c_hash c = zeroHash) \/ (slack /\ c_hash c = zeroHash))).

  (** Before invalidation of [path]: the child towards [k] is arbitrary. *)
  Definition pre_q (N : entries) (k : nibbles) (path : list nibbles) (p : nibbles) (i : nat) (c : child) : Prop :=
    (p ∈ path /\ child_path p i `prefix_of` k) \/ gdirty_q N k p i c.

  Definition canon (N : entries) (Q : nibbles -> nat -> child -> Prop) (V : gmap nibbles node) : Prop :=
    forall p, shape N Q p (V !! p).

  Lemma shape_mono N (Q Q' : nibbles -> nat -> child -> Prop) p on :
    (forall i c, Q p i c -> Q' p i c) -> shape N Q p on -> shape N Q' p on.
  Proof.
    intros HQ. destruct on as [[p' cs|p' v]|]; cbn; auto.
    intros (H1 & H2 & H3 & H4 & H5). do 4 (split; [assumption|]). intros i c Hc. apply HQ, H5, Hc.
  Qed.

  Lemma canon_branch N Q V (p : nibbles) : good N -> canon N Q V -> is_node N p -> N !! p = None ->
    exists cs, V !! p = Some (Branch p cs) /\ length cs = 16%nat /\ forall i c, cs !! i = Some c -> Q p i c.
  Proof.
    intros Hg Hc Hp HN. specialize (Hc p). unfold shape in Hc.
    destruct (V !! p) as [[p' cs|p' v]|]; [|destruct Hc; congruence|contradiction].
    destruct Hc as (-> & _ & _ & Hl & HQ). exists cs. auto.
  Qed.

  (** ** Chains: the nodes from the root towards [k] *)
  Inductive chain (N : entries) (k : nibbles) : list nibbles -> nibbles -> Prop :=
  | chain_nil : chain N k [] []
  | chain_cons p d path q :
      chain N k path p -> p ++ [d] `prefix_of` k -> has N (p ++ [d]) -> link N (p ++ [d]) q ->
      chain N k (p :: path) q.

  Lemma chain_node N k path q : chain N k path q -> is_node N q.
  Proof. destruct 1 as [|p d path q _ _ _ (_ & Hn & _)]; [left; reflexivity|exact Hn]. Qed.

  Lemma chain_nil_inv N k q : chain N k [] q -> q = [].
  Proof. inversion 1; reflexivity. Qed.

  Lemma chain_root_inv N k path : chain N k path [] -> path = [].
  Proof. clear H B.
    inversion 1 as [|p d path' q _ _ _ (Hp & _)]; subst; [reflexivity|].
    apply pre_snoc_len in Hp. cbn in Hp. lia.
  Qed.

  Lemma chain_in N k path q p : chain N k path q -> p ∈ path ->
    is_node N p /\ (exists d, p ++ [d] `prefix_of` k /\ p ++ [d] `prefix_of` q /\ has N (p ++ [d])).
  Proof.
    induction 1 as [|p0 d path q Hch IH Hd Hh Hl]; intros Hin; [inversion Hin|].
    apply elem_of_cons in Hin as [->|Hin].
    - split; [eapply chain_node, Hch|]. exists d. split; [exact Hd|]. split; [apply Hl|exact Hh].
    - destruct (IH Hin) as (Hn & d' & H1 & H2 & H3). split; [exact Hn|]. exists d'.
      split; [exact H1|]. split; [|exact H3]. transitivity p0; [exact H2|]. eapply pre_snoc, Hl.
  Qed.

  Lemma chain_gap N k path q p : good N -> chain N k path q -> p `prefix_of` q -> p <> q -> p ∉ path ->
    p `prefix_of` k -> ~ is_node N p.
  Proof.
    intros Hg. induction 1 as [|p0 d path q Hch IH Hd Hh Hl]; intros Hpq Hne Hnin Hpk.
    - destruct Hpq as (x & E). destruct p; [contradiction|discriminate].
    - apply not_elem_of_cons in Hnin as (Hne0 & Hnin).
      destruct (pre_total p (p0 ++ [d]) k Hpk Hd) as [Hle|Hge].
      + apply pre_snoc_inv in Hle as [->|Hle].
        * eapply link_min; [exact Hg|exact Hl| |reflexivity|exact Hpq|exact Hne]. destruct p0; discriminate.
        * apply IH; assumption.
      + eapply link_min; [exact Hg|exact Hl| |exact Hge|exact Hpq|exact Hne]. destruct p0; discriminate.
  Qed.

  (** ** Invalidation *)
  Lemma drop_pre (p q : nibbles) : p `prefix_of` q -> p ++ drop (length p) q = q.
  Proof. intros (r & ->). rewrite drop_app. reflexivity. Qed.

  Lemma to_of_nibble d : nib d -> Z.of_nat (Z.to_nat d) = d.
  Proof. unfold nib. lia. Qed.

  Lemma PutChild_ok cs p d q h : length cs = 16%nat -> nib d -> p ++ [d] `prefix_of` q ->
    (let? suffix := slice_from q (length p) in PutChild cs suffix h) =
      Ok (<[Z.to_nat d := Child (drop (length p) q) h true]> cs) /\
    slice_from q (length p) = Ok (drop (length p) q).
  Proof. clear H B.
    intros Hl Hd (r & ->). unfold slice_from.
    rewrite bool_decide_true by (rewrite !app_length; lia). split; [|reflexivity].
    cbn [bind]. rewrite <- app_assoc, drop_app. cbn. rewrite bool_decide_true; [reflexivity|].
    unfold nib in Hd. lia.
  Qed.

  (** One step of it: the link towards [k] in the branch at [p]. *)
  Lemma pinvalidate_step N k p d path cur V : good N -> Forall nib k -> length k = 40%nat ->
    canon N (pre_q N k (p :: path)) V -> chain N k path p -> p ++ [d] `prefix_of` k -> has N (p ++ [d]) -> link N (p ++ [d]) cur ->
    exists cs, V !! p = Some (Branch p cs) /\ slice_from cur (length p) = Ok (drop (length p) cur) /\
      PutChild cs (drop (length p) cur) zeroHash = Ok (<[Z.to_nat d := Child (drop (length p) cur) zeroHash true]> cs) /\
      length cs = 16%nat /\
      canon N (pre_q N k path) (<[p := Branch p (<[Z.to_nat d := Child (drop (length p) cur) zeroHash true]> cs)]> V).
  Proof.
    intros Hg Hk Hk40 Hc Hch' Hd Hh Hl.
    assert (Hnd : nib d) by (eapply snoc_nibble; eassumption).
    assert (HNp : N !! p = None).
    { destruct (N !! p) as [v|] eqn:E; [|reflexivity]. apply Hg in E as (E & _).
      apply pre_snoc_len in Hd. lia. }
    destruct (canon_branch N _ V p Hg Hc (chain_node _ _ _ _ Hch') HNp) as (cs & HV & Hlen & HQ).
    destruct (PutChild_ok cs p d cur zeroHash Hlen Hnd (proj1 Hl)) as (Hput & Hsl).
    rewrite Hsl in Hput. cbn [bind] in Hput. exists cs. do 4 (split; [assumption|]).
    intros p'. destruct (decide (p = p')) as [<-|Hne].
    - rewrite lookup_insert. cbn [shape]. split; [reflexivity|]. split; [exact HNp|].
      split; [apply node_internal; [exact Hg|eapply chain_node, Hch'|exact HNp]|].
      split; [rewrite insert_length; exact Hlen|].
      intros i c Hic. right. destruct (decide (i = Z.to_nat d)) as [->|Hi].
      + rewrite list_lookup_insert in Hic by (unfold nib in Hnd; lia). injection Hic as <-.
        unfold gdirty_q, link_ok, child_path. cbn [c_exists c_suffix c_hash].
        rewrite to_of_nibble by exact Hnd. rewrite drop_pre by (eapply pre_snoc, Hl).
        split; [split; [split; auto|auto]|]. intros _. split; [auto|]. intros Hn. contradiction.
      + rewrite list_lookup_insert_ne in Hic by congruence.
        destruct (HQ i c Hic) as [(_ & Hpre)|Hdq]; [|exact Hdq].
        exfalso. apply Hi. unfold child_path in Hpre.
        assert (Z.of_nat i = d) as <- by (eapply pre_next_uniq; eassumption). lia.
    - rewrite lookup_insert_ne by exact Hne. eapply shape_mono; [|apply Hc].
      intros i c [(Hin & Hpre)|Hdq]; [left|right; exact Hdq].
      split; [|exact Hpre]. apply elem_of_cons in Hin as [->|Hin]; [contradiction|exact Hin].
  Qed.

  Lemma pinvalidate_ok N k path : forall cur V, good N -> Forall nib k -> length k = 40%nat ->
    canon N (pre_q N k path) V -> chain N k path cur ->
    exists V', pinvalidate V cur path = Ok V' /\ canon N (gdirty_q N k) V'.
  Proof.
    induction path as [|p path IH]; intros cur V Hg Hk Hk40 Hc Hch.
    - exists V. split; [reflexivity|]. intros p. eapply shape_mono; [|apply Hc].
      intros i c [(Hin & _)|Hd]; [inversion Hin|exact Hd].
    - inversion Hch as [|p0 d path0 q Hch' Hd Hh Hl]; subst. cbn [pinvalidate].
      destruct (pinvalidate_step N k p d path cur V Hg Hk Hk40 Hc Hch' Hd Hh Hl) as (cs & HV & Hsl & Hput & _ & Hc').
      unfold get_branch. rewrite HV. cbn [bind]. rewrite Hsl. cbn [bind]. rewrite Hput. cbn [bind].
      apply IH; assumption.
  Qed.

  (** ** Changing one entry *)
  Definition differ (N N' : entries) (k : nibbles) : Prop := forall k', k' <> k -> N !! k' = N' !! k'.

  Lemma clean_dirty N N' k p i c : good N -> differ N N' k -> ~ (child_path p i `prefix_of` k) ->
    gclean_q N p i c -> gdirty_q N' k p i c.
  Proof.
    intros Hg Hdiff Hoff ((Hex & Hlk) & Hh).
    assert (Ha : agree N N' (child_path p i)) by (eapply agree_off; eassumption).
    split.
    - split.
      + rewrite Hex. split; [apply agree_has, Ha|apply agree_has, agree_sym, Ha].
      + intros Hx. eapply agree_link; [exact Ha|apply Hlk, Hx].
    - intros Hx. split; [intros Hp; contradiction|]. intros _. destruct (Hh Hx) as [(E & HB)|E]; [left; split; [rewrite E|exact HB]|right; right; exact E].
      unfold mh. f_equal. apply merkle_bytes_agree; [exact Hg|]. eapply agree_pre; [exact Ha|].
      apply (Hlk Hx).
  Qed.

  Lemma shape_off N N' k p on : good N -> differ N N' k -> ~ (p `prefix_of` k) ->
    shape N (gclean_q N) p on -> shape N' (gdirty_q N' k) p on.
  Proof.
    intros Hg Hdiff Hoff. assert (Ha : agree N N' p) by (eapply agree_off; eassumption).
    assert (HNp : N !! p = N' !! p) by (apply Ha; reflexivity).
    destruct on as [[p' cs|p' v]|]; cbn [shape].
    - intros (-> & H1 & H2 & H3 & H4). split; [reflexivity|]. split; [congruence|]. split.
      + destruct H2 as [H2|H2]; [left; exact H2|right; eapply agree_branching; eassumption].
      + split; [exact H3|]. intros i c Hc. apply (clean_dirty N); [exact Hg|exact Hdiff| |apply H4, Hc].
        intros Hp. apply Hoff. eapply pre_snoc, Hp.
    - intros (-> & E). split; [reflexivity|congruence].
    - intros Hn Hn'. apply Hn. eapply agree_node; [apply agree_sym, Ha|exact Hn'].
  Qed.

  (** A node on the path whose child towards [k] is going to be replaced. *)
  Lemma shape_path N N' k path t p on : good N -> good N' -> differ N N' k -> length k = 40%nat ->
    chain N' k path t -> p ∈ path -> is_node N p ->
    shape N (gclean_q N) p on -> shape N' (pre_q N' k path) p on.
  Proof.
    intros Hg Hg' Hdiff Hk40 Hch Hin Hnode.
    destruct (chain_in N' k path t p Hch Hin) as (Hn' & d & Hd & _ & _).
    assert (Hlt : (length p < 40)%nat) by (apply pre_snoc_len in Hd; lia).
    assert (HNp' : N' !! p = None).
    { destruct (N' !! p) as [v|] eqn:E; [|reflexivity]. apply Hg' in E as (E & _). lia. }
    destruct on as [[p' cs|p' v]|]; cbn [shape].
    - intros (-> & H1 & H2 & H3 & H4). split; [reflexivity|]. split; [exact HNp'|].
      split; [apply node_internal; assumption|]. split; [exact H3|].
      intros i c Hc. destruct (decide (child_path p i `prefix_of` k)) as [Hp|Hp].
      + left. auto.
      + right. apply (clean_dirty N); [exact Hg|exact Hdiff|exact Hp|apply H4, Hc].
    - intros (-> & E). apply Hg in E as (E & _). lia.
    - intros Hn. contradiction.
  Qed.

  Lemma assemble N N' k V V' path : good N -> differ N N' k -> canon N (gclean_q N) V ->
    (forall p, ~ (p `prefix_of` k) -> V' !! p = V !! p) ->
    (forall p, p `prefix_of` k -> shape N' (pre_q N' k path) p (V' !! p)) ->
    canon N' (pre_q N' k path) V'.
  Proof.
    intros Hg Hdiff Hc Hoff Hon p. destruct (decide (p `prefix_of` k)) as [Hp|Hp]; [apply Hon, Hp|].
    eapply shape_mono; [|rewrite (Hoff p Hp); eapply shape_off; [exact Hg|exact Hdiff|exact Hp|apply Hc]].
    intros i c Hd. right. exact Hd.
  Qed.

  Lemma canon_none N Q V (p : nibbles) : canon N Q V -> ~ is_node N p -> V !! p = None.
  Proof.
    intros Hc Hn. specialize (Hc p). unfold shape in Hc. destruct (V !! p) as [[p' cs|p' v]|]; [| |reflexivity].
    - exfalso. apply Hn. destruct Hc as (_ & _ & [->|Hb] & _); [left; reflexivity|right; right; exact Hb].
    - exfalso. apply Hn. destruct Hc as (_ & E). right; left. eauto.
  Qed.

  (** *** Insertion *)
  Lemma insert_has N k v r : has N r -> has (<[k := v]> N) r.
  Proof.
    intros (k' & v' & Hk' & Hr). destruct (decide (k = k')) as [<-|Hne].
    - exists k, v. rewrite lookup_insert. auto.
    - exists k', v'. rewrite lookup_insert_ne by exact Hne. auto.
  Qed.
  Lemma insert_has_inv N k v r : has (<[k := v]> N) r -> has N r \/ r `prefix_of` k.
  Proof.
    intros (k' & v' & Hk' & Hr). destruct (decide (k = k')) as [<-|Hne]; [right; exact Hr|].
    rewrite lookup_insert_ne in Hk' by exact Hne. left. exists k', v'. auto.
  Qed.
  Lemma insert_branching N k v p : branching N p -> branching (<[k := v]> N) p.
  Proof. intros (i & j & Hij & Hi & Hj). exists i, j. auto using insert_has. Qed.
  Lemma insert_node N k v p : is_node N p -> is_node (<[k := v]> N) p.
  Proof.
    intros [->|[(v' & E)|Hb]]; [left; reflexivity| |right; right; apply insert_branching, Hb].
    right; left. destruct (decide (k = p)) as [->|Hne]; [rewrite lookup_insert|rewrite lookup_insert_ne by exact Hne]; eauto.
  Qed.
  Lemma insert_link N k v r q : link N r q -> q `prefix_of` k -> link (<[k := v]> N) r q.
  Proof.
    intros (H1 & H2 & H3) Hq. split; [exact H1|]. split; [apply insert_node, H2|].
    intros k' v' Hk' Hr. destruct (decide (k = k')) as [<-|Hne]; [exact Hq|].
    rewrite lookup_insert_ne in Hk' by exact Hne. eapply H3; eassumption.
  Qed.
  Lemma insert_chain N k v path q : chain N k path q -> q `prefix_of` k -> chain (<[k := v]> N) k path q.
  Proof.
    induction 1 as [|p d path q Hch IH Hd Hh Hl]; intros Hq; [constructor|].
    econstructor; [|exact Hd|apply insert_has, Hh|apply insert_link; assumption].
    apply IH. eapply pre_snoc, Hd.
  Qed.
  Lemma insert_good N k v : good N -> length k = 40%nat -> Forall nib k -> v <> [] -> good (<[k := v]> N).
  Proof.
    intros Hg H1 H2 H3 k' v'. destruct (decide (k = k')) as [<-|Hne].
    - rewrite lookup_insert. intros E. injection E as <-. auto.
    - rewrite lookup_insert_ne by exact Hne. apply Hg.
  Qed.
  Lemma insert_differ N k (v : bytes) : differ N (<[k := v]> N) k.
  Proof. intros k' Hne. rewrite lookup_insert_ne by congruence. reflexivity. Qed.

  (** A new node appears on the path only where an old entry diverges from [k]. *)
  Lemma insert_node_inv N k v p d : good N -> length k = 40%nat -> p ++ [d] `prefix_of` k ->
    is_node (<[k := v]> N) p -> is_node N p \/ exists j, j <> d /\ has N (p ++ [j]).
  Proof.
    intros Hg Hk40 Hd [->|[Hs|(i & j & Hij & Hi & Hj)]]; [left; left; reflexivity| |].
    - assert (Hne : k <> p) by (intros ->; apply pre_snoc_not in Hd; exact Hd).
      rewrite lookup_insert_ne in Hs by exact Hne. left; right; left. exact Hs.
    - right. destruct (decide (i = d)) as [->|Hi'].
      + exists j. split; [congruence|]. apply insert_has_inv in Hj as [Hj|Hj]; [exact Hj|].
        exfalso. apply Hij. eapply pre_next_uniq; eassumption.
      + exists i. split; [exact Hi'|]. apply insert_has_inv in Hi as [Hi|Hi]; [exact Hi|].
        exfalso. apply Hi'. eapply pre_next_uniq; eassumption.
  Qed.

  (** *** Deletion *)
  Lemma delete_has N k r : has (delete k N) r -> has N r.
  Proof. intros (k' & v' & Hk' & Hr). apply lookup_delete_Some in Hk' as (_ & Hk'). exists k', v'. auto. Qed.
  Lemma delete_has_off N k r : ~ (r `prefix_of` k) -> has N r -> has (delete k N) r.
  Proof.
    intros Hr (k' & v' & Hk' & Hr'). exists k', v'. split; [|exact Hr'].
    rewrite lookup_delete_ne; [exact Hk'|]. intros ->. contradiction.
  Qed.
  Lemma delete_branching N k p : branching (delete k N) p -> branching N p.
  Proof. intros (i & j & Hij & Hi & Hj). exists i, j. eauto using delete_has. Qed.
  Lemma delete_node N k p : is_node (delete k N) p -> is_node N p.
  Proof.
    intros [->|[(v & E)|Hb]]; [left; reflexivity| |right; right; eapply delete_branching, Hb].
    apply lookup_delete_Some in E as (_ & E). right; left. eauto.
  Qed.
  Lemma delete_good N k : good N -> good (delete k N).
  Proof. intros Hg k' v' E. apply lookup_delete_Some in E as (_ & E). apply Hg, E. Qed.
  Lemma delete_differ N k : differ N (delete k N) k.
  Proof. intros k' Hne. rewrite lookup_delete_ne by congruence. reflexivity. Qed.

  (** Branching survives if something remains on the side of [k]. *)
  Lemma delete_branching_keep N k p d : p ++ [d] `prefix_of` k -> has (delete k N) (p ++ [d]) ->
    branching N p -> branching (delete k N) p.
  Proof.
    intros Hd Hh (i & j & Hij & Hi & Hj). destruct (decide (i = d)) as [->|Hne].
    - exists d, j. split; [exact Hij|]. split; [exact Hh|]. apply delete_has_off; [|exact Hj].
      intros Hp. apply Hij. eapply pre_next_uniq; eassumption.
    - exists i, d. split; [exact Hne|]. split; [|exact Hh]. apply delete_has_off; [|exact Hi].
      intros Hp. apply Hne. eapply pre_next_uniq; eassumption.
  Qed.

  Lemma delete_chain N k path q : good N -> length k = 40%nat -> chain N k path q -> forall t,
    (path <> [] -> has (delete k N) q) -> (path = [] -> t = []) ->
    (forall r, r <> [] -> link N r q -> link (delete k N) r t) ->
    chain (delete k N) k path t.
  Proof. clear H B.
    intros Hg Hk40. induction 1 as [|p d path q Hch IH Hd Hh Hl]; intros t Hq Ht Hlink.
    - rewrite Ht by reflexivity. constructor.
    - specialize (Hq ltac:(discriminate)).
      assert (Hh' : has (delete k N) (p ++ [d])) by (eapply has_pre; [apply Hl|exact Hq]).
      econstructor; [|exact Hd|exact Hh'|apply Hlink; [destruct p; discriminate|exact Hl]].
      apply IH; [exact Hch| | |].
      + intros _. eapply has_pre; [|exact Hh']. exists [d]. reflexivity.
      + intros ->. eapply chain_nil_inv, Hch.
      + intros r Hr (H1 & H2 & H3). split; [exact H1|]. split.
        * destruct (node_internal N p Hg H2) as [->|Hb]; [|left; reflexivity|].
          { destruct (N !! p) as [v|] eqn:E; [|reflexivity]. apply Hg in E as (E & _).
            apply pre_snoc_len in Hd. lia. }
          right; right. eapply delete_branching_keep; eassumption.
        * intros k' v' Hk'. apply lookup_delete_Some in Hk' as (_ & Hk'). eapply H3, Hk'.
  Qed.
End WithHash.
