(** Facts about the specification trie of Spec/TreeSpec.v. *)
From Coq Require Import ZArith List Lia Bool.
From stdpp Require Import gmap list.
From Verif.Spec Require Import TreeSpec.
Open Scope Z_scope.

Local Notation path := (list Z).

(** ** Prefixes *)
Lemma pre_len (a b : path) : a `prefix_of` b -> (length a <= length b)%nat.
Proof. apply prefix_length. Qed.
Lemma pre_eq (a b : path) : a `prefix_of` b -> (length b <= length a)%nat -> a = b.
Proof.
  intros (r & ->) Hl. rewrite app_length in Hl. destruct r; [rewrite app_nil_r; reflexivity|cbn in Hl; lia].
Qed.
Lemma pre_antisym (a b : path) : a `prefix_of` b -> b `prefix_of` a -> a = b.
Proof. intros H1 H2. apply pre_eq; [exact H1|apply pre_len, H2]. Qed.
Lemma pre_snoc (p : path) i q : p ++ [i] `prefix_of` q -> p `prefix_of` q.
Proof. intros (r & ->). exists ([i] ++ r). rewrite app_assoc. reflexivity. Qed.
Lemma pre_snoc_len (p : path) i q : p ++ [i] `prefix_of` q -> (S (length p) <= length q)%nat.
Proof. intros H. apply pre_len in H. rewrite app_length in H. cbn in H. lia. Qed.
Lemma pre_total (a b c : path) : a `prefix_of` c -> b `prefix_of` c -> a `prefix_of` b \/ b `prefix_of` a.
Proof. apply prefix_weak_total. Qed.
Lemma pre_le (a b c : path) : a `prefix_of` c -> b `prefix_of` c -> (length a <= length b)%nat -> a `prefix_of` b.
Proof.
  intros Ha Hb Hl. destruct (pre_total a b c Ha Hb) as [H|H]; [exact H|].
  rewrite (pre_eq b a H Hl). reflexivity.
Qed.
Lemma pre_next (p k : path) : p `prefix_of` k -> p <> k -> exists d, p ++ [d] `prefix_of` k.
Proof.
  intros ([|d r] & ->) Hne; [rewrite app_nil_r in Hne; contradiction|].
  exists d, r. rewrite <- app_assoc. reflexivity.
Qed.
Lemma pre_next_uniq (p k : path) i j : p ++ [i] `prefix_of` k -> p ++ [j] `prefix_of` k -> i = j.
Proof.
  intros (r1 & ->) (r2 & E). rewrite <- !app_assoc in E. apply app_inv_head in E. cbn in E. congruence.
Qed.
Lemma pre_snoc_not (p : path) i : ~ (p ++ [i] `prefix_of` p).
Proof. intros H. apply pre_len in H. rewrite app_length in H. cbn in H. lia. Qed.
Lemma pre_snoc_inv (a p : path) i : a `prefix_of` p ++ [i] -> a = p ++ [i] \/ a `prefix_of` p.
Proof.
  intros H. destruct (decide (length a <= length p)%nat) as [Hl|Hl].
  - right. eapply pre_le; [exact H|exists [i]; reflexivity|exact Hl].
  - left. apply pre_eq; [exact H|]. rewrite app_length. cbn. lia.
Qed.
Lemma pre_nibble (P : Z -> Prop) (a b : path) : a `prefix_of` b -> Forall P b -> Forall P a.
Proof. intros (r & ->) H. apply Forall_app in H. apply H. Qed.
Lemma snoc_nibble (P : Z -> Prop) (p : path) d b : p ++ [d] `prefix_of` b -> Forall P b -> P d.
Proof.
  intros H Hb. apply (pre_nibble P) in H; [|exact Hb]. apply Forall_app in H as (_ & H).
  inversion H; assumption.
Qed.

(** ** Well-formed sets of entries *)
Definition nib (n : Z) : Prop := 0 <= n < 16.
Definition good (N : entries) : Prop :=
  forall k v, N !! k = Some v -> length k = 40%nat /\ Forall nib k /\ v <> [].

Lemma good_has_len N r : good N -> has N r -> (length r <= 40)%nat /\ Forall nib r.
Proof.
  intros Hg (k & v & Hk & Hr). destruct (Hg _ _ Hk) as (Hl & Hn & _). split.
  - apply pre_len in Hr. lia.
  - eapply pre_nibble; eassumption.
Qed.

Lemma has_pre N r r' : r `prefix_of` r' -> has N r' -> has N r.
Proof. intros H (k & v & Hk & Hr). exists k, v. split; [exact Hk|]. etrans; eassumption. Qed.

Lemma branching_has N p : branching N p -> has N p.
Proof. intros (i & _ & _ & H & _). eapply has_pre; [|exact H]. exists [i]. reflexivity. Qed.

Lemma node_has N p : is_node N p -> p <> [] -> has N p.
Proof.
  intros [->|[(v & Hv)|H]] Hne; [contradiction| |apply branching_has, H].
  exists p, v. split; [exact Hv|reflexivity].
Qed.

Lemma node_len N p : good N -> is_node N p -> (length p <= 40)%nat /\ Forall nib p.
Proof.
  intros Hg H. destruct (decide (p = [])) as [->|Hne].
  - split; [cbn; lia|constructor].
  - apply (good_has_len N); [exact Hg|]. apply node_has; assumption.
Qed.

(** Keys of full length are leaves. *)
Lemma good_pre_key N k k' v : good N -> N !! k = Some v -> k `prefix_of` k' -> (length k' <= 40)%nat -> k = k'.
Proof.
  intros Hg Hk Hp Hl. destruct (Hg _ _ Hk) as (H40 & _). apply pre_eq; [exact Hp|lia].
Qed.

Lemma full_not_branching N k : good N -> length k = 40%nat -> ~ branching N k.
Proof.
  intros Hg Hl (i & _ & _ & H & _). apply (good_has_len N) in H as (H & _); [|exact Hg].
  rewrite app_length in H. cbn in H. lia.
Qed.

Lemma branching_not_key N p : good N -> branching N p -> N !! p = None.
Proof.
  intros Hg H. destruct (N !! p) as [v|] eqn:E; [|reflexivity].
  exfalso. eapply full_not_branching; [exact Hg| |exact H]. apply (Hg _ _ E).
Qed.

Lemma good_no_root N : good N -> N !! [] = None.
Proof. intros Hg. destruct (N !! []) as [v|] eqn:E; [|reflexivity]. apply Hg in E as (E & _). discriminate. Qed.

Lemma node_internal N p : good N -> is_node N p -> N !! p = None -> p = [] \/ branching N p.
Proof. intros Hg [->|[(v & E)|H]] E'; [left; reflexivity|congruence|right; exact H]. Qed.

(** ** Links *)
Definition link (N : entries) (r q : path) : Prop :=
  r `prefix_of` q /\ is_node N q /\ forall k v, N !! k = Some v -> r `prefix_of` k -> q `prefix_of` k.

Lemma link_all N r q x : link N r q -> has N x -> r `prefix_of` x -> exists k v,
  N !! k = Some v /\ x `prefix_of` k /\ q `prefix_of` k.
Proof.
  intros (_ & _ & Ha) (k & v & Hk & Hx) Hr. exists k, v. split; [exact Hk|]. split; [exact Hx|].
  eapply Ha; [exact Hk|]. etrans; eassumption.
Qed.

(** No node strictly between the ends of a link. *)
Lemma link_min N r q p : good N -> link N r q -> r <> [] -> r `prefix_of` p -> p `prefix_of` q -> p <> q -> ~ is_node N p.
Proof.
  intros Hg (Hrq & Hq & Ha) Hr0 Hrp Hpq Hne [->|[(v & Hv)|(i & j & Hij & Hi & Hj)]].
  - destruct Hrp as (x & E). destruct r; [apply Hr0; reflexivity|discriminate].
  - apply Hne. apply pre_antisym; [exact Hpq|]. eapply Ha; eassumption.
  - destruct (pre_next p q Hpq Hne) as (d & Hd).
    assert (Hone : forall i, has N (p ++ [i]) -> i = d).
    { clear -Ha Hrp Hd. intros i (k & v & Hk & Hi). eapply pre_next_uniq; [exact Hi|].
      etrans; [exact Hd|]. eapply Ha; [exact Hk|]. etrans; [exact Hrp|]. eapply pre_snoc, Hi. }
    apply Hij. rewrite (Hone i Hi), (Hone j Hj). reflexivity.
Qed.

Lemma link_unique N r q q' : good N -> link N r q -> link N r q' -> r <> [] -> q = q'.
Proof.
  intros Hg Hl Hl' Hr. pose proof Hl as (H1 & H2 & H3). pose proof Hl' as (H1' & H2' & H3').
  assert (Hh : has N q).
  { apply node_has; [exact H2|]. intros ->. destruct H1 as (x & E). destruct r; [contradiction|discriminate]. }
  destruct Hh as (k & v & Hk & Hq).
  assert (Hq' : q' `prefix_of` k) by (eapply H3'; [exact Hk|transitivity q; assumption]).
  destruct (pre_total q q' k Hq Hq') as [H|H].
  - destruct (decide (q = q')) as [E|E]; [exact E|]. exfalso. exact (link_min N r q' q Hg Hl' Hr H1 H E H2).
  - destruct (decide (q' = q)) as [E|E]; [symmetry; exact E|]. exfalso. exact (link_min N r q q' Hg Hl Hr H1' H E H2').
Qed.

(** ** Longest common prefixes *)
Lemma lcp2_l a b : lcp2 a b `prefix_of` a.
Proof.
  revert b. induction a as [|x a IH]; intros [|y b]; cbn; try apply prefix_nil.
  destruct (Z.eqb_spec x y); [apply prefix_cons, IH|apply prefix_nil].
Qed.
Lemma lcp2_r a b : lcp2 a b `prefix_of` b.
Proof.
  revert b. induction a as [|x a IH]; intros [|y b]; cbn; try apply prefix_nil.
  destruct (Z.eqb_spec x y); [subst; apply prefix_cons, IH|apply prefix_nil].
Qed.
Lemma lcp2_max a b r : r `prefix_of` a -> r `prefix_of` b -> r `prefix_of` lcp2 a b.
Proof.
  revert a b. induction r as [|x r IH]; intros a b Ha Hb; [apply prefix_nil|].
  destruct Ha as (a' & ->), Hb as (b' & ->). cbn. rewrite Z.eqb_refl. apply prefix_cons, IH; eexists; reflexivity.
Qed.
Lemma lcp_lower l a : a ∈ l -> lcp l `prefix_of` a.
Proof.
  induction l as [|x l IH]; intros Hin; [inversion Hin|].
  apply elem_of_cons in Hin as [->|Hin]; destruct l as [|y l]; cbn [lcp].
  - reflexivity.
  - apply lcp2_l.
  - inversion Hin.
  - etrans; [apply lcp2_r|apply IH, Hin].
Qed.
Lemma lcp_greatest l r : l <> [] -> (forall a, a ∈ l -> r `prefix_of` a) -> r `prefix_of` lcp l.
Proof.
  induction l as [|x l IH]; intros Hne Ha; [contradiction|].
  destruct l as [|y l]; cbn [lcp]; [apply Ha; left|].
  apply lcp2_max; [apply Ha; left|]. apply IH; [discriminate|]. intros a Hin. apply Ha. right. exact Hin.
Qed.

(** ** Below and target *)
Lemma below_lookup N r k v : below N r !! k = Some v <-> N !! k = Some v /\ r `prefix_of` k.
Proof. unfold below. rewrite map_filter_lookup_Some. reflexivity. Qed.

Lemma has_below N r : has N r <-> below N r <> ∅.
Proof.
  split.
  - intros (k & v & Hk & Hr) E. assert (H : below N r !! k = Some v) by (apply below_lookup; auto).
    rewrite E, lookup_empty in H. discriminate.
  - intros H. apply map_choose in H as (k & v & H). apply below_lookup in H as (H1 & H2). exists k, v. auto.
Qed.

Global Instance has_dec N r : Decision (has N r).
Proof.
  destruct (decide (below N r = ∅)) as [E|E]; [right|left; apply has_below, E].
  intros H. apply has_below in H. contradiction.
Qed.

Lemma elem_below N r k : k ∈ (map_to_list (below N r)).*1 <-> exists v, N !! k = Some v /\ r `prefix_of` k.
Proof.
  rewrite elem_of_list_fmap. split.
  - intros ((k' & v) & -> & Hin). apply elem_of_map_to_list, below_lookup in Hin as (H1 & H2). exists v. auto.
  - intros (v & Hk & Hr). exists (k, v). split; [reflexivity|]. apply elem_of_map_to_list, below_lookup. auto.
Qed.

Lemma target_link N r : good N -> has N r -> link N r (target N r).
Proof.
  intros Hg Hh. pose proof Hh as (k & v & Hk & Hr).
  assert (Hin : k ∈ (map_to_list (below N r)).*1) by (apply elem_below; eauto).
  assert (Hne : (map_to_list (below N r)).*1 <> []) by (intros E; rewrite E in Hin; inversion Hin).
  assert (Hall : forall k v, N !! k = Some v -> r `prefix_of` k -> target N r `prefix_of` k).
  { intros k' v' Hk' Hr'. apply lcp_lower, elem_below. eauto. }
  assert (Hlow : r `prefix_of` target N r).
  { apply lcp_greatest; [exact Hne|]. intros a Ha. apply elem_below in Ha as (v' & _ & Ha). exact Ha. }
  split; [exact Hlow|]. split; [|exact Hall].
  destruct (decide (target N r = k)) as [E|E].
  - right; left. rewrite E. exists v. exact Hk.
  - right; right. destruct (pre_next (target N r) k (Hall _ _ Hk Hr) E) as (d & Hd).
    (* another key leaves the target elsewhere *)
    destruct (decide (Exists (fun k' => ~ (target N r ++ [d] `prefix_of` k')) (map_to_list (below N r)).*1)) as [Hex|Hno].
    + apply Exists_exists in Hex as (k' & Hin' & Hnot). apply elem_below in Hin' as (v' & Hk' & Hr').
      assert (Hp' : target N r `prefix_of` k') by (eapply Hall; eassumption).
      assert (Hne' : target N r <> k').
      { intros E'. rewrite E' in Hd. apply (pre_snoc_len k') in Hd.
        destruct (Hg _ _ Hk) as (L1 & _), (Hg _ _ Hk') as (L2 & _). lia. }
      destruct (pre_next _ _ Hp' Hne') as (d' & Hd'). exists d, d'. split; [intros ->; contradiction|].
      split; [exists k, v; auto|exists k', v'; auto].
    + exfalso. eapply pre_snoc_not with (p := target N r) (i := d). apply lcp_greatest; [exact Hne|].
      intros a Ha. destruct (decide (target N r ++ [d] `prefix_of` a)) as [H|H]; [exact H|].
      exfalso. apply Hno. apply Exists_exists. exists a. auto.
Qed.

Lemma target_unique N r q : good N -> r <> [] -> has N r -> link N r q -> target N r = q.
Proof. intros Hg Hr Hh Hl. eapply link_unique; [exact Hg|apply target_link; assumption|exact Hl|exact Hr]. Qed.

(** ** Two sets that agree below a path *)
Definition agree (N N' : entries) (r : path) : Prop := forall k, r `prefix_of` k -> N !! k = N' !! k.

Lemma agree_pre N N' r r' : agree N N' r -> r `prefix_of` r' -> agree N N' r'.
Proof. intros H Hr k Hk. apply H. etrans; eassumption. Qed.
Lemma agree_sym N N' r : agree N N' r -> agree N' N r.
Proof. intros H k Hk. symmetry. apply H, Hk. Qed.
Lemma agree_has N N' r : agree N N' r -> has N r -> has N' r.
Proof. intros H (k & v & Hk & Hr). exists k, v. split; [rewrite <- (H k Hr); exact Hk|exact Hr]. Qed.
Lemma agree_below N N' r : agree N N' r -> below N r = below N' r.
Proof.
  intros H. apply map_eq. intros k. apply option_eq. intros v. rewrite !below_lookup.
  split; intros (Hk & Hr); (split; [|exact Hr]); [rewrite <- (H k Hr)|rewrite (H k Hr)]; exact Hk.
Qed.
Lemma agree_branching N N' p : agree N N' p -> branching N p -> branching N' p.
Proof.
  intros H (i & j & Hij & Hi & Hj). exists i, j. split; [exact Hij|].
  split; (eapply agree_has; [|eassumption]; eapply agree_pre; [exact H|eexists; reflexivity]).
Qed.
Lemma agree_node N N' p : agree N N' p -> is_node N p -> is_node N' p.
Proof.
  intros H [->|[Hs|Hb]]; [left; reflexivity| |right; right; eapply agree_branching; eassumption].
  right; left. rewrite <- (H p); [exact Hs|reflexivity].
Qed.
Lemma agree_link N N' r q : agree N N' r -> link N r q -> link N' r q.
Proof.
  intros H (H1 & H2 & H3). split; [exact H1|]. split.
  - eapply agree_node; [|exact H2]. eapply agree_pre; eassumption.
  - intros k v Hk Hr. eapply H3; [rewrite (H k Hr); exact Hk|exact Hr].
Qed.

(** Sets that differ at [k] only agree off the path to [k]. *)
Lemma agree_off N N' k r : (forall k', k' <> k -> N !! k' = N' !! k') -> ~ (r `prefix_of` k) -> agree N N' r.
Proof. intros H Hr k' Hk'. apply H. intros ->. contradiction. Qed.

(** ** Serialisation *)
Section Bytes.
  Variable H : list Z -> list Z.

  Lemma used_agree N N' p : agree N N' p -> used N p = used N' p.
  Proof.
    intros Ha. unfold used. apply list_filter_iff. intros i.
    rewrite (agree_below N N' (p ++ [i])); [reflexivity|]. eapply agree_pre; [exact Ha|eexists; reflexivity].
  Qed.

  Lemma elem_used N p i : i ∈ used N p <-> nib i /\ has N (p ++ [i]).
  Proof.
    unfold used. rewrite elem_of_list_filter, has_below. unfold digits, nib.
    rewrite !elem_of_cons, elem_of_nil. split; intros (H1 & H2); (split; [try assumption; lia|try assumption; lia]).
  Qed.

  Lemma flat_map_ext_in {A B} (f g : A -> list B) l : (forall a, a ∈ l -> f a = g a) -> flat_map f l = flat_map g l.
  Proof.
    induction l as [|a l IH]; intros Hfg; [reflexivity|]. cbn. rewrite (Hfg a) by left.
    rewrite IH; [reflexivity|]. intros b Hb. apply Hfg. right. exact Hb.
  Qed.

  Lemma node_bytes_agree d : forall N N' p, good N -> agree N N' p -> node_bytes H d N p = node_bytes H d N' p.
  Proof.
    induction d as [|d IH]; intros N N' p Hg Ha; [reflexivity|]. cbn [node_bytes].
    rewrite <- (Ha p) by reflexivity. destruct (N !! p) as [v|]; [reflexivity|].
    rewrite (used_agree N N' p Ha). f_equal. f_equal. f_equal. apply flat_map_ext_in. intros i Hi.
    rewrite <- (used_agree N N' p Ha) in Hi. apply elem_used in Hi as (_ & Hi).
    assert (Ha' : agree N N' (p ++ [i])) by (eapply agree_pre; [exact Ha|eexists; reflexivity]).
    assert (Ht : target N (p ++ [i]) = target N' (p ++ [i])) by (unfold target; rewrite (agree_below _ _ _ Ha'); reflexivity).
    rewrite <- Ht. rewrite (IH N N'); [reflexivity|exact Hg|].
    eapply agree_pre; [exact Ha'|]. apply (target_link N (p ++ [i]) Hg Hi).
  Qed.

  (** The depth bound does not matter once it is large enough. *)
  Lemma node_bytes_depth d1 : forall d2 N p, good N -> is_node N p ->
    (41 <= d1 + length p)%nat -> (41 <= d2 + length p)%nat ->
    node_bytes H d1 N p = node_bytes H d2 N p.
  Proof.
    induction d1 as [|d1 IH]; intros d2 N p Hg Hp H1 H2.
    { destruct (node_len N p Hg Hp) as (Hl & _). lia. }
    destruct d2 as [|d2]. { destruct (node_len N p Hg Hp) as (Hl & _). lia. }
    cbn [node_bytes]. destruct (N !! p) as [v|]; [reflexivity|].
    f_equal. f_equal. f_equal. apply flat_map_ext_in. intros i Hi. apply elem_used in Hi as (_ & Hi).
    destruct (target_link N (p ++ [i]) Hg Hi) as (Hl & Hn & _). apply pre_snoc_len in Hl.
    rewrite (IH d2 N (target N (p ++ [i]))); [reflexivity|exact Hg|exact Hn|lia|lia].
  Qed.

  Lemma node_bytes_S d N p : node_bytes H (S d) N p =
    match N !! p with
    | Some v => [0xFF; 40] ++ hexs p ++ v
    | None => [0x00; len8 p] ++ hexs p ++ [len8 (used N p)] ++
          flat_map (fun i =>
             let q := target N (p ++ [i]) in
             let suffix := drop (length p) q in
             [len8 suffix] ++ hexs suffix ++ H (node_bytes H d N q))
            (used N p)
    end.
  Proof. reflexivity. Qed.

  Lemma merkle_bytes_leaf N p v : N !! p = Some v -> merkle_bytes H N p = [0xFF; 40] ++ hexs p ++ v.
  Proof. intros E. unfold merkle_bytes. rewrite node_bytes_S, E. reflexivity. Qed.

  Definition child_bytes (N : entries) (p : path) (i : Z) : list Z :=
    let q := target N (p ++ [i]) in
    let suffix := drop (length p) q in
    [len8 suffix] ++ hexs suffix ++ H (merkle_bytes H N q).

  Lemma merkle_depth d N p : good N -> is_node N p -> (41 <= d + length p)%nat ->
    node_bytes H d N p = merkle_bytes H N p.
  Proof. intros Hg Hp Hd. apply node_bytes_depth; [exact Hg|exact Hp|exact Hd|apply Nat.le_add_r]. Qed.

  Local Opaque merkle_bytes.

  Lemma node_bytes_branch d N p : good N -> N !! p = None -> (40 <= d)%nat ->
    node_bytes H (S d) N p =
      [0x00; len8 p] ++ hexs p ++ [len8 (used N p)] ++ flat_map (child_bytes N p) (used N p).
  Proof.
    intros Hg E Hd. rewrite node_bytes_S, E. do 3 apply f_equal. apply flat_map_ext_in.
    intros i Hi. apply elem_used in Hi as (_ & Hi).
    destruct (target_link N (p ++ [i]) Hg Hi) as (Hl & Hn & _). apply pre_snoc_len in Hl.
    unfold child_bytes. rewrite merkle_depth; [reflexivity|exact Hg|exact Hn|lia].
  Qed.
  Local Transparent merkle_bytes.

  Lemma merkle_bytes_branch N p : good N -> N !! p = None ->
    merkle_bytes H N p =
      [0x00; len8 p] ++ hexs p ++ [len8 (used N p)] ++ flat_map (child_bytes N p) (used N p).
  Proof. intros Hg E. apply (node_bytes_branch 40); [exact Hg|exact E|apply le_n]. Qed.

  Lemma merkle_bytes_agree N N' p : good N -> agree N N' p -> merkle_bytes H N p = merkle_bytes H N' p.
  Proof. apply node_bytes_agree. Qed.
End Bytes.
