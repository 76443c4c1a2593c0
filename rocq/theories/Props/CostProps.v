(** C115: the size of the store and the work of a write are bounded. *)
From Coq Require Import ZArith List Lia Bool.
From stdpp Require Import gmap list.
From Verif.Model Require Import Base Address Nibbles Tree.
From Verif.Spec Require Import AddressSpec TreeSpec TreeHistory.
From Verif.Proofs Require Import BaseFacts NibblesFacts TreeSim TreeTrie TreeCanon TreeHashes TreeReach TreeLocal TreeCost.
From Verif.Props Require Import TreeProps LocalProps.
Open Scope Z_scope.

(** ** Helpers *)
Lemma by_path_size M : size (by_path M) = size M.
Proof.
  rewrite by_path_kmap. induction M as [|k v M Hk IH] using map_ind; [reflexivity|].
  rewrite kmap_insert by apply _. rewrite !map_size_insert_None; [congruence|exact Hk|].
  rewrite <- by_path_kmap, by_path_lookup. exact Hk.
Qed.
Lemma omap_len {A B} (f : A -> option B) l : (length (omap f l) <= length l)%nat.
Proof. induction l as [|a l IH]; cbn; [lia|]. destruct (f a); cbn; lia. Qed.
(** A location that was allocated before and holds nothing holds nothing after. *)
Lemma old_stays H s M k v s' b (l : loc) : inv H s M -> addr20 k -> PutEntry H s k v = Ok (s', b) ->
  (l < next s)%nat -> heap s !! l = None -> heap s' !! l = None.
Proof.
  intros Hi Hk E Hlt El. unfold PutEntry in E. bind_ok E. destruct a as (s1 & b1). bind_ok E. destruct a as (s2 & h).
  injection E as <- _.
  pose proof (local_updateEntry _ _ _ _ _ _ _ Hi E0) as Hlo.
  pose proof (rehashed_hashes _ _ _ _ _ _ (updateEntry_labelled _ _ _ _ _ _ _ Hi Hk E0) E1) as Hre.
  apply (re_none _ _ Hre). rewrite (loc_heap _ _ _ _ _ Hlo); [exact El|exact Hlt|].
  intros (p & Hp & _). destruct Hi as (_ & _ & V & ((_ & _ & Hg) & _) & _).
  destruct (Hg _ _ Hp) as (n & En & _). rewrite El in En. discriminate.
Qed.
(** The object at a full key is a leaf. *)
Lemma key_leaf H s M k (l : loc) n : inv H s M -> addr20 k -> GetNode (sto s) (nibs k) = Some l -> heap s !! l = Some n ->
  exists p w, n = Leaf p w.
Proof.
  intros Hi (Hl & Hok) Hg En. pose proof (inv_shape _ _ _ _ _ _ Hi Hg En) as Hs.
  destruct n as [p cs|p w]; [exfalso|eauto].
  destruct (KeyToNibbles_key k Hok Hl) as (Hlen & _). rewrite nibs_key in Hlen by exact Hok.
  cbn in Hs. destruct Hs as (_ & _ & [E|(i & j & _ & (k' & v' & E' & Hp) & _)] & _).
  - rewrite E in Hlen. discriminate.
  - destruct (keys20_good M (proj1 Hi) _ _ E') as (Hl' & _). apply prefix_length in Hp.
    rewrite app_length in Hp. cbn in Hp. lia.
Qed.

(** C115.  A tree with m entries has at most 1 + m + (m - 1) nodes (the root,
    the leaves, the branchings), whatever was written and deleted before: any
    duplicate-free list of paths under which the store has a node is no longer. *)
Theorem C115_store_size :
  forall H s M, reach H s M ->
    forall paths : list (list Z), NoDup paths -> (forall p, p ∈ paths -> is_Some (GetNode (sto s) p)) ->
      (length paths <= 1 + size M + (size M - 1))%nat.
Proof.
  intros H s M Hr paths Hnd Hall.
  destruct (C20_store_is_canonical H s M Hr) as (Hnode & _).
  destruct (branchings (by_path M)) as (B & HB & Hin).
  assert (Hsz : size (by_path M) = size M).
  { apply by_path_size. }
  pose (all := [] :: (map_to_list (by_path M)).*1 ++ B).
  assert (Hincl : paths ⊆ all).
  { intros p Hp. apply Hall, Hnode in Hp. unfold all. destruct Hp as [->|[(v & E)|Hb]].
    - left.
    - right. apply elem_of_app. left. apply elem_of_list_fmap. exists (p, v). split; [reflexivity|].
      apply elem_of_map_to_list, E.
    - right. apply elem_of_app. right. apply Hin, Hb. }
  pose proof (submseteq_length _ _ (NoDup_submseteq _ _ Hnd Hincl)) as Hle.
  unfold all in Hle. cbn [length] in Hle. rewrite app_length, fmap_length in Hle.
  change (length (map_to_list (by_path M))) with (size (by_path M)) in Hle.
  rewrite Hsz in *. lia.
Qed.
Print Assumptions C115_store_size.

(** For the in-memory store: the size of its map. *)
Theorem C115_mem_store_size :
  forall H s M m, reach H s M -> sto s = MemStore m -> (size m <= 1 + size M + (size M - 1))%nat.
Proof.
  intros H s M m Hr Es. change (size m) with (length (map_to_list m)). rewrite <- (fmap_length fst).
  eapply (C115_store_size H s M Hr).
  - apply NoDup_fst_map_to_list.
  - intros p Hp. apply elem_of_list_fmap in Hp as ((q & l) & -> & Hp). apply elem_of_map_to_list in Hp.
    rewrite Es. cbn. eauto.
Qed.
Print Assumptions C115_mem_store_size.

(** A write creates at most two node objects and changes at most forty: the
    branches on the path of the key (its leaf is replaced, not changed). *)
Theorem C115_write_cost :
  forall H s M k v s' b, reach H s M -> addr20 k -> PutEntry H s k v = Ok (s', b) ->
    (next s <= next s' <= next s + 2)%nat /\
    (forall (l : loc) n, heap s' !! l = Some n -> heap s !! l = None -> (next s <= l < next s')%nat) /\
    exists changed, (length changed <= 40)%nat /\
      forall (l : loc) n, heap s !! l = Some n -> l ∉ changed -> heap s' !! l = Some n.
Proof.
  intros H s M k v s' b Hr Hk E.
  pose proof (reach_inv H s M Hr) as Hi. pose proof Hi as (Hm & _ & V & (Hwf & _) & _).
  destruct (ext_PutEntry H s k v s' b (proj1 (proj2 Hwf)) E) as (_ & _ & Hfr & Hleaf).
  destruct (PutEntry_next H s k v s' b E) as (Hn1 & Hn2).
  split; [lia|]. split.
  { intros l n El' El. split; [|eapply (Hfr (proj1 (proj2 Hwf))); exact El'].
    destruct (le_lt_dec (next s) l) as [Hle|Hlt]; [exact Hle|]. exfalso.
    pose proof (old_stays _ _ _ _ _ _ _ l Hi Hk E Hlt El) as X. rewrite El' in X. discriminate. }
  exists (omap (GetNode (sto s)) (map (fun i => take i (nibs k)) (seq 0 40))). split.
  { etransitivity; [apply omap_len|]. rewrite map_length, seq_length. lia. }
  intros l n El Hnot. destruct (C113_write_is_local _ _ _ _ _ _ _ Hr Hk E) as (_ & Hloc).
  destruct (decide (GetNode (sto s) (nibs k) = Some l)) as [Hx|Hx].
  - destruct (key_leaf _ _ _ _ _ _ Hi Hk Hx El) as (p & w & ->).
    apply (Hleaf (proj1 (proj2 Hwf))), El.
  - apply Hloc; [exact El|]. intros p Hg Hp. apply Hnot. apply elem_of_list_omap. exists p. split; [|exact Hg].
    destruct Hk as (Hl & Hok). destruct (KeyToNibbles_key k Hok Hl) as (Hlen & _). rewrite nibs_key in Hlen by exact Hok.
    pose proof (prefix_length _ _ Hp) as Hle. destruct Hp as (t & Et).
    assert (Hlt : (length p < 40)%nat).
    { destruct t as [|x t]; [|rewrite Et, app_length in Hlen; cbn in Hlen; lia].
      rewrite app_nil_r in Et. exfalso. apply Hx. rewrite Et. exact Hg. }
    apply elem_of_list_fmap. exists (length p). split; [|apply elem_of_seq; lia].
    rewrite Et, take_app. reflexivity.
Qed.
Print Assumptions C115_write_cost.

(** Over a history: the number of node objects ever created. *)
Theorem C115_history_cost :
  forall H s M hist u, reach H s M -> Forall (fun kv => addr20 kv.1) hist -> run H s hist = Ok u ->
    (next s <= next u <= next s + 2 * length hist)%nat.
Proof.
  intros H s M hist. revert s M. induction hist as [|(k & v) hist IH]; intros s M u Hr Hk E; cbn [run] in E.
  { injection E as <-. cbn. lia. }
  apply Forall_cons in Hk as (Hk1 & Hk2). cbn in Hk1.
  destruct (PutEntry H s k v) as [(s1 & b)|e| |] eqn:E0; cbn [bind] in E; try discriminate E.
  destruct (PutEntry_next H s k v s1 b E0). pose proof (IH _ _ _ (reach_put _ _ _ _ _ _ _ Hr Hk1 E0) Hk2 E). cbn. lia.
Qed.
Print Assumptions C115_history_cost.

(** ** Concrete case: the bound is reached by three keys with a common first digit. *)
Definition ck_d : list Z := 15 :: repeat 255 19.
Definition chist : list (list Z * list Z) := [(lk_a, [1]); (lk_b, [2]); (ck_d, [3])].
Definition store_size (s : state) : nat := match sto s with MemStore m => size m | _ => 0%nat end.
Example C115_case :
  exists s, run lh new_tree chist = Ok s /\ reach lh s (contents chist) /\
    size (contents chist) = 3%nat /\ store_size s = 6%nat /\ (next s <= 1 + 2 * 3)%nat.
Proof.
  assert (Hb : forall k, (length k =? 20)%nat && forallb (fun b => (0 <=? b) && (b <? 256)) k = true -> addr20 k).
  { intros k T. apply andb_true_iff in T as (T1 & T2). split; [apply Nat.eqb_eq, T1|].
    apply Forall_forall. intros x Hx. rewrite forallb_forall in T2. specialize (T2 x (proj1 (elem_of_list_In _ _) Hx)). lia. }
  assert (Hk : Forall (fun kv : list Z * list Z => addr20 kv.1) chist).
  { unfold chist. repeat (apply Forall_cons; split; [apply Hb; reflexivity|]). apply Forall_nil. exact I. }
  destruct (run_reach lh chist new_tree ∅ (reach_new lh) Hk) as (s & E & Hr).
  assert (T : match run lh new_tree chist with Ok s => (store_size s =? 6)%nat | _ => false end = true) by (vm_compute; reflexivity).
  rewrite E in T. apply Nat.eqb_eq in T.
  exists s. split; [exact E|]. split; [exact Hr|]. split; [vm_compute; reflexivity|]. split; [exact T|].
  exact (proj2 (C115_history_cost lh new_tree ∅ chist s (reach_new lh) Hk E)).
Qed.
