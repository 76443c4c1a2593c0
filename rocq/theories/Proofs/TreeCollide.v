(** Node serialisation is injective up to collisions of the hash. *)
From Coq Require Import ZArith List Lia Bool.
From stdpp Require Import gmap list.
From Verif.Spec Require Import TreeSpec TreeHistory.
From Verif.Proofs Require Import TreeTrie.
Open Scope Z_scope.

Global Opaque merkle_bytes.

Section WithHash.
  Variable H : list Z -> list Z.
  Hypothesis H_len : forall x, length (H x) = 32%nat.

  Lemma hexchar_inj a b : nib a -> nib b -> hexchar a = hexchar b -> a = b.
  Proof. clear. unfold nib, hexchar. destruct (a <? 10) eqn:E1, (b <? 10) eqn:E2; lia. Qed.
  Lemma hexs_inj a b : Forall nib a -> Forall nib b -> hexs a = hexs b -> a = b.
  Proof.
    clear. intros Ha. revert b. induction Ha as [|x a Hx Ha IH]; intros b Hb E; destruct Hb as [|y b Hy Hb];
      try discriminate; [reflexivity|].
    cbn in E. injection E as E1 E2. f_equal; [apply hexchar_inj; assumption|apply IH; assumption].
  Qed.

  Lemma app_inv_len {A} (a b c d : list A) : length a = length b -> a ++ c = b ++ d -> a = b /\ c = d.
  Proof.
    clear. revert b. induction a as [|x a IH]; intros [|y b] Hl E; try discriminate; [auto|].
    cbn in *. injection E as -> E. destruct (IH b ltac:(lia) E) as (-> & ->). auto.
  Qed.

  (** The suffix towards digit [i]. *)
  Definition suffix_of (N : entries) (p : list Z) (i : Z) : list Z := drop (length p) (target N (p ++ [i])).

  Lemma suffix_facts N p i : good N -> has N (p ++ [i]) ->
    (exists r, suffix_of N p i = i :: r) /\ Forall nib (suffix_of N p i) /\
    target N (p ++ [i]) = p ++ suffix_of N p i.
  Proof.
    clear. intros Hg Hh. destruct (target_link N (p ++ [i]) Hg Hh) as ((r & E) & Hn & _).
    destruct (node_len N _ Hg Hn) as (_ & Hnn). unfold suffix_of. rewrite E in Hnn |- *.
    rewrite <- app_assoc in Hnn |- *. rewrite drop_app. split; [exists r; reflexivity|].
    apply Forall_app in Hnn. split; [apply Hnn|reflexivity].
  Qed.

  Lemma children_inj N1 N2 p : good N1 -> good N2 -> forall L, NoDup L -> Forall nib L ->
    flat_map (child_bytes H N1 p) (filter (fun i => below N1 (p ++ [i]) <> ∅) L) =
    flat_map (child_bytes H N2 p) (filter (fun i => below N2 (p ++ [i]) <> ∅) L) ->
    forall i, i ∈ L -> (has N1 (p ++ [i]) <-> has N2 (p ++ [i])) /\
      (has N1 (p ++ [i]) -> suffix_of N1 p i = suffix_of N2 p i /\
         H (merkle_bytes H N1 (target N1 (p ++ [i]))) = H (merkle_bytes H N2 (target N2 (p ++ [i])))).
  Proof.
    intros Hg1 Hg2 L. induction L as [|x L IH]; intros Hnd Hnib E i Hi; [inversion Hi|].
    apply NoDup_cons in Hnd as (Hx & Hnd). inversion Hnib as [|? ? Hxn Hnib']; subst.
    assert (Hhd : forall N y rest, good N -> has N (p ++ [y]) -> exists a r, child_bytes H N p y ++ rest = a :: hexchar y :: r).
    { intros N y rest Hg Hh. destruct (suffix_facts N p y Hg Hh) as ((r & Er) & _).
      unfold child_bytes. fold (suffix_of N p y). rewrite Er. cbn. eauto. }
    (* the head digit cannot be used on one side only *)
    assert (Hmix : forall N N' rest, good N -> good N' -> has N (p ++ [x]) ->
       child_bytes H N p x ++ rest = flat_map (child_bytes H N' p) (filter (fun i => below N' (p ++ [i]) <> ∅) L) -> False).
    { intros N N' rest Hg Hg' Hh Eq. destruct (Hhd N x rest Hg Hh) as (a & r & E1). rewrite E1 in Eq.
      destruct (filter (fun i => below N' (p ++ [i]) <> ∅) L) as [|y l] eqn:Ef; [discriminate Eq|].
      assert (Hy : y ∈ filter (fun i => below N' (p ++ [i]) <> ∅) L) by (rewrite Ef; left).
      apply elem_of_list_filter in Hy as (Hb & Hy). apply has_below in Hb. cbn [flat_map] in Eq.
      destruct (Hhd N' y (flat_map (child_bytes H N' p) l) Hg' Hb) as (a' & r' & E2). rewrite E2 in Eq.
      injection Eq as _ Eq _. apply hexchar_inj in Eq; [|exact Hxn|rewrite Forall_forall in Hnib'; apply Hnib', Hy].
      subst y. contradiction. }
    rewrite !filter_cons in E.
    destruct (decide (below N1 (p ++ [x]) <> ∅)) as [H1|H1], (decide (below N2 (p ++ [x]) <> ∅)) as [H2|H2].
    - apply has_below in H1, H2. cbn [flat_map] in E.
      destruct (suffix_facts N1 p x Hg1 H1) as (_ & Hn1 & Ht1), (suffix_facts N2 p x Hg2 H2) as (_ & Hn2 & Ht2).
      unfold child_bytes at 1 3 in E. fold (suffix_of N1 p x) in E. fold (suffix_of N2 p x) in E.
      cbn [app] in E. injection E as El E.
      assert (Hlen : length (suffix_of N1 p x) = length (suffix_of N2 p x)) by (unfold len8 in El; lia).
      rewrite <- !app_assoc in E.
      apply app_inv_len in E as (Ea & E); [|unfold hexs; rewrite !map_length; exact Hlen].
      apply app_inv_len in E as (Eb & E); [|rewrite !H_len; reflexivity].
      apply hexs_inj in Ea; [|assumption|assumption].
      apply elem_of_cons in Hi as [->|Hi]; [|apply IH; assumption].
      split; [split; auto|]. intros _. auto.
    - exfalso. apply has_below in H1. cbn [flat_map] in E. eapply (Hmix N1 N2); [exact Hg1|exact Hg2|exact H1|exact E].
    - exfalso. apply has_below in H2. cbn [flat_map] in E. symmetry in E. eapply (Hmix N2 N1); [exact Hg2|exact Hg1|exact H2|exact E].
    - apply elem_of_cons in Hi as [->|Hi]; [|apply IH; assumption].
      rewrite !has_below. split; [tauto|]. intros Hc. contradiction.
  Qed.

  (** Two serialised nodes of the two tries that collide. *)
  Definition collide (N1 N2 : entries) : Prop :=
    exists p1 p2, is_node N1 p1 /\ is_node N2 p2 /\ merkle_bytes H N1 p1 <> merkle_bytes H N2 p2 /\
      H (merkle_bytes H N1 p1) = H (merkle_bytes H N2 p2).

  Lemma all_or {A} (P : A -> Prop) (C : Prop) (l : list A) : (forall i, i ∈ l -> P i \/ C) -> (forall i, i ∈ l -> P i) \/ C.
  Proof.
    clear. induction l as [|x l IH]; intros Hl; [left; intros i Hi; inversion Hi|].
    destruct (Hl x ltac:(left)) as [Hx|Hc]; [|right; exact Hc].
    destruct IH as [IH|Hc]; [intros i Hi; apply Hl; right; exact Hi| |right; exact Hc].
    left. intros i Hi. apply elem_of_cons in Hi as [->|Hi]; [exact Hx|apply IH, Hi].
  Qed.

  Lemma merkle_agree n : forall N1 N2 p, good N1 -> good N2 -> is_node N1 p -> is_node N2 p ->
    (41 <= n + length p)%nat -> merkle_bytes H N1 p = merkle_bytes H N2 p ->
    agree N1 N2 p \/ collide N1 N2.
  Proof.
    induction n as [|n IH]; intros N1 N2 p Hg1 Hg2 Hp1 Hp2 Hn E;
      destruct (node_len N1 p Hg1 Hp1) as (Hl40 & Hpn); [lia|].
    destruct (N1 !! p) as [v1|] eqn:E1, (N2 !! p) as [v2|] eqn:E2.
    - rewrite (merkle_bytes_leaf H N1 p v1 E1), (merkle_bytes_leaf H N2 p v2 E2) in E.
      cbn in E. injection E as E. apply app_inv_head in E. subst v2. left. intros k Hk.
      destruct (decide (p = k)) as [<-|Hne]; [congruence|].
      assert (Hlong : (40 < length k)%nat).
      { destruct (Hg1 _ _ E1) as (L & _). destruct (pre_next p k Hk Hne) as (d & Hd). apply pre_snoc_len in Hd. lia. }
      destruct (N1 !! k) as [w|] eqn:F1; [apply Hg1 in F1 as (F1 & _); lia|].
      destruct (N2 !! k) as [w|] eqn:F2; [apply Hg2 in F2 as (F2 & _); lia|reflexivity].
    - rewrite (merkle_bytes_leaf H N1 p v1 E1), (merkle_bytes_branch H N2 p Hg2 E2) in E. discriminate.
    - rewrite (merkle_bytes_leaf H N2 p v2 E2), (merkle_bytes_branch H N1 p Hg1 E1) in E. discriminate.
    - rewrite (merkle_bytes_branch H N1 p Hg1 E1), (merkle_bytes_branch H N2 p Hg2 E2) in E.
      cbn [app] in E. injection E as E. apply app_inv_head in E. injection E as _ E.
      unfold used in E.
      assert (Hnd : NoDup digits) by (apply (bool_decide_unpack _); vm_compute; exact I).
      assert (Hdn : Forall nib digits) by (unfold digits; repeat (apply Forall_cons; split; [unfold nib; lia|]); apply Forall_nil; exact I).
      pose proof (children_inj N1 N2 p Hg1 Hg2 digits Hnd Hdn E) as Hch.
      assert (Hstep : forall i, i ∈ digits -> (has N1 (p ++ [i]) -> agree N1 N2 (p ++ [i])) \/ collide N1 N2).
      { intros i Hi. destruct (Hch i Hi) as (Hiff & Heq). destruct (decide (has N1 (p ++ [i]))) as [Hh|Hh]; [|left; intros Hx; contradiction].
        destruct (Heq Hh) as (Es & EH). pose proof (proj1 Hiff Hh) as Hh2.
        destruct (suffix_facts N1 p i Hg1 Hh) as ((r & Er) & _ & Ht1), (suffix_facts N2 p i Hg2 Hh2) as (_ & _ & Ht2).
        assert (Et : target N1 (p ++ [i]) = target N2 (p ++ [i])) by congruence.
        destruct (target_link N1 _ Hg1 Hh) as (L1 & T1 & A1), (target_link N2 _ Hg2 Hh2) as (L2 & T2 & A2).
        destruct (decide (merkle_bytes H N1 (target N1 (p ++ [i])) = merkle_bytes H N2 (target N2 (p ++ [i])))) as [Em|Em].
        - rewrite <- Et in Em, T2, A2. pose proof (pre_snoc_len _ _ _ L1) as Hlt.
          destruct (IH N1 N2 (target N1 (p ++ [i])) Hg1 Hg2 T1 T2 ltac:(lia) Em) as [Ha|Hc]; [|right; exact Hc].
          left. intros _ k Hk. destruct (N1 !! k) as [w|] eqn:F1.
          + rewrite <- F1. apply Ha. eapply A1; eassumption.
          + destruct (N2 !! k) as [w|] eqn:F2; [|reflexivity].
            rewrite <- F1, <- F2. apply Ha. eapply A2; eassumption.
        - right. do 2 eexists. split; [exact T1|]. split; [exact T2|]. split; [exact Em|exact EH]. }
      apply all_or in Hstep as [Hall|Hc]; [left|right; exact Hc].
      intros k Hk. destruct (decide (p = k)) as [<-|Hne]; [congruence|].
      destruct (pre_next p k Hk Hne) as (d & Hd).
      assert (Hused : forall N, good N -> is_Some (N !! k) -> d ∈ digits).
      { intros N Hg (w & Hw). destruct (Hg _ _ Hw) as (_ & Hnn & _). apply (snoc_nibble nib) in Hd; [|exact Hnn].
        unfold nib in Hd. unfold digits. rewrite !elem_of_cons. lia. }
      destruct (N1 !! k) as [w|] eqn:F1.
      + rewrite <- F1. apply (Hall d); [eapply (Hused N1); [exact Hg1|eauto]|exists k, w; auto|exact Hd].
      + destruct (N2 !! k) as [w|] eqn:F2; [|reflexivity].
        assert (Hdd : d ∈ digits) by (eapply (Hused N2); [exact Hg2|eauto]).
        rewrite <- F1, <- F2. apply (Hall d Hdd); [|exact Hd]. apply (Hch d Hdd). exists k, w; auto.
  Qed.

  Lemma merkle_root_inj N1 N2 : good N1 -> good N2 ->
    H (merkle_bytes H N1 []) = H (merkle_bytes H N2 []) -> N1 = N2 \/ collide N1 N2.
  Proof.
    intros Hg1 Hg2 E. destruct (decide (merkle_bytes H N1 [] = merkle_bytes H N2 [])) as [Em|Em].
    - destruct (merkle_agree 41 N1 N2 [] Hg1 Hg2) as [Ha|Hc]; [left; reflexivity|left; reflexivity|cbn; lia|exact Em| |right; exact Hc].
      left. apply map_eq. intros k. apply Ha, prefix_nil.
    - right. exists [], []. split; [left; reflexivity|]. split; [left; reflexivity|]. auto.
  Qed.
End WithHash.

(** ** Overlays *)
From Verif.Model Require Import Base Address Nibbles Tree TreeCrash.
From Verif.Proofs Require Import BaseFacts TreeSim TreeReach.

Lemma flush_entries_ok order : forall lower, NoDup order.*1 -> layers_ok lower ->
  exists lower', flush_entries order lower = Ok lower' /\ layers_ok lower' /\
    forall k, GetNode lower' k = match (list_to_map order : gmap nibbles (option loc)) !! k with
                                 | Some o => o | None => GetNode lower k end.
Proof.
  induction order as [|(k0 & [n|]) order IH]; intros lower Hnd Hlay; cbn [flush_entries].
  - exists lower. split; [reflexivity|]. split; [exact Hlay|]. intros k. change (list_to_map (M := gmap nibbles (option loc)) []) with (∅ : gmap nibbles (option loc)). rewrite lookup_empty. reflexivity.
  - cbn in Hnd. apply NoDup_cons in Hnd as (Hk0 & Hnd).
    destruct (PutNode_ok lower k0 n (layers_writable _ Hlay)) as (l1 & E1 & _ & Hg1). rewrite E1. cbn [bind].
    destruct (IH l1 Hnd (PutNode_layers _ _ _ _ E1 Hlay)) as (l2 & -> & Hl2 & Hg2).
    exists l2. split; [reflexivity|]. split; [exact Hl2|]. intros k. rewrite Hg2. cbn.
    destruct (decide (k0 = k)) as [<-|Hne].
    + rewrite lookup_insert. rewrite (not_elem_of_list_to_map_1 _ _ Hk0). rewrite Hg1, decide_True by reflexivity. reflexivity.
    + rewrite lookup_insert_ne by exact Hne. rewrite Hg1, decide_False by exact Hne. reflexivity.
  - cbn in Hnd. apply NoDup_cons in Hnd as (Hk0 & Hnd).
    destruct (DelNode_ok lower k0 (layers_writable _ Hlay)) as (l1 & E1 & _ & Hg1). rewrite E1. cbn [bind].
    destruct (IH l1 Hnd (DelNode_layers _ _ _ E1 Hlay)) as (l2 & -> & Hl2 & Hg2).
    exists l2. split; [reflexivity|]. split; [exact Hl2|]. intros k. rewrite Hg2. cbn.
    destruct (decide (k0 = k)) as [<-|Hne].
    + rewrite lookup_insert. rewrite (not_elem_of_list_to_map_1 _ _ Hk0). rewrite Hg1, decide_True by reflexivity. reflexivity.
    + rewrite lookup_insert_ne by exact Hne. rewrite Hg1, decide_False by exact Hne. reflexivity.
Qed.

Lemma foldl_delete_lookup (order : list (nibbles * option loc)) : forall (d : gmap nibbles (option loc)) k,
  foldl (fun d kv => delete kv.1 d) d order !! k = if decide (k ∈ order.*1) then None else d !! k.
Proof.
  induction order as [|(k0 & o) order IH]; intros d k; cbn [foldl fmap list_fmap].
  - rewrite decide_False by (intros Hx; inversion Hx). reflexivity.
  - rewrite IH. cbn. destruct (decide (k ∈ order.*1)) as [Hin|Hin].
    + rewrite decide_True by (right; exact Hin). reflexivity.
    + destruct (decide (k0 = k)) as [<-|Hne].
      * rewrite lookup_delete, decide_True by left. reflexivity.
      * rewrite lookup_delete_ne by exact Hne. rewrite decide_False; [reflexivity|].
        intros Hx. apply elem_of_cons in Hx as [->|Hx]; [congruence|contradiction].
Qed.

Lemma Flush_ok lower d order : layers_ok lower -> order ≡ₚ map_to_list d ->
  exists lower', Flush order (OverlayStore lower (Some d)) = Ok (OverlayStore lower' (Some ∅)) /\ layers_ok lower' /\
    forall k, GetNode lower' k = GetNode (OverlayStore lower (Some d)) k.
Proof.
  intros Hlay Hperm.
  assert (Hnd : NoDup order.*1) by (rewrite Hperm; apply NoDup_fst_map_to_list).
  destruct (flush_entries_ok order lower Hnd Hlay) as (lower' & E & Hlay' & Hg).
  assert (Hmap : list_to_map order = d).
  { rewrite <- (list_to_map_to_list d). apply list_to_map_proper; assumption. }
  exists lower'. cbn [Flush]. rewrite E. cbn [bind]. split; [|split; [exact Hlay'|]].
  - do 3 f_equal. apply map_eq. intros k. rewrite foldl_delete_lookup, lookup_empty.
    case_decide as Hin; [reflexivity|]. rewrite <- Hmap. apply not_elem_of_list_to_map_1, Hin.
  - intros k. rewrite Hg, Hmap. reflexivity.
Qed.

(** ** Interrupted flushes *)
Lemma write_down lower k (o : option loc) d : layers_ok lower ->
  exists lower', flush_stmt_run (WriteDown k o) (OverlayStore lower d) = Ok (OverlayStore lower' d) /\ layers_ok lower' /\
    forall k', GetNode lower' k' = if decide (k = k') then o else GetNode lower k'.
Proof.
  intros Hlay. destruct o as [n|].
  - destruct (PutNode_ok lower k n (layers_writable _ Hlay)) as (l1 & E1 & _ & Hg1). exists l1. cbn. rewrite E1.
    split; [reflexivity|]. split; [exact (PutNode_layers _ _ _ _ E1 Hlay)|exact Hg1].
  - destruct (DelNode_ok lower k (layers_writable _ Hlay)) as (l1 & E1 & _ & Hg1). exists l1. cbn. rewrite E1.
    split; [reflexivity|]. split; [exact (DelNode_layers _ _ _ E1 Hlay)|exact Hg1].
Qed.

Lemma FlushUpTo_cons n k o order lower lower' d :
  flush_stmt_run (WriteDown k o) (OverlayStore lower (Some d)) = Ok (OverlayStore lower' (Some d)) ->
  FlushUpTo (S (S n)) ((k, o) :: order) (OverlayStore lower (Some d)) = FlushUpTo n order (OverlayStore lower' (Some (delete k d))).
Proof. intros E. unfold FlushUpTo, flush_stmts. cbn [map concat app firstn flush_stmts_run fst snd]. rewrite E. reflexivity. Qed.

Lemma FlushUpTo_spec order : forall n lower d, layers_ok lower -> NoDup order.*1 ->
  exists lower', FlushUpTo n order (OverlayStore lower (Some d)) =
      Ok (OverlayStore lower' (Some (foldl (fun d kv => delete kv.1 d) d (firstn (Nat.div2 n) order)))) /\ layers_ok lower' /\
    forall k, GetNode lower' k = match (list_to_map (firstn (Nat.div2 (S n)) order) : gmap nibbles (option loc)) !! k with
                                 | Some o => o | None => GetNode lower k end.
Proof.
  induction order as [|(k0 & o) order IH]; intros n lower d Hlay Hnd.
  - exists lower. unfold FlushUpTo. cbn [flush_stmts map concat]. rewrite !firstn_nil. split; [reflexivity|]. split; [exact Hlay|].
    intros k. change (list_to_map (M := gmap nibbles (option loc)) []) with (∅ : gmap nibbles (option loc)). rewrite lookup_empty. reflexivity.
  - cbn in Hnd. apply NoDup_cons in Hnd as (Hk0 & Hnd). destruct (write_down lower k0 o (Some d) Hlay) as (l1 & E1 & Hl1 & Hg1).
    destruct n as [|[|n]].
    + exists lower. split; [reflexivity|]. split; [exact Hlay|]. intros k. change (list_to_map (M := gmap nibbles (option loc)) (firstn (Nat.div2 1) ((k0, o) :: order))) with (∅ : gmap nibbles (option loc)). rewrite lookup_empty. reflexivity.
    + exists l1. unfold FlushUpTo, flush_stmts. cbn [map concat app firstn flush_stmts_run fst snd]. rewrite E1. split; [reflexivity|]. split; [exact Hl1|].
      intros k. rewrite Hg1. change (list_to_map (M := gmap nibbles (option loc)) (firstn (Nat.div2 2) ((k0, o) :: order))) with (<[k0 := o]> (∅ : gmap nibbles (option loc))). destruct (decide (k0 = k)) as [<-|Hne]; [rewrite lookup_insert; reflexivity|].
      rewrite lookup_insert_ne, lookup_empty by exact Hne. reflexivity.
    + rewrite (FlushUpTo_cons n k0 o order lower l1 d E1). destruct (IH n l1 (delete k0 d) Hl1 Hnd) as (l2 & -> & Hl2 & Hg2).
      exists l2. split; [reflexivity|]. split; [exact Hl2|]. intros k. rewrite Hg2.
      change (Nat.div2 (S (S (S n)))) with (S (Nat.div2 (S n))). cbn [firstn list_to_map foldr].
      set (w := firstn (Nat.div2 (S n)) order).
      assert (Hw : k0 ∉ w.*1).
      { intros Hx. apply Hk0. unfold w in Hx. rewrite <- (firstn_skipn (Nat.div2 (S n)) order), fmap_app. apply elem_of_app. left. exact Hx. }
      change (list_to_map ((k0, o) :: w) : gmap nibbles (option loc)) with (<[k0 := o]> (list_to_map w : gmap nibbles (option loc))).
      destruct (decide (k0 = k)) as [<-|Hne].
      * rewrite lookup_insert, (not_elem_of_list_to_map_1 _ _ Hw), Hg1, decide_True by reflexivity. reflexivity.
      * rewrite lookup_insert_ne by exact Hne. rewrite Hg1, decide_False by exact Hne. reflexivity.
Qed.

Lemma order_lookup (order : list (nibbles * option loc)) d n k : order ≡ₚ map_to_list d ->
  (list_to_map (firstn n order) : gmap nibbles (option loc)) !! k = if decide (k ∈ (firstn n order).*1) then d !! k else None.
Proof.
  intros Hp. assert (Hnd : NoDup order.*1) by (rewrite Hp; apply NoDup_fst_map_to_list).
  case_decide as Hin; [|apply not_elem_of_list_to_map_1, Hin].
  apply elem_of_list_fmap in Hin as ((k1 & o) & -> & Hin). cbn [fst].
  assert (Hin' : (k1, o) ∈ order). { rewrite <- (firstn_skipn n order). apply elem_of_app. left. exact Hin. }
  rewrite Hp, elem_of_map_to_list in Hin'. rewrite Hin'. apply elem_of_list_to_map_1; [|exact Hin].
  rewrite <- (firstn_skipn n order), fmap_app in Hnd. apply NoDup_app in Hnd as (Hnd & _). exact Hnd.
Qed.

Lemma FlushUpTo_perm n order lower d : layers_ok lower -> order ≡ₚ map_to_list d ->
  exists lower' d', FlushUpTo n order (OverlayStore lower (Some d)) = Ok (OverlayStore lower' (Some d')) /\ layers_ok lower' /\
    forall k, GetNode (OverlayStore lower' (Some d')) k = GetNode (OverlayStore lower (Some d)) k.
Proof.
  intros Hlay Hp. assert (Hnd : NoDup order.*1) by (rewrite Hp; apply NoDup_fst_map_to_list).
  destruct (FlushUpTo_spec order n lower d Hlay Hnd) as (lower' & E & Hl' & Hg). eexists _, _. split; [exact E|]. split; [exact Hl'|].
  intros k. cbn. rewrite foldl_delete_lookup, Hg, (order_lookup order d _ k Hp).
  case_decide as H1; [|destruct (d !! k) as [o|]; [reflexivity|case_decide; reflexivity]].
  assert (H2 : k ∈ (firstn (Nat.div2 (S n)) order).*1).
  { assert (Hle : (Nat.div2 n <= Nat.div2 (S n))%nat).
    { clear. cut (forall m, Nat.div2 m <= Nat.div2 (S m) /\ Nat.div2 (S m) <= Nat.div2 (S (S m)))%nat; [intros G; apply G|].
      induction m as [|m (I1 & I2)]; [cbn; lia|]. split; [exact I2|]. cbn in *. destruct m; cbn in *; lia. }
    replace (Nat.div2 (S n)) with (Nat.div2 n + (Nat.div2 (S n) - Nat.div2 n))%nat by lia.
    rewrite <- take_take_drop, fmap_app. apply elem_of_app. left. exact H1. }
  rewrite decide_True by exact H2. apply elem_of_list_fmap in H1 as ((k1 & o) & -> & Hin). cbn [fst].
  assert (Hin' : (k1, o) ∈ order). { rewrite <- (firstn_skipn (Nat.div2 n) order). apply elem_of_app. left. exact Hin. }
  rewrite Hp, elem_of_map_to_list in Hin'. rewrite Hin'. reflexivity.
Qed.

(** Getting through all the statements is Flush. *)
Lemma FlushUpTo_all order : forall n lower diffs, (2 * length order <= n)%nat ->
  FlushUpTo n order (OverlayStore lower diffs) = Flush order (OverlayStore lower diffs).
Proof.
  induction order as [|(k & o) order IH]; intros n lower diffs Hn.
  - unfold FlushUpTo. cbn [flush_stmts map concat]. rewrite firstn_nil. cbn. destruct diffs; reflexivity.
  - destruct n as [|[|n]]; cbn [length] in Hn; try lia.
    assert (E : forall l', FlushUpTo n order (OverlayStore l' (delete k <$> diffs)) =
      (let? l2 := flush_entries order l' in Ok (OverlayStore l2 (match diffs with None => None | Some d => Some (foldl (fun d kv => delete kv.1 d) d ((k, o) :: order)) end)))).
    { intros l'. rewrite IH by lia. cbn [Flush]. destruct (flush_entries order l'); try reflexivity. destruct diffs; reflexivity. }
    unfold FlushUpTo in *. change (flush_stmts ((k, o) :: order)) with (WriteDown k o :: DeleteDiff k :: flush_stmts order).
    cbn [firstn flush_stmts_run Flush flush_entries].
    destruct o as [x|]; cbn [flush_stmt_run].
    + destruct (PutNode lower k x) as [l'| | |]; try reflexivity. cbn [bind]. apply E.
    + destruct (DelNode lower k) as [l'| | |]; try reflexivity. cbn [bind]. apply E.
Qed.
