(** C122: what a block may cost: the writes of Push, and the growth of the accounts and of the store. *)
From Coq Require Import ZArith List Lia Bool.
From stdpp Require Import gmap list.
From Verif.Model Require Import Base Address Beserial Wire Policy Account Tree Accounts.
From Verif.Spec Require Import AddressSpec TreeSpec TreeHistory PolicySpec BeserialSpec WireSpec AccountSpec AccountsSpec PushSpec RulesSpec.
From Verif.Proofs Require Import BaseFacts PolicyFacts AccountFacts LedgerFacts PushFacts AccountsFacts RulesFacts.
From Verif.Props Require Import TreeProps AccountProps AccountsProps RulesProps CostProps PartyProps RootProps.
Open Scope Z_scope.

(** The number of contract-creating transactions. *)
Definition creations (l : list Tx) : nat := length (filter (fun t => tx_creates t = true) l).

(** ** The writes of a step *)
Section Writes.
  Context (H : bytes -> bytes) (oob : float64 -> Z).
  Definition writes {X : Type} (P : bytes -> Prop) (k : nat) (m : step state X) : Prop :=
    forall s, exists w, run H s w = Ok (snd (m s)) /\ (length w <= k)%nat /\ Forall (fun kv => P kv.1) w.
  Lemma run_app w1 : forall s w2, run H s (w1 ++ w2) = let? s1 := run H s w1 in run H s1 w2.
  Proof.
    induction w1 as [|(k & v) w1 IH]; intros s w2; cbn [run app]; [reflexivity|].
    destruct (PutEntry H s k v) as [(s1 & b)| | |]; cbn [bind]; [apply IH|reflexivity..].
  Qed.
  Lemma writes_le {X : Type} P k k' (m : step state X) : (k <= k')%nat -> writes P k m -> writes P k' m.
  Proof. intros Hk Hm s. destruct (Hm s) as (w & E & L & F). exists w. split; [exact E|]. split; [lia|exact F]. Qed.
  Lemma writes_then {X Y : Type} P k1 k2 (m : step state X) (f : X -> step state Y) :
    writes P k1 m -> (forall x, writes P k2 (f x)) -> writes P (k1 + k2) (andthen state m f).
  Proof.
    intros Hm Hf s. destruct (Hm s) as (w & E & L & F). unfold andthen. destruct (m s) as ([x|e| |] & s1); cbn [snd] in *.
    - destruct (Hf x s1) as (w2 & E2 & L2 & F2). exists (w ++ w2). rewrite run_app, E. cbn [bind]. split; [exact E2|].
      split; [rewrite app_length; lia|]. apply Forall_app. split; assumption.
    - exists w. split; [exact E|]. split; [lia|exact F].
    - exists w. split; [exact E|]. split; [lia|exact F].
    - exists w. split; [exact E|]. split; [lia|exact F].
  Qed.
  Lemma writes_stop {X : Type} P (r : res X) : writes P 0 (stop state r).
  Proof. intros s. exists []. split; [reflexivity|]. split; [cbn; lia|apply Forall_nil; exact I]. Qed.
  Lemma writes_done {X : Type} P (x : X) : writes P 0 (done state x).
  Proof. apply writes_stop. Qed.
  Lemma writes_get P a : writes P 0 (get_account state tree_get_account a).
  Proof. intros s. exists []. split; [reflexivity|]. split; [cbn; lia|apply Forall_nil; exact I]. Qed.
  Lemma writes_put (P : bytes -> Prop) a x : P a -> writes P 1 (put_account state (tree_put_account H) a x).
  Proof.
    intros Ha s. unfold put_account.
    assert (G : forall s', tree_put_account H s a x = Ok s' -> exists v, run H s [(a, v)] = Ok s').
    { intros s' E. unfold tree_put_account, PutAccount, tree_put_entry in E.
      assert (G : forall v, (let? (s', _) := PutEntry H s a v in Ok s') = Ok s' -> run H s [(a, v)] = Ok s').
      { intros v Ev. cbn [run]. destruct (PutEntry H s a v) as [(s1 & b)| | |]; cbn [bind] in *; [exact Ev|discriminate..]. }
      destruct x as [y|]; [|exists []; apply G, E]. destruct ((AccountType y =? 0) && IsEmpty y); [exists []; apply G, E|].
      destruct (WrapAccount_Marshal (Some y) []) as [(buf & [e|])| | |]; try discriminate. exists buf. apply G, E. }
    destruct (tree_put_account H s a x) as [s'| | |]; cbn [snd].
    - destruct (G s' eq_refl) as (v & E). exists [(a, v)]. split; [exact E|]. split; [cbn; lia|]. apply Forall_cons. split; [exact Ha|apply Forall_nil; exact I].
    - exists []. split; [reflexivity|]. split; [cbn; lia|apply Forall_nil; exact I].
    - exists []. split; [reflexivity|]. split; [cbn; lia|apply Forall_nil; exact I].
    - exists []. split; [reflexivity|]. split; [cbn; lia|apply Forall_nil; exact I].
  Qed.
  Lemma writes_pushTx (P : bytes -> Prop) a typ t h op : P a -> writes P 1 (pushTx state tree_get_account (tree_put_account H) a typ t h op).
  Proof.
    intros Ha. unfold pushTx. apply (writes_then P 0 1); [apply writes_get|]. intros y.
    destruct (negb _ && negb _); [apply (writes_le P 0); [lia|apply writes_stop]|].
    apply (writes_then P 0 1); [apply writes_stop|]. intros z. apply writes_put, Ha.
  Qed.
  Lemma writes_for (P : bytes -> Prop) (k : Tx -> nat) (f : Tx -> step state unit) l :
    (forall t, t ∈ present l -> writes P (k t) (f t)) -> writes P (foldr Nat.add 0%nat (map k (present l))) (for_txs state f l).
  Proof.
    induction l as [|[t|] l IH]; intros Hf; cbn [for_txs]; [apply writes_stop| |].
    - cbn. apply writes_then; [apply Hf; constructor|]. intros _. apply IH. intros u Hu. apply Hf. constructor. exact Hu.
    - apply (writes_le P 0); [lia|apply writes_stop].
  Qed.
  Lemma writes_prune (P : bytes -> Prop) l : (forall t, t ∈ present l -> P (tx_sender H t)) ->
    forall m, writes P (size m) (prune_txs H state tree_get_account (tree_put_account H) l m).
  Proof.
    induction l as [|[t|] l IH]; intros Hf m; cbn [prune_txs]; [apply (writes_le P 0); [lia|apply writes_stop]| |apply (writes_le P 0); [lia|apply writes_stop]].
    assert (IH' : forall m, writes P (size m) (prune_txs H state tree_get_account (tree_put_account H) l m)) by (apply IH; intros u Hu; apply Hf; constructor; exact Hu).
    cbv zeta. rewrite get_sender. eapply (writes_le P (0 + size m)); [lia|]. eapply writes_then; [apply writes_get|]. intros y.
    destruct (negb (IsEmpty y) || (AccountType y =? 0)); [apply IH'|].
    destruct (m !! tx_sender H t) as [p|] eqn:Em; [|apply (writes_le P 0); [lia|apply writes_stop]].
    destruct (negb (AccountEq p (Some y))); [apply (writes_le P 0); [lia|apply writes_stop]|].
    assert (Hsz : (size m = 1 + size (delete (tx_sender H t) m))%nat).
    { rewrite (map_size_delete_Some (tx_sender H t) m) by eauto. assert (size m <> 0%nat); [|lia].
      intros E0. apply map_size_empty_inv in E0. rewrite E0, lookup_empty in Em. discriminate. }
    rewrite Hsz. apply writes_then; [apply writes_put, Hf; constructor|]. intros _. apply IH'.
  Qed.
  Lemma prune_map_size l : (size (prune_map l) <= length l)%nat.
  Proof.
    unfold prune_map. assert (G : forall (m : gmap bytes (option Account)), (size (foldl (fun m p => <[p_address p := p_account p]> m) m l) <= size m + length l)%nat).
    { induction l as [|p l IH]; intros m; cbn [foldl length]; [lia|]. specialize (IH (<[p_address p := p_account p]> m)).
      rewrite map_size_insert in IH. destruct (m !! p_address p); cbn in IH; unfold id in IH; lia. }
    specialize (G ∅). rewrite map_size_empty in G. exact G.
  Qed.
End Writes.

(** C122.  Whatever the outcome of Push, its effect on the tree is that of at most two writes per transaction, one
    per contract creation, one per entry of the prune list, and one for the miner, all at addresses of parties. *)
Theorem C122_writes_of_a_block H oob s c b o s' c' body :
  tree_Push H oob s c b = (o, s', c') -> bl_body b = Some body ->
  exists w, run H s w = Ok s' /\ Forall (fun kv => is_party H body kv.1) w /\
    (length w <= 2 * length (txs_of body) + creations (txs_of body) + length (bb_pruned body) + 1)%nat.
Proof.
  intros E Eb. unfold tree_Push, Push in E. cbv zeta in E. rewrite Eb in E. set (h := bh_height (bl_header b)) in *.
  set (P := is_party H body). assert (Hs : forall t, t ∈ present (bb_txs body) -> P (tx_sender H t)) by (intros t Ht; right; exists t; auto).
  assert (Hr : forall t, t ∈ present (bb_txs body) -> P (tx_recipient t)) by (intros t Ht; right; exists t; auto).
  set (n := length (txs_of body)). set (cr := creations (txs_of body)). set (pr := length (bb_pruned body)).
  assert (Hb : writes H P (n + (n + (cr + pr))) (push_body H oob state tree_get_account (tree_put_account H) body h)).
  { assert (Hone : forall l : list Tx, foldr Nat.add 0%nat (map (fun _ => 1%nat) l) = length l) by (induction l as [|? l IH]; cbn; [reflexivity|rewrite IH; reflexivity]).
    assert (Hcr : forall l : list Tx, foldr Nat.add 0%nat (map (fun t => if tx_creates t then 1%nat else 0%nat) l) = creations l).
    { unfold creations. induction l as [|t l IH]; [reflexivity|]. cbn [map foldr]. rewrite IH, filter_cons. destruct (tx_creates t); [rewrite decide_True by reflexivity|rewrite decide_False by discriminate]; reflexivity. }
    unfold push_body. apply writes_then; [|intros _; apply writes_then; [|intros _; apply writes_then; [|intros _]]].
    - unfold n, txs_of. rewrite <- Hone. apply writes_for. intros t Ht. unfold push_sender. cbv zeta. rewrite content_sender. apply writes_pushTx, Hs, Ht.
    - unfold n, txs_of. rewrite <- Hone. apply writes_for. intros t Ht. unfold push_recipient. cbv zeta. rewrite content_recipient. apply writes_pushTx, Hr, Ht.
    - unfold cr, txs_of. rewrite <- Hcr. apply writes_for. intros t Ht. unfold create_step, createContract. cbv zeta. rewrite creates_ok.
      destruct (tx_creates t); [|apply writes_stop]. cbn [negb]. rewrite content_recipient. apply (writes_then H P 0 1); [apply writes_get|]. intros y.
      destruct (_ =? 0); [apply (writes_le H P 0); [lia|apply writes_stop]|]. destruct (_ || _); [|apply (writes_le H P 0); [lia|apply writes_stop]].
      apply (writes_then H P 0 1); [apply writes_stop|]. intros z. apply writes_put, Hr, Ht.
    - unfold pruneAccounts. apply (writes_le H P (size (prune_map (bb_pruned body)) + 0)); [pose proof (prune_map_size (bb_pruned body)); unfold pr; lia|].
      apply writes_then; [apply writes_prune, Hs|]. intros m. destruct (decide (m = ∅)); apply writes_stop. }
  destruct (Hb s) as (w & Ew & Lw & Fw). fold h in E. destruct (push_body H oob state tree_get_account (tree_put_account H) body h s) as ([[]|e| |] & s1); cbn [snd] in Ew.
  - destruct (BlockReward c h) as (c1 & base).
    assert (Hi : writes H P 1 (andthen state (stop state base) (fun base => pushInherents state tree_get_account (tree_put_account H) body h base))).
    { apply (writes_then H P 0 1); [apply writes_stop|]. intros x. unfold pushInherents. apply (writes_then H P 0 1); [apply writes_stop|]. intros r. apply writes_pushTx. left. reflexivity. }
    destruct (Hi s1) as (w2 & E2 & L2 & F2). destruct (andthen state _ _ s1) as (o2 & s2). injection E as _ <- _. cbn [snd] in E2.
    exists (w ++ w2). rewrite run_app, Ew. cbn [bind]. split; [exact E2|]. split; [apply Forall_app; split; assumption|]. rewrite app_length. lia.
  - injection E as _ <- _. exists w. split; [exact Ew|]. split; [exact Fw|lia].
  - injection E as _ <- _. exists w. split; [exact Ew|]. split; [exact Fw|lia].
  - injection E as _ <- _. exists w. split; [exact Ew|]. split; [exact Fw|lia].
Qed.
Print Assumptions C122_writes_of_a_block.

(** ** Growth *)
Section Grow.
  Context (H : bytes -> bytes) (oob : float64 -> Z).
  (** Outside [P], empty accounts stay empty. *)
  Definition creates_only {X : Type} (P : bytes -> Prop) (m : step ledger X) : Prop :=
    forall M a, ~ P a -> acct M a = ABasic 0 -> acct (snd (m M)) a = ABasic 0.
  Lemma creates_touches {X : Type} (P : bytes -> Prop) (m : step ledger X) : touches P m -> creates_only P m.
  Proof. intros Ht M a Ha E. rewrite (Ht M a Ha). exact E. Qed.
  Lemma creates_then {X Y : Type} (P : bytes -> Prop) (m : step ledger X) (k : X -> step ledger Y) : creates_only P m -> (forall x, creates_only P (k x)) -> creates_only P (andthen ledger m k).
  Proof.
    intros Hm Hk M a Ha E. unfold andthen. specialize (Hm M a Ha E). destruct (m M) as ([x| | |] & M1); cbn [snd] in *; [|exact Hm..].
    apply (Hk x M1 a Ha Hm).
  Qed.
  Lemma creates_for (P : bytes -> Prop) (f : Tx -> step ledger unit) l : (forall t, creates_only P (f t)) -> creates_only P (for_txs ledger f l).
  Proof.
    intros Hf. induction l as [|[t|] l IH]; cbn [for_txs]; [intros M a _ E; exact E| |intros M a _ E; exact E].
    apply creates_then; [apply Hf|]. intros _. exact IH.
  Qed.
  Lemma creates_sender (P : bytes -> Prop) h t : creates_only P (push_sender H oob ledger L_get L_put h t).
  Proof.
    intros M a _ E. unfold push_sender. cbv zeta. rewrite Lpush_eq. destruct (negb _ && negb _); [exact E|].
    set (x := c_sender (AsTxContent H t)). destruct (ApplyOutgoingTx H oob (acct M x) t h) as [y| | |] eqn:Eo; try exact E.
    cbn [snd]. rewrite acct_set. destruct (decide (a = x)) as [->|Hne]; [|exact E]. cbn [default].
    rewrite E in Eo. cbn [ApplyOutgoingTx] in Eo. unfold Basic_Outgoing in Eo. destruct (Amount t) as (v & f).
    destruct (Z.ltb_spec 0 (w64 (v + f))) as [|Hle]; [discriminate|]. injection Eo as <-.
    assert (E0 : w64 (v + f) = 0) by (unfold w64 in *; pose proof (Z.mod_pos_bound (v + f) (two64) ltac:(reflexivity)); lia).
    rewrite E0. reflexivity.
  Qed.
  Lemma creates_prune (P : bytes -> Prop) l : forall m, creates_only P (prune_txs H ledger L_get L_put l m).
  Proof.
    induction l as [|[t|] l IH]; intros m; cbn [prune_txs]; [intros M a _ E; exact E| |intros M a _ E; exact E].
    apply creates_then; [intros M a _ E; exact E|]. intros y. destruct (negb (IsEmpty y) || (AccountType y =? 0)); [apply IH|].
    destruct (m !! _) as [p|]; [|intros M a _ E; exact E]. destruct (negb (AccountEq p (Some y))); [intros M a _ E; exact E|].
    apply creates_then; [|intros _; apply IH]. intros M a _ E. cbn. rewrite acct_set. destruct (decide _); [reflexivity|exact E].
  Qed.
End Grow.

(** An account comes into being only for the miner or a recipient. *)
Theorem C122_new_accounts H oob s c M b o s' c' M' :
  hash_fn H -> areach H oob s c -> lists s M -> block_ok b -> tree_Push H oob s c b = (o, s', c') -> lists s' M' ->
  (forall a, M !! a = None -> is_Some (M' !! a) ->
     exists body, bl_body b = Some body /\ (a = bb_miner body \/ exists t, t ∈ txs_of body /\ tx_recipient t = a)) /\
  (size M' <= size M + match bl_body b with Some body => length (txs_of body) + 1 | None => 0 end)%nat.
Proof.
  intros HH Hr HL Hb E HL'. destruct (push_ledger H oob s c M b o s' c' HH Hr HL Hb E) as (N & EP & HN & HM & Hc & _).
  rewrite <- (lists_unique s' M' N HL' (holds_lists H s' N HN)) in EP. clear N HN.
  assert (Hgrow : forall a, acct M a = ABasic 0 -> acct M' a = ABasic 0 \/
     exists body, bl_body b = Some body /\ (a = bb_miner body \/ exists t, t ∈ txs_of body /\ tx_recipient t = a)).
  { intros a Ea. unfold Push in EP. cbv zeta in EP. destruct (bl_body b) as [body|] eqn:Eb; [|injection EP as _ <- _; left; exact Ea].
    set (h := bh_height (bl_header b)) in *.
    set (P := fun a => a = bb_miner body \/ exists t, t ∈ txs_of body /\ tx_recipient t = a).
    assert (Hrec : forall t, t ∈ present (bb_txs body) -> P (tx_recipient t)) by (intros t Ht; right; exists t; auto).
    assert (Pd : P a \/ ~ P a).
    { destruct (decide (a = bb_miner body)) as [|N1]; [left; left; assumption|].
      destruct (decide (a ∈ map tx_recipient (txs_of body))) as [Hin|N2].
      - left. right. apply elem_of_list_fmap in Hin as (t & -> & Ht). exists t. auto.
      - right. intros [?|(t & Ht & <-)]; [contradiction|]. apply N2. apply elem_of_list_fmap. exists t. auto. }
    destruct Pd as [HP|HP]; [right; exists body; split; [reflexivity|exact HP]|left].
    assert (Hb1 : creates_only P (push_body H oob ledger L_get L_put body h)).
    { unfold push_body. apply creates_then; [|intros _; apply creates_then; [|intros _; apply creates_then; [|intros _]]].
      - apply creates_for. intros t. apply creates_sender.
      - apply creates_touches, touches_for. intros t Ht. unfold push_recipient. cbv zeta. rewrite content_recipient. apply touches_pushTx, Hrec, Ht.
      - apply creates_touches, touches_for. intros t Ht. unfold create_step, createContract. cbv zeta. destruct (creates_contract (AsTxContent H t)); [|intros N x _; reflexivity].
        cbn [negb]. rewrite content_recipient. apply touches_then; [intros N x _; reflexivity|]. intros y. destruct (_ =? 0); [apply touches_stop|].
        destruct (_ || _); [|apply touches_stop]. apply touches_then; [apply touches_stop|]. intros z. apply touches_put, Hrec, Ht.
      - unfold pruneAccounts. apply creates_then; [apply creates_prune|]. intros m. destruct (decide (m = ∅)); intros N x _ Ex; exact Ex. }
    specialize (Hb1 M a HP Ea). destruct (push_body H oob ledger L_get L_put body h M) as ([[]| | |] & M1); cbn [snd] in Hb1;
      [|injection EP as _ <- _; exact Hb1..].
    destruct (BlockReward c h) as (c1 & base).
    assert (Hi : touches P (andthen ledger (stop ledger base) (fun base => pushInherents ledger L_get L_put body h base))).
    { apply touches_then; [apply touches_stop|]. intros x. unfold pushInherents. apply touches_then; [apply touches_stop|]. intros r. apply touches_pushTx. left. reflexivity. }
    specialize (Hi M1 a HP). destruct (andthen ledger _ _ M1) as (o2 & M2). injection EP as _ <- _. cbn [snd] in Hi. rewrite Hi. exact Hb1. }
  assert (Hdom : forall a, M !! a = None -> is_Some (M' !! a) ->
     exists body, bl_body b = Some body /\ (a = bb_miner body \/ exists t, t ∈ txs_of body /\ tx_recipient t = a)).
  { intros a En (x & Ex). destruct (Hgrow a) as [E0|?]; [unfold acct; rewrite En; reflexivity| |assumption].
    exfalso. destruct (proj1 HL' a x Ex) as (_ & _ & Hne). unfold acct in E0. rewrite Ex in E0. cbn in E0. contradiction. }
  split; [exact Hdom|].
  set (extra := match bl_body b with Some body => bb_miner body :: map tx_recipient (txs_of body) | None => [] end).
  assert (Hincl : (map_to_list M').*1 ⊆ (map_to_list M).*1 ++ extra).
  { intros a Ha. apply elem_of_list_fmap in Ha as ((a' & x) & -> & Ha). cbn. apply elem_of_map_to_list in Ha. apply elem_of_app.
    destruct (M !! a') as [y|] eqn:Ey; [left; apply elem_of_list_fmap; exists (a', y); split; [reflexivity|apply elem_of_map_to_list, Ey]|right].
    destruct (Hdom a' Ey ltac:(eauto)) as (body & Eb & Hc'). unfold extra. rewrite Eb. destruct Hc' as [->|(t & Ht & <-)]; [left|right].
    apply elem_of_list_fmap. exists t. auto. }
  pose proof (submseteq_length _ _ (NoDup_submseteq _ _ (NoDup_fst_map_to_list M') Hincl)) as Hle.
  rewrite app_length, !fmap_length in Hle. change (length (map_to_list M')) with (size M') in Hle. change (length (map_to_list M)) with (size M) in Hle.
  unfold extra in Hle. destruct (bl_body b); cbn [length] in Hle; rewrite ?map_length in Hle; lia.
Qed.
Print Assumptions C122_new_accounts.

(** Along a chain: accounts, nodes of the store, and node objects ever allocated are linear in what the blocks contain. *)
Definition block_weight (b : Block) : nat :=
  match bl_body b with Some body => length (txs_of body) + 1 | None => 0 end.
Definition block_writes (b : Block) : nat :=
  match bl_body b with Some body => 2 * length (txs_of body) + creations (txs_of body) + length (bb_pruned body) + 1 | None => 0 end.
Theorem C122_chain_growth H oob s c M bs s' c' M' :
  hash_fn H -> areach H oob s c -> lists s M -> chain H oob s c bs s' c' -> lists s' M' ->
  (size M' <= size M + foldr Nat.add 0 (map block_weight bs))%nat /\
  (next s' <= next s + 2 * foldr Nat.add 0 (map block_writes bs))%nat /\
  forall m, sto s' = MemStore m -> (size m <= 1 + 2 * size M')%nat.
Proof.
  intros HH Hr HL Hch HL'.
  assert (Hr' : areach H oob s' c') by (eapply chain_areach; eassumption).
  assert (G : (size M' <= size M + foldr Nat.add 0 (map block_weight bs))%nat /\ (next s' <= next s + 2 * foldr Nat.add 0 (map block_writes bs))%nat).
  { clear Hr'. revert M Hr HL. induction Hch as [s c|s c b bs s1 c1 s' c' Hb E Hch IH]; intros M Hr HL.
    - rewrite (lists_unique s M M' HL HL'). cbn. lia.
    - pose proof (areach_push H oob s c b (Ok tt) s1 c1 Hr Hb E) as Hr1.
      destruct (C52_ledger_exists H oob s1 c1 HH Hr1) as (M1 & HL1 & _). destruct (IH HL' M1 Hr1 HL1) as (G1 & G2).
      destruct (C122_new_accounts H oob s c M b (Ok tt) s1 c1 M1 HH Hr HL Hb E HL1) as (_ & G3).
      assert (G4 : (next s1 <= next s + 2 * block_writes b)%nat).
      { unfold block_writes. destruct (bl_body b) as [body|] eqn:Eb; [|unfold tree_Push, Push in E; rewrite Eb in E; discriminate E].
        destruct (C122_writes_of_a_block H oob s c b (Ok tt) s1 c1 body E Eb) as (w & Ew & Fw & Lw).
        destruct (lists_holds H oob s c M HH Hr HL) as ((T & _) & _).
        pose proof (C115_history_cost H s _ w s1 T) as Hc. destruct Hc as (_ & Hc); [|exact Ew|lia].
        eapply Forall_impl; [exact Fw|]. intros (k & v) Hk. cbn in *. apply (party_20 H b body k HH Hb Eb Hk). }
      cbn [map foldr]. unfold block_weight at 1. lia. }
  destruct G as (G1 & G2). split; [exact G1|]. split; [exact G2|]. intros m Em.
  destruct (lists_holds H oob s' c' M' HH Hr' HL') as ((T & _) & _).
  pose proof (C115_mem_store_size H s' _ m T Em) as Hs. unfold enc_ledger in Hs. rewrite map_size_fmap in Hs. lia.
Qed.
Print Assumptions C122_chain_growth.

(** ** Concrete case: the bound is reached: two payments to new addresses and a new miner make three new accounts. *)
Definition spread : list Tx := [pay 1 (addr 3) 100 1; pay 2 (addr 5) 20 1].
Example C122_case oob :
  areach toy_hash oob (state_of small_accounts) initial_cache /\ block_ok (transfer_block spread) /\
  block_weight (transfer_block spread) = 3%nat /\ block_writes (transfer_block spread) = 5%nat /\
  let '(o, s', c') := tree_Push toy_hash oob (state_of small_accounts) initial_cache (transfer_block spread) in
  o = Ok tt /\ chain toy_hash oob (state_of small_accounts) initial_cache [transfer_block spread] s' c' /\
  map (tree_get_account (state_of small_accounts)) [addr 3; addr 4; addr 5] = [Ok (ABasic 0); Ok (ABasic 0); Ok (ABasic 0)] /\
  map (tree_get_account s') [addr 3; addr 4; addr 5] = [Ok (ABasic 100); Ok (ABasic 440597536); Ok (ABasic 20)].
Proof.
  assert (Hb : block_ok (transfer_block spread)).
  { apply transfer_block_ok; [|reflexivity].
    repeat (apply Forall_cons; split; [apply pay_ok; [lia|apply addr_ok|unfold u64; lia..]|]). apply Forall_nil. exact I. }
  split; [apply (state_of_ok oob), small_accounts_ok|]. split; [exact Hb|]. split; [reflexivity|]. split; [reflexivity|].
  assert (T : let '(o, s', c') := tree_Push toy_hash oob (state_of small_accounts) initial_cache (transfer_block spread) in
    o = Ok tt /\ map (tree_get_account s') [addr 3; addr 4; addr 5] = [Ok (ABasic 100); Ok (ABasic 440597536); Ok (ABasic 20)])
    by (vm_compute; split; reflexivity).
  destruct (tree_Push toy_hash oob (state_of small_accounts) initial_cache (transfer_block spread)) as ((o & s') & c') eqn:E.
  destruct T as (-> & T). split; [reflexivity|]. split; [econstructor; [exact Hb|exact E|constructor]|].
  split; [vm_compute; reflexivity|exact T].
Qed.
