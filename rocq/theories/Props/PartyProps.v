(** C116: Push depends only on the accounts of the parties of the block. *)
From Coq Require Import ZArith List Lia Bool.
From stdpp Require Import gmap list.
From Verif.Model Require Import Base Address Beserial Wire Policy Account Tree Accounts.
From Verif.Spec Require Import AddressSpec TreeSpec TreeHistory PolicySpec BeserialSpec WireSpec AccountSpec AccountsSpec PushSpec RulesSpec.
From Verif.Proofs Require Import BaseFacts PolicyFacts AccountFacts LedgerFacts PushFacts AccountsFacts RulesFacts.
From Verif.Props Require Import AccountProps AccountsProps RulesProps.
Open Scope Z_scope.

(** ** Steps that read and write only the accounts of [P] *)
Section Reads.
  Context (H : bytes -> bytes) (oob : float64 -> Z) (P : bytes -> Prop).
  Definition agree (M N : ledger) : Prop := forall a, P a -> acct M a = acct N a.
  Definition reads {X : Type} (m : step ledger X) : Prop :=
    forall M N, agree M N -> fst (m M) = fst (m N) /\ agree (snd (m M)) (snd (m N)).
  Lemma reads_then {X Y : Type} (m : step ledger X) (k : X -> step ledger Y) :
    reads m -> (forall x, reads (k x)) -> reads (andthen ledger m k).
  Proof.
    intros Hm Hk M N Ha. unfold andthen. destruct (Hm M N Ha) as (E & Ha1).
    destruct (m M) as (o & M1), (m N) as (o' & N1). cbn in E, Ha1. subst o'.
    destruct o as [x|e| |]; [apply Hk, Ha1|split; [reflexivity|exact Ha1]..].
  Qed.
  Lemma reads_stop {X : Type} (r : res X) : reads (stop ledger r).
  Proof. intros M N Ha. split; [reflexivity|exact Ha]. Qed.
  Lemma reads_get a : P a -> reads (get_account ledger L_get a).
  Proof. intros Hp M N Ha. cbn. unfold L_get. rewrite (Ha a Hp). split; [reflexivity|exact Ha]. Qed.
  Lemma reads_put a x : reads (put_account ledger L_put a x).
  Proof.
    intros M N Ha. cbn. split; [reflexivity|]. intros b Hb. rewrite !acct_set. case_decide; [reflexivity|apply Ha, Hb].
  Qed.
  Lemma reads_pushTx a typ t h op : P a -> reads (pushTx ledger L_get L_put a typ t h op).
  Proof.
    intros Hp. unfold pushTx. apply reads_then; [apply reads_get, Hp|]. intros x.
    destruct (negb _ && negb _); [apply reads_stop|]. apply reads_then; [apply reads_stop|]. intros y. apply reads_put.
  Qed.
  Lemma reads_for (f : Tx -> step ledger unit) l : (forall t, t ∈ present l -> reads (f t)) -> reads (for_txs ledger f l).
  Proof.
    induction l as [|[t|] l IH]; intros Hf; cbn [for_txs]; [apply reads_stop| |apply reads_stop].
    apply reads_then; [apply Hf; constructor|]. intros _. apply IH. intros u Hu. apply Hf. constructor. exact Hu.
  Qed.
  Lemma reads_prune l : (forall t, t ∈ present l -> P (tx_sender H t)) -> forall m, reads (prune_txs H ledger L_get L_put l m).
  Proof.
    induction l as [|[t|] l IH]; intros Hf m; cbn [prune_txs]; [apply reads_stop| |apply reads_stop].
    assert (IH' : forall m, reads (prune_txs H ledger L_get L_put l m)) by (apply IH; intros u Hu; apply Hf; constructor; exact Hu).
    rewrite get_sender. apply reads_then; [apply reads_get, Hf; constructor|]. intros y.
    destruct (negb (IsEmpty y) || (AccountType y =? 0)); [apply IH'|].
    destruct (m !! tx_sender H t) as [p|]; [|apply reads_stop]. destruct (negb (AccountEq p (Some y))); [apply reads_stop|].
    apply reads_then; [apply reads_put|]. intros _. apply IH'.
  Qed.
End Reads.

Lemma push_reads H oob M N c d b o1 o2 M' N' c' d' :
  cache_ok c -> cache_ok d -> block_ok b ->
  (forall body a, bl_body b = Some body -> is_party H body a -> acct M a = acct N a) ->
  ledger_Push H oob M c b = (o1, M', c') -> ledger_Push H oob N d b = (o2, N', d') ->
  o1 = o2 /\ (forall body a, bl_body b = Some body -> is_party H body a -> acct M' a = acct N' a).
Proof.
  intros Hc Hd (Hh & _) Ha. unfold Push. cbv zeta. destruct (bl_body b) as [body|].
  2:{ intros [= <- <- <-] [= <- <- <-]. split; [reflexivity|discriminate]. }
  set (P := is_party H body). assert (HP : agree P M N) by (intros a Hp; apply (Ha body a eq_refl Hp)). clear Ha.
  assert (Hs : forall t, t ∈ present (bb_txs body) -> P (tx_sender H t)) by (intros t Ht; right; exists t; auto).
  assert (Hr : forall t, t ∈ present (bb_txs body) -> P (tx_recipient t)) by (intros t Ht; right; exists t; auto).
  assert (Hb : reads P (push_body H oob ledger L_get L_put body (bh_height (bl_header b)))).
  { unfold push_body. apply reads_then; [|intros _; apply reads_then; [|intros _; apply reads_then; [|intros _; apply reads_then]]].
    - apply reads_for. intros t Ht. unfold push_sender. cbv zeta. rewrite content_sender. apply reads_pushTx, Hs, Ht.
    - apply reads_for. intros t Ht. unfold push_recipient. cbv zeta. rewrite content_recipient. apply reads_pushTx, Hr, Ht.
    - apply reads_for. intros t Ht. unfold create_step, createContract. cbv zeta. destruct (creates_contract (AsTxContent H t)); [|apply reads_stop].
      cbn [negb]. rewrite content_recipient. apply reads_then; [apply reads_get, Hr, Ht|]. intros y. destruct (_ =? 0); [apply reads_stop|].
      destruct (_ || _); [|apply reads_stop]. apply reads_then; [apply reads_stop|]. intros z. apply reads_put.
    - apply reads_prune. exact Hs.
    - intros m. destruct (decide (m = ∅)); apply reads_stop. }
  destruct (Hb M N HP) as (Eo & HP1).
  destruct (push_body H oob ledger L_get L_put body _ M) as (o & M1), (push_body H oob ledger L_get L_put body _ N) as (o' & N1).
  cbn in Eo, HP1. subst o'.
  assert (Hout : forall a, P a -> acct M1 a = acct N1 a) by exact HP1.
  destruct o as [[]|e| |].
  2-4: intros [= <- <- <-] [= <- <- <-]; split; [reflexivity|]; intros body' a [= <-] Hp; apply HP1, Hp.
  assert (Hu : u32 (bh_height (bl_header b))) by apply Hh.
  destruct (BlockReward_ok c _ Hc Hu) as (_ & R1). destruct (BlockReward_ok d _ Hd Hu) as (_ & R2).
  destruct (BlockReward c _) as (c1 & base), (BlockReward d _) as (d1 & base'). cbn in R1, R2. rewrite <- R1 in R2. subst base'. clear R1.
  assert (Hi : reads P (andthen ledger (stop ledger base) (fun base => pushInherents ledger L_get L_put body (bh_height (bl_header b)) base))).
  { apply reads_then; [apply reads_stop|]. intros x. unfold pushInherents. apply reads_then; [apply reads_stop|]. intros r.
    apply reads_pushTx. left. reflexivity. }
  destruct (Hi M1 N1 HP1) as (Eo & HP2).
  destruct (andthen ledger _ _ M1) as (o & M2), (andthen ledger _ _ N1) as (o' & N2). cbn in Eo, HP2. subst o'.
  intros [= <- <- <-] [= <- <- <-]. split; [reflexivity|]. intros body' a [= <-] Hp. apply HP2, Hp.
Qed.

Lemma party_20 H b body a : hash_fn H -> block_ok b -> bl_body b = Some body -> is_party H body a -> array 20 a.
Proof.
  intros HH (_ & Hb) Eb Hp. specialize (Hb body Eb). destruct Hp as [->|(t & Ht & Hp)]; [apply Hb|].
  assert (Hok : tx_ok t).
  { destruct Hb as (_ & _ & _ & _ & Hb & _). apply elem_of_list_In, in_flat_map in Ht as (x & Hx & Hin).
    destruct x as [x|]; [|contradiction]. destruct Hin as [->|[]].
    rewrite List.Forall_forall in Hb. destruct (Hb _ Hx) as (t' & [= <-] & Ht'). exact Ht'. }
  destruct Hp as [<-| <-]; [apply sender_20; assumption|apply recipient_20; assumption].
Qed.

(** C116.  Whether a block is accepted, the error or panic if not, and what it does
    to the accounts of its parties depend on nothing but the accounts of its parties:
    two Accounts objects with these accounts in common, whatever their other accounts,
    their histories, stores and memo tables, behave the same. *)
Theorem C116_only_parties_matter H oob s1 c1 s2 c2 b o1 o2 s1' s2' c1' c2' :
  hash_fn H -> areach H oob s1 c1 -> areach H oob s2 c2 -> block_ok b ->
  (forall body a, bl_body b = Some body -> is_party H body a -> tree_get_account s1 a = tree_get_account s2 a) ->
  tree_Push H oob s1 c1 b = (o1, s1', c1') -> tree_Push H oob s2 c2 b = (o2, s2', c2') ->
  o1 = o2 /\
  (forall body a, bl_body b = Some body -> is_party H body a -> tree_get_account s1' a = tree_get_account s2' a).
Proof.
  intros HH Hr1 Hr2 Hb Ha E1 E2.
  destruct (C52_ledger_exists H oob s1 c1 HH Hr1) as (M & HL1 & _). destruct (C52_ledger_exists H oob s2 c2 HH Hr2) as (N & HL2 & _).
  destruct (push_ledger H oob s1 c1 M b o1 s1' c1' HH Hr1 HL1 Hb E1) as (M' & EM & HM' & _ & Hc1 & HM).
  destruct (push_ledger H oob s2 c2 N b o2 s2' c2' HH Hr2 HL2 Hb E2) as (N' & EN & HN' & _ & Hc2 & HN).
  assert (H20 : forall body a, bl_body b = Some body -> is_party H body a -> array 20 a).
  { intros body a Eb Hp. eapply party_20; eassumption. }
  destruct (push_reads H oob M N c1 c2 b o1 o2 M' N' c1' c2' Hc1 Hc2 Hb) as (Eo & Hag); [|exact EM|exact EN|].
  { intros body a Eb Hp. specialize (Ha body a Eb Hp). specialize (H20 body a Eb Hp).
    rewrite (tree_get H s1 M a HM H20), (tree_get H s2 N a HN H20) in Ha. congruence. }
  split; [exact Eo|]. intros body a Eb Hp. specialize (H20 body a Eb Hp).
  rewrite (tree_get H s1' M' a HM' H20), (tree_get H s2' N' a HN' H20). f_equal. eapply Hag; eassumption.
Qed.
Print Assumptions C116_only_parties_matter.

Lemma party_dec H body a : is_party H body a \/ ~ is_party H body a.
Proof.
  unfold is_party. destruct (decide (a = bb_miner body)) as [E|E]; [left; left; exact E|].
  destruct (decide (Exists (fun t => tx_sender H t = a \/ tx_recipient t = a) (txs_of body))) as [Hx|Hx].
  - left. right. apply Exists_exists in Hx. exact Hx.
  - right. intros [?|Hp]; [contradiction|]. apply Hx, Exists_exists. exact Hp.
Qed.
(** The same for chains of blocks: what the blocks do to the accounts they mention, and whether
    they are all accepted, depends only on these accounts. *)
Definition mentioned (H : bytes -> bytes) (bs : list Block) (a : bytes) : Prop :=
  exists b body, b ∈ bs /\ bl_body b = Some body /\ is_party H body a.
Theorem C116_chain H oob s1 c1 s2 c2 bs s1' c1' :
  hash_fn H -> areach H oob s1 c1 -> areach H oob s2 c2 ->
  (forall a, mentioned H bs a -> tree_get_account s1 a = tree_get_account s2 a) ->
  chain H oob s1 c1 bs s1' c1' ->
  exists s2' c2', chain H oob s2 c2 bs s2' c2' /\
    forall a, mentioned H bs a -> tree_get_account s1' a = tree_get_account s2' a.
Proof.
  intros HH Hr1 Hr2 Ha Hch.
  assert (G : forall Q : bytes -> Prop, (forall a, Q a -> array 20 a /\ tree_get_account s1 a = tree_get_account s2 a) ->
    (forall a, mentioned H bs a -> Q a) ->
    exists s2' c2', chain H oob s2 c2 bs s2' c2' /\ forall a, Q a -> tree_get_account s1' a = tree_get_account s2' a).
  { clear Ha. intros Q. revert s2 c2 Hr1 Hr2.
    induction Hch as [s c|s c b bs sm cm s' c' Hb E Hch IH]; intros s2 c2 Hr1 Hr2 HQ Hm.
    { exists s2, c2. split; [constructor|apply HQ]. }
    destruct (tree_Push H oob s2 c2 b) as ((o2 & s2m) & c2m) eqn:E2.
    destruct (C116_only_parties_matter H oob s c s2 c2 b (Ok tt) o2 sm s2m cm c2m HH Hr1 Hr2 Hb) as (<- & Hag); [|exact E|exact E2|].
    { intros body a Eb Hp. apply HQ, Hm. exists b, body. split; [left|auto]. }
    destruct (IH s2m c2m) as (s2' & c2' & Hch2 & Hfin).
    - exact (areach_push H oob s c b (Ok tt) sm cm Hr1 Hb E).
    - exact (areach_push H oob s2 c2 b (Ok tt) s2m c2m Hr2 Hb E2).
    - intros a Hq. destruct (HQ a Hq) as (H20 & Eq). split; [exact H20|].
      destruct (bl_body b) as [body|] eqn:Eb.
      2:{ rewrite (C56_only_parties H oob s c b (Ok tt) sm cm a HH Hr1 Hb E H20), (C56_only_parties H oob s2 c2 b (Ok tt) s2m c2m a HH Hr2 Hb E2 H20); [exact Eq|congruence..]. }
      destruct (party_dec H body a) as [Hp|Hp]; [exact (Hag body a eq_refl Hp)|].
      rewrite (C56_only_parties H oob s c b (Ok tt) sm cm a HH Hr1 Hb E H20), (C56_only_parties H oob s2 c2 b (Ok tt) s2m c2m a HH Hr2 Hb E2 H20); [exact Eq|..];
        intros body' Eb'; rewrite Eb in Eb'; injection Eb' as <-; exact Hp.
    - intros a (b' & body & Hin & Hx). apply Hm. exists b', body. split; [right; exact Hin|exact Hx].
    - exists s2', c2'. split; [econstructor; eassumption|exact Hfin]. }
  apply (G (mentioned H bs)); [|auto]. intros a Hm. split; [|apply Ha, Hm].
  destruct Hm as (b & body & Hin & Eb & Hp).
  assert (Hb : block_ok b). { clear -Hch Hin. induction Hch; [inversion Hin|]. apply elem_of_cons in Hin as [->|Hin]; auto. }
  eapply party_20; eassumption.
Qed.
Print Assumptions C116_chain.

(** ** Concrete case: the same block on the accounts of the examples and on a much smaller object that
    has only the accounts of the senders, and another history. *)
Definition other_accounts : list (bytes * Account) := [(addr 9, ABasic 77); (addr 2, ABasic 50); (addr 1, ABasic 1000)].
Example C116_case oob :
  areach toy_hash oob (state_of small_accounts) initial_cache /\ areach toy_hash oob (state_of other_accounts) initial_cache /\
  block_ok (transfer_block transfers) /\
  (forall body a, bl_body (transfer_block transfers) = Some body -> is_party toy_hash body a ->
     tree_get_account (state_of small_accounts) a = tree_get_account (state_of other_accounts) a) /\
  tree_get_account (state_of small_accounts) contract_addr <> tree_get_account (state_of other_accounts) contract_addr.
Proof.
  assert (Hok : Forall (fun p : bytes * Account => array 20 p.1 /\ account_ok p.2) other_accounts).
  { repeat (apply Forall_cons; split; [split; [apply addr_ok|cbn; unfold u64; lia]|]). apply Forall_nil. exact I. }
  split; [apply (state_of_ok oob), small_accounts_ok|]. split; [apply (state_of_ok oob), Hok|].
  split; [apply transfer_block_ok; [apply transfers_ok|reflexivity]|]. split; [|vm_compute; discriminate].
  intros body a [= <-] [->|(t & Hin & Hp)]; [vm_compute; reflexivity|].
  rewrite txs_of_body in Hin.
  repeat (apply elem_of_cons in Hin as [->|Hin]; [destruct Hp as [<-| <-]; vm_compute; reflexivity|]). inversion Hin.
Qed.
