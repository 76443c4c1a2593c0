(** Properties C52-C58 and C65-C67: the accounts of a chain and applying blocks to them.

    In the statements [lists s M] says that GetAccount on the tree [s] returns, for every
    address, what the ledger [M] says; [areach H oob s c] that [s], [c] arise from a new tree by
    any sequence of calls (Spec/AccountsSpec.v). *)
From Coq Require Import ZArith List Lia Bool.
From stdpp Require Import gmap list.
From Verif.Model Require Import Base Address Beserial Wire Policy Account Tree Accounts.
From Verif.Spec Require Import AddressSpec TreeSpec TreeHistory PolicySpec BeserialSpec WireSpec AccountSpec AccountsSpec.
From Verif.Proofs Require Import BaseFacts PolicyFacts AccountFacts LedgerFacts PushFacts AccountsFacts TransferFacts.
From Verif.Props Require Import TreeProps WireProps AccountProps.
Open Scope Z_scope.

Lemma push_ledger H oob s c M b o s' c' : hash_fn H -> areach H oob s c -> lists s M -> block_ok b ->
  tree_Push H oob s c b = (o, s', c') ->
  exists M', ledger_Push H oob M c b = (o, M', c') /\ tree_holds H s' M' /\ ledger_ok M /\ cache_ok c /\ tree_holds H s M.
Proof.
  intros HH Hr HL Hb E. destruct (lists_holds H oob s c M HH Hr HL) as (HM & Hc).
  pose proof (tree_sim H oob s M c b HH HM Hb) as Hs. rewrite E in Hs. destruct Hs as (M' & E' & HM').
  exists M'. split; [exact E'|]. split; [exact HM'|]. split; [apply HL|]. split; assumption.
Qed.

(** ** A small ledger for the examples *)
Ltac split_ands := repeat match goal with |- _ /\ _ => split end.
Definition toy_hash (x : bytes) : bytes := repeat ((hd 0 x + foldr Z.add 0 x) mod 256) 32.
Lemma toy_hash_fn : hash_fn toy_hash.
Proof. intros x. apply array_repeat. apply Z.mod_pos_bound. reflexivity. Qed.
Definition key (i : Z) : bytes := repeat i 32.
Definition addr (i : Z) : bytes := firstn 20 (toy_hash (key i)).
Definition contract_addr : bytes := repeat 200 20.
Definition ledger_of (l : list (bytes * Account)) : ledger := foldl (fun M p => set_acct M p.1 (Some p.2)) ∅ l.
Definition setup (l : list (bytes * Account)) : res state :=
  foldl (fun s p => let? s := s in tree_put_account toy_hash s p.1 (Some p.2)) (Ok new_tree) l.
Lemma setup_ok oob l : Forall (fun p : bytes * Account => array 20 p.1 /\ account_ok p.2) l ->
  exists s, setup l = Ok s /\ areach toy_hash oob s initial_cache /\ lists s (ledger_of l).
Proof.
  intros Hl. unfold setup, ledger_of.
  assert (G : forall s M, areach toy_hash oob s initial_cache -> tree_holds toy_hash s M ->
    exists s', foldl (fun (s : res state) (p : bytes * Account) => let? s := s in tree_put_account toy_hash s p.1 (Some p.2)) (Ok s) l = Ok s' /\
      areach toy_hash oob s' initial_cache /\ lists s' (foldl (fun (M : ledger) (p : bytes * Account) => set_acct M p.1 (Some p.2)) M l)).
  { induction Hl as [|(a & x) l (Ha & Hx) _ IH]; intros s M Hr HM; cbn [foldl].
    - exists s. split; [reflexivity|]. split; [exact Hr|]. eapply holds_lists, HM.
    - cbn [fst snd bind] in *. assert (Hy : forall y, Some x = Some y -> account_ok y) by (intros y Ey; injection Ey as <-; exact Hx).
      destruct (tree_put toy_hash s M a (Some x) HM Ha Hy) as (s1 & E1 & HM1).
      rewrite E1. apply IH; [|exact HM1]. eapply areach_put; [exact Hr|exact Ha|exact Hy|exact E1]. }
  apply G; [constructor|]. split; [|apply ledger_ok_empty]. unfold enc_ledger. rewrite fmap_empty. constructor.
Qed.
Definition state_of (l : list (bytes * Account)) : state := match setup l with Ok s => s | _ => new_tree end.
Lemma state_of_ok oob l : Forall (fun p : bytes * Account => array 20 p.1 /\ account_ok p.2) l ->
  areach toy_hash oob (state_of l) initial_cache /\ lists (state_of l) (ledger_of l).
Proof. intros Hl. destruct (setup_ok oob l Hl) as (s & E & Hr & HL). unfold state_of. rewrite E. split; assumption. Qed.
Definition pay (i : Z) (to : bytes) (value fee : Z) : Tx := TBasic (MkBasicTx (key i) to value fee 1 42 (repeat 0 64)).
Definition block_of (height : Z) (body : BlockBody) : Block :=
  MkBlock (MkHeader 1 (repeat 0 32) (repeat 0 32) (repeat 0 32) (repeat 0 32) 0 height 0 0)
          (MkInterlink (MkBitSet 0 []) [] (repeat 0 32) []) (Some body).
Lemma block_of_ok h body : u32 h -> body_ok body -> block_ok (block_of h body).
Proof.
  intros Hh Hb. split; [|intros x [= <-]; exact Hb]. unfold header_ok. cbn -[repeat Z.pow]. unfold u16, PolicySpec.u32, WireSpec.u32 in *.
  split_ands; try lia; try (apply array_repeat; lia).
Qed.
Lemma addr_ok i : array 20 (addr i).
Proof. destruct (toy_hash_fn (key i)) as (Hl & Hb). split; [unfold addr; rewrite firstn_length; lia|apply bytes_ok_firstn; exact Hb]. Qed.
Lemma pay_ok i to v f : 0 <= i < 256 -> array 20 to -> u64 v -> u64 f -> tx_ok (pay i to v f).
Proof.
  intros Hi Ht Hv Hf. cbn -[repeat Z.pow]. unfold key, WireSpec.u32, u8.
  split_ands; try lia; try exact Ht; try apply Hv; try apply Hf; try (apply array_repeat; lia).
Qed.
Definition body_of (miner : bytes) (txs : list Tx) (pruned : list AccountPruned) : BlockBody := MkBody miner [] (map Some txs) pruned.
Lemma body_of_ok m txs pruned : array 20 m -> Forall tx_ok txs -> zlen txs < 2 ^ 16 -> Forall pruned_ok pruned -> zlen pruned < 2 ^ 16 ->
  body_ok (body_of m txs pruned).
Proof.
  intros Hm Ht Hl Hp Hn. split; [exact Hm|]. split; [constructor|]. split; [reflexivity|]. split; [cbn; unfold zlen in *; rewrite map_length; exact Hl|].
  split; [|split; assumption]. cbn. clear -Ht. induction Ht as [|t txs Ht _ IH]; cbn; constructor; eauto.
Qed.
Lemma txs_of_body m txs p : txs_of (body_of m txs p) = txs.
Proof. unfold txs_of, body_of. cbn [bb_txs]. induction txs as [|t txs IH]; [reflexivity|]. cbn. f_equal. exact IH. Qed.

(** ** C52 *)
Theorem C52_read_back H oob s c a x :
  hash_fn H -> areach H oob s c -> array 20 a -> (forall y, x = Some y -> account_ok y) ->
  exists s', tree_put_account H s a x = Ok s' /\
    tree_get_account s' a = Ok (match x with Some y => y | None => ABasic 0 end) /\
    forall b, array 20 b -> b <> a -> tree_get_account s' b = tree_get_account s b.
Proof.
  intros HH Hr Ha Hx. destruct (areach_holds H oob s c HH Hr) as ((M & HM) & _). destruct (tree_put H s M a x HM Ha Hx) as (s' & E & HM').
  exists s'. split; [exact E|]. split.
  - rewrite (tree_get H s' _ a HM' Ha), acct_set_eq. destruct x; reflexivity.
  - intros b Hb Hne. rewrite (tree_get H s' _ b HM' Hb), (tree_get H s _ b HM Hb), acct_set_ne by exact Hne. reflexivity.
Qed.
Print Assumptions C52_read_back.
Theorem C52_get_returns H oob s c a :
  hash_fn H -> areach H oob s c -> array 20 a -> exists x, tree_get_account s a = Ok x /\ account_ok x.
Proof.
  intros HH Hr Ha. destruct (areach_holds H oob s c HH Hr) as ((M & HM) & _). exists (acct M a).
  split; [apply (tree_get H s M a HM Ha)|]. apply acct_ok, HM.
Qed.
Print Assumptions C52_get_returns.
(** Every reachable state is described by exactly one ledger. *)
Theorem C52_ledger_exists H oob s c :
  hash_fn H -> areach H oob s c -> exists M, lists s M /\ forall M', lists s M' -> M' = M.
Proof.
  intros HH Hr. destruct (areach_holds H oob s c HH Hr) as ((M & HM) & _). exists M. pose proof (holds_lists H s M HM) as HL.
  split; [exact HL|]. intros M' HL'. apply (lists_unique s); assumption.
Qed.
Print Assumptions C52_ledger_exists.
Definition small_accounts : list (bytes * Account) :=
  [(addr 1, ABasic 1000); (addr 2, ABasic 50);
   (contract_addr, AHTLC (MkHTLC 500 (addr 1) (addr 2) (MkHash 3 (repeat 9 32)) 1 1000 500))].
Lemma small_accounts_ok : Forall (fun p : bytes * Account => array 20 p.1 /\ account_ok p.2) small_accounts.
Proof.
  assert (G : array 20 contract_addr) by (apply array_repeat; lia).
  repeat (constructor; [split; [try apply addr_ok; try exact G|]|]); try constructor; cbn [snd account_ok]; unfold u64, WireSpec.u32, u8, hash_ok; cbn -[repeat Z.pow addr]; try lia;
    split_ands; try lia; try apply addr_ok; try (apply array_repeat; lia).
Qed.
Example C52_example oob :
  areach toy_hash oob (state_of small_accounts) initial_cache /\
  map (tree_get_account (state_of small_accounts)) [addr 1; addr 2; addr 3] = [Ok (ABasic 1000); Ok (ABasic 50); Ok (ABasic 0)].
Proof. split; [apply (state_of_ok oob), small_accounts_ok|vm_compute; reflexivity]. Qed.

(** ** C53 *)
Theorem C53_transfers H oob s c M b body o s' c' :
  hash_fn H -> areach H oob s c -> lists s M -> block_ok b -> bl_body b = Some body ->
  bh_height (bl_header b) <> 0 ->
  Forall (plain_transfer H M) (txs_of body) -> is_basic (acct M (bb_miner body)) -> bb_pruned body = [] ->
  total M + block_reward_spec (bh_height (bl_header b)) < 2 ^ 64 ->
  tree_Push H oob s c b = (o, s', c') ->
  (o = Ok tt <-> forall a, sent H (txs_of body) a <= Balance (acct M a)) /\
  (o = Ok tt \/ overspends o) /\
  (o = Ok tt -> forall a, array 20 a ->
     tree_get_account s' a =
     Ok (with_balance (acct M a)
           (Balance (acct M a) - sent H (txs_of body) a + received (txs_of body) a +
            (if decide (a = bb_miner body) then block_reward_spec (bh_height (bl_header b)) + fees (txs_of body) else 0)))).
Proof.
  intros HH Hr HL Hb Eb Hh Hp Hm Hpr Ht E. destruct (push_ledger H oob s c M b o s' c' HH Hr HL Hb E) as (M' & E' & HM' & HM & Hc & _).
  pose proof (plain_outcome H oob M c b body HH HM Hc Hb Eb Hh Hp Hm Hpr) as (P1 & P2). rewrite E' in P1, P2. cbn [fst] in P1, P2.
  assert (Hdec : (forall a, sent H (txs_of body) a <= Balance (acct M a)) \/ exists a, Balance (acct M a) < sent H (txs_of body) a).
  { set (S := map (tx_sender H) (txs_of body)).
    destruct (Exists_dec (fun a => Balance (acct M a) < sent H (txs_of body) a) S) as [Hd|Hd].
    - right. apply Exists_exists in Hd as (a & _ & Ha). eauto.
    - left. intros a. destruct (decide (a ∈ S)) as [Hin|Hout].
      + destruct (Z_lt_dec (Balance (acct M a)) (sent H (txs_of body) a)) as [Hlt|]; [|lia]. exfalso. apply Hd. apply Exists_exists. eauto.
      + assert (Ez : sent H (txs_of body) a = 0).
        { unfold sent. rewrite (sum_map_ext _ (fun _ => 0)), sum_map_zero; [reflexivity|]. intros t Hin. rewrite decide_False; [reflexivity|].
          intros <-. apply Hout. unfold S. apply elem_of_list_fmap_1. exact Hin. }
        rewrite Ez. pose proof (balance_64 _ (acct_ok M a HM)) as Hu. unfold u64 in Hu. lia. }
  assert (Hcase : (o = Ok tt /\ forall a, sent H (txs_of body) a <= Balance (acct M a)) \/ (overspends o /\ exists a, Balance (acct M a) < sent H (txs_of body) a)).
  { destruct Hdec as [Hd|Hd]; [left|right]; auto. }
  split; [|split].
  - destruct Hcase as [(-> & Hall)|((av & sp & -> & _) & (a & Ha))]; [tauto|]. split; [discriminate|]. intros Hall. specialize (Hall a). lia.
  - destruct Hcase as [(-> & _)|(Ho & _)]; auto.
  - intros ->. destruct Hcase as [(_ & Hall)|(Ho & _)]; [|destruct Ho as (? & ? & Ho & _); discriminate Ho].
    destruct (balances_exact H oob M c b M' c' body HH HM Hc Hb Eb E') as (Hbal & _).
    + eapply Forall_impl; [exact Hp|]. intros t (_ & _ & _ & Hw & _). exact Hw.
    + intros a _. rewrite plain_charged by exact Hp. apply Hall.
    + rewrite plain_unpaid by exact Hp. lia.
    + intros a Ha. rewrite (tree_get H s' M' a HM' Ha). f_equal.
      destruct (push_effect H oob HH M c b M' c' HM Hc Hb E') as (_ & body' & Eb' & _ & _ & He). rewrite Eb in Eb'. injection Eb' as <-.
      destruct (He a) as (x & y & Hx & Hy & Hz). specialize (Hbal a) as (_ & Hbal). rewrite plain_charged in Hbal by exact Hp. rewrite <- Hbal.
      assert (Hnc : last_creation (txs_of body) a = None).
      { clear -Hp. induction Hp as [|t l (_ & _ & Hcr & _) _ IH]; [reflexivity|]. cbn. rewrite IH. destruct t as [|x]; [reflexivity|]. cbn in Hcr. rewrite Hcr. reflexivity. }
      unfold settled in Hx. cbv zeta in Hx. rewrite Hnc in Hx.
      assert (Hyx : y = x \/ is_basic (acct M a) /\ is_basic y).
      { destruct Hy as [((_ & Hnb & _) & Hli & _)|(_ & _ & ->)]; [|left; reflexivity]. rewrite Hpr in Hli. discriminate Hli. }
      destruct Hyx as [-> | (B1 & B2)].
      * assert (Ey : acct M' a = with_balance x (Balance (acct M' a))).
        { destruct (decide (a = bb_miner body)) as [->|].
          - destruct Hz as (Hbx & ->). destruct Hbx as (v & ->). reflexivity.
          - rewrite Hz. symmetry. apply with_same. }
        rewrite Ey at 1. rewrite Hx. apply with_with.
      * destruct (decide (a = bb_miner body)) as [->|].
        -- destruct Hz as (_ & ->). destruct B1 as (v & ->). reflexivity.
        -- rewrite Hz. destruct B1 as (v & ->). destruct B2 as (w & ->). reflexivity.
Qed.
Print Assumptions C53_transfers.
Definition transfers : list Tx := [pay 1 (addr 2) 100 5; pay 2 (addr 3) 30 1; pay 1 (addr 1) 200 7].
Definition transfer_block (txs : list Tx) : Block := block_of 1 (body_of (addr 4) txs []).
Lemma transfer_block_ok txs : Forall tx_ok txs -> zlen txs < 2 ^ 16 -> block_ok (transfer_block txs).
Proof. intros Ht Hl. apply block_of_ok; [unfold PolicySpec.u32, WireSpec.u32; lia|]. apply body_of_ok; [apply addr_ok|exact Ht|exact Hl|constructor|reflexivity]. Qed.
Lemma transfers_ok : Forall tx_ok transfers.
Proof. repeat (constructor; [apply pay_ok; [lia|apply addr_ok|unfold u64; lia|unfold u64; lia]|]). constructor. Qed.
Lemma transfers_plain : Forall (plain_transfer toy_hash (ledger_of small_accounts)) transfers.
Proof.
  repeat constructor; try (unfold no_wrap; cbn; lia); unfold is_basic; eexists; vm_compute; reflexivity.
Qed.
Lemma small_total : total (ledger_of small_accounts) + block_reward_spec 1 < 2 ^ 64.
Proof. assert (E : total (ledger_of small_accounts) = 1550) by (vm_compute; reflexivity). rewrite E. pose proof (block_reward_bound 1). assert (Er : block_reward_spec 1 = 440597534) by (vm_compute; reflexivity). rewrite Er. reflexivity. Qed.
Example C53_example oob :
  areach toy_hash oob (state_of small_accounts) initial_cache /\ lists (state_of small_accounts) (ledger_of small_accounts) /\
  block_ok (transfer_block transfers) /\ Forall (plain_transfer toy_hash (ledger_of small_accounts)) transfers /\
  total (ledger_of small_accounts) + block_reward_spec 1 < 2 ^ 64 /\
  let '(o, s', _) := tree_Push toy_hash oob (state_of small_accounts) initial_cache (transfer_block transfers) in
  o = Ok tt /\ map (tree_get_account s') [addr 1; addr 2; addr 3; addr 4] =
               [Ok (ABasic 888); Ok (ABasic 119); Ok (ABasic 30); Ok (ABasic 440597547)].
Proof.
  destruct (state_of_ok oob small_accounts small_accounts_ok) as (Hr & HL).
  split; [exact Hr|]. split; [exact HL|]. split; [apply transfer_block_ok; [apply transfers_ok|reflexivity]|]. split; [apply transfers_plain|].
  split; [apply small_total|]. vm_compute. split; reflexivity.
Qed.

(** ** C54 *)
Theorem C54_order_irrelevant H oob s c M b b' body body' o o' s1 s2 c1 c2 :
  hash_fn H -> areach H oob s c -> lists s M ->
  block_ok b -> bl_body b = Some body -> block_ok b' -> bl_body b' = Some body' ->
  bh_height (bl_header b) <> 0 -> bh_height (bl_header b') = bh_height (bl_header b) ->
  Forall (plain_transfer H M) (txs_of body) -> is_basic (acct M (bb_miner body)) -> bb_pruned body = [] ->
  total M + block_reward_spec (bh_height (bl_header b)) < 2 ^ 64 ->
  bb_miner body' = bb_miner body -> bb_pruned body' = [] -> txs_of body' ≡ₚ txs_of body ->
  tree_Push H oob s c b = (o, s1, c1) -> tree_Push H oob s c b' = (o', s2, c2) ->
  (o = Ok tt /\ o' = Ok tt \/ overspends o /\ overspends o') /\
  (o = Ok tt -> (forall a, array 20 a -> tree_get_account s1 a = tree_get_account s2 a) /\ Hash H s1 = Hash H s2).
Proof.
  intros HH Hr HL Hb Eb Hb' Eb' Hh Hh' Hp Hm Hpr Ht Hm' Hpr' Hperm E1 E2.
  assert (Hp' : Forall (plain_transfer H M) (txs_of body')) by (rewrite Hperm; exact Hp).
  assert (Es : forall a, sent H (txs_of body') a = sent H (txs_of body) a) by (intros a; apply sum_perm, Permutation_map, Hperm).
  assert (Er : forall a, received (txs_of body') a = received (txs_of body) a) by (intros a; apply sum_perm, Permutation_map, Hperm).
  assert (Ef : fees (txs_of body') = fees (txs_of body)) by (apply sum_perm, Permutation_map, Hperm).
  destruct (C53_transfers H oob s c M b body o s1 c1 HH Hr HL Hb Eb Hh Hp Hm Hpr Ht E1) as (A1 & A2 & A3).
  destruct (C53_transfers H oob s c M b' body' o' s2 c2 HH Hr HL Hb' Eb' ltac:(congruence) Hp' ltac:(congruence) Hpr' ltac:(congruence) E2) as (B1 & B2 & B3).
  assert (Hiff : o = Ok tt <-> o' = Ok tt).
  { rewrite A1, B1. split; intros Hall a; specialize (Hall a); rewrite Es in *; exact Hall. }
  assert (Heq : o = Ok tt /\ o' = Ok tt \/ overspends o /\ overspends o').
  { destruct A2 as [A2|A2]; [left; tauto|]. destruct B2 as [B2|B2]; [left; tauto|right; tauto]. }
  split; [exact Heq|]. intros Ho. assert (Ho' : o' = Ok tt) by (apply Hiff; exact Ho).
  assert (Hget : forall a, array 20 a -> tree_get_account s1 a = tree_get_account s2 a).
  { intros a Ha. rewrite (A3 Ho a Ha), (B3 Ho' a Ha), Es, Er, Ef, Hh', Hm'. reflexivity. }
  split; [exact Hget|].
  destruct (push_ledger H oob s c M b o s1 c1 HH Hr HL Hb E1) as (M1 & _ & HM1 & _).
  destruct (push_ledger H oob s c M b' o' s2 c2 HH Hr HL Hb' E2) as (M2 & _ & HM2 & _).
  assert (EM : M1 = M2).
  { apply ledger_ext; [apply HM1|apply HM2|]. intros a Ha. specialize (Hget a Ha).
    rewrite (tree_get H s1 M1 a HM1 Ha), (tree_get H s2 M2 a HM2 Ha) in Hget. congruence. }
  subst M2. rewrite (C18_root_is_merkle_root H s1 _ (proj1 HM1)), (C18_root_is_merkle_root H s2 _ (proj1 HM2)). reflexivity.
Qed.
Print Assumptions C54_order_irrelevant.
Example C54_example oob :
  rev transfers ≡ₚ transfers /\ rev transfers <> transfers /\ block_ok (transfer_block (rev transfers)) /\
  let '(o, s', _) := tree_Push toy_hash oob (state_of small_accounts) initial_cache (transfer_block (rev transfers)) in
  o = Ok tt /\ map (tree_get_account s') [addr 1; addr 2; addr 3; addr 4] =
               [Ok (ABasic 888); Ok (ABasic 119); Ok (ABasic 30); Ok (ABasic 440597547)].
Proof.
  split; [symmetry; apply Permutation_rev|]. split; [discriminate|]. split.
  - apply transfer_block_ok; [|reflexivity]. rewrite <- Permutation_rev. apply transfers_ok.
  - vm_compute. split; reflexivity.
Qed.

(** ** C55 *)
(** The sum of all balances after a block that does not wrap uint64 arithmetic: the fees of
    transactions sent by contracts are credited to the miner but deducted from nobody. *)
Theorem C55_total_partial H oob s c M b body s' c' M' :
  hash_fn H -> areach H oob s c -> lists s M -> block_ok b -> bl_body b = Some body ->
  Forall no_wrap (txs_of body) ->
  (forall a, AccountType (acct M a) = 1 -> sum (map tx_value (filter (fun t => tx_sender H t = a) (txs_of body))) <= Balance (acct M a)) ->
  total M + block_reward_spec (bh_height (bl_header b)) + unpaid_fees H M (txs_of body) < 2 ^ 64 ->
  tree_Push H oob s c b = (Ok tt, s', c') -> lists s' M' ->
  total M' = total M + block_reward_spec (bh_height (bl_header b)) + unpaid_fees H M (txs_of body).
Proof.
  intros HH Hr HL Hb Eb Hw Hv Ht E HL'. destruct (push_ledger H oob s c M b _ s' c' HH Hr HL Hb E) as (N & E' & HN & HM & Hc & _).
  assert (M' = N) as -> by (apply (lists_unique s'); [exact HL'|exact (holds_lists H s' N HN)]).
  apply (balances_exact H oob M c b N c' body HH HM Hc Hb Eb E' Hw); [|exact Ht].
  intros a Ha. etransitivity; [|apply (Hv a Ha)]. apply Z.eq_le_incl. clear -Ha. unfold charged.
  destruct (acct M a) as [v|v|v]; try discriminate Ha. cbn [charge]. induction (txs_of body) as [|t l IH]; [reflexivity|].
  rewrite filter_cons. cbn [map sum foldr]. unfold sum in *. cbn [foldr]. destruct (decide (tx_sender H t = a)); cbn [map foldr]; lia.
Qed.
Print Assumptions C55_total_partial.
(** So money is conserved if the senders are basic accounts (and nothing wraps). *)
Theorem C55_basic_senders_partial H oob s c M b body s' c' M' :
  hash_fn H -> areach H oob s c -> lists s M -> block_ok b -> bl_body b = Some body ->
  Forall no_wrap (txs_of body) -> Forall (fun t => is_basic (acct M (tx_sender H t))) (txs_of body) ->
  total M + block_reward_spec (bh_height (bl_header b)) < 2 ^ 64 ->
  tree_Push H oob s c b = (Ok tt, s', c') -> lists s' M' ->
  total M' = total M + block_reward_spec (bh_height (bl_header b)).
Proof.
  intros HH Hr HL Hb Eb Hw Hs Ht E HL'.
  assert (Hu : unpaid_fees H M (txs_of body) = 0).
  { unfold unpaid_fees. rewrite (sum_map_ext _ (fun _ => 0)), sum_map_zero; [reflexivity|]. intros t Hin.
    pose proof (proj1 (Forall_forall _ _) Hs t Hin) as (v & Ev). rewrite Ev. reflexivity. }
  assert (Hv : forall a, AccountType (acct M a) = 1 -> sum (map tx_value (filter (fun t => tx_sender H t = a) (txs_of body))) <= Balance (acct M a)).
  { intros a Ha. rewrite (sum_map_ext _ (fun _ => 0)), sum_map_zero.
    - pose proof (balance_64 _ (acct_ok M a (proj1 HL))) as Hb64. unfold u64 in Hb64. lia.
    - intros t Hin. apply elem_of_list_filter in Hin as (<- & Hin). pose proof (proj1 (Forall_forall _ _) Hs t Hin) as (v & Ev). rewrite Ev in Ha. discriminate Ha. }
  rewrite (C55_total_partial H oob s c M b body s' c' M' HH Hr HL Hb Eb Hw Hv ltac:(lia) E HL'). lia.
Qed.
Print Assumptions C55_basic_senders_partial.
(** The property is false of the code: a contract that pays a fee creates money. *)
Theorem C55_contract_fee_refuted H oob s c M b body s' c' M' :
  hash_fn H -> areach H oob s c -> lists s M -> block_ok b -> bl_body b = Some body ->
  Forall no_wrap (txs_of body) ->
  (forall a, AccountType (acct M a) = 1 -> sum (map tx_value (filter (fun t => tx_sender H t = a) (txs_of body))) <= Balance (acct M a)) ->
  total M + block_reward_spec (bh_height (bl_header b)) + unpaid_fees H M (txs_of body) < 2 ^ 64 ->
  tree_Push H oob s c b = (Ok tt, s', c') -> lists s' M' ->
  (exists t, t ∈ txs_of body /\ ~ is_basic (acct M (tx_sender H t)) /\ 0 < tx_fee t) ->
  total M + block_reward_spec (bh_height (bl_header b)) < total M'.
Proof.
  intros HH Hr HL Hb Eb Hw Hv Ht E HL' (t & Hin & Hnb & Hf).
  rewrite (C55_total_partial H oob s c M b body s' c' M') by assumption. unfold unpaid_fees.
  assert (Hge : tx_fee t <= sum (map (fun t => match acct M (tx_sender H t) with ABasic _ => 0 | _ => tx_fee t end) (txs_of body))); [|unfold unpaid_fees in *; lia].
  assert (Ef : tx_fee t = match acct M (tx_sender H t) with ABasic _ => 0 | _ => tx_fee t end).
  { destruct (acct M (tx_sender H t)) as [v| |] eqn:Ea; [|reflexivity|reflexivity]. exfalso. apply Hnb. exists v. reflexivity. }
  rewrite Ef. apply (sum_pick (fun t => match acct M (tx_sender H t) with ABasic _ => 0 | _ => tx_fee t end)); [|exact Hin].
  intros y Hy. destruct Hb as (_ & Hb). destruct (Hb body Eb) as (_ & _ & _ & _ & Hl & _).
  pose proof (proj1 (Forall_forall _ _) (present_ok _ Hl) y Hy) as Hok. destruct (value_64 y Hok) as (_ & Hu). unfold u64 in Hu.
  destruct (acct M (tx_sender H y)); lia.
Qed.
Print Assumptions C55_contract_fee_refuted.
(** The recipient of the HTLC in [small_accounts] claims 200 with fee 7. *)
Definition claim (value fee : Z) : Tx :=
  TExtended (MkExtendedTx [] contract_addr 2 (addr 3) 0 value fee 1 42 0 (regular_proof (repeat 9 32) (repeat 0 32) 1 (plain_proof (key 2)))).
Lemma claim_ok v f : u64 v -> u64 f -> tx_ok (claim v f).
Proof.
  intros Hv Hf. cbn -[repeat Z.pow addr regular_proof]. unfold WireSpec.u32, u8. split_ands; try lia; try apply Hv; try apply Hf; try constructor; try apply addr_ok; try (apply array_repeat; lia); try (cbn; lia).
  all: vm_compute; repeat constructor; discriminate.
Qed.
Example C55_example oob :
  let b := transfer_block [claim 200 7] in
  areach toy_hash oob (state_of small_accounts) initial_cache /\ lists (state_of small_accounts) (ledger_of small_accounts) /\ block_ok b /\
  let '(o, s', _) := tree_Push toy_hash oob (state_of small_accounts) initial_cache b in
  o = Ok tt /\ total (ledger_of small_accounts) = 1550 /\ block_reward_spec 1 = 440597534 /\
  forall M', lists s' M' -> total M' = 1550 + 440597534 + 7.
Proof.
  cbv zeta. destruct (state_of_ok oob small_accounts small_accounts_ok) as (Hr & HL).
  assert (Hb : block_ok (transfer_block [claim 200 7])).
  { apply transfer_block_ok; [|reflexivity]. constructor; [apply claim_ok; unfold u64; lia|constructor]. }
  split; [exact Hr|]. split; [exact HL|]. split; [exact Hb|].
  assert (Et : total (ledger_of small_accounts) = 1550) by (vm_compute; reflexivity).
  assert (Er : block_reward_spec 1 = 440597534) by (vm_compute; reflexivity).
  assert (Eu : unpaid_fees toy_hash (ledger_of small_accounts) [claim 200 7] = 7) by (vm_compute; reflexivity).
  assert (Eo : fst (fst (tree_Push toy_hash oob (state_of small_accounts) initial_cache (transfer_block [claim 200 7]))) = Ok tt) by (vm_compute; reflexivity).
  destruct (tree_Push toy_hash oob (state_of small_accounts) initial_cache (transfer_block [claim 200 7])) as ((o & s') & c') eqn:E.
  cbn [fst] in Eo. subst o. split; [reflexivity|]. split; [exact Et|]. split; [exact Er|]. intros M' HL'.
  rewrite (C55_total_partial toy_hash oob _ _ _ _ (body_of (addr 4) [claim 200 7] []) s' c' M' toy_hash_fn Hr HL Hb eq_refl); try rewrite txs_of_body; try assumption.
  - change (bh_height (bl_header (transfer_block [claim 200 7]))) with 1. rewrite Et, Er, Eu. reflexivity.
  - constructor; [unfold no_wrap; cbn; lia|constructor].
  - intros a Ha. rewrite filter_cons. destruct (decide (tx_sender toy_hash (claim 200 7) = a)) as [Ea|].
    + exfalso. subst a. vm_compute in Ha. discriminate.
    + pose proof (balance_64 _ (acct_ok (ledger_of small_accounts) a (proj1 HL))) as Hu. apply Hu.
  - change (bh_height (bl_header (transfer_block [claim 200 7]))) with 1. rewrite Et, Er, Eu. reflexivity.
Qed.
(** In particular the statement of C55 does not hold for all states and blocks. *)
Theorem C55_money_refuted :
  ~ (forall H oob s c M b s' c' M', hash_fn H -> areach H oob s c -> lists s M -> block_ok b ->
       tree_Push H oob s c b = (Ok tt, s', c') -> lists s' M' ->
       total M' = total M + block_reward_spec (bh_height (bl_header b))).
Proof.
  intros P. pose proof (C55_example (fun _ => 0)) as (Hr & HL & Hb & X).
  destruct (tree_Push toy_hash (fun _ => 0) (state_of small_accounts) initial_cache (transfer_block [claim 200 7])) as ((o & s') & c') eqn:E.
  destruct X as (-> & Et & Er & X). destruct (push_ledger toy_hash _ _ _ _ _ _ _ _ toy_hash_fn Hr HL Hb E) as (M' & _ & HM' & _).
  pose proof (holds_lists _ _ _ HM') as HL'. specialize (X M' HL'). specialize (P _ _ _ _ _ _ _ _ _ toy_hash_fn Hr HL Hb E HL').
  rewrite X, Et in P. change (bh_height (bl_header (transfer_block [claim 200 7]))) with 1 in P. rewrite Er in P. discriminate P.
Qed.
Print Assumptions C55_money_refuted.

(** ** C56 *)
(** Whatever the outcome of Push, an address that is not a party keeps its account. *)
Theorem C56_only_parties H oob s c b o s' c' a :
  hash_fn H -> areach H oob s c -> block_ok b -> tree_Push H oob s c b = (o, s', c') ->
  array 20 a -> (forall body, bl_body b = Some body -> ~ is_party H body a) ->
  tree_get_account s' a = tree_get_account s a.
Proof.
  intros HH Hr Hb E Ha Hp. destruct (C52_ledger_exists H oob s c HH Hr) as (M & HL & _).
  destruct (push_ledger H oob s c M b o s' c' HH Hr HL Hb E) as (M' & E' & HM' & _ & _ & HM).
  rewrite (tree_get H s' M' a HM' Ha), (tree_get H s M a HM Ha). f_equal. apply (push_frame H oob M c b o M' c' a E' Hp).
Qed.
Print Assumptions C56_only_parties.
Example C56_example : block_ok (transfer_block transfers) /\ is_party toy_hash (body_of (addr 4) transfers []) (addr 3) /\
  ~ is_party toy_hash (body_of (addr 4) transfers []) contract_addr.
Proof.
  split; [apply transfer_block_ok; [apply transfers_ok|reflexivity]|]. unfold is_party. rewrite txs_of_body. split.
  - right. exists (pay 2 (addr 3) 30 1). split; [right; left|right; reflexivity].
  - intros [E|(t & Hin & Hp)]; [vm_compute in E; discriminate|].
    repeat (apply elem_of_cons in Hin as [->|Hin]; [destruct Hp as [Hp|Hp]; vm_compute in Hp; discriminate|]). inversion Hin.
Qed.
