(** C123: from a wallet over the wire to the accounts. *)
From Coq Require Import ZArith List Lia Bool.
From stdpp Require Import gmap list.
From Verif.Model Require Import Base Address Beserial Wire Policy Account Tree Accounts Wallet.
From Verif.Spec Require Import AddressSpec TreeSpec TreeHistory PolicySpec BeserialSpec WireSpec AccountSpec AccountsSpec PushSpec RulesSpec WalletSpec.
From Verif.Proofs Require Import BaseFacts PolicyFacts AccountFacts LedgerFacts PushFacts AccountsFacts RulesFacts TransferFacts WireFacts.
From Verif.Props Require Import TreeProps AccountProps BlockProps AccountsProps RulesProps WalletProps PartyProps.
Open Scope Z_scope.

(** A payment made with a wallet: a basic transaction with the wallet's public key, signed by the wallet. *)
Definition paid_with (H : bytes -> bytes) (ed_public : bytes -> bytes) (ed_sign : bytes -> bytes -> bytes) (t : Tx) : Prop :=
  exists seed w b b', array 32 seed /\ wallet_for H ed_public seed w /\ tx_ok (TBasic b) /\ no_wrap (TBasic b) /\
    GetPublicKey w = Ok (b_pubkey b) /\ SignBasicTx H ed_sign w b = Ok (b', None) /\ t = TBasic b'.

(** C123.  Payments made with wallets, in a block as the network sends it: the receiver decodes the block, and Push
    accepts it and moves exactly the amounts, if every wallet's address holds what it spends. *)
Theorem C123_payments H oob ed_public ed_sign ed_verify s c M h bs distinct miner extra payments :
  hash_fn H -> scheme_ok ed_public ed_sign ed_verify -> areach H oob s c -> lists s M ->
  header_ok h -> bh_height h <> 0 -> interlink_fits bs distinct ->
  array 20 miner -> bytes_ok extra -> zlen extra < 2 ^ 8 -> zlen payments < 2 ^ 16 ->
  Forall (paid_with H ed_public ed_sign) payments ->
  (forall t, t ∈ payments -> is_basic (acct M (tx_sender H t)) /\ is_basic (acct M (tx_recipient t))) -> is_basic (acct M miner) ->
  total M + block_reward_spec (bh_height h) < 2 ^ 64 ->
  (forall a, sent H payments a <= Balance (acct M a)) ->
  exists blk s' c',
    decode_block (block_bytes h bs distinct (Some (MkBody miner extra (map Some payments) []))) =
      Ok (blk, zlen (block_bytes h bs distinct (Some (MkBody miner extra (map Some payments) [])))) /\
    tree_Push H oob s c blk = (Ok tt, s', c') /\
    forall a, array 20 a -> tree_get_account s' a =
      Ok (with_balance (acct M a) (Balance (acct M a) - sent H payments a + received payments a +
            (if decide (a = miner) then block_reward_spec (bh_height h) + fees payments else 0))).
Proof.
  intros HH Hsch Hr HL Hh Hh0 Hil Hmi Hex Hexl Hlen Hpay Hbas Hmb Htot Hcov.
  set (body := MkBody miner extra (map Some payments) []).
  assert (Htx : Forall (fun t => tx_ok t /\ no_wrap t /\ exists b, t = TBasic b) payments).
  { eapply Forall_impl; [exact Hpay|]. intros t (seed & w & b & b' & Hs & Hw & Hb & Hn & Hk & Es & ->).
    destruct (C68_wallet_address H ed_public ed_sign ed_verify seed w HH Hsch Hs Hw) as (Ek & _). rewrite Hk in Ek. injection Ek as Ek.
    destruct (C69_signed_basic H ed_public ed_sign ed_verify seed w b HH Hsch Hs Hw Hb) as (_ & G). destruct (G Ek) as (G1 & G2 & _).
    rewrite G1 in Es. injection Es as <-. split; [exact G2|]. split; [exact Hn|eauto]. }
  assert (Hbody : body_ok body).
  { split; [exact Hmi|]. split; [exact Hex|]. split; [exact Hexl|]. cbn [bb_txs bb_pruned body]. split; [unfold zlen in *; rewrite map_length; exact Hlen|].
    split; [|split; [reflexivity|constructor]]. apply Forall_map. eapply Forall_impl; [exact Htx|]. intros t (Ht & _). eauto. }
  destruct (C77_network_block_decodes h bs distinct (Some body) [] Hh Hil) as (blk & Ed & Eh & Eb & _); [intros ? [= <-]; exact Hbody|constructor|].
  rewrite app_nil_r in Ed.
  assert (Hblk : block_ok blk) by (split; [rewrite Eh; exact Hh|intros body' Eb'; rewrite Eb in Eb'; injection Eb' as <-; exact Hbody]).
  assert (Etx : txs_of body = payments).
  { unfold txs_of, body. cbn [bb_txs]. clear. induction payments as [|t l IH]; [reflexivity|]. cbn. f_equal. exact IH. }
  destruct (tree_Push H oob s c blk) as ((o & s') & c') eqn:E.
  destruct (C53_transfers H oob s c M blk body o s' c' HH Hr HL Hblk Eb) as (Hok & _ & Heff).
  - rewrite Eh. exact Hh0.
  - rewrite Etx. apply Forall_forall. intros t Ht. rewrite Forall_forall in Htx. destruct (Htx t Ht) as (_ & Hn & b & ->).
    destruct (Hbas _ Ht) as (B1 & B2). repeat split; try reflexivity; assumption.
  - exact Hmb.
  - reflexivity.
  - rewrite Eh. exact Htot.
  - exact E.
  - rewrite Etx in Hok. rewrite Etx, Eh in Heff. apply Hok in Hcov. subst o. exists blk, s', c'. split; [exact Ed|]. split; [exact E|].
    intros a Ha. apply (Heff eq_refl a Ha).
Qed.
Print Assumptions C123_payments.

(** One payment: the wallet's address pays value and fee, the recipient gets the value, the miner the reward and the fee. *)
Theorem C123_payment H oob ed_public ed_sign ed_verify s c h bs distinct miner extra seed w w' b me bal rbal mbal M :
  hash_fn H -> scheme_ok ed_public ed_sign ed_verify -> areach H oob s c -> lists s M ->
  header_ok h -> bh_height h <> 0 -> interlink_fits bs distinct ->
  array 20 miner -> bytes_ok extra -> zlen extra < 2 ^ 8 ->
  array 32 seed -> wallet_for H ed_public seed w -> tx_ok (TBasic b) -> GetPublicKey w = Ok (b_pubkey b) -> GetAddress H w = Ok (me, w') ->
  me <> b_recipient b -> me <> miner -> b_recipient b <> miner ->
  tree_get_account s me = Ok (ABasic bal) -> tree_get_account s (b_recipient b) = Ok (ABasic rbal) -> tree_get_account s miner = Ok (ABasic mbal) ->
  b_value b + b_fee b <= bal -> total M + block_reward_spec (bh_height h) < 2 ^ 64 ->
  exists b' blk n s' c',
    SignBasicTx H ed_sign w b = Ok (b', None) /\
    decode_block (block_bytes h bs distinct (Some (MkBody miner extra [Some (TBasic b')] []))) = Ok (blk, n) /\
    tree_Push H oob s c blk = (Ok tt, s', c') /\
    tree_get_account s' me = Ok (ABasic (bal - b_value b - b_fee b)) /\
    tree_get_account s' (b_recipient b) = Ok (ABasic (rbal + b_value b)) /\
    tree_get_account s' miner = Ok (ABasic (mbal + block_reward_spec (bh_height h) + b_fee b)).
Proof.
  intros HH Hsch Hr HL Hh Hh0 Hil Hmi Hex Hexl Hs Hw Hb Hk Ha N1 N2 N3 A1 A2 A3 Hcov Htot.
  destruct (C68_wallet_address H ed_public ed_sign ed_verify seed w HH Hsch Hs Hw) as (Ek & w2 & Ea & _). rewrite Hk in Ek. injection Ek as Ek.
  rewrite Ha in Ea. injection Ea as Eme _.
  destruct (C69_signed_basic H ed_public ed_sign ed_verify seed w b HH Hsch Hs Hw Hb) as (_ & G). destruct (G Ek) as (G1 & G2 & _ & _ & _). clear G.
  set (sig := ed_sign (seed ++ ed_public seed) (signed_bytes H (TBasic b))) in *. set (b' := with_signature b sig) in *.
  assert (Hmes : tx_sender H (TBasic b') = me) by (cbn; rewrite Ek, Eme; reflexivity).
  assert (Hmek : array 20 me) by (rewrite <- Hmes; apply sender_20; assumption).
  pose proof Hb as (_ & Hb20 & Hbv & Hbf & _).
  rewrite (proj2 HL me Hmek) in A1. rewrite (proj2 HL _ Hb20) in A2. rewrite (proj2 HL _ Hmi) in A3.
  injection A1 as A1. injection A2 as A2. injection A3 as A3.
  assert (Hbal : u64 bal) by (pose proof (acct_ok M me (proj1 HL)) as X; rewrite A1 in X; exact X).
  assert (Hn : no_wrap (TBasic b)) by (unfold no_wrap, u64 in *; cbn in *; lia).
  destruct (C123_payments H oob ed_public ed_sign ed_verify s c M h bs distinct miner extra [TBasic b'] HH Hsch Hr HL Hh Hh0 Hil Hmi Hex Hexl) as (blk & s' & c' & Ed & E & Heff).
  - reflexivity.
  - apply Forall_cons. split; [|apply Forall_nil; exact I]. exists seed, w, b, b'. repeat split; try assumption; apply Hs || apply Hb.
  - intros t Ht. apply elem_of_list_singleton in Ht as ->. rewrite Hmes, A1. cbn [tx_recipient b' with_signature b_recipient]. rewrite A2. unfold is_basic. eauto.
  - rewrite A3. unfold is_basic. eauto.
  - exact Htot.
  - intros a. unfold sent. cbn [map sum foldr]. rewrite Hmes. destruct (decide (me = a)) as [<-|Hne]; [rewrite A1; cbn; lia|].
    assert (account_ok (acct M a)) as X by (apply acct_ok, HL). apply balance_64 in X. unfold u64 in X. lia.
  - exists b', blk, (zlen (block_bytes h bs distinct (Some (MkBody miner extra (map Some [TBasic b']) [])))), s', c'.
    split; [exact G1|]. split; [exact Ed|]. split; [exact E|].
    rewrite (Heff me Hmek), (Heff _ Hb20), (Heff _ Hmi), A1, A2, A3. unfold sent, received, fees. cbn [map sum foldr]. rewrite Hmes.
    cbn [tx_recipient tx_value tx_fee b' with_signature b_recipient b_value b_fee with_balance Balance].
    split; [|split]; apply (f_equal Ok); apply (f_equal ABasic).
    + repeat match goal with |- context [decide ?P] => destruct (decide P) end; try congruence; lia.
    + repeat match goal with |- context [decide ?P] => destruct (decide P) end; try congruence; lia.
    + repeat match goal with |- context [decide ?P] => destruct (decide P) end; try congruence; lia.
Qed.
Print Assumptions C123_payment.

(** ** Spending from a contract *)
Lemma two_balances (M : ledger) a a' : ledger_ok M ->
  0 <= Balance (acct M a) <= total M /\ (a <> a' -> Balance (acct M a) + Balance (acct M a') <= total M).
Proof.
  intros HM.
  assert (Hp : forall b, 0 <= Balance (acct M b)) by (intros b; pose proof (balance_64 _ (acct_ok M b HM)) as X; unfold u64 in X; lia).
  assert (Hs : forall l, 0 <= sum (map (fun b => Balance (acct M b)) l)) by (intros l; apply sum_map_nonneg; intros b _; apply Hp).
  set (S0 := map fst (map_to_list M)).
  assert (HS0 : forall b x, M !! b = Some x -> b ∈ S0).
  { intros b x E. apply elem_of_map_to_list in E. unfold S0. apply elem_of_list_fmap. exists (b, x). split; [reflexivity|exact E]. }
  assert (HT : forall T, NoDup T -> sum (map (fun b => Balance (acct M b)) T) <= total M).
  { intros T HN. set (R := filter (fun b => b ∉ T) S0).
    rewrite (total_over M (T ++ R)).
    - rewrite map_app. unfold sum. rewrite foldr_app.
      assert (G : forall l k, foldr Z.add k l = foldr Z.add 0 l + k) by (induction l as [|? l IH]; intros k; cbn; [lia|rewrite IH; lia]).
      rewrite (G _ (foldr Z.add 0 (map _ R))). pose proof (Hs R) as X. unfold sum in X. lia.
    - apply NoDup_app. split; [exact HN|]. split; [intros b H1 H2; apply elem_of_list_filter in H2 as (H2 & _); contradiction|].
      apply NoDup_filter, NoDup_fst_map_to_list.
    - intros b x E. apply HS0 in E. apply elem_of_app. destruct (decide (b ∈ T)); [left; assumption|right; apply elem_of_list_filter; split; assumption]. }
  split; [split; [apply Hp|]|].
  - specialize (HT [a] (NoDup_singleton a)). cbn in HT. lia.
  - intros Hne. assert (HN : NoDup [a; a']) by (apply NoDup_cons; split; [rewrite elem_of_list_singleton; exact Hne|apply NoDup_singleton]).
    specialize (HT [a; a'] HN). cbn in HT. lia.
Qed.
(** A block with one transaction that takes [value] out of a contract which lets it: accepted, provided the prune
    list has the contract exactly if it is emptied. *)
Theorem C123_contract_spend H oob s c M b body o s' c' t x :
  hash_fn H -> areach H oob s c -> lists s M -> block_ok b -> bl_body b = Some body -> bh_height (bl_header b) <> 0 ->
  txs_of body = [t] -> acct M (tx_sender H t) = x -> ~ is_basic x -> tx_sender_type t = AccountType x ->
  may_spend H oob x t (bh_height (bl_header b)) -> tx_value t <= Balance x ->
  is_basic (acct M (tx_recipient t)) -> tx_recipient_type t = 0 -> tx_creates t = false -> is_basic (acct M (bb_miner body)) ->
  bb_pruned body = (if decide (tx_value t = Balance x) then [MkPruned (tx_sender H t) (Some (with_balance x 0))] else []) ->
  total M + block_reward_spec (bh_height (bl_header b)) + tx_fee t < 2 ^ 64 ->
  tree_Push H oob s c b = (o, s', c') ->
  o = Ok tt /\
  tree_get_account s' (tx_sender H t) = Ok (if decide (tx_value t = Balance x) then ABasic 0 else with_balance x (Balance x - tx_value t)) /\
  forall a, array 20 a -> a <> tx_sender H t ->
    tree_get_account s' a = Ok (with_balance (acct M a) (Balance (acct M a) + (if decide (tx_recipient t = a) then tx_value t else 0) +
      (if decide (a = bb_miner body) then block_reward_spec (bh_height (bl_header b)) + tx_fee t else 0))).
Proof.
  intros HH Hr HL Hb Eb Hh0 Et Ex Hnb Hty Hsp Hval Hrb Hrt Hcr Hmb Hpr Htot E.
  set (A := tx_sender H t) in *. set (h := bh_height (bl_header b)) in *.
  assert (Htok : tx_ok t).
  { pose proof (proj2 Hb body Eb) as (_ & _ & _ & _ & Hf & _). unfold txs_of in Et.
    destruct (bb_txs body) as [|[u|] l] eqn:El; cbn in Et; [discriminate| |]; apply Forall_cons in Hf as ((y & Ey & Hy) & _); [|discriminate].
    injection Ey as <-. injection Et as <- _. exact Hy. }
  assert (HA : array 20 A) by (apply sender_20; assumption).
  assert (Hxok : account_ok x) by (rewrite <- Ex; apply acct_ok, HL).
  assert (HneR : tx_recipient t <> A) by (intros Q; rewrite Q, Ex in Hrb; contradiction).
  assert (HneM : bb_miner body <> A) by (intros Q; rewrite Q, Ex in Hmb; contradiction).
  pose proof (balance_64 x Hxok) as Hbx. unfold u64 in Hbx. pose proof (value_64 t Htok) as (Hv & Hf). unfold u64 in Hv, Hf.
  pose proof (block_reward_bound h) as Hrew.
  assert (Hsum : forall a, 0 <= Balance (acct M a) <= total M /\ (a <> A -> Balance (acct M a) + Balance x <= total M)).
  { intros a. destruct (two_balances M a A (proj1 HL)) as (Q1 & Q2). rewrite Ex in Q2. split; assumption. }
  assert (Hset : forall a, settled H M [t] a (if decide (a = A) then with_balance x (Balance x - tx_value t)
     else with_balance (acct M a) (Balance (acct M a) + (if decide (tx_recipient t = a) then tx_value t else 0)))).
  { intros a. unfold settled, last_creation. cbv zeta.
    assert (El : match t with TExtended y => if Z.odd (x_flags y) && bool_decide (x_recipient y = a) then Some y else None | TBasic _ => None end = None).
    { destruct t as [|y]; [reflexivity|]. cbn in Hcr. rewrite Hcr. reflexivity. }
    rewrite El. unfold charged, received. cbn [map sum foldr]. fold A. destruct (decide (a = A)) as [->|Hna].
    - rewrite (decide_True (P := A = A)) by reflexivity. rewrite decide_False by exact HneR. rewrite Ex.
      assert (Ech : charge x t = tx_value t) by (destruct x; [exfalso; apply Hnb; unfold is_basic; eauto|reflexivity..]). rewrite Ech.
      f_equal. rewrite Z.mod_small; lia.
    - rewrite (decide_False (P := A = a)) by congruence. f_equal. destruct (Hsum a) as (S1 & S2). specialize (S2 Hna).
      destruct (decide (tx_recipient t = a)); rewrite Z.mod_small; lia. }
  assert (Hset' : forall a y, settled H M [t] a y -> y = if decide (a = A) then with_balance x (Balance x - tx_value t)
     else with_balance (acct M a) (Balance (acct M a) + (if decide (tx_recipient t = a) then tx_value t else 0))).
  { intros a y Hy. exact (settled_unique H M [t] a _ _ Hy (Hset a)). }
  assert (Hpru : forall a y, settled H M [t] a y -> (to_prune H [t] a y <-> a = A /\ tx_value t = Balance x)).
  { intros a y Hy. apply Hset' in Hy. unfold to_prune. split.
    - intros ((u & Hu & Hua) & Hny & Hz). apply elem_of_list_singleton in Hu as ->. fold A in Hua. split; [congruence|].
      rewrite decide_True in Hy by congruence. rewrite Hy, balance_with in Hz. lia.
    - intros (-> & Hz). rewrite decide_True in Hy by reflexivity. split; [exists t; split; [left|reflexivity]|]. rewrite Hy, basic_with, balance_with. split; [exact Hnb|lia]. }
  assert (Hacc : acceptable H oob M h body).
  { constructor.
    - exact Hh0.
    - intros pre u post Hsplit. rewrite Et in Hsplit. destruct pre as [|? pre]; [|destruct pre; discriminate]. injection Hsplit as <- <-. fold A. rewrite Ex.
      split; [right; exact Hty|]. unfold after_debits. rewrite Ex. cbn [charged map sum foldr]. unfold charged. cbn. rewrite Z.sub_0_r, Z.mod_small by lia.
      rewrite with_same. exact Hsp.
    - intros u Hu. rewrite Et in Hu. apply elem_of_list_singleton in Hu as ->. auto.
    - intros y Hy Hc. rewrite Et in Hy. apply elem_of_list_singleton in Hy as <-. congruence.
    - intros a y Hy. rewrite Et in *. pose proof (Hpru a y Hy) as Hp. apply Hset' in Hy. rewrite Hpr.
      destruct (decide (tx_value t = Balance x)) as [Hz|Hz]; [|right; split; [tauto|reflexivity]].
      unfold listed. cbn [foldl p_address p_account]. fold A. destruct (decide (A = a)) as [<-|Hne].
      + left. split; [tauto|]. rewrite decide_True in Hy by reflexivity. rewrite Hy, Hz, Z.sub_diag. reflexivity.
      + right. split; [intros Q; apply Hp in Q; intuition congruence|reflexivity].
    - intros y Hy. rewrite Et in Hy. apply Hset' in Hy. rewrite decide_False in Hy by exact HneM. left. rewrite Hy, basic_with. exact Hmb. }
  apply (C79_accepts H oob s c M b body o s' c' HH Hr HL Hb Eb E) in Hacc as ->. split; [reflexivity|]. split.
  - destruct (C79_effect H oob s c M b body s' c' A HH Hr HL Hb Eb E HA) as (y & z & u & S1 & S2 & S3 & S4). rewrite Et in *.
    rewrite decide_False in S4 by congruence. rewrite S3, S4. f_equal. pose proof (Hpru A y S1) as Hp. apply Hset' in S1. rewrite decide_True in S1 by reflexivity.
    destruct S2 as [(T & ->)|(T & ->)]; destruct (decide (tx_value t = Balance x)) as [Hz|Hz]; try reflexivity; try tauto.
  - intros a Ha Hna. destruct (C79_effect H oob s c M b body s' c' a HH Hr HL Hb Eb E Ha) as (y & z & u & S1 & S2 & S3 & S4). rewrite Et in *.
    rewrite S3. f_equal. pose proof (Hpru a y S1) as Hp. apply Hset' in S1. rewrite decide_False in S1 by exact Hna.
    assert (z = y) as -> by (destruct S2 as [(T & _)|(_ & T)]; [apply Hp in T; intuition congruence|exact T]).
    rewrite S1 in S4. fold h in S4. destruct (decide (a = bb_miner body)) as [Hm|Hm].
    + destruct S4 as (B & ->). rewrite balance_with. destruct (Hsum a) as (Q1 & Q2). specialize (Q2 Hna). rewrite Hm in *. clear Hm.
      apply basic_with in B as (v & Ev). rewrite Ev in *. cbn [with_balance Balance] in *. apply (f_equal ABasic). unfold fees. cbn [map sum foldr].
      destruct (decide (tx_recipient t = bb_miner body)); rewrite Z.mod_small; lia.
    + rewrite S4, Z.add_0_r. reflexivity.
Qed.
Print Assumptions C123_contract_spend.



(** The same over the wire: a block with one transaction that takes part of the value out of a contract. *)
Theorem C123_wire_contract_spend H oob s c M h bs distinct miner extra x y rbal mbal :
  hash_fn H -> areach H oob s c -> lists s M ->
  header_ok h -> bh_height h <> 0 -> interlink_fits bs distinct ->
  array 20 miner -> bytes_ok extra -> zlen extra < 2 ^ 8 -> tx_ok (TExtended x) ->
  x_sender_type x = AccountType y -> x_recipient_type x = 0 -> tx_creates (TExtended x) = false -> x_recipient x <> miner ->
  tree_get_account s (x_sender x) = Ok y -> ~ is_basic y ->
  tree_get_account s (x_recipient x) = Ok (ABasic rbal) -> tree_get_account s miner = Ok (ABasic mbal) ->
  may_spend H oob y (TExtended x) (bh_height h) -> x_value x < Balance y ->
  total M + block_reward_spec (bh_height h) + x_fee x < 2 ^ 64 ->
  exists blk n s' c',
    decode_block (block_bytes h bs distinct (Some (MkBody miner extra [Some (TExtended x)] []))) = Ok (blk, n) /\
    tree_Push H oob s c blk = (Ok tt, s', c') /\
    tree_get_account s' (x_sender x) = Ok (with_balance y (Balance y - x_value x)) /\
    tree_get_account s' (x_recipient x) = Ok (ABasic (rbal + x_value x)) /\
    tree_get_account s' miner = Ok (ABasic (mbal + block_reward_spec (bh_height h) + x_fee x)).
Proof.
  intros HH Hr HL Hh Hh0 Hil Hmi Hex Hexl Ht Hst Hrt Hcr Hrm A1 Hnb A2 A3 Hun Hval Htot.
  set (body := MkBody miner extra [Some (TExtended x)] []).
  assert (Hbody : body_ok body).
  { split; [exact Hmi|]. split; [exact Hex|]. split; [exact Hexl|]. split; [reflexivity|]. split; [|split; [reflexivity|constructor]].
    cbn [bb_txs body]. apply Forall_cons. split; [eauto|]. apply Forall_nil. exact I. }
  destruct (C77_network_block_decodes h bs distinct (Some body) [] Hh Hil) as (blk & Ed & Eh & Eb & _); [intros ? [= <-]; exact Hbody|constructor|].
  rewrite app_nil_r in Ed.
  assert (Hblk : block_ok blk) by (split; [rewrite Eh; exact Hh|intros body' Eb'; rewrite Eb in Eb'; injection Eb' as <-; exact Hbody]).
  destruct (tree_Push H oob s c blk) as ((o & s') & c') eqn:E.
  assert (HA : array 20 (x_sender x)) by (exact (sender_20 H (TExtended x) HH Ht)).
  assert (HR : array 20 (x_recipient x)) by (exact (recipient_20 (TExtended x) Ht)).
  rewrite (proj2 HL _ HA) in A1. rewrite (proj2 HL _ HR) in A2. rewrite (proj2 HL _ Hmi) in A3.
  injection A1 as A1. injection A2 as A2. injection A3 as A3.
  destruct (C123_contract_spend H oob s c M blk body o s' c' (TExtended x) y HH Hr HL Hblk Eb) as (-> & E1 & E2).
  - rewrite Eh. exact Hh0.
  - reflexivity.
  - exact A1.
  - exact Hnb.
  - exact Hst.
  - rewrite Eh. exact Hun.
  - cbn. lia.
  - cbn [tx_recipient]. rewrite A2. unfold is_basic. eauto.
  - exact Hrt.
  - exact Hcr.
  - cbn [bb_miner body]. rewrite A3. unfold is_basic. eauto.
  - cbn [tx_value]. rewrite decide_False by lia. reflexivity.
  - rewrite Eh. exact Htot.
  - exact E.
  - exists blk, (zlen (block_bytes h bs distinct (Some body))), s', c'.
    split; [exact Ed|]. split; [exact E|].
    rewrite Eh in E2. cbn [tx_sender tx_value tx_recipient tx_fee bb_miner body] in E1, E2.
    split; [|split].
    + rewrite E1, decide_False by lia. reflexivity.
    + rewrite (E2 _ HR) by (intros Q; apply Hnb; rewrite <- A1, <- Q, A2; unfold is_basic; eauto). rewrite A2, decide_True, decide_False by (reflexivity || exact Hrm).
      cbn. rewrite Z.add_0_r. reflexivity.
    + rewrite (E2 _ Hmi) by (intros Q; apply Hnb; rewrite <- A1, <- Q, A3; unfold is_basic; eauto). rewrite A3, decide_False, decide_True by (reflexivity || exact Hrm).
      cbn [with_balance Balance]. apply (f_equal Ok), (f_equal ABasic). lia.
Qed.
Print Assumptions C123_wire_contract_spend.

(** A vesting contract's owner signs with SignExtendedTx, and Push accepts the transaction as the wallet signed it. *)
Theorem C123_vesting_spend H oob ed_public ed_sign ed_verify s c M h bs distinct miner extra seed w w' x v rbal mbal :
  hash_fn H -> scheme_ok ed_public ed_sign ed_verify -> areach H oob s c -> lists s M ->
  header_ok h -> bh_height h <> 0 -> interlink_fits bs distinct ->
  array 20 miner -> bytes_ok extra -> zlen extra < 2 ^ 8 ->
  array 32 seed -> wallet_for H ed_public seed w -> tx_ok (TExtended (with_proof x [])) ->
  x_sender_type x = 1 -> x_recipient_type x = 0 -> tx_creates (TExtended x) = false -> x_recipient x <> miner ->
  tree_get_account s (x_sender x) = Ok (AVesting v) -> GetAddress H w = Ok (v_owner v, w') ->
  tree_get_account s (x_recipient x) = Ok (ABasic rbal) -> tree_get_account s miner = Ok (ABasic mbal) ->
  x_value x <= amountUnlocked oob v (bh_height h) -> x_value x < v_value v ->
  total M + block_reward_spec (bh_height h) + x_fee x < 2 ^ 64 ->
  exists x' blk n s' c',
    SignExtendedTx H ed_sign w x = Ok (x', None) /\
    decode_block (block_bytes h bs distinct (Some (MkBody miner extra [Some (TExtended x')] []))) = Ok (blk, n) /\
    tree_Push H oob s c blk = (Ok tt, s', c') /\
    tree_get_account s' (x_sender x) = Ok (AVesting (MkVesting (v_value v - x_value x) (v_owner v) (v_start v) (v_step_blocks v) (v_step_amount v) (v_total v))) /\
    tree_get_account s' (x_recipient x) = Ok (ABasic (rbal + x_value x)) /\
    tree_get_account s' miner = Ok (ABasic (mbal + block_reward_spec (bh_height h) + x_fee x)).
Proof.
  intros HH Hsch Hr HL Hh Hh0 Hil Hmi Hex Hexl Hs Hw Hx Hst Hrt Hcr Hrm A1 Ha A2 A3 Hun Hval Htot.
  destruct (C68_wallet_address H ed_public ed_sign ed_verify seed w HH Hsch Hs Hw) as (_ & w2 & Ea & _).
  rewrite Ha in Ea. injection Ea as Eow _.
  destruct (C68_signed_extended H ed_public ed_sign ed_verify seed w x HH Hsch Hs Hw Hx) as (p & G1 & Ht & Hp & _ & _ & Hsg & _).
  destruct (C123_wire_contract_spend H oob s c M h bs distinct miner extra (with_proof x (proof_bytes p)) (AVesting v) rbal mbal HH Hr HL Hh Hh0 Hil Hmi Hex Hexl Ht Hst Hrt Hcr Hrm A1)
    as (blk & n & s' & c' & Q); try assumption.
  - intros (? & Q). discriminate.
  - split; [exact Hun|]. exists p. split; [exact Hp|]. split; [congruence|reflexivity].
  - exists (with_proof x (proof_bytes p)), blk, n, s', c'. split; [exact G1|exact Q].
Qed.
Print Assumptions C123_vesting_spend.

Lemma proof_short p : proof_ok p -> zlen (proof_bytes p) < 10000.
Proof.
  intros ((L1 & _) & ((Hl & _ & Hb) & Hh & Ha) & (L2 & _)). unfold proof_bytes, bitset_bytes. rewrite !zlen_app, zlen_cons. rewrite (eq_refl : zlen (PublicKey p) = Z.of_nat (length (PublicKey p))), (eq_refl : zlen (Signature p) = Z.of_nat (length (Signature p))), L1, L2.
  assert (zlen (concat (Hashes (Path p))) = 32 * Len (Branches (Path p))) as ->.
  { rewrite <- Hh. clear -Ha. induction Ha as [|x l (Hx & _) _ IH]; [reflexivity|]. cbn [concat]. rewrite zlen_app, zlen_cons, IH. unfold zlen at 1. rewrite Hx. lia. }
  rewrite Hb. lia.
Qed.
(** The sender of an HTLC takes the rest back after the timeout: the wallet's proof behind the byte 3.
    The wallet alone cannot make this transaction: SignExtendedTx puts nothing before the proof. *)
Theorem C123_htlc_refund H oob ed_public ed_sign ed_verify s c M h bs distinct miner extra seed w w' x k rbal mbal :
  hash_fn H -> scheme_ok ed_public ed_sign ed_verify -> areach H oob s c -> lists s M ->
  header_ok h -> bh_height h <> 0 -> interlink_fits bs distinct ->
  array 20 miner -> bytes_ok extra -> zlen extra < 2 ^ 8 ->
  array 32 seed -> wallet_for H ed_public seed w -> tx_ok (TExtended (with_proof x [])) ->
  x_sender_type x = 2 -> x_recipient_type x = 0 -> tx_creates (TExtended x) = false -> x_recipient x <> miner ->
  tree_get_account s (x_sender x) = Ok (AHTLC k) -> GetAddress H w = Ok (h_sender k, w') ->
  tree_get_account s (x_recipient x) = Ok (ABasic rbal) -> tree_get_account s miner = Ok (ABasic mbal) ->
  h_timeout k < bh_height h -> x_value x < h_value k ->
  total M + block_reward_spec (bh_height h) + x_fee x < 2 ^ 64 ->
  exists x' blk n s' c',
    SignExtendedTx H ed_sign w x = Ok (x', None) /\
    decode_block (block_bytes h bs distinct (Some (MkBody miner extra [Some (TExtended (with_proof x' (3 :: x_proof x')))] []))) = Ok (blk, n) /\
    tree_Push H oob s c blk = (Ok tt, s', c') /\
    tree_get_account s' (x_sender x) = Ok (with_balance (AHTLC k) (h_value k - x_value x)) /\
    tree_get_account s' (x_recipient x) = Ok (ABasic (rbal + x_value x)) /\
    tree_get_account s' miner = Ok (ABasic (mbal + block_reward_spec (bh_height h) + x_fee x)).
Proof.
  intros HH Hsch Hr HL Hh Hh0 Hil Hmi Hex Hexl Hs Hw Hx Hst Hrt Hcr Hrm A1 Ha A2 A3 Hun Hval Htot.
  destruct (C68_wallet_address H ed_public ed_sign ed_verify seed w HH Hsch Hs Hw) as (_ & w2 & Ea & _).
  rewrite Ha in Ea. injection Ea as Eow _.
  destruct (C68_signed_extended H ed_public ed_sign ed_verify seed w x HH Hsch Hs Hw Hx) as (p & G1 & Ht & Hp & _ & _ & Hsg & _).
  pose proof (proof_short p Hp) as Hl.
  assert (Ht3 : tx_ok (TExtended (with_proof x (3 :: proof_bytes p)))).
  { cbn [tx_ok with_proof x_data x_sender x_sender_type x_recipient x_recipient_type x_value x_fee x_height x_network x_flags x_proof] in *.
    destruct Ht as (X1 & X2 & X3 & X4 & X5 & X6 & X7 & X8 & X9 & X10 & X11 & X12 & _).
    repeat (split; [assumption|]). rewrite zlen_cons. split; [|lia]. constructor; [unfold is_byte; lia|exact X12]. }
  destruct (C123_wire_contract_spend H oob s c M h bs distinct miner extra (with_proof x (3 :: proof_bytes p)) (AHTLC k) rbal mbal HH Hr HL Hh Hh0 Hil Hmi Hex Hexl Ht3 Hst Hrt Hcr Hrm A1)
    as (blk & n & s' & c' & Q); try assumption.
  - intros (? & Q). discriminate.
  - split; [cbn; lia|]. right. right. exists p. split; [exact Hun|]. split; [exact Hp|]. split; [congruence|reflexivity].
  - exists (with_proof x (proof_bytes p)), blk, n, s', c'. split; [exact G1|exact Q].
Qed.
Print Assumptions C123_htlc_refund.

(** ** A concrete case *)
Definition my_addr : bytes := firstn 20 (toy_hash (rev toy_seed)).
Definition wallet_accounts : list (bytes * Account) :=
  [(my_addr, ABasic 1000); (addr 2, ABasic 50); (contract_addr, AVesting (MkVesting 900 my_addr 0 1 1000 1000));
   (repeat 201 20, AHTLC (MkHTLC 500 my_addr (addr 2) (MkHash 3 (repeat 9 32)) 1 4 500))].
Lemma my_addr_ok : array 20 my_addr.
Proof. split; [reflexivity|apply bytes_okb_spec; vm_compute; reflexivity]. Qed.
Lemma wallet_accounts_ok : Forall (fun p : bytes * Account => array 20 p.1 /\ account_ok p.2) wallet_accounts.
Proof.
  pose proof my_addr_ok as Q. assert (G : array 20 contract_addr) by (apply array_repeat; lia).
  repeat (constructor; [split; [try apply addr_ok; try exact G; try exact Q; try (apply array_repeat; lia)|]|]); try constructor;
    cbn [snd account_ok]; unfold u64, WireSpec.u32, u8, hash_ok; cbn -[repeat Z.pow addr my_addr]; try lia;
    split_ands; try lia; try apply addr_ok; try exact Q; try (apply array_repeat; lia).
Qed.
Definition example_header : BlockHeader := MkHeader 1 (repeat 0 32) (repeat 0 32) (repeat 0 32) (repeat 0 32) 0 5 0 0.
Lemma example_header_ok : header_ok example_header.
Proof. exact (proj1 (block_of_ok 5 (body_of (addr 3) [] []) ltac:(unfold PolicySpec.u32, WireSpec.u32; lia) ltac:(apply body_of_ok; [apply addr_ok|constructor|reflexivity|constructor|reflexivity]))). Qed.
Definition my_payment : BasicTx := MkBasicTx (rev toy_seed) (addr 2) 300 7 5 42 (repeat 0 64).
Definition my_spend (from : bytes) (typ : Z) : ExtendedTx := MkExtendedTx [] from typ (addr 2) 0 400 5 5 42 0 [].
(** The wallet of [toy_seed] pays 300 with the fee 7, takes 400 from its vesting contract, 400 back from its HTLC. *)
Example C123_example oob :
  let reward := block_reward_spec 5 in
  let s := state_of wallet_accounts in
  (exists b' blk n s' c', SignBasicTx toy_hash toy_sign toy_wallet my_payment = Ok (b', None) /\
    decode_block (block_bytes example_header (MkBitSet 0 []) [] (Some (MkBody (addr 3) [] [Some (TBasic b')] []))) = Ok (blk, n) /\
    tree_Push toy_hash oob s initial_cache blk = (Ok tt, s', c') /\
    tree_get_account s' my_addr = Ok (ABasic 693) /\ tree_get_account s' (addr 2) = Ok (ABasic 350) /\
    tree_get_account s' (addr 3) = Ok (ABasic (reward + 7))) /\
  (exists x' blk n s' c', SignExtendedTx toy_hash toy_sign toy_wallet (my_spend contract_addr 1) = Ok (x', None) /\
    decode_block (block_bytes example_header (MkBitSet 0 []) [] (Some (MkBody (addr 3) [] [Some (TExtended x')] []))) = Ok (blk, n) /\
    tree_Push toy_hash oob s initial_cache blk = (Ok tt, s', c') /\
    tree_get_account s' contract_addr = Ok (AVesting (MkVesting 500 my_addr 0 1 1000 1000)) /\ tree_get_account s' (addr 2) = Ok (ABasic 450)) /\
  (exists x' blk n s' c', SignExtendedTx toy_hash toy_sign toy_wallet (my_spend (repeat 201 20) 2) = Ok (x', None) /\
    decode_block (block_bytes example_header (MkBitSet 0 []) [] (Some (MkBody (addr 3) [] [Some (TExtended (with_proof x' (3 :: x_proof x')))] []))) = Ok (blk, n) /\
    tree_Push toy_hash oob s initial_cache blk = (Ok tt, s', c') /\
    tree_get_account s' (repeat 201 20) = Ok (AHTLC (MkHTLC 100 my_addr (addr 2) (MkHash 3 (repeat 9 32)) 1 4 500)) /\ tree_get_account s' (addr 2) = Ok (ABasic 450)).
Proof.
  intros reward s. destruct (state_of_ok oob wallet_accounts wallet_accounts_ok) as (Hr & HL). fold s in Hr, HL.
  assert (Hs : array 32 toy_seed) by (split; [reflexivity|apply bytes_okb_spec; reflexivity]).
  assert (Hw : wallet_for toy_hash toy_public toy_seed toy_wallet) by (apply wallet_derived; reflexivity).
  assert (Htot : total (ledger_of wallet_accounts) = 2450) by (vm_compute; reflexivity).
  assert (Hrew : reward < 2 ^ 33) by (vm_compute; reflexivity).
  assert (Hil : interlink_fits (MkBitSet 0 []) []) by (split; [split; [cbn; lia|split; [constructor|reflexivity]]|split; [constructor|reflexivity]]).
  assert (Hga : exists w', GetAddress toy_hash toy_wallet = Ok (my_addr, w')) by (eexists; vm_compute; reflexivity). destruct Hga as (w' & Hga).
  assert (Hx : forall from typ, array 20 from -> 0 <= typ < 3 -> tx_ok (TExtended (with_proof (my_spend from typ) []))).
  { intros from typ Hf Ht. cbn -[addr Z.pow]. unfold u8, WireSpec.u32, u64. split_ands; try lia; try constructor; try apply Hf; try apply addr_ok; reflexivity. }
  assert (Hsnd : forall a, array 20 a -> tree_get_account s a = Ok (acct (ledger_of wallet_accounts) a)) by (intros a Ha; apply HL, Ha).
  assert (G : acct (ledger_of wallet_accounts) my_addr = ABasic 1000 /\ acct (ledger_of wallet_accounts) (addr 2) = ABasic 50 /\
    acct (ledger_of wallet_accounts) (addr 3) = ABasic 0 /\ acct (ledger_of wallet_accounts) contract_addr = AVesting (MkVesting 900 my_addr 0 1 1000 1000) /\
    acct (ledger_of wallet_accounts) (repeat 201 20) = AHTLC (MkHTLC 500 my_addr (addr 2) (MkHash 3 (repeat 9 32)) 1 4 500)) by (vm_compute; repeat split).
  destruct G as (G1 & G2 & G3 & G4 & G5).
  assert (A1 : tree_get_account s my_addr = Ok (ABasic 1000)) by (rewrite Hsnd, G1 by apply my_addr_ok; reflexivity).
  assert (A2 : tree_get_account s (addr 2) = Ok (ABasic 50)) by (rewrite Hsnd, G2 by apply addr_ok; reflexivity).
  assert (A3 : tree_get_account s (addr 3) = Ok (ABasic 0)) by (rewrite Hsnd, G3 by apply addr_ok; reflexivity).
  assert (A4 : tree_get_account s contract_addr = Ok (AVesting (MkVesting 900 my_addr 0 1 1000 1000))) by (rewrite Hsnd, G4 by (apply array_repeat; lia); reflexivity).
  assert (A5 : tree_get_account s (repeat 201 20) = Ok (AHTLC (MkHTLC 500 my_addr (addr 2) (MkHash 3 (repeat 9 32)) 1 4 500))) by (rewrite Hsnd, G5 by (apply array_repeat; lia); reflexivity).
  assert (N : my_addr <> addr 2 /\ my_addr <> addr 3 /\ addr 2 <> addr 3) by (split; [|split]; intros Q; apply (f_equal (hd 0)) in Q; vm_compute in Q; discriminate).
  destruct N as (N1 & N2 & N3).
  assert (Hun : amountUnlocked oob (MkVesting 900 my_addr 0 1 1000 1000) 5 = 5000) by (vm_compute; reflexivity).
  assert (Hh0 : bh_height example_header <> 0) by discriminate.
  assert (He : zlen (@nil Z) < 2 ^ 8) by reflexivity.
  assert (Hpay : tx_ok (TBasic my_payment)).
  { cbn -[addr Z.pow]. unfold u8, WireSpec.u32, u64. split_ands; try lia; try apply addr_ok; try (apply array_repeat; lia); (split; [reflexivity|apply bytes_okb_spec; reflexivity]). }
  assert (Hgp : GetPublicKey toy_wallet = Ok (b_pubkey my_payment)) by (vm_compute; reflexivity).
  split; [|split].
  - destruct (C123_payment toy_hash oob toy_public toy_sign toy_verify s initial_cache example_header (MkBitSet 0 []) [] (addr 3) [] toy_seed toy_wallet w' my_payment my_addr 1000 50 0 (ledger_of wallet_accounts)
      toy_hash_fn toy_scheme Hr HL example_header_ok Hh0 Hil (addr_ok 3) (Forall_nil_2 _) He Hs Hw Hpay Hgp Hga N1 N2 N3 A1 A2 A3) as (b' & blk & n & s' & c' & Q).
    + cbn. lia.
    + rewrite Htot. change (bh_height example_header) with 5. fold reward. lia.
    + exists b', blk, n, s', c'. exact Q.
  - destruct (C123_vesting_spend toy_hash oob toy_public toy_sign toy_verify s initial_cache (ledger_of wallet_accounts) example_header (MkBitSet 0 []) [] (addr 3) [] toy_seed toy_wallet w' (my_spend contract_addr 1) (MkVesting 900 my_addr 0 1 1000 1000) 50 0
      toy_hash_fn toy_scheme Hr HL example_header_ok Hh0 Hil (addr_ok 3) (Forall_nil_2 _) He Hs Hw (Hx contract_addr 1 ltac:(apply array_repeat; lia) ltac:(lia)) eq_refl eq_refl eq_refl N3 A4 Hga A2 A3) as (b' & blk & n & s' & c' & Q1 & Q2 & Q3 & Q4 & Q5 & _).
    + change (bh_height example_header) with 5. rewrite Hun. cbn. lia.
    + cbn. lia.
    + rewrite Htot. change (bh_height example_header) with 5. fold reward. cbn [x_fee my_spend]. lia.
    + exists b', blk, n, s', c'. exact (conj Q1 (conj Q2 (conj Q3 (conj Q4 Q5)))).
  - destruct (C123_htlc_refund toy_hash oob toy_public toy_sign toy_verify s initial_cache (ledger_of wallet_accounts) example_header (MkBitSet 0 []) [] (addr 3) [] toy_seed toy_wallet w' (my_spend (repeat 201 20) 2) (MkHTLC 500 my_addr (addr 2) (MkHash 3 (repeat 9 32)) 1 4 500) 50 0
      toy_hash_fn toy_scheme Hr HL example_header_ok Hh0 Hil (addr_ok 3) (Forall_nil_2 _) He Hs Hw (Hx (repeat 201 20) 2 ltac:(apply array_repeat; lia) ltac:(lia)) eq_refl eq_refl eq_refl N3 A5 Hga A2 A3) as (b' & blk & n & s' & c' & Q1 & Q2 & Q3 & Q4 & Q5 & _).
    + cbn. lia.
    + cbn. lia.
    + rewrite Htot. change (bh_height example_header) with 5. fold reward. cbn [x_fee my_spend]. lia.
    + exists b', blk, n, s', c'. exact (conj Q1 (conj Q2 (conj Q3 (conj Q4 Q5)))).
Qed.
