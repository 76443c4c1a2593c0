(** C114: the life of a contract. *)
From Coq Require Import ZArith List Lia Bool.
From stdpp Require Import gmap list.
From Verif.Model Require Import Base Address Beserial Wire Policy Account Tree Accounts Genesis.
From Verif.Spec Require Import AddressSpec TreeSpec TreeHistory PolicySpec BeserialSpec WireSpec AccountSpec AccountsSpec PushSpec RulesSpec ContractSpec.
From Verif.Proofs Require Import BaseFacts PolicyFacts AccountFacts LedgerFacts PushFacts AccountsFacts RulesFacts.
From Verif.Props Require Import AccountProps AccountsProps RulesProps.
Open Scope Z_scope.

Lemma sum_app l1 l2 : AccountsSpec.sum (l1 ++ l2) = AccountsSpec.sum l1 + AccountsSpec.sum l2.
Proof. unfold AccountsSpec.sum. induction l1; cbn; lia. Qed.

(** What the transactions [l] take from [a]. *)
Definition taken (H : bytes -> bytes) (l : list Tx) (a : bytes) : Z :=
  AccountsSpec.sum (map (fun t => if decide (tx_sender H t = a) then tx_value t else 0) l).
Lemma taken_app H l1 l2 a : taken H (l1 ++ l2) a = taken H l1 a + taken H l2 a.
Proof. unfold taken. rewrite map_app. apply sum_app. Qed.
Lemma charged_taken H l x a : ~ is_basic x -> charged H l x a = taken H l a.
Proof.
  intros Hx. unfold charged, taken. f_equal. apply map_ext. intros t. case_decide; [|reflexivity].
  destruct x; cbn; try reflexivity. exfalso. apply Hx. eexists; reflexivity.
Qed.
Lemma received_none l a : (forall t, t ∈ l -> tx_recipient t <> a) -> received l a = 0 /\ last_creation l a = None.
Proof.
  induction l as [|t l IH]; intros Hn; [split; reflexivity|].
  destruct IH as (I1 & I2); [intros t' Ht'; apply Hn; set_solver|].
  assert (Ht : tx_recipient t <> a) by (apply Hn; set_solver).
  split.
  - change (received (t :: l) a) with ((if decide (tx_recipient t = a) then tx_value t else 0) + received l a).
    rewrite I1, decide_False by exact Ht. lia.
  - cbn [last_creation]. rewrite I2. destruct t as [|y]; [reflexivity|]. cbn in Ht.
    rewrite bool_decide_eq_false_2 by exact Ht. rewrite andb_false_r. reflexivity.
Qed.
Lemma with_not_basic x v : ~ is_basic x -> ~ is_basic (with_balance x v).
Proof. rewrite basic_with. tauto. Qed.

Definition is_htlc (x : Account) : Prop := exists h, x = AHTLC h.

(** One block. *)
Lemma contract_step H oob s c M b s1 c1 a :
  hash_fn H -> areach H oob s c -> lists s M -> block_ok b -> tree_Push H oob s c b = (Ok tt, s1, c1) ->
  array 20 a -> ~ is_basic (acct M a) ->
  let x := acct M a in
  let y := with_balance x ((Balance x - taken H (block_txs b) a) mod 2 ^ 64) in
  (forall t, t ∈ block_txs b -> tx_recipient t <> a) /\
  (forall t, t ∈ block_txs b -> tx_sender H t = a -> under_terms H x t (bh_height (bl_header b))) /\
  (is_htlc x -> taken H (block_txs b) a <= Balance x) /\
  (Balance y = 0 /\ pruned_at b a y \/ tree_get_account s1 a = Ok y).
Proof.
  intros HH Hr HL Hb E Ha Hnb x y. fold x in Hnb.
  destruct (bl_body b) as [body|] eqn:Eb.
  2:{ unfold tree_Push, Push in E. rewrite Eb in E. discriminate E. }
  unfold y. clear y. unfold block_txs, pruned_at. rewrite Eb.
  pose proof (proj1 (C79_accepts H oob s c M b body _ s1 c1 HH Hr HL Hb Eb E) eq_refl) as [_ R1 R2 _ R4 R5].
  assert (Hrec : forall t, t ∈ txs_of body -> tx_recipient t <> a).
  { intros t Ht Et. destruct (R2 t Ht) as (Hbs & _). rewrite Et in Hbs. exact (Hnb Hbs). }
  destruct (received_none _ _ Hrec) as (Hre & Hlc).
  assert (Haft : forall pre, after_debits H M pre a = with_balance x ((Balance x - taken H pre a) mod 2 ^ 64)).
  { intros pre. unfold after_debits. fold x. rewrite charged_taken by exact Hnb. reflexivity. }
  split; [exact Hrec|]. split; [|split].
  - intros t Ht Es. apply elem_of_list_split in Ht as (l1 & l2 & El). destruct (R1 l1 t l2 El) as (_ & Hsp).
    rewrite Es, Haft in Hsp. clear Haft. revert Hnb Hsp. generalize x as w. intros [v|cc|h] Hnb Hsp; [exfalso; apply Hnb; eexists; reflexivity| |];
      destruct t as [bt|et]; cbn in Hsp; try contradiction; cbn; tauto.
  - intros (h & Eh). pose proof (acct_ok M a (proj1 HL)) as Hok. fold x in Hok. 
    assert (Hbal : 0 <= Balance x < 2 ^ 64) by (rewrite Eh in *; exact (proj1 Hok)).
    assert (G : forall post pre, txs_of body = pre ++ post -> taken H pre a <= Balance x -> taken H (txs_of body) a <= Balance x).
    { induction post as [|t post IH]; intros pre El Hle; [rewrite El, app_nil_r; exact Hle|].
      apply (IH (pre ++ [t])); [rewrite <- app_assoc; exact El|]. rewrite taken_app. unfold taken at 2. cbn.
      case_decide as Hd; [|lia]. destruct (R1 pre t post El) as (_ & Hsp). rewrite Hd, Haft in Hsp.
      assert (Hv : tx_value t <= (Balance x - taken H pre a) mod 2 ^ 64).
      { revert Hsp. generalize ((Balance x - taken H pre a) mod 2 ^ 64) as w. rewrite Eh. intros w Hsp.
        destruct t as [bt|et]; cbn in Hsp; [contradiction|]. apply Hsp. }
      assert (Hpos : 0 <= taken H pre a).
      { assert (Hall : Forall tx_ok (txs_of body)) by (apply present_ok; apply (proj2 Hb body Eb)).
        rewrite El in Hall. apply Forall_app in Hall as (Hall & _). clear -Hall. unfold taken, AccountsSpec.sum.
        induction Hall as [|t l Ht _ IH]; cbn; [lia|]. case_decide; [|lia].
        assert (0 <= tx_value t) by (destruct t; cbn in *; unfold u64 in *; intuition). lia. }
      rewrite Z.mod_small in Hv by lia. lia. }
    apply (G (txs_of body) []); [reflexivity|cbn; lia].
  - destruct (C79_effect H oob s c M b body s1 c1 a HH Hr HL Hb Eb E Ha) as (x1 & y1 & z & Hset & Hpr & Hz & Hmin).
    pose proof (R4 _ _ Hset) as Hl. pose proof (R5 x1) as Hm.
    unfold settled in Hset. cbv zeta in Hset. rewrite Hlc, Hre, Z.add_0_r in Hset. fold x in Hset.
    rewrite (charged_taken H _ x) in Hset by exact Hnb. rewrite <- Hset.
    assert (Hx1 : ~ is_basic x1) by (rewrite Hset; apply with_not_basic, Hnb).
    destruct Hpr as [(Hp & ->)|(Hp & ->)].
    + left. destruct Hl as [(_ & Hl)|(Hl & _)]; [|contradiction]. split; [apply Hp|]. exists body. auto.
    + right. destruct (decide (a = bb_miner body)) as [Em|Em]; [destruct Hmin as (Hm1 & _); contradiction|].
      rewrite Hz, Hmin. reflexivity.
Qed.

Lemma paid_taken H bs a : paid H bs a = AccountsSpec.sum (map (fun b => taken H (block_txs b) a) bs).
Proof. reflexivity. Qed.
Lemma paid_cons H b bs a : paid H (b :: bs) a = taken H (block_txs b) a + paid H bs a.
Proof. reflexivity. Qed.
Lemma under_terms_with H x v t h : under_terms H (with_balance x v) t h <-> under_terms H x t h.
Proof. destruct x, t; reflexivity. Qed.
Lemma is_htlc_with x v : is_htlc (with_balance x v) <-> is_htlc x.
Proof. split; intros (h & E); destruct x; try discriminate E; eexists; reflexivity. Qed.

(** C114.  A chain of accepted blocks leaves a contract as it is but for the
    balance, until a block takes the last of it and lists it as pruned ([live]:
    the blocks up to this one, or all).  During this time nothing is paid to the
    contract's address, every transaction from it is one its terms allow, at the
    height of its block, and the balance goes down by exactly the values of these
    transactions (modulo 2^64: see C60 for vesting contracts); an HTLC pays no more than it held. *)
Theorem C114_contract_life :
  forall H oob s c bs s' c' a x,
    hash_fn H -> areach H oob s c -> chain H oob s c bs s' c' -> array 20 a ->
    tree_get_account s a = Ok x -> ~ is_basic x ->
    exists live later, bs = live ++ later /\
      (forall b t, b ∈ live -> t ∈ block_txs b -> tx_recipient t <> a) /\
      (forall b t, b ∈ live -> t ∈ block_txs b -> tx_sender H t = a -> under_terms H x t (bh_height (bl_header b))) /\
      ((exists h, x = AHTLC h) -> paid H live a <= Balance x) /\
      ((later = [] /\ tree_get_account s' a = Ok (with_balance x ((Balance x - paid H live a) mod 2 ^ 64))) \/
       (exists before b, live = before ++ [b] /\ (Balance x - paid H live a) mod 2 ^ 64 = 0 /\ pruned_at b a (with_balance x 0))).
Proof.
  intros H oob s c bs s' c' a x HH Hr Hc Ha. revert x Hr.
  induction Hc as [s c|s c b bs s1 c1 s' c' Hb E Hc IH]; intros x Hr Hx Hnb.
  - exists [], []. split; [reflexivity|]. split; [intros b t Hin; inversion Hin|]. split; [intros b t Hin; inversion Hin|].
    destruct (C52_ledger_exists H oob s c HH Hr) as (M & HL & _).
    assert (Hok : account_ok x).
    { rewrite (proj2 HL a Ha) in Hx. injection Hx as <-. apply acct_ok, HL. }
    assert (Hbal : 0 <= Balance x < 2 ^ 64) by (destruct x; apply Hok).
    split; [intros _; cbn; lia|]. left. split; [reflexivity|]. rewrite Hx. f_equal.
    change (paid H [] a) with 0. rewrite Z.sub_0_r, Z.mod_small by exact Hbal. symmetry. apply with_same.
  - destruct (C52_ledger_exists H oob s c HH Hr) as (M & HL & _).
    assert (Ex : acct M a = x) by (rewrite (proj2 HL a Ha) in Hx; injection Hx as <-; reflexivity).
    rewrite <- Ex in Hnb.
    destruct (contract_step H oob s c M b s1 c1 a HH Hr HL Hb E Ha Hnb) as (S1 & S2 & S3 & S4).
    rewrite Ex in *. set (v1 := (Balance x - taken H (block_txs b) a) mod 2 ^ 64) in *.
    assert (Hb1 : Balance (with_balance x v1) = v1) by apply balance_with.
    destruct S4 as [(S4 & S5)|S4].
    + rewrite Hb1 in S4. exists [b], bs. split; [reflexivity|].
      split; [intros b' t Hb'; apply elem_of_list_singleton in Hb' as ->; apply S1|].
      split; [intros b' t Hb'; apply elem_of_list_singleton in Hb' as ->; apply S2|].
      rewrite paid_cons. change (paid H [] a) with 0. rewrite Z.add_0_r. split; [exact S3|].
      right. exists [], b. split; [reflexivity|]. fold v1. rewrite S4 in S5 |- *. split; [reflexivity|exact S5].
    + destruct (IH (with_balance x v1)) as (live & later & -> & L1 & L2 & L3 & L4).
      { eapply areach_push; eassumption. }
      { exact S4. }
      { apply with_not_basic, Hnb. }
      exists (b :: live), later. split; [reflexivity|]. rewrite paid_cons.
      assert (Hmod : (Balance (with_balance x v1) - paid H live a) mod 2 ^ 64 = (Balance x - (taken H (block_txs b) a + paid H live a)) mod 2 ^ 64).
      { rewrite Hb1. unfold v1. rewrite Zminus_mod_idemp_l. f_equal. lia. }
      assert (Hww : forall v, with_balance (with_balance x v1) v = with_balance x v) by (intros v; apply with_with).
      split; [|split; [|split]].
      * intros b' t Hb'. apply elem_of_cons in Hb' as [->|Hb']; [apply S1|apply L1, Hb'].
      * intros b' t Hb'. apply elem_of_cons in Hb' as [->|Hb']; [apply S2|].
        intros Ht Hs. eapply under_terms_with, L2; eassumption.
      * intros Hh. specialize (S3 Hh). pose proof (proj2 (is_htlc_with x v1) Hh) as Hh1. specialize (L3 Hh1).
        rewrite Hb1 in L3. unfold v1 in L3.
        assert (Hok : account_ok x) by (rewrite <- Ex; apply acct_ok, HL).
        assert (Hbal : 0 <= Balance x < 2 ^ 64) by (destruct x; apply Hok).
        assert (Hpos : 0 <= taken H (block_txs b) a).
        { assert (Hall : Forall tx_ok (block_txs b)).
          { unfold block_txs. destruct (bl_body b) as [body|] eqn:Eb; [|constructor].
            apply present_ok. apply (proj2 Hb body Eb). }
          clear -Hall. unfold taken, AccountsSpec.sum.
          induction Hall as [|t l Ht _ IH]; cbn; [lia|]. case_decide; [|lia].
          assert (0 <= tx_value t) by (destruct t; cbn in *; unfold u64 in *; intuition). lia. }
        rewrite Z.mod_small in L3 by lia. lia.
      * destruct L4 as [(-> & L4)|(before & b2 & -> & L4 & L5)].
        -- left. split; [reflexivity|]. rewrite L4, Hww, Hmod. reflexivity.
        -- right. exists (b :: before), b2. split; [reflexivity|]. rewrite Hww in L5. rewrite Hmod in L4. auto.
Qed.
Print Assumptions C114_contract_life.

(** Once the sender has taken money back after the timeout, the recipient's claim
    is over (if heights do not go down). *)
Theorem C114_timeout_ends_claims :
  forall H h y1 y2 height1 height2 rest1 rest2,
    under_terms H (AHTLC h) (TExtended y1) height1 -> under_terms H (AHTLC h) (TExtended y2) height2 ->
    height1 <= height2 -> x_proof y1 = 3 :: rest1 -> x_proof y2 <> 1 :: rest2.
Proof.
  intros H h y1 y2 h1 h2 r1 r2 U1 U2 Hle E1 E2. cbn in U1, U2. rewrite E1 in U1. rewrite E2 in U2.
  destruct U1 as [(? & ? & ? & _ & _ & _ & _ & _ & X)|[(? & ? & _ & _ & _ & _ & X)|(? & T1 & _)]]; try discriminate X.
  destruct U2 as [(? & ? & ? & T2 & _)|[(? & ? & _ & _ & _ & _ & X)|(? & _ & _ & _ & X)]]; try discriminate X. lia.
Qed.
Print Assumptions C114_timeout_ends_claims.

(** Two claims use up the HTLC of the examples; the second block prunes it. *)
Definition claim_block (value : Z) (pruned : list AccountPruned) : Block :=
  AccountsProps.block_of 1 (body_of (addr 4) [claim value 0] pruned).
Definition emptied : list AccountPruned :=
  [MkPruned contract_addr (Some (with_balance (acct (ledger_of small_accounts) contract_addr) 0))].
Example C114_case oob :
  let s := state_of small_accounts in
  exists s' c', areach toy_hash oob s initial_cache /\ array 20 contract_addr /\
    chain toy_hash oob s initial_cache [claim_block 200 []; claim_block 300 emptied] s' c' /\
    (exists h, tree_get_account s contract_addr = Ok (AHTLC h) /\ h_value h = 500).
Proof.
  cbv zeta. destruct (state_of_ok oob small_accounts small_accounts_ok) as (Hr & HL).
  assert (Hca : array 20 contract_addr) by (apply array_repeat; lia).
  assert (Hok : forall v p, u64 v -> Forall pruned_ok p -> zlen p < 2 ^ 16 -> block_ok (claim_block v p)).
  { intros v p Hv Hp Hl. apply block_of_ok; [unfold PolicySpec.u32, WireSpec.u32; lia|].
    apply body_of_ok; [apply addr_ok| |reflexivity|exact Hp|exact Hl].
    constructor; [apply claim_ok; [exact Hv|unfold u64; lia]|constructor]. }
  assert (Hem : Forall pruned_ok emptied).
  { constructor; [|constructor]. split; [exact Hca|]. eexists. split; [reflexivity|].
    pose proof (acct_ok (ledger_of small_accounts) contract_addr (proj1 HL)) as Hx. revert Hx.
    change (acct (ledger_of small_accounts) contract_addr) with (AHTLC (MkHTLC 500 (addr 1) (addr 2) (MkHash 3 (repeat 9 32)) 1 1000 500)).
    cbn [account_ok with_balance]. unfold u64. intros (_ & Hx). split; [cbn; lia|exact Hx]. }
  assert (T : let '(o1, s1, c1) := tree_Push toy_hash oob (state_of small_accounts) initial_cache (claim_block 200 []) in
              let '(o2, _, _) := tree_Push toy_hash oob s1 c1 (claim_block 300 emptied) in o1 = Ok tt /\ o2 = Ok tt)
    by (vm_compute; split; reflexivity).
  destruct (tree_Push toy_hash oob (state_of small_accounts) initial_cache (claim_block 200 [])) as ((o1 & s1) & c1) eqn:E1.
  destruct (tree_Push toy_hash oob s1 c1 (claim_block 300 emptied)) as ((o2 & s2) & c2) eqn:E2.
  destruct T as (-> & ->). exists s2, c2. split; [exact Hr|]. split; [exact Hca|]. split.
  - econstructor; [apply Hok; [unfold u64; lia|constructor|reflexivity]|exact E1|].
    econstructor; [apply Hok; [unfold u64; lia|exact Hem|reflexivity]|exact E2|]. constructor.
  - eexists. split; [rewrite (proj2 HL contract_addr Hca); reflexivity|reflexivity].
Qed.
