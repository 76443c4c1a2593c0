(** Property C131: the answer to a block is that of its first fault, in the order of the checks. *)
From Coq Require Import ZArith List Lia Bool.
From stdpp Require Import gmap list.
From Verif.Model Require Import Base Address Beserial Wire Policy Account Tree Accounts.
From Verif.Spec Require Import AddressSpec TreeSpec TreeHistory PolicySpec BeserialSpec WireSpec AccountSpec AccountsSpec RulesSpec FaultSpec OutcomeSpec.
From Verif.Proofs Require Import BaseFacts AccountFacts LedgerFacts PushFacts AccountsFacts RulesFacts ErrorFacts FaultFacts OutcomeFacts.
From Verif.Props Require Import TreeProps WireProps AccountProps AccountsProps PushProps FaultProps.
Open Scope Z_scope.

(** The answer is one that the specification gives, ... *)
Theorem C131_answer H oob s c M b body r s' c' :
  hash_fn H -> areach H oob s c -> lists s M -> block_ok b -> bl_body b = Some body ->
  tree_Push H oob s c b = (r, s', c') ->
  push_answer H oob M (bh_height (bl_header b)) body r.
Proof.
  intros HH Hr HL Hb Eb E. destruct (push_ledger H oob s c M b r s' c' HH Hr HL Hb E) as (M' & E' & _ & HM & Hc & _).
  pose proof (push_answers H oob HH M c b body HM Hc Hb Eb) as X. change (Push H oob ledger L_get L_put M c b) with (ledger_Push H oob M c b) in X. rewrite E' in X. apply X.
Qed.
Print Assumptions C131_answer.

(** ... and the specification gives no other. *)
Theorem C131_only H oob s c M b body r s' c' r' :
  hash_fn H -> areach H oob s c -> lists s M -> block_ok b -> bl_body b = Some body ->
  tree_Push H oob s c b = (r, s', c') ->
  push_answer H oob M (bh_height (bl_header b)) body r' -> same_answer r' r.
Proof.
  intros HH Hr HL Hb Eb E Ha. destruct (push_ledger H oob s c M b r s' c' HH Hr HL Hb E) as (M' & E' & _ & HM & Hc & _).
  pose proof (push_answers H oob HH M c b body HM Hc Hb Eb) as X. change (Push H oob ledger L_get L_put M c b) with (ledger_Push H oob M c b) in X. rewrite E' in X. apply X, Ha.
Qed.
Print Assumptions C131_only.

(** Exactly these blocks crash. *)
Theorem C131_panics_iff H oob s c M b r s' c' :
  hash_fn H -> areach H oob s c -> lists s M -> block_ok b ->
  tree_Push H oob s c b = (r, s', c') ->
  (r = Panic <->
   bl_body b = None \/ exists body, bl_body b = Some body /\
     ((exists pre t post, txs_of body = pre ++ t :: post /\ senders_pass H oob M (bh_height (bl_header b)) pre /\
         (tx_sender_type t = 255 \/ tx_sender_type t = AccountType (acct M (tx_sender H t))) /\
         spend_answer H oob (after_debits H M pre (tx_sender H t)) t (bh_height (bl_header b)) Panic) \/
      (exists pre t post, senders_pass H oob M (bh_height (bl_header b)) (txs_of body) /\
         txs_of body = pre ++ t :: post /\ recipients_pass M pre /\
         (tx_creates t = true \/ tx_recipient_type t = 255 \/ tx_recipient_type t = AccountType (acct M (tx_recipient t))) /\
         ~ is_basic (acct M (tx_recipient t))) \/
      (bh_height (bl_header b) = 0 /\ senders_pass H oob M 0 (txs_of body) /\ recipients_pass M (txs_of body) /\
         creations_pass (txs_of body) /\ removals_pass H M body (txs_of body) /\ no_early_removals H M body))).
Proof.
  intros HH Hr HL Hb E. destruct (bl_body b) as [body|] eqn:Eb.
  2:{ rewrite (C66_no_body H oob s c b Eb) in E. injection E as <- _ _. tauto. }
  split.
  - intros ->. right. exists body. split; [reflexivity|]. pose proof (C131_answer H oob s c M b body Panic s' c' HH Hr HL Hb Eb E) as Ha.
    inversion Ha as [| | pre t post r Ep Hp Ht Hs Hn | | pre t post Hs Ep Hp Ht Hn | | | | | ? ? ? ? ? H0 |]; subst.
    + left. exists pre, t, post. auto.
    + right. left. exists pre, t, post. auto.
    + right. right. rewrite <- H0 at 2. auto 6.
  - intros [X|(body' & [= <-] & Hx)]; [discriminate X|].
    assert (Ha : push_answer H oob M (bh_height (bl_header b)) body Panic).
    { destruct Hx as [(pre & t & post & Ep & Hp & Ht & Hs)|[(pre & t & post & Hs & Ep & Hp & Ht & Hn)|(H0 & S1 & S2 & S3 & S4 & S5)]].
      - eapply answer_sender; try eassumption. discriminate.
      - eapply answer_recipient; eassumption.
      - apply answer_height; try assumption. rewrite H0. exact S1. }
    destruct (C131_only H oob s c M b body r s' c' Panic HH Hr HL Hb Eb E Ha) as [->|[((e & _ & X) & _)|(l & l' & X & _)]]; [reflexivity|discriminate X..].
Qed.
Print Assumptions C131_panics_iff.

Lemma may_spend_answer H oob x t h r : account_ok x -> tx_ok t -> may_spend H oob x t h -> spend_answer H oob x t h r -> r = Ok tt.
Proof.
  intros Hx Ht Hm Ha. apply may_spend_ok in Hm as (x' & E); [|assumption..]. destruct (spend_answers H oob x t h Ht) as (_ & S). cbv zeta in S. rewrite E in S. cbn [bind] in S.
  destruct (S r Ha) as [->|[(_ & e & _ & X)|(l & l' & _ & X & _)]]; [reflexivity|discriminate X..].
Qed.
Lemma after_ok H M pre a : ledger_ok M -> account_ok (after_debits H M pre a).
Proof.
  intros HM. unfold after_debits. pose proof (acct_ok M a HM) as Ha. set (b := _ mod _). assert (Hb : u64 b) by (apply Z.mod_pos_bound; reflexivity). clearbody b.
  destruct (acct M a); cbn in *; tauto.
Qed.
(** The transactions after the first unpayable one, and everything else in the block, do not matter. *)
Theorem C131_first_sender H oob s c M b b' body body' pre t post post' r s1 c1 r' s2 c2 :
  hash_fn H -> areach H oob s c -> lists s M -> block_ok b -> block_ok b' ->
  bl_body b = Some body -> bl_body b' = Some body' -> bh_height (bl_header b) = bh_height (bl_header b') ->
  txs_of body = pre ++ t :: post -> txs_of body' = pre ++ t :: post' ->
  senders_pass H oob M (bh_height (bl_header b)) pre -> ~ senders_pass H oob M (bh_height (bl_header b)) (pre ++ [t]) ->
  tree_Push H oob s c b = (r, s1, c1) -> tree_Push H oob s c b' = (r', s2, c2) -> same_answer r r' /\ r <> Ok tt.
Proof.
  intros HH Hr HL Hb Hb' Eb Eb' Eh Ep Ep' Hp Hn E E'.
  pose proof (C131_answer H oob s c M b body r s1 c1 HH Hr HL Hb Eb E) as Ha.
  (* a longer list that passes contradicts [Hn] *)
  assert (Hcut : forall l, (exists q, pre ++ t :: q = l) -> ~ senders_pass H oob M (bh_height (bl_header b)) l).
  { intros l (q & <-) Hl. apply Hn. intros p u o Eo. apply (Hl p u (o ++ q)). change (t :: q) with ([t] ++ q). rewrite app_assoc, Eo, <- app_assoc. reflexivity. }
  assert (Hfull : ~ senders_pass H oob M (bh_height (bl_header b)) (txs_of body)) by (apply Hcut; rewrite Ep; eauto).
  assert (Hsame : forall pre0 t0 post0, txs_of body = pre0 ++ t0 :: post0 -> senders_pass H oob M (bh_height (bl_header b)) pre0 ->
     ~ senders_pass H oob M (bh_height (bl_header b)) (pre0 ++ [t0]) -> pre0 = pre /\ t0 = t).
  { intros pre0 t0 post0 Ep0 Hp0 Hn0. rewrite Ep in Ep0.
    assert (Hlen : length pre0 = length pre).
    { destruct (Nat.lt_trichotomy (length pre0) (length pre)) as [Hlt|[Heq|Hlt]]; [exfalso|exact Heq|exfalso].
      - apply Hn0. assert (X : pre0 ++ [t0] = take (length pre0 + 1) pre).
        { rewrite <- (take_app_le pre (t :: post)) by lia. rewrite Ep0. change (t0 :: post0) with ([t0] ++ post0). rewrite app_assoc, take_app_alt; [reflexivity|]. rewrite app_length. cbn. lia. }
        rewrite X. intros p u o Eo. apply (Hp p u (o ++ drop (length pre0 + 1) pre)). rewrite <- (take_drop (length pre0 + 1) pre) at 1. rewrite Eo, <- app_assoc. reflexivity.
      - apply Hn. assert (X : pre ++ [t] = take (length pre + 1) pre0).
        { rewrite <- (take_app_le pre0 (t0 :: post0)) by lia. rewrite <- Ep0. change (t :: post) with ([t] ++ post). rewrite app_assoc, take_app_alt; [reflexivity|]. rewrite app_length. cbn. lia. }
        rewrite X. intros p u o Eo. apply (Hp0 p u (o ++ drop (length pre + 1) pre0)). rewrite <- (take_drop (length pre + 1) pre0) at 1. rewrite Eo, <- app_assoc. reflexivity. }
    symmetry in Ep0. apply app_inj_1 in Ep0 as (-> & Ep0); [|exact Hlen]. injection Ep0 as -> _. auto. }
  assert (Hne : forall r0, push_answer H oob M (bh_height (bl_header b)) body r0 -> push_answer H oob M (bh_height (bl_header b')) body' r0 /\ r0 <> Ok tt).
  { intros r0 H0. rewrite <- Eh. inversion H0 as [[_ X _ _ _ _]| pre0 t0 post0 Ep0 Hp0 C1 C2 | pre0 t0 post0 r1 Ep0 Hp0 C1 C2 C3 | | | | | | | |]; subst; try contradiction.
    - destruct (Hsame pre0 t0 post0 Ep0 Hp0) as (-> & ->).
      { intros X. destruct (X pre0 t0 [] eq_refl) as ([Y|Y] & _); contradiction. }
      split; [|discriminate]. eapply answer_sender_type; eassumption.
    - destruct (Hsame pre0 t0 post0 Ep0 Hp0) as (-> & ->).
      { intros X. apply C3. destruct (X pre0 t0 [] eq_refl) as (_ & Y).
        assert (Ht : tx_ok t0).
        { destruct Hb as (_ & Hbody). destruct (Hbody body Eb) as (_ & _ & _ & _ & Hl & _). eapply ok_parts; [exact Hl|exact Ep0]. }
        pose proof (may_spend_answer H oob (after_debits H M pre0 (tx_sender H t0)) t0 (bh_height (bl_header b)) r0 ltac:(apply after_ok, HL) Ht Y C2) as Z. exact Z. }
      split; [|exact C3]. eapply answer_sender; eassumption. }
  destruct (Hne r Ha) as (Ha' & Hr'). split; [|exact Hr'].
  exact (C131_only H oob s c M b' body' r' s2 c2 r HH Hr HL Hb' Eb' E' Ha').
Qed.
Print Assumptions C131_first_sender.

(** A payment of account 1 to the contract that announces it as an HTLC. *)
Definition pay_contract (v : Z) : Tx := TExtended (MkExtendedTx [] (addr 1) 0 contract_addr 2 v 0 1 42 0 []).
(** Answers to concrete blocks: a crash of a payment to a contract, which a faulty creation, prune list or miner does not
    prevent and an overspending sender, even a later one, does; the wrong creation before the wrong prune list; the
    genesis height only after everything else but before the miner. *)
Example C131_example oob :
  let left := AHTLC (MkHTLC 0 (addr 1) (addr 2) (MkHash 3 (repeat 9 32)) 1 1000 500) in
  let push h txs pruned miner :=
    fst (fst (tree_Push toy_hash oob (state_of small_accounts) initial_cache (AccountsProps.block_of h (body_of miner txs pruned)))) in
  areach toy_hash oob (state_of small_accounts) initial_cache /\ lists (state_of small_accounts) (ledger_of small_accounts) /\
  push 1 [pay_contract 100; new_with 0 3 1 10] [MkPruned (addr 1) None] contract_addr = Panic /\
  push 1 [pay_contract 100; pay 2 (addr 3) 51 0] [MkPruned (addr 1) None] contract_addr = Err (EOverspend 50 51) /\
  push 0 [new_with 0 3 1 10] [MkPruned (addr 1) None] contract_addr = Err (ECreateBadType (repeat 77 20) 3) /\
  push 0 [pay 1 (addr 2) 100 5] [MkPruned (addr 1) None] contract_addr = Err (EPruneEarly [addr 1]) /\
  push 0 [pay 1 (addr 2) 100 5] [] contract_addr = Panic /\
  push 1 [pay 1 (addr 2) 100 5] [] contract_addr = Err (EAccountTypeMismatch 0 2) /\
  push 1 [claim 500 0] [MkPruned contract_addr (Some left)] contract_addr = Ok tt /\
  push 1 [pay 1 (addr 2) 100 5] [] (addr 4) = Ok tt.
Proof.
  cbv zeta. destruct (state_of_ok oob small_accounts small_accounts_ok) as (Hr & HL). split; [exact Hr|]. split; [exact HL|].
  vm_compute. repeat split; reflexivity.
Qed.
