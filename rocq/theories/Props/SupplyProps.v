(** C84 for chains in which contracts pay: how much too much there is in the end. *)
From Coq Require Import ZArith List Lia Bool.
From stdpp Require Import gmap list.
From Verif.Model Require Import Base Address Beserial Wire Policy Account Tree Accounts Genesis.
From Verif.Spec Require Import AddressSpec TreeSpec TreeHistory PolicySpec BeserialSpec WireSpec AccountSpec AccountsSpec PushSpec RulesSpec GenesisSpec.
From Verif.Proofs Require Import BaseFacts PolicyFacts AccountFacts LedgerFacts PushFacts AccountsFacts TransferFacts PushCong RulesFacts.
From Verif.Props Require Import TreeProps WireProps AccountProps AccountsProps GenesisProps RulesProps.
Open Scope Z_scope.

Lemma sum_nonneg {X : Type} (f : X -> Z) l : (forall x, x ∈ l -> 0 <= f x) -> 0 <= sum (map f l).
Proof.
  induction l as [|x l IH]; intros Hp; cbn; [lia|]. pose proof (Hp x ltac:(left)). 
  assert (0 <= sum (map f l)) by (apply IH; intros y Hy; apply Hp; right; exact Hy). unfold sum in *. lia.
Qed.
Lemma body_fees_nonneg b : block_ok b ->
  0 <= match bl_body b with Some body => sum (map (fun t => if tx_sender_type t =? 0 then 0 else tx_fee t) (txs_of body)) | None => 0 end.
Proof.
  intros (_ & Hb). destruct (bl_body b) as [body|]; [|lia]. apply sum_nonneg. intros t Ht.
  destruct (Hb body eq_refl) as (_ & _ & _ & _ & Hl & _). pose proof (proj1 (Forall_forall _ _) (present_ok _ Hl) t Ht) as Hok.
  destruct (value_64 t Hok) as (_ & Hu). unfold u64 in Hu. destruct (_ =? 0); lia.
Qed.
Lemma chain_blocks H oob s c bs s' c' : chain H oob s c bs s' c' -> Forall block_ok bs.
Proof. induction 1; constructor; assumption. Qed.
Lemma contract_fees_nonneg bs : Forall block_ok bs -> 0 <= contract_fees bs.
Proof. intros Hb. apply sum_nonneg. intros b Hin. apply body_fees_nonneg. exact (proj1 (Forall_forall _ _) Hb b Hin). Qed.

(** Blocks at the heights h, h + 1, ... pushed onto a state with the supply of height h - 1, whose
    transactions name a sender type and do not wrap uint64, and in which no vesting contract
    overdraws: the money there is in the end is the supply that package policy says plus all fees
    of transactions sent by contracts. *)
Theorem C84_exact_partial : forall H oob s c M bs s' c' M' h,
  hash_fn H -> areach H oob s c -> lists s M -> chain H oob s c bs s' c' -> 1 <= h -> heights_from h bs ->
  (forall b body t, b ∈ bs -> bl_body b = Some body -> t ∈ txs_of body -> no_wrap t /\ tx_sender_type t <> 255) ->
  vesting_covered H oob s c bs -> contract_fees bs < 2 ^ 63 ->
  total M = supply_after_spec (h - 1) -> lists s' M' ->
  total M' = supply_after_spec (h - 1 + zlen bs) + contract_fees bs.
Proof.
  intros H oob s c M bs s' c' M' h HH Hr HL Hc Hh Hhs Hf Hv Hfees Ht HL'.
  (* with an excess carried along *)
  cut (forall z, 0 <= z -> z + contract_fees bs < 2 ^ 63 -> total M = supply_after_spec (h - 1) + z ->
         total M' = supply_after_spec (h - 1 + zlen bs) + z + contract_fees bs).
  { intros G. rewrite (G 0) by lia. lia. }
  clear Ht Hfees. revert M M' h Hr HL Hh Hhs Hf Hv HL'. induction Hc as [s c|s c b bs s1 c1 s' c' Hb E Hc IH]; intros M M' h Hr HL Hh Hhs Hf Hv HL' z Hz Hfees Ht.
  - assert (M' = M) as -> by (apply (lists_unique s); assumption). change (zlen []) with 0. change (contract_fees []) with 0. replace (h - 1 + 0) with (h - 1) by lia. lia.
  - destruct Hhs as (E0 & Hhs). destruct (bl_body b) as [body|] eqn:Eb.
    2: { unfold tree_Push, Push in E. rewrite Eb in E. discriminate E. }
    assert (Hr1 : areach H oob s1 c1) by (eapply areach_push; [exact Hr|exact Hb|exact E]).
    destruct (C52_ledger_exists H oob s1 c1 HH Hr1) as (M1 & HL1 & _).
    assert (Hrw : supply_after_spec h = supply_after_spec (h - 1) + block_reward_spec h).
    { unfold supply_after_spec, block_reward_spec. replace (S (Z.to_nat (h - 1))) with (Z.to_nat h) by lia. cbn [supply_before]. rewrite Z2Nat.id by lia. reflexivity. }
    assert (Hsb : supply_after_spec h <= 2100000000000000) by (pose proof (supply_before_bounds (S (Z.to_nat h))) as Hbd; unfold TotalSupply in Hbd; apply Hbd).
    assert (Hty : forall t, t ∈ txs_of body -> tx_sender_type t = AccountType (acct M (tx_sender H t))).
    { intros t Hin. pose proof (C80_types_partial H oob s c M b body s1 c1 t HH Hr HL Hb Eb E Hin) as (T & _). apply T.
      apply (Hf b body t); [left|exact Eb|exact Hin]. }
    assert (Hu : unpaid_fees H M (txs_of body) = sum (map (fun t => if tx_sender_type t =? 0 then 0 else tx_fee t) (txs_of body))).
    { unfold unpaid_fees. apply sum_map_ext. intros t Hin. rewrite (Hty t Hin). destruct (acct M (tx_sender H t)); reflexivity. }
    assert (Hcf : contract_fees (b :: bs) = unpaid_fees H M (txs_of body) + contract_fees bs).
    { rewrite Hu. unfold contract_fees. cbn [map sum foldr]. rewrite Eb. reflexivity. }
    assert (Hn : 0 <= unpaid_fees H M (txs_of body)).
    { rewrite Hu. pose proof (body_fees_nonneg b Hb) as G. rewrite Eb in G. exact G. }
    pose proof (contract_fees_nonneg bs (chain_blocks _ _ _ _ _ _ _ Hc)) as Hn2.
    assert (Hcov : forall a, AccountType (acct M a) = 1 -> sum (map tx_value (filter (fun t => tx_sender H t = a) (txs_of body))) <= Balance (acct M a)).
    { intros a Ha. destruct (acct M a) as [v|x|x] eqn:Ea; try discriminate Ha. cbn [Balance].
      assert (H20 : array 20 a).
      { unfold acct in Ea. destruct (M !! a) as [y|] eqn:Ey; [|discriminate Ea]. exact (proj1 (proj1 HL a y Ey)). }
      apply (Hv [] b bs s c body a x eq_refl); [constructor|exact Eb|exact H20|]. rewrite <- Ea. apply (proj2 HL a H20). }
    assert (Ht1 : total M1 = supply_after_spec (h + 1 - 1) + (z + unpaid_fees H M (txs_of body))).
    { rewrite (C55_total_partial H oob s c M b body s1 c1 M1 HH Hr HL Hb Eb); try assumption; rewrite ?E0, ?Ht; [replace (h + 1 - 1) with h by lia; lia| |lia].
      apply Forall_forall. intros t Hin. apply (Hf b body t); [left|exact Eb|exact Hin]. }
    rewrite (IH M1 M' (h + 1)) with (z := z + unpaid_fees H M (txs_of body)); try assumption; try lia.
    + replace (h - 1 + zlen (b :: bs)) with (h + 1 - 1 + zlen bs) by (unfold zlen; cbn [length]; lia). lia.
    + intros b' body' t Hin. apply Hf. right. exact Hin.
    + intros before b' after s2 c2 body' a x -> Hch. apply (Hv (b :: before) b' after s2 c2 body' a x); [reflexivity|].
      econstructor; [exact Hb|exact E|exact Hch].
Qed.
Print Assumptions C84_exact_partial.

(** ** A case: a vesting contract and an HTLC both pay fees, in two blocks. *)
Definition vesting_addr : bytes := repeat 78 20.
Definition contract_accounts : list (bytes * Account) :=
  [(addr 1, ABasic 251999999999200); (contract_addr, AHTLC (MkHTLC 500 (addr 1) (addr 2) (MkHash 3 (repeat 9 32)) 1 1000 500));
   (vesting_addr, AVesting (MkVesting 300 (addr 1) 0 0 0 300))].
Lemma contract_accounts_ok : Forall (fun p : bytes * Account => array 20 p.1 /\ account_ok p.2) contract_accounts.
Proof.
  assert (G : array 20 contract_addr) by (apply array_repeat; lia). assert (G2 : array 20 vesting_addr) by (apply array_repeat; lia).
  repeat (constructor; [split; [try apply addr_ok; try exact G; try exact G2|]|]); try constructor; cbn [snd account_ok]; unfold u64, WireSpec.u32, u8, hash_ok; cbn -[repeat Z.pow addr]; try lia;
    split_ands; try lia; try apply addr_ok; try (apply array_repeat; lia).
Qed.
Definition vesting_spend (value fee : Z) : Tx :=
  TExtended (MkExtendedTx [] vesting_addr 1 (addr 3) 0 value fee 1 42 0 (proof_bytes (plain_proof (key 1)))).
Definition contract_block1 : Block := AccountsProps.block_of 1 (body_of (addr 4) [claim 200 7; vesting_spend 100 5; vesting_spend 150 6; pay 1 (addr 2) 100 5] []).
Definition contract_block2 : Block := AccountsProps.block_of 2 (body_of (addr 4) [pay 4 (addr 5) 1000 1; vesting_spend 20 9] []).
Definition contract_blocks : list Block := [contract_block1; contract_block2].
Lemma chain_none H oob s c s' c' : chain H oob s c [] s' c' -> s' = s /\ c' = c.
Proof. inversion 1. auto. Qed.
Lemma chain_one H oob s c b s' c' : chain H oob s c [b] s' c' -> tree_Push H oob s c b = (Ok tt, s', c').
Proof. inversion 1 as [|? ? ? ? s1 c1 ? ? _ E Hc]. apply chain_none in Hc as (-> & ->). exact E. Qed.
Lemma covered_block oob s c txs :
  areach toy_hash oob s c ->
  match tree_get_account s vesting_addr with Ok (AVesting x) => sum (map tx_value (filter (fun t => tx_sender toy_hash t = vesting_addr) txs)) <=? v_value x | _ => false end = true ->
  forallb (fun t => bytes_eqb (tx_sender toy_hash t) vesting_addr ||
    match tree_get_account s (tx_sender toy_hash t) with Ok (AVesting _) => false | _ => true end) txs = true ->
  forall a x, array 20 a -> tree_get_account s a = Ok (AVesting x) ->
    sum (map tx_value (filter (fun t => tx_sender toy_hash t = a) txs)) <= v_value x.
Proof.
  intros Hr H1 H2 a x Ha Ex. destruct (decide (a = vesting_addr)) as [->|Hne]; [rewrite Ex in H1; apply Z.leb_le, H1|].
  rewrite (sum_map_ext _ (fun _ => 0)), sum_map_zero.
  - destruct (C52_ledger_exists toy_hash oob s c toy_hash_fn Hr) as (M & HL & _). pose proof (proj2 HL a Ha) as E. rewrite Ex in E. injection E as E.
    pose proof (balance_64 _ (acct_ok M a (proj1 HL))) as Hb. rewrite <- E in Hb. unfold u64 in Hb. cbn [Balance] in Hb. lia.
  - intros t Ht. apply elem_of_list_filter in Ht as (<- & Ht). rewrite forallb_forall in H2. specialize (H2 t (proj1 (elem_of_list_In _ _) Ht)).
    rewrite Ex, orb_false_r in H2. apply bytes_eqb_eq in H2. contradiction.
Qed.
Example C84_exact_case oob :
  areach toy_hash oob (state_of contract_accounts) initial_cache /\ lists (state_of contract_accounts) (ledger_of contract_accounts) /\
  total (ledger_of contract_accounts) = supply_after_spec 0 /\ heights_from 1 contract_blocks /\
  (exists s' c', chain toy_hash oob (state_of contract_accounts) initial_cache contract_blocks s' c') /\
  (forall b body t, b ∈ contract_blocks -> bl_body b = Some body -> t ∈ txs_of body -> no_wrap t /\ tx_sender_type t <> 255) /\
  vesting_covered toy_hash oob (state_of contract_accounts) initial_cache contract_blocks /\ contract_fees contract_blocks = 27.
Proof.
  destruct (state_of_ok oob contract_accounts contract_accounts_ok) as (Hr & HL). split; [exact Hr|]. split; [exact HL|].
  split; [vm_compute; reflexivity|]. split; [split; [reflexivity|split; [reflexivity|exact I]]|].
  assert (Hv : forall v f, u64 v -> u64 f -> tx_ok (vesting_spend v f)).
  { intros v f Hv Hf. assert (G2 : array 20 vesting_addr) by (apply array_repeat; lia).
    cbn -[repeat Z.pow addr vesting_addr proof_bytes]. unfold WireSpec.u32, u8. split_ands; try lia; try apply Hv; try apply Hf; try constructor; try apply addr_ok; try exact G2; try (cbn; lia).
    all: vm_compute; repeat constructor; discriminate. }
  assert (Hb : Forall block_ok contract_blocks).
  { assert (H1 : forall txs, Forall tx_ok txs -> forall h, u32 h -> zlen txs < 2 ^ 16 -> block_ok (AccountsProps.block_of h (body_of (addr 4) txs []))).
    { intros txs Ht h Hh Hl. apply block_of_ok; [exact Hh|]. apply body_of_ok; [apply addr_ok|exact Ht|exact Hl|constructor|reflexivity]. }
    unfold contract_blocks. repeat (apply Forall_cons; split); [..|apply Forall_nil; exact I]; apply H1; try (unfold PolicySpec.u32, WireSpec.u32; lia); try reflexivity;
      repeat (apply Forall_cons; split; [first [apply claim_ok|apply Hv|apply pay_ok; [lia|apply addr_ok|..]]; unfold u64; lia|]); apply Forall_nil; exact I. }
  set (s0 := state_of contract_accounts) in *.
  assert (X : let '(o, s1, c1) := tree_Push toy_hash oob s0 initial_cache contract_block1 in
    o = Ok tt /\ fst (fst (tree_Push toy_hash oob s1 c1 contract_block2)) = Ok tt /\
    let txs := [pay 4 (addr 5) 1000 1; vesting_spend 20 9] in
    match tree_get_account s1 vesting_addr with Ok (AVesting x) => sum (map tx_value (filter (fun t => tx_sender toy_hash t = vesting_addr) txs)) <=? v_value x | _ => false end = true /\
    forallb (fun t => bytes_eqb (tx_sender toy_hash t) vesting_addr ||
      match tree_get_account s1 (tx_sender toy_hash t) with Ok (AVesting _) => false | _ => true end) txs = true) by (vm_compute; auto).
  destruct (tree_Push toy_hash oob s0 initial_cache contract_block1) as ((o & s1) & c1) eqn:E1. destruct X as (-> & X & Y1 & Y2).
  destruct (tree_Push toy_hash oob s1 c1 contract_block2) as ((o2 & s2) & c2) eqn:E2. cbn [fst] in X. subst o2.
  assert (Hr1 : areach toy_hash oob s1 c1) by (eapply areach_push; [exact Hr|apply (Forall_inv Hb)|exact E1]).
  split.
  { exists s2, c2. econstructor; [apply (Forall_inv Hb)|exact E1|]. econstructor; [apply (Forall_inv (Forall_inv_tail Hb))|exact E2|constructor]. }
  split.
  { intros b body t Hin Eb Ht. unfold no_wrap.
    repeat (apply elem_of_cons in Hin as [->|Hin]; [unfold contract_block1, contract_block2 in Eb; cbn [AccountsProps.block_of bl_body] in Eb; injection Eb as <-; rewrite txs_of_body in Ht;
      repeat (apply elem_of_cons in Ht as [->|Ht]; [cbn; lia|]); inversion Ht|]). inversion Hin. }
  split; [|vm_compute; reflexivity].
  intros before b after s' c' body a x Ebs Hch Eb Ha Ex. destruct before as [|b1 before]; cbn in Ebs.
  - injection Ebs as <- _. apply chain_none in Hch as (-> & _). unfold contract_block1, contract_block2 in Eb. cbn [AccountsProps.block_of bl_body] in Eb. injection Eb as <-. rewrite txs_of_body.
    eapply covered_block; [exact Hr|vm_compute; reflexivity|vm_compute; reflexivity|exact Ha|exact Ex].
  - injection Ebs as <- Ebs. destruct before as [|b2 before]; cbn in Ebs; [|injection Ebs as _ Ebs; destruct before; discriminate Ebs].
    injection Ebs as <- _. apply chain_one in Hch as E1'.
    rewrite E1 in E1'. injection E1' as <- <-. unfold contract_block1, contract_block2 in Eb. cbn [AccountsProps.block_of bl_body] in Eb. injection Eb as <-. rewrite txs_of_body.
    eapply covered_block; [exact Hr1|exact Y1|exact Y2|exact Ha|exact Ex].
Qed.
