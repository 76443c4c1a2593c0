(** Properties C57, C58, C65-C67: rejected blocks, pruning, contract creation, panics,
    and independence of the store. *)
From Coq Require Import ZArith List Lia Bool.
From stdpp Require Import gmap list.
From Verif.Model Require Import Base Address Beserial Wire Policy Account Tree Accounts.
From Verif.Spec Require Import AddressSpec TreeSpec TreeHistory PolicySpec BeserialSpec WireSpec AccountSpec AccountsSpec.
From Verif.Proofs Require Import BaseFacts PolicyFacts BeserialFacts WireFacts AccountFacts LedgerFacts PushFacts AccountsFacts TransferFacts.
From Verif.Props Require Import TreeProps WireProps AccountProps AccountsProps.
Open Scope Z_scope.

(** ** C57 *)
Lemma plain_decrease H oob l h : hash_fn H -> forall M, ledger_ok M -> all_ok l -> Forall (plain_transfer H M) (present l) ->
  forall a, Balance (acct (snd (pushSenders H oob ledger L_get L_put l h M)) a) <= Balance (acct M a).
Proof.
  intros HH. unfold pushSenders. induction l as [|[t|] l IH]; intros M HM Hl Hp a; cbn [for_txs].
  - cbn. lia.
  - inversion Hl as [|? ? (x & Ex & Ht) Hl']; subst. injection Ex as <-.
    cbn [present flat_map app] in Hp. change (flat_map _ l) with (present l) in Hp. inversion Hp as [|? ? Hpt Hpl]; subst.
    pose proof Hpt as (T1 & _ & _ & Hw & (v & Ev) & _). unfold andthen at 1. unfold push_sender at 1. cbv zeta.
    rewrite Lpush_eq, content_sender, content_sender_type, T1, Ev. cbn [Z.eqb AccountUnknown negb andb AccountType].
    change (negb (0 =? 255) && negb (0 =? 0)) with false. cbn match.
    destruct (value_64 t Ht) as (V1 & V2). pose proof (acct_ok M (tx_sender H t) HM) as Hv. rewrite Ev in Hv. cbn in Hv. unfold u64 in *.
    destruct (Z.leb_spec (tx_value t + tx_fee t) v) as [Hle|Hgt].
    + rewrite (proj1 (proj1 (C64_basic_partial H oob v t h Ht ltac:(unfold u64; lia)) Hw) Hle).
      set (M1 := set_acct M (tx_sender H t) (Some (ABasic (v - tx_value t - tx_fee t)))).
      assert (HM1 : ledger_ok M1).
      { apply ledger_ok_set; [exact HM|apply sender_20; assumption|]. intros y [= <-]. cbn. unfold u64. lia. }
      assert (Hty : forall b, AccountType (acct M1 b) = AccountType (acct M b)).
      { intros b. unfold M1. rewrite acct_set. destruct (decide (b = tx_sender H t)) as [->|]; [rewrite Ev|]; reflexivity. }
      etransitivity; [apply IH; [exact HM1|exact Hl'|]|].
      * eapply Forall_impl; [exact Hpl|]. intros u Hu. apply (plain_types H M M1 u Hty Hu).
      * unfold M1. rewrite acct_set. destruct (decide (a = tx_sender H t)) as [->|]; [|lia]. rewrite Ev. cbn. lia.
    + rewrite (proj2 (proj1 (C64_basic_partial H oob v t h Ht ltac:(unfold u64; lia)) Hw) Hgt). cbn [snd]. lia.
  - inversion Hl as [|? ? (x & E & _) _]; discriminate E.
Qed.
(** The property is false of the code: a block of transfers that is rejected because some sender
    overspends has already debited the senders before it. *)
Theorem C57_not_atomic_refuted H oob s c M b body t rest o s' c' :
  hash_fn H -> areach H oob s c -> lists s M -> block_ok b -> bl_body b = Some body -> bh_height (bl_header b) <> 0 ->
  Forall (plain_transfer H M) (txs_of body) -> is_basic (acct M (bb_miner body)) -> bb_pruned body = [] ->
  txs_of body = t :: rest -> 0 < tx_value t + tx_fee t <= Balance (acct M (tx_sender H t)) ->
  (exists a, Balance (acct M a) < sent H (txs_of body) a) ->
  tree_Push H oob s c b = (o, s', c') ->
  overspends o /\ tree_get_account s' (tx_sender H t) <> tree_get_account s (tx_sender H t).
Proof.
  intros HH Hr HL Hb Eb Hh Hp Hm Hpr El Ht Hover E. destruct (push_ledger H oob s c M b o s' c' HH Hr HL Hb E) as (M' & E' & HM' & HM & Hc & HMs).
  pose proof (plain_outcome H oob M c b body HH HM Hc Hb Eb Hh Hp Hm Hpr) as (_ & P2). rewrite E' in P2. cbn [fst] in P2. specialize (P2 Hover).
  split; [exact P2|]. clear P2. pose proof Hb as (_ & Hbody). destruct (Hbody body Eb) as (_ & _ & _ & _ & Hl & _).
  pose proof (plain_senders H oob (bb_txs body) (bh_height (bl_header b)) HH M HM Hl Hp) as (_ & Q2). specialize (Q2 Hover).
  unfold Push in E'. cbv zeta in E'. rewrite Eb in E'. unfold push_body in E'.
  destruct (pushSenders H oob ledger L_get L_put (bb_txs body) (bh_height (bl_header b)) M) as (r & M1) eqn:Es. cbn [fst] in Q2. destruct Q2 as (av & sp & -> & _).
  rewrite (run_err _ _ M _ M1 Es) in E'. injection E' as <- <- <-.
  assert (HtOK : tx_ok t) by (pose proof (present_ok _ Hl) as Hall; change (present (bb_txs body)) with (txs_of body) in Hall; rewrite El in Hall; inversion Hall; assumption).
  rewrite (tree_get H s' M1 _ HM' (sender_20 H t HH HtOK)), (tree_get H s M _ HMs (sender_20 H t HH HtOK)).
  enough (Balance (acct M1 (tx_sender H t)) < Balance (acct M (tx_sender H t))) by (intros [= X]; rewrite X in *; lia).
  destruct (bb_txs body) as [|[t0|] l] eqn:Etx; [unfold txs_of in El; rewrite Etx in El; discriminate El| |inversion Hl as [|? ? (x & E0 & _) _]; discriminate E0].
  assert (Ets : txs_of body = t0 :: present l) by (unfold txs_of; rewrite Etx; reflexivity). rewrite Ets in El. injection El as -> _.
  inversion Hl as [|? ? _ Hl']; subst. rewrite Ets in Hp. inversion Hp as [|? ? Hpt Hpl]; subst.
  pose proof Hpt as (T1 & _ & _ & Hw & (v & Ev) & _).
  unfold pushSenders in Es. cbn [for_txs] in Es. unfold andthen at 1 in Es. unfold push_sender at 1 in Es. cbv zeta in Es.
  rewrite Lpush_eq, content_sender, content_sender_type, T1, Ev in Es. change (negb (0 =? AccountUnknown) && negb (0 =? AccountType (ABasic v))) with false in Es. cbn match in Es.
  destruct (value_64 t HtOK) as (V1 & V2). pose proof (acct_ok M (tx_sender H t) HM) as Hv. rewrite Ev in Hv, Ht. cbn in Hv, Ht. unfold u64 in *.
  rewrite (proj1 (proj1 (C64_basic_partial H oob v t (bh_height (bl_header b)) HtOK ltac:(unfold u64; lia)) Hw) ltac:(lia)) in Es.
  set (M0 := set_acct M (tx_sender H t) (Some (ABasic (v - tx_value t - tx_fee t)))) in *.
  assert (HM0 : ledger_ok M0).
  { apply ledger_ok_set; [exact HM|apply sender_20; assumption|]. intros y [= <-]. cbn. unfold u64. lia. }
  assert (Hty : forall a, AccountType (acct M0 a) = AccountType (acct M a)).
  { intros a. unfold M0. rewrite acct_set. destruct (decide (a = tx_sender H t)) as [->|]; [rewrite Ev|]; reflexivity. }
  pose proof (plain_decrease H oob l (bh_height (bl_header b)) HH M0 HM0 Hl') as Hd.
  specialize (Hd ltac:(eapply Forall_impl; [exact Hpl|]; intros u Hu; apply (plain_types H M M0 u Hty Hu)) (tx_sender H t)).
  unfold pushSenders in Hd. rewrite Es in Hd. cbn [snd] in Hd. unfold M0 in Hd. rewrite acct_set_eq in Hd. cbn [from_option id Balance] in Hd. rewrite Ev. cbn [Balance]. lia.
Qed.
Print Assumptions C57_not_atomic_refuted.
Example C57_example oob :
  let txs := [pay 1 (addr 2) 100 5; pay 2 (addr 3) 51 0] in
  Forall (plain_transfer toy_hash (ledger_of small_accounts)) txs /\
  Balance (acct (ledger_of small_accounts) (addr 2)) < sent toy_hash txs (addr 2) /\
  let '(o, s', _) := tree_Push toy_hash oob (state_of small_accounts) initial_cache (transfer_block txs) in
  o = Err (EOverspend 50 51) /\ map (tree_get_account s') [addr 1; addr 2; addr 3] = [Ok (ABasic 895); Ok (ABasic 50); Ok (ABasic 0)].
Proof.
  cbv zeta. split; [|split].
  - repeat constructor; try (unfold no_wrap; cbn; lia); unfold is_basic; eexists; vm_compute; reflexivity.
  - vm_compute. reflexivity.
  - vm_compute. split; reflexivity.
Qed.
(** What does hold: nothing is changed if there are no transactions, or if already the debit
    of the first one is refused (wrong account type, or the account refuses). *)
Definition first_refused (H : bytes -> bytes) (oob : float64 -> Z) (M : ledger) (body : BlockBody) (height : Z) : Prop :=
  exists t rest, txs_of body = t :: rest /\
    ((tx_sender_type t <> 255 /\ tx_sender_type t <> AccountType (acct M (tx_sender H t))) \/
     exists e, ApplyOutgoingTx H oob (acct M (tx_sender H t)) t height = Err e).
Theorem C57_unchanged_partial H oob s c M b body o s' c' :
  hash_fn H -> areach H oob s c -> lists s M -> block_ok b -> bl_body b = Some body ->
  tree_Push H oob s c b = (o, s', c') -> o <> Ok tt ->
  txs_of body = [] \/ first_refused H oob M body (bh_height (bl_header b)) ->
  s' = s.
Proof.
  intros HH Hr HL Hb Eb E Ho Hcase. destruct (lists_holds H oob s c M HH Hr HL) as (HM & Hc).
  pose proof Hb as (Hh & Hbody). destruct (Hbody body Eb) as (Hmi & _ & _ & _ & Hl & _).
  unfold tree_Push, Push in E. cbv zeta in E. rewrite Eb in E. unfold push_body in E.
  destruct (bb_txs body) as [|[t|] l] eqn:Etx; [|destruct Hcase as [Hn|Hf]|inversion Hl as [|? ? (x & E0 & _) _]; discriminate E0].
  - assert (Epr : push_body H oob state tree_get_account (tree_put_account H) body (bh_height (bl_header b)) s =
      ((if decide (prune_map (bb_pruned body) = ∅) then Ok tt else Err (EPruneEarly (map fst (map_to_list (prune_map (bb_pruned body)))))), s)).
    { unfold push_body, pruneAccounts. rewrite Etx. cbn. unfold done, stop. repeat case_decide; try reflexivity; contradiction. }
    unfold push_body in Epr. rewrite Etx in Epr. rewrite Epr in E. clear Epr.
    destruct (decide (prune_map (bb_pruned body) = ∅)); [|injection E as <- <- <-; reflexivity].
    destruct (BlockReward c (bh_height (bl_header b))) as (c1 & base). unfold andthen at 1, stop at 1 in E.
    destruct base as [base| | |]; try (injection E as <- <- <-; reflexivity).
    unfold pushInherents in E. rewrite Etx in E. cbn [add_fees] in E. unfold andthen at 1, stop at 1 in E.
    unfold pushTx, andthen, get_account in E. rewrite (tree_get H s M _ HM Hmi) in E.
    destruct (negb (0 =? AccountUnknown) && negb (0 =? AccountType (acct M (bb_miner body)))); [injection E as <- <- <-; reflexivity|].
    unfold stop in E.
    destruct (ApplyIncomingTx (acct M (bb_miner body)) (coinbase (bb_miner body) base (bh_height (bl_header b))) (bh_height (bl_header b))) as [x| | |] eqn:Ei;
      try (injection E as <- <- <-; reflexivity).
    unfold put_account in E. destruct (tree_put_account H s (bb_miner body) (Some x)); injection E as <- <- <-; [congruence|reflexivity..].
  - unfold txs_of in Hn. rewrite Etx in Hn. discriminate Hn.
  - destruct Hf as (t0 & rest & El & Hf). unfold txs_of in El. rewrite Etx in El. cbn [flat_map app] in El. injection El as <- _.
    inversion Hl as [|? ? (x & Ex & Ht) _]; subst. injection Ex as <-. 
    unfold pushSenders at 1 in E. cbn [for_txs] in E. unfold push_sender at 1 in E. cbv zeta in E. rewrite content_sender, content_sender_type in E.
    unfold pushTx in E. unfold andthen at 1 2 3 in E. unfold get_account at 1 in E. rewrite (tree_get H s M _ HM (sender_20 H t HH Ht)) in E. cbv iota beta in E.
    destruct Hf as [(F1 & F2)|(e & Fe)].
    + change AccountUnknown with 255 in E. rewrite (proj2 (Z.eqb_neq _ _) F1), (proj2 (Z.eqb_neq _ _) F2) in E. cbn in E. injection E as <- <- <-. reflexivity.
    + destruct (negb (tx_sender_type t =? AccountUnknown) && negb (tx_sender_type t =? AccountType (acct M (tx_sender H t)))); [cbn in E; injection E as <- <- <-; reflexivity|].
      unfold andthen at 1 in E. unfold stop at 1 in E. rewrite Fe in E. injection E as <- <- <-. reflexivity.
Qed.
Print Assumptions C57_unchanged_partial.
Example C57_unchanged_example oob :
  let txs := [pay 1 (addr 2) 1000 1; pay 2 (addr 3) 5 0] in
  first_refused toy_hash oob (ledger_of small_accounts) (body_of (addr 4) txs []) 1 /\
  fst (fst (tree_Push toy_hash oob (state_of small_accounts) initial_cache (transfer_block txs))) = Err (EOverspend 1000 1001).
Proof.
  cbv zeta. split; [|vm_compute; reflexivity]. eexists _, _. split; [reflexivity|]. right. exists (EOverspend 1000 1001). vm_compute. reflexivity.
Qed.

(** ** C58 *)
Lemma listed_none l a : listed l a = None <-> ~ exists p, p ∈ l /\ p_address p = a.
Proof.
  unfold listed. assert (G : forall r, foldl (fun r p => if decide (p_address p = a) then Some (p_account p) else r) r l = None <->
    r = None /\ ~ exists p, p ∈ l /\ p_address p = a).
  { induction l as [|p l IH]; intros r; cbn [foldl].
    - split; [|tauto]. intros ->. split; [reflexivity|]. intros (p & Hp & _). inversion Hp.
    - rewrite IH. destruct (decide (p_address p = a)) as [E|E].
      + split; [intros (X & _); discriminate X|]. intros (_ & X). exfalso. apply X. exists p. split; [constructor|exact E].
      + assert (Hiff : (exists q, q ∈ p :: l /\ p_address q = a) <-> exists q, q ∈ l /\ p_address q = a).
        { split; intros (q & Hq & Eq); [apply elem_of_cons in Hq as [->|Hq]; [contradiction|eauto]|]. exists q. split; [constructor; exact Hq|exact Eq]. }
        rewrite Hiff. reflexivity. }
  rewrite G. tauto.
Qed.
Lemma be_length n z : List.length (be n z) = n.
Proof. apply big_endian_length. Qed.
Lemma be_inj n z w : 0 <= z < 256 ^ Z.of_nat n -> 0 <= w < 256 ^ Z.of_nat n -> be n z = be n w -> z = w.
Proof.
  assert (G : forall n z w, be n z = be n w -> z mod 256 ^ Z.of_nat n = w mod 256 ^ Z.of_nat n).
  { clear. induction n as [|n IH]; intros z w E; [cbn; rewrite !Z.mod_1_r; reflexivity|].
    unfold be in *. cbn [big_endian] in E. injection E as E1 E2. apply IH in E2.
    rewrite Nat2Z.inj_succ, Z.pow_succ_r, (Z.mul_comm 256) by lia.
    rewrite !Z.rem_mul_r by (try apply Z.pow_nonzero; lia). rewrite E1, E2. reflexivity. }
  intros Hz Hw E. apply G in E. rewrite !Z.mod_small in E by assumption. exact E.
Qed.
Lemma contract_unique typ d v b x y : contract_from typ d v b x -> contract_from typ d v b y -> x = y.
Proof.
  assert (Bapp : forall (a a' r r' : bytes), a ++ r = a' ++ r' -> List.length a = List.length a' -> a = a' /\ r = r') by (intros; apply app_inj_1; assumption).
  assert (Ble : forall n u u', List.length (be n u) = List.length (be n u')) by (intros; rewrite !be_length; reflexivity).
  intros [(-> & c & -> & Hc)|(-> & k & -> & Hk)] [(E & c' & -> & Hc')|(E & k' & -> & Hk')]; try discriminate E; f_equal.
  - destruct c as [v1 o1 s1 b1 m1 t1], c' as [v2 o2 s2 b2 m2 t2]. destruct Hc as (A1 & (A2 & _) & A3 & A4 & A5 & A6 & A7), Hc' as (B1 & (B2 & _) & B3 & B4 & B5 & B6 & B7).
    cbn [v_value v_owner v_start v_step_blocks v_step_amount v_total] in *. subst v1 v2. unfold WireSpec.u32, u64 in *.
    assert (Hlen : forall o : bytes, List.length o = 20%nat -> forall r, List.length (o ++ r) = (20 + List.length r)%nat) by (intros o Ho r; rewrite app_length, Ho; reflexivity).
    destruct A7 as [(A7 & A8 & A9 & A10)|[(A7 & A8)|A7]], B7 as [(B7 & B8 & B9 & B10)|[(B7 & B8)|B7]]; rewrite A7 in B7;
      try (exfalso; apply (f_equal (@List.length Z)) in B7; rewrite !Hlen in B7 by assumption; rewrite ?app_length, ?be_length in B7; lia);
      apply Bapp in B7 as (-> & B7); try congruence;
      repeat match goal with X : be ?n _ ++ _ = be ?n _ ++ _ |- _ => apply Bapp in X as (? & X); [|apply Ble] end;
      repeat match goal with X : be ?n ?u = be ?n ?w |- _ => apply be_inj in X; [|cbn; lia|cbn; lia] end; subst; reflexivity.
  - destruct k as [v1 s1 r1 g1 c1 t1 w1], k' as [v2 s2 r2 g2 c2 t2 w2].
    destruct Hk as (A1 & (A2 & _) & (A3 & _) & A4 & A5 & A6 & A7 & A8 & A9), Hk' as (B1 & (B2 & _) & (B3 & _) & B4 & B5 & B6 & B7 & B8 & B9).
    cbn [h_value h_sender h_recipient h_hash h_count h_timeout h_total] in *. rewrite A9 in B9. subst v1 v2 w1 w2.
    destruct g1 as [ga gb], g2 as [ga' gb']. cbn [Algorithm Bytes] in *.
    apply Bapp in B9 as (-> & B9); [|congruence]. apply Bapp in B9 as (-> & B9); [|congruence].
    destruct A4 as (A4 & (A4' & _)), B4 as (B4 & (B4' & _)). cbn [Algorithm Bytes] in *.
    apply Bapp in B9 as (B9' & B9); [|cbn [List.length]; congruence]. injection B9' as -> ->. apply Bapp in B9 as (B9 & B10); [|apply Ble]. unfold u8, WireSpec.u32 in *.
    apply be_inj in B9; [|cbn; lia|cbn; lia]. apply be_inj in B10; [|cbn; lia|cbn; lia]. subst. reflexivity.
Qed.
(** The account an address is left with by the transactions is determined. *)
Lemma settled_unique H M l a x y : settled H M l a x -> settled H M l a y -> x = y.
Proof. unfold settled. cbv zeta. destruct (last_creation l a); [apply contract_unique|congruence]. Qed.

(** [x] is the account that the transactions leave at [a]. *)
Theorem C58_prune_list H oob s c M b body s' c' a x :
  hash_fn H -> areach H oob s c -> lists s M -> block_ok b -> bl_body b = Some body ->
  tree_Push H oob s c b = (Ok tt, s', c') -> array 20 a -> settled H M (txs_of body) a x ->
  ((exists p, p ∈ bb_pruned body /\ p_address p = a) <-> to_prune H (txs_of body) a x) /\
  (to_prune H (txs_of body) a x ->
     listed (bb_pruned body) a = Some (Some x) /\ exists v, tree_get_account s' a = Ok (ABasic v)).
Proof.
  intros HH Hr HL Hb Eb E Ha Hx. destruct (push_ledger H oob s c M b _ s' c' HH Hr HL Hb E) as (M' & E' & HM' & HM & Hc & HMs).
  destruct (push_effect H oob HH M c b M' c' HM Hc Hb E') as (_ & body' & Eb' & _ & _ & He). rewrite Eb in Eb'. injection Eb' as <-.
  destruct (He a) as (x0 & y & Hx0 & Hd & Hf). rewrite (settled_unique _ _ _ _ _ _ Hx0 Hx) in Hd. clear x0 Hx0.
  rewrite (tree_get H s' M' a HM' Ha).
  assert (Hl : listed (bb_pruned body) a <> None <-> exists p, p ∈ bb_pruned body /\ p_address p = a).
  { rewrite listed_none. split; [|tauto]. intros Hn.
    destruct (Exists_dec (fun p => p_address p = a) (bb_pruned body)) as [X|X]; [apply Exists_exists in X; exact X|].
    exfalso. apply Hn. intros Hp. apply X, Exists_exists, Hp. }
  destruct Hd as [(D1 & D2 & D3)|(D1 & D2 & D3)].
  - split; [split; [intros _; exact D1|intros _; apply Hl; rewrite D2; discriminate]|]. intros _. split; [exact D2|]. subst y.
    destruct (decide (a = bb_miner body)); [destruct Hf as (_ & ->)|rewrite Hf]; eauto.
  - split; [|contradiction]. split; [|contradiction]. intros Hp. apply Hl in Hp. congruence.
Qed.
Print Assumptions C58_prune_list.
Theorem C58_settled_exists H oob s c M b body s' c' a :
  hash_fn H -> areach H oob s c -> lists s M -> block_ok b -> bl_body b = Some body ->
  tree_Push H oob s c b = (Ok tt, s', c') -> exists x, settled H M (txs_of body) a x /\ forall y, settled H M (txs_of body) a y -> y = x.
Proof.
  intros HH Hr HL Hb Eb E. destruct (push_ledger H oob s c M b _ s' c' HH Hr HL Hb E) as (M' & E' & HM' & HM & Hc & HMs).
  destruct (push_effect H oob HH M c b M' c' HM Hc Hb E') as (_ & body' & Eb' & _ & _ & He). rewrite Eb in Eb'. injection Eb' as <-.
  destruct (He a) as (x & _ & Hx & _). exists x. split; [exact Hx|]. intros y Hy. apply (settled_unique _ _ _ _ _ _ Hy Hx).
Qed.
Print Assumptions C58_settled_exists.
(** The HTLC is emptied: the block must list it as it is left. *)
Example C58_example oob :
  let left := AHTLC (MkHTLC 0 (addr 1) (addr 2) (MkHash 3 (repeat 9 32)) 1 1000 500) in
  let push pruned := tree_Push toy_hash oob (state_of small_accounts) initial_cache (block_of 1 (body_of (addr 4) [claim 500 0] pruned)) in
  to_prune toy_hash [claim 500 0] contract_addr left /\
  fst (fst (push [MkPruned contract_addr (Some left)])) = Ok tt /\
  tree_get_account (snd (fst (push [MkPruned contract_addr (Some left)]))) contract_addr = Ok (ABasic 0) /\
  fst (fst (push [])) = Err (EPruneMissing contract_addr) /\
  fst (fst (push [MkPruned contract_addr (Some (ABasic 0))])) = Err (EPruneAltered contract_addr) /\
  fst (fst (push [MkPruned contract_addr (Some left); MkPruned (addr 1) (Some (ABasic 1000))])) = Err (EPruneEarly [addr 1]).
Proof.
  cbv zeta. split.
  - split; [eexists; split; [constructor|vm_compute; reflexivity]|]. split; [intros (v & X); discriminate X|reflexivity].
  - vm_compute. repeat split; reflexivity.
Qed.

(** ** C65 *)
(** If the last transaction that creates a contract at [a] is [t] and [a] sends nothing in this
    block, then [a] ends up with the contract described by [t], holding what [a] had
    before plus everything it received. *)
Theorem C65_contract_created_partial H oob s c M b body s' c' a t :
  hash_fn H -> areach H oob s c -> lists s M -> block_ok b -> bl_body b = Some body ->
  tree_Push H oob s c b = (Ok tt, s', c') -> array 20 a ->
  last_creation (txs_of body) a = Some t -> (forall u, u ∈ txs_of body -> tx_sender H u <> a) ->
  Balance (acct M a) + received (txs_of body) a < 2 ^ 64 ->
  exists x, tree_get_account s' a = Ok x /\
    contract_from (x_recipient_type t) (x_data t) (x_value t) (Balance (acct M a) + received (txs_of body) a) x.
Proof.
  intros HH Hr HL Hb Eb E Ha Hlast Hns Hfit. destruct (push_ledger H oob s c M b _ s' c' HH Hr HL Hb E) as (M' & E' & HM' & HM & Hc & HMs).
  destruct (push_effect H oob HH M c b M' c' HM Hc Hb E') as (_ & body' & Eb' & _ & _ & He). rewrite Eb in Eb'. injection Eb' as <-.
  destruct (He a) as (x & y & Hx & Hd & Hf). exists x. rewrite (tree_get H s' M' a HM' Ha).
  unfold settled in Hx. cbv zeta in Hx. rewrite Hlast in Hx.
  assert (Ez : charged H (txs_of body) (acct M a) a = 0).
  { unfold charged. rewrite (sum_map_ext _ (fun _ => 0)), sum_map_zero; [reflexivity|]. intros u Hu. rewrite decide_False; [reflexivity|]. apply Hns, Hu. }
  pose proof Hb as (_ & Hbody). destruct (Hbody body Eb) as (_ & _ & _ & _ & Hl & _). pose proof (present_ok _ Hl) as Hall. change (present (bb_txs body)) with (txs_of body) in Hall.
  assert (Hrec : 0 <= received (txs_of body) a).
  { unfold received. apply sum_map_nonneg. intros u Hu. destruct (value_64 u (proj1 (Forall_forall _ _) Hall u Hu)) as (Hv & _). unfold u64 in Hv.
    destruct (decide (tx_recipient u = a)); lia. }
  pose proof (balance_64 _ (acct_ok M a HM)) as Hbal. unfold u64 in Hbal.
  rewrite Ez, Z.sub_0_r, Z.mod_small in Hx by lia.
  assert (Hnb : ~ is_basic x) by (destruct Hx as [(_ & k & -> & _)|(_ & k & -> & _)]; intros (v & X); discriminate X).
  destruct Hd as [(((u & Hu & Eu) & _) & _)|(_ & _ & ->)]; [exfalso; apply (Hns u Hu Eu)|].
  destruct (decide (a = bb_miner body)); [destruct Hf as (Hf & _); contradiction|]. rewrite Hf. split; [reflexivity|exact Hx].
Qed.
Print Assumptions C65_contract_created_partial.
(** The property, for a creation that is the only transaction of the block from or to its recipient. *)
Theorem C65_single_creation_partial H oob s c M b body s' c' l1 l2 t :
  hash_fn H -> areach H oob s c -> lists s M -> block_ok b -> bl_body b = Some body ->
  tree_Push H oob s c b = (Ok tt, s', c') ->
  txs_of body = l1 ++ TExtended t :: l2 -> Z.odd (x_flags t) = true ->
  (forall u, u ∈ l1 ++ l2 -> tx_recipient u <> x_recipient t) ->
  (forall u, u ∈ l1 ++ TExtended t :: l2 -> tx_sender H u <> x_recipient t) ->
  Balance (acct M (x_recipient t)) + x_value t < 2 ^ 64 ->
  exists x, tree_get_account s' (x_recipient t) = Ok x /\
    contract_from (x_recipient_type t) (x_data t) (x_value t) (Balance (acct M (x_recipient t)) + x_value t) x.
Proof.
  intros HH Hr HL Hb Eb E El Hfl Hrec Hns Hfit.
  assert (Hno : forall l, (forall u, u ∈ l -> tx_recipient u <> x_recipient t) -> last_creation l (x_recipient t) = None /\ received l (x_recipient t) = 0).
  { intros l. induction l as [|u l IH]; intros Hl; [split; reflexivity|]. destruct IH as (I1 & I2); [intros v Hv; apply Hl; constructor; exact Hv|].
    pose proof (Hl u ltac:(constructor)) as Hu. split.
    - cbn [last_creation]. rewrite I1. destruct u as [|u]; [reflexivity|]. cbn in Hu. rewrite bool_decide_false, andb_false_r by exact Hu. reflexivity.
    - unfold received in *. cbn [map sum foldr]. unfold sum in I2. rewrite I2, decide_False by exact Hu. reflexivity. }
  destruct (Hno l1) as (A1 & A2); [intros u Hu; apply Hrec, elem_of_app; auto|]. destruct (Hno l2) as (B1 & B2); [intros u Hu; apply Hrec, elem_of_app; auto|].
  assert (Elast : last_creation (txs_of body) (x_recipient t) = Some t).
  { rewrite El. clear -B1 Hfl. induction l1 as [|u l IH]; cbn [app last_creation].
    - rewrite B1, Hfl, bool_decide_true by reflexivity. reflexivity.
    - rewrite IH. reflexivity. }
  assert (Er : received (txs_of body) (x_recipient t) = x_value t).
  { rewrite El. unfold received. rewrite map_app, sum_app. fold (received l1 (x_recipient t)). rewrite A2. cbn [map sum foldr tx_recipient tx_value].
    rewrite decide_True by reflexivity. unfold received, sum in B2. rewrite B2. lia. }
  pose proof Hb as (_ & Hbody). destruct (Hbody body Eb) as (_ & _ & _ & _ & Hl & _). pose proof (present_ok _ Hl) as Hall. change (present (bb_txs body)) with (txs_of body) in Hall.
  assert (Ht : tx_ok (TExtended t)) by (apply (proj1 (Forall_forall _ _) Hall); rewrite El; apply elem_of_app; right; constructor).
  destruct (C65_contract_created_partial H oob s c M b body s' c' (x_recipient t) t HH Hr HL Hb Eb E) as (x & Ex & Hx); [apply (recipient_20 _ Ht)|exact Elast| |rewrite Er; exact Hfit|].
  - rewrite El. exact Hns.
  - rewrite Er in Hx. eauto.
Qed.
Print Assumptions C65_single_creation_partial.
(** False in general: a later creation of the other kind for the same address in the same
    block replaces the contract, so the accepted first creation has no effect except its value. *)
Theorem C65_overwritten_refuted H oob s c M b body s' c' a t1 t2 :
  hash_fn H -> areach H oob s c -> lists s M -> block_ok b -> bl_body b = Some body ->
  tree_Push H oob s c b = (Ok tt, s', c') -> array 20 a ->
  last_creation (txs_of body) a = Some t2 -> (forall u, u ∈ txs_of body -> tx_sender H u <> a) ->
  Balance (acct M a) + received (txs_of body) a < 2 ^ 64 ->
  TExtended t1 ∈ txs_of body -> x_recipient t1 = a -> Z.odd (x_flags t1) = true -> x_recipient_type t1 <> x_recipient_type t2 ->
  forall x v, tree_get_account s' a = Ok x -> ~ contract_from (x_recipient_type t1) (x_data t1) (x_value t1) v x.
Proof.
  intros HH Hr HL Hb Eb E Ha Hlast Hns Hfit _ _ _ Hne x v Ex Hx.
  destruct (C65_contract_created_partial H oob s c M b body s' c' a t2 HH Hr HL Hb Eb E Ha Hlast Hns Hfit) as (y & Ey & Hy).
  assert (y = x) as -> by congruence. destruct Hx as [(T1 & k & -> & _)|(T1 & k & -> & _)], Hy as [(T2 & k' & Ek & _)|(T2 & k' & Ek & _)]; try discriminate Ek; congruence.
Qed.
Print Assumptions C65_overwritten_refuted.
(** Creating transactions from the basic account [addr 1] to [repeat 77 20]. *)
Definition new_vesting (value : Z) : ExtendedTx :=
  MkExtendedTx (addr 2 ++ be 4 1000) (addr 1) 0 (repeat 77 20) 1 value 0 1 42 1 [].
Definition new_htlc (value : Z) : ExtendedTx :=
  MkExtendedTx (addr 2 ++ addr 3 ++ 3 :: repeat 9 32 ++ be 1 1 ++ be 4 500) (addr 1) 0 (repeat 77 20) 2 value 0 1 42 1 [].
Lemma new_ok v : u64 v -> tx_ok (TExtended (new_vesting v)) /\ tx_ok (TExtended (new_htlc v)).
Proof.
  intros Hv. split; cbn -[repeat Z.pow addr be]; unfold WireSpec.u32, u8, u64;
    split_ands; try lia; try apply Hv; try constructor; try apply addr_ok; try (apply array_repeat; lia); try (vm_compute; reflexivity).
  all: vm_compute; repeat constructor; discriminate.
Qed.
Example C65_example oob :
  let push txs := tree_Push toy_hash oob (state_of small_accounts) initial_cache (block_of 1 (body_of (addr 4) txs [])) in
  (let '(o, s', _) := push [TExtended (new_vesting 300)] in
   o = Ok tt /\ tree_get_account s' (repeat 77 20) = Ok (AVesting (MkVesting 300 (addr 2) 0 1000 300 300))) /\
  let both := [TExtended (new_vesting 300); TExtended (new_htlc 100)] in
  last_creation both (repeat 77 20) = Some (new_htlc 100) /\
  let '(o, s', _) := push both in
  o = Ok tt /\ tree_get_account s' (repeat 77 20) = Ok (AHTLC (MkHTLC 400 (addr 2) (addr 3) (MkHash 3 (repeat 9 32)) 1 500 100)).
Proof. vm_compute. repeat split; reflexivity. Qed.

(** ** C66 *)
(** A payment to an address holding a contract passes all checks (if it names the
    contract's type, or 255, or carries the creation flag) and makes Push panic. *)
Theorem C66_contract_recipient_refuted H oob s c M b body t o s' c' :
  hash_fn H -> areach H oob s c -> lists s M -> block_ok b -> bl_body b = Some body ->
  txs_of body = [t] -> tx_sender_type t = 0 -> is_basic (acct M (tx_sender H t)) -> no_wrap t ->
  tx_value t + tx_fee t <= Balance (acct M (tx_sender H t)) ->
  ~ is_basic (acct M (tx_recipient t)) ->
  tx_creates t = true \/ tx_recipient_type t = AccountType (acct M (tx_recipient t)) \/ tx_recipient_type t = 255 ->
  tree_Push H oob s c b = (o, s', c') -> o = Panic.
Proof.
  intros HH Hr HL Hb Eb El T1 (v & Ev) Hw Hcov Hrec Hty E. destruct (push_ledger H oob s c M b o s' c' HH Hr HL Hb E) as (M' & E' & HM' & HM & Hc & HMs).
  pose proof Hb as (Hh & Hbody). destruct (Hbody body Eb) as (Hmi & _ & _ & _ & Hl & _).
  destruct (bb_txs body) as [|[t0|] l] eqn:Etx; [unfold txs_of in El; rewrite Etx in El; discriminate El| |inversion Hl as [|? ? (x & E0 & _) _]; discriminate E0].
  inversion Hl as [|? ? (x & Ex & Ht) Hl']; subst. injection Ex as <-. unfold txs_of in El. rewrite Etx in El. cbn [flat_map app] in El. injection El as -> El.
  assert (l = []) as ->. { destruct l as [|[u|] l]; [reflexivity|discriminate El|inversion Hl' as [|? ? (x & E0 & _) _]; discriminate E0]. }
  unfold Push in E'. cbv zeta in E'. rewrite Eb in E'. unfold push_body in E'. rewrite Etx in E'.
  destruct (value_64 t Ht) as (V1 & V2). pose proof (acct_ok M (tx_sender H t) HM) as Hv. rewrite Ev in Hv, Hcov. cbn in Hv, Hcov. unfold u64 in *.
  set (M0 := set_acct M (tx_sender H t) (Some (ABasic (v - tx_value t - tx_fee t)))).
  assert (Es : pushSenders H oob ledger L_get L_put [Some t] (bh_height (bl_header b)) M = (Ok tt, M0)).
  { unfold pushSenders. cbn [for_txs]. unfold andthen at 1. unfold push_sender at 1. cbv zeta.
    rewrite Lpush_eq, content_sender, content_sender_type, T1, Ev. change (negb (0 =? AccountUnknown) && negb (0 =? AccountType (ABasic v))) with false. cbn match.
    rewrite (proj1 (proj1 (C64_basic_partial H oob v t (bh_height (bl_header b)) Ht ltac:(unfold u64; lia)) Hw) ltac:(lia)). reflexivity. }
  rewrite (run_ok _ _ M tt M0 Es) in E'. clear Es.
  assert (Eq : acct M0 (tx_recipient t) = acct M (tx_recipient t)).
  { unfold M0. apply acct_set_ne. intros X. apply Hrec. rewrite X, Ev. exists v. reflexivity. }
  assert (Er : pushRecipients H ledger L_get L_put [Some t] (bh_height (bl_header b)) M0 = (Panic, M0)).
  { unfold pushRecipients. cbn [for_txs]. unfold andthen at 1. unfold push_recipient at 1. cbv zeta.
    rewrite Lpush_eq, content_recipient, content_recipient_type, creates_ok, Eq.
    assert (Eg : negb ((if tx_creates t then AccountUnknown else tx_recipient_type t) =? AccountUnknown) &&
                 negb ((if tx_creates t then AccountUnknown else tx_recipient_type t) =? AccountType (acct M (tx_recipient t))) = false).
    { destruct Hty as [Hty|[Hty|Hty] ]; rewrite Hty; destruct (tx_creates t); try reflexivity. rewrite Z.eqb_refl, andb_false_r. reflexivity. }
    rewrite Eg. destruct (acct M (tx_recipient t)) as [w| |]; [exfalso; apply Hrec; exists w; reflexivity|reflexivity|reflexivity]. }
  unfold andthen in E' at 1. rewrite Er in E'. injection E' as <- _ _. reflexivity.
Qed.
Print Assumptions C66_contract_recipient_refuted.
Example C66_contract_recipient_example oob :
  let t := TExtended (MkExtendedTx [] (addr 1) 0 contract_addr 2 5 0 1 42 0 []) in
  tx_ok t /\ ~ is_basic (acct (ledger_of small_accounts) (tx_recipient t)) /\
  tx_recipient_type t = AccountType (acct (ledger_of small_accounts) (tx_recipient t)) /\
  fst (fst (tree_Push toy_hash oob (state_of small_accounts) initial_cache (transfer_block [t]))) = Panic.
Proof.
  cbv zeta. split.
  { cbn -[repeat Z.pow addr be]. unfold WireSpec.u32, u8, u64. split_ands; try lia; try constructor; try apply addr_ok; try (apply array_repeat; lia); try (vm_compute; reflexivity). }
  split; [|split; vm_compute; reflexivity]. intros (v & X). vm_compute in X. discriminate X.
Qed.
(** Anyone can make Push panic with a spend of no more than is unlocked from anybody's vesting
    contract: the proof needs a merkle path of 249 to 255 nodes, and no valid signature. *)
Theorem C66_long_path_refuted H oob s c M b body x rest k n pub nodes sig o s' c' :
  hash_fn H -> areach H oob s c -> lists s M -> block_ok b -> bl_body b = Some body ->
  txs_of body = TExtended x :: rest ->
  acct M (x_sender x) = AVesting k -> x_sender_type x = 1 -> x_value x <= amountUnlocked oob k (bh_height (bl_header b)) ->
  249 <= n < 256 -> array 32 pub -> Forall (array 32) nodes -> zlen nodes = n -> array 64 sig ->
  x_proof x = pub ++ n :: List.concat nodes ++ sig ->
  tree_Push H oob s c b = (o, s', c') -> o = Panic.
Proof.
  intros HH Hr HL Hb Eb El Ek Ty Hun Hn Hpub Hnodes Hlen Hsig Epr E. destruct (push_ledger H oob s c M b o s' c' HH Hr HL Hb E) as (M' & E' & HM' & HM & Hc & HMs).
  pose proof Hb as (Hh & Hbody). destruct (Hbody body Eb) as (Hmi & _ & _ & _ & Hl & _).
  destruct (bb_txs body) as [|[t0|] l] eqn:Etx; [unfold txs_of in El; rewrite Etx in El; discriminate El| |inversion Hl as [|? ? (y & E0 & _) _]; discriminate E0].
  unfold txs_of in El. rewrite Etx in El. cbn [flat_map app] in El. injection El as -> El.
  destruct (long_proof_enc n pub nodes sig Hn Hpub Hnodes Hlen Hsig) as (Henc & Hpanic).
  set (p := MkProof pub (MkMerklePath (MkBitSet n []) nodes) sig) in *.
  assert (Epb : x_proof x = proof_bytes p).
  { rewrite Epr. unfold proof_bytes, p, bitset_bytes. cbn [PublicKey Path Signature Branches Hashes Len Bits app]. reflexivity. }
  assert (Eout : ApplyOutgoingTx H oob (AVesting k) (TExtended x) (bh_height (bl_header b)) = Panic).
  { cbn [ApplyOutgoingTx]. unfold Vesting_Outgoing. cbv zeta. cbn [as_extended bind]. rewrite (proj2 (Z.ltb_ge _ _) Hun).
    rewrite Epb, (read_full_enc _ _ _ Henc). cbn [bind].
    assert (Ev : proof_of (v_proof p) = p) by (unfold proof_of, v_proof; cbn [fld nth]; rewrite !bytes_of_vbytes, path_of_v; reflexivity).
    rewrite Ev, Hpanic. reflexivity. }
  unfold Push in E'. cbv zeta in E'. rewrite Eb in E'. unfold push_body in E'. rewrite Etx in E'.
  assert (Es : pushSenders H oob ledger L_get L_put (Some (TExtended x) :: l) (bh_height (bl_header b)) M = (Panic, M)).
  { unfold pushSenders. cbn [for_txs]. unfold andthen at 1. unfold push_sender at 1. cbv zeta.
    rewrite Lpush_eq, content_sender, content_sender_type. cbn [tx_sender tx_sender_type]. rewrite Ek, Ty. change (negb (1 =? AccountUnknown) && negb (1 =? AccountType (AVesting k))) with false. cbn match.
    rewrite Eout. reflexivity. }
  unfold andthen in E' at 1. rewrite Es in E'. injection E' as <- _ _. reflexivity.
Qed.
Print Assumptions C66_long_path_refuted.
Example C66_long_path_example oob :
  let k := MkVesting 100 (addr 9) 0 0 0 100 in
  let x := MkExtendedTx [] contract_addr 1 (addr 3) 0 1 0 1 42 0 (repeat 5 32 ++ 249 :: List.concat (repeat (repeat 6 32) 249) ++ repeat 7 64) in
  tx_ok (TExtended x) /\ x_value x <= amountUnlocked oob k 1 /\
  fst (fst (tree_Push toy_hash oob (state_of [(contract_addr, AVesting k)]) initial_cache (transfer_block [TExtended x]))) = Panic.
Proof.
  cbv zeta. split; [|split; [cbn; lia|vm_compute; reflexivity]].
  assert (Hp : bytes_ok (repeat 5 32 ++ 249 :: List.concat (repeat (repeat 6 32) 249) ++ repeat 7 64)).
  { assert (R : forall n z, 0 <= z < 256 -> bytes_ok (repeat z n)) by (intros n z Hz; apply (array_repeat n z Hz)).
    apply bytes_ok_app. split; [apply R; lia|]. constructor; [split; [discriminate|reflexivity]|]. apply bytes_ok_app. split; [|apply R; lia].
    generalize 249%nat. intros n. induction n as [|n IH]; cbn [repeat List.concat]; [constructor|]. apply bytes_ok_app. split; [exact (R 32%nat 6 ltac:(lia))|exact IH]. }
  cbn [tx_ok x_data x_sender x_sender_type x_recipient x_recipient_type x_value x_fee x_height x_network x_flags x_proof].
  unfold WireSpec.u32, u8, u64. split_ands; try exact Hp; try lia; try constructor; try apply addr_ok; try (apply array_repeat; lia); try (vm_compute; reflexivity).
Qed.
(** What holds: Push always terminates, and it panics only in these cases. *)
Theorem C66_panics_partial H oob s c M b o s' c' :
  hash_fn H -> areach H oob s c -> lists s M -> block_ok b ->
  tree_Push H oob s c b = (o, s', c') ->
  o <> OutOfFuel /\
  (o = Panic ->
     bl_body b = None \/ bh_height (bl_header b) = 0 \/
     exists body t, bl_body b = Some body /\ t ∈ txs_of body /\
       (~ is_basic (acct M (tx_recipient t)) \/
        ~ is_basic (acct M (tx_sender H t)) /\ exists x, t = TExtended x /\ 8065 <= zlen (x_proof x))).
Proof.
  intros HH Hr HL Hb E. destruct (push_ledger H oob s c M b o s' c' HH Hr HL Hb E) as (M' & E' & HM' & HM & Hc & HMs).
  pose proof (push_panics H oob HH M c b HM Hc Hb) as P. rewrite E' in P. cbn [fst] in P. split; [intros ->; exact P|].
  intros ->. cbn in P. destruct P as [P|[P|(body & t & P1 & P2 & [P3|(P3 & P4)])]]; [left; exact P|right; left; exact P|right; right; exists body, t..].
  - auto.
  - split; [exact P1|]. split; [exact P2|]. right. split; [exact P4|exact P3].
Qed.
Print Assumptions C66_panics_partial.
(** Both panics are real: no body, height 0. *)
Theorem C66_no_body H oob s c b : bl_body b = None -> tree_Push H oob s c b = (Panic, s, c).
Proof. intros E. unfold tree_Push, Push. cbv zeta. rewrite E. reflexivity. Qed.
Print Assumptions C66_no_body.

(** ** C67 *)
Theorem C67_same_answers H oob l : hash_fn H -> Forall call_ok l ->
  exists rs s c m,
    do_calls tree_get_account (tree_put_account H) (tree_Push H oob) new_tree initial_cache l = (rs, s, c) /\
    do_calls map_get_account map_put_account (map_Push H oob) ∅ initial_cache l = (rs, m, c) /\
    (forall a, array 20 a -> tree_get_account s a = map_get_account m a) /\
    Hash H s = Ok (merkle_root H m).
Proof.
  intros HH.
  assert (G : forall s m M c, tree_holds H s M -> map_holds m M -> Forall call_ok l ->
    exists rs s' c' m' M', do_calls tree_get_account (tree_put_account H) (tree_Push H oob) s c l = (rs, s', c') /\
      do_calls map_get_account map_put_account (map_Push H oob) m c l = (rs, m', c') /\ tree_holds H s' M' /\ map_holds m' M').
  { induction l as [|o l IH]; intros s m M c Hs Hm Hl; cbn [do_calls].
    - eexists _, _, _, _, _. split; [reflexivity|]. split; [reflexivity|]. split; [exact Hs|exact Hm].
    - inversion Hl as [|? ? Ho Hl']; subst.
      assert (Hone : exists r s' c' m' M', do_call tree_get_account (tree_put_account H) (tree_Push H oob) s c o = (r, s', c') /\
        do_call map_get_account map_put_account (map_Push H oob) m c o = (r, m', c') /\ tree_holds H s' M' /\ map_holds m' M').
      { destruct o as [a|a x|b]; cbn [do_call call_ok] in *.
        - rewrite (tree_get H s M a Hs Ho), (map_get m M a Hm Ho). eexists _, _, _, _, _. split; [reflexivity|]. split; [reflexivity|]. split; [exact Hs|exact Hm].
        - destruct Ho as (Ha & Hx). destruct (tree_put H s M a x Hs Ha Hx) as (s' & -> & Hs'). destruct (map_put m M a x Hm Ha Hx) as (m' & -> & Hm').
          eexists _, _, _, _, _. split; [reflexivity|]. split; [reflexivity|]. split; [exact Hs'|exact Hm'].
        - pose proof (tree_sim H oob s M c b HH Hs Ho) as T. pose proof (map_sim H oob m M c b HH Hm Ho) as U.
          destruct (tree_Push H oob s c b) as ((r & s') & c'). destruct (map_Push H oob m c b) as ((r' & m') & c'').
          destruct T as (M' & E1 & Hs'), U as (M'' & E2 & Hm'). rewrite E1 in E2. injection E2 as <- <- <-.
          eexists _, _, _, _, _. split; [reflexivity|]. split; [reflexivity|]. split; [exact Hs'|exact Hm']. }
      destruct Hone as (r & s1 & c1 & m1 & M1 & -> & -> & Hs1 & Hm1). destruct (IH s1 m1 M1 c1 Hs1 Hm1 Hl') as (rs & s2 & c2 & m2 & M2 & -> & -> & Hs2 & Hm2).
      eexists _, _, _, _, _. split; [reflexivity|]. split; [reflexivity|]. split; [exact Hs2|exact Hm2]. }
  intros Hl. destruct (G new_tree ∅ ∅ initial_cache) as (rs & s & c & m & M & E1 & E2 & Hs & Hm); [| |exact Hl|].
  - split; [|apply ledger_ok_empty]. unfold enc_ledger. rewrite fmap_empty. constructor.
  - split; [|apply ledger_ok_empty]. unfold enc_ledger. rewrite fmap_empty. reflexivity.
  - exists rs, s, c, m. split; [exact E1|]. split; [exact E2|]. split.
    + intros a Ha. rewrite (tree_get H s M a Hs Ha), (map_get m M a Hm Ha). reflexivity.
    + destruct Hs as (Hs & _), Hm as (Hm & _). rewrite Hm. apply C18_root_is_merkle_root, Hs.
Qed.
Print Assumptions C67_same_answers.
(** Three accounts, two blocks (the second is rejected half-way), a lookup. *)
Example C67_example oob :
  let calls := map (fun p => CPut p.1 (Some p.2)) small_accounts ++
    [CPush (transfer_block [claim 200 7]); CPush (transfer_block [pay 1 (addr 2) 100 5; pay 2 (addr 3) 5000 0]); CGet (addr 1)] in
  Forall call_ok calls /\
  fst (fst (do_calls tree_get_account (tree_put_account toy_hash) (tree_Push toy_hash oob) new_tree initial_cache calls)) =
  [AnPut (Ok tt); AnPut (Ok tt); AnPut (Ok tt); AnPush (Ok tt); AnPush (Err (EOverspend 50 5000)); AnGet (Ok (ABasic 895))].
Proof.
  cbv zeta. split; [|vm_compute; reflexivity]. apply Forall_app. split.
  - pose proof small_accounts_ok as Hs. induction Hs as [|p l (Ha & Hx) _ IH]; cbn [map]; constructor; [|exact IH].
    split; [exact Ha|]. intros y Ey. injection Ey as <-. exact Hx.
  - constructor; [|constructor; [|constructor; [apply addr_ok|constructor]]]; apply transfer_block_ok; try reflexivity.
    + constructor; [apply claim_ok; unfold u64; lia|constructor].
    + constructor; [|constructor; [|constructor]]; apply pay_ok; try (unfold u64; lia); apply addr_ok.
Qed.
