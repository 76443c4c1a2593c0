(** Property C132: what a crashing or refused block leaves behind, and the coins that this destroys. *)
From Coq Require Import ZArith List Lia Bool.
From stdpp Require Import gmap list.
From Verif.Model Require Import Base Address Beserial Wire Policy Account Tree Accounts.
From Verif.Spec Require Import AddressSpec TreeSpec TreeHistory PolicySpec BeserialSpec WireSpec AccountSpec AccountsSpec RulesSpec FaultSpec OutcomeSpec.
From Verif.Proofs Require Import BaseFacts AccountFacts LedgerFacts PushFacts AccountsFacts TransferFacts RulesFacts ErrorFacts FaultFacts OutcomeFacts.
From Verif.Props Require Import TreeProps WireProps AccountProps AccountsProps PushProps FaultProps OutcomeProps.
Open Scope Z_scope.

(** A program that recovers from the crash of Push finds all accounts readable, and exactly these. *)
Theorem C132_crash_leaves H oob s c M b s' c' :
  hash_fn H -> areach H oob s c -> lists s M -> block_ok b ->
  tree_Push H oob s c b = (Panic, s', c') ->
  areach H oob s' c' /\
  ((bl_body b = None /\ s' = s) \/
   exists body M', bl_body b = Some body /\ lists s' M' /\ crashed H oob M (bh_height (bl_header b)) body M').
Proof.
  intros HH Hr HL Hb E. split; [eapply areach_push; eassumption|]. destruct (bl_body b) as [body|] eqn:Eb.
  - right. destruct (push_ledger H oob s c M b Panic s' c' HH Hr HL Hb E) as (M' & E' & HM' & HM & Hc & _).
    exists body, M'. split; [reflexivity|]. split; [exact (holds_lists H s' M' HM')|]. exact (push_crashed H oob HH M c b body M' c' HM Hc Hb Eb E').
  - left. rewrite (C66_no_body H oob s c b Eb) in E. injection E as <- _. auto.
Qed.
Print Assumptions C132_crash_leaves.

(** Sums modulo 2^64. *)
Lemma sum_mod {X : Type} (f g : X -> Z) l : (forall x, x ∈ l -> f x = g x mod 2 ^ 64) -> sum (map f l) mod 2 ^ 64 = sum (map g l) mod 2 ^ 64.
Proof.
  intros Hf. unfold sum. induction l as [|x l IH]; [reflexivity|]. cbn [map foldr]. rewrite (Hf x) by constructor. rewrite Zplus_mod_idemp_l, Zplus_mod.
  rewrite IH by (intros y Hy; apply Hf; constructor; exact Hy). rewrite <- Zplus_mod. reflexivity.
Qed.
Lemma total_mod H M M' d k :
  (forall a, Balance (acct M' a) = (Balance (acct M a) - charged H d (acct M a) a + received k a) mod 2 ^ 64) ->
  total M' mod 2 ^ 64 = (total M - sum (map (fun t => charge (acct M (tx_sender H t)) t) d) + sum (map tx_value k)) mod 2 ^ 64.
Proof.
  intros Hb. set (S := addresses H M M' (d ++ k) []). assert (HN : NoDup S) by apply NoDup_elements.
  rewrite (total_over M' S HN) by (intros a x Ex; apply addresses_in; right; right; left; eauto).
  rewrite (total_over M S HN) by (intros a x Ex; apply addresses_in; right; left; eauto).
  rewrite (sum_mod _ _ S (fun a _ => Hb a)). f_equal.
  rewrite (sum_map_add (fun a => Balance (acct M a) - charged H d (acct M a) a) (received k)), sum_map_sub.
  assert (D : sum (map (fun a => charged H d (acct M a) a) S) = sum (map (fun t => charge (acct M (tx_sender H t)) t) d)).
  { unfold charged. apply (sum_exchange S d (tx_sender H) (fun t a => charge (acct M a) t) HN). apply Forall_forall. intros t Ht. apply addresses_in. right. right. right. exists t. rewrite elem_of_app. auto. }
  assert (V : sum (map (received k) S) = sum (map tx_value k)).
  { unfold received. apply (sum_exchange S k tx_recipient (fun t a => tx_value t) HN). apply Forall_forall. intros t Ht. apply addresses_in. right. right. right. exists t. rewrite elem_of_app. auto. }
  rewrite D, V. reflexivity.
Qed.
Lemma removed_balance H M l pre a y : after_removals H M l pre a y -> Balance y = (Balance (acct M a) - charged H l (acct M a) a + received l a) mod 2 ^ 64.
Proof.
  intros (x & Hx & Hy). assert (E : Balance y = Balance x) by (destruct Hy as [((_ & _ & E) & ->)|(_ & ->)]; [symmetry; exact E|reflexivity]).
  rewrite E. unfold settled in Hx. cbv zeta in Hx. destruct (last_creation l a); [exact (contract_balance _ _ _ _ _ Hx)|]. rewrite Hx. apply balance_with.
Qed.
Lemma created_balance H M l pre a y : after_creations H M l pre a y -> Balance y = (Balance (acct M a) - charged H l (acct M a) a + received l a) mod 2 ^ 64.
Proof.
  unfold after_creations. destruct (last_creation pre a).
  - intros Hx. rewrite (contract_balance _ _ _ _ _ Hx). apply balance_with.
  - intros ->. apply balance_with.
Qed.

(** After a block that is not accepted, the accounts hold together what they held before, less what the transactions of
    a first part [debited] of the block were charged, plus the values of the transactions of a first part [credited];
    no transaction is credited unless all are debited.  (Modulo 2^64; charges are value and fee, for contracts the value.) *)
Theorem C132_coins H oob s c M b body r s' c' M' :
  hash_fn H -> areach H oob s c -> lists s M -> block_ok b -> bl_body b = Some body ->
  tree_Push H oob s c b = (r, s', c') -> r <> Ok tt -> lists s' M' ->
  exists debited credited,
    (debited `prefix_of` txs_of body /\ credited = [] \/ debited = txs_of body /\ credited `prefix_of` txs_of body) /\
    total M' mod 2 ^ 64 =
      (total M - sum (map (fun t => charge (acct M (tx_sender H t)) t) debited) + sum (map tx_value credited)) mod 2 ^ 64.
Proof.
  intros HH Hr HL Hb Eb E Hn HL'.
  assert (Hrec0 : forall a, received [] a = 0) by reflexivity.
  assert (Gd : forall pre t post, txs_of body = pre ++ t :: post -> (forall a, acct M' a = after_debits H M pre a) ->
    exists debited credited, (debited `prefix_of` txs_of body /\ credited = [] \/ debited = txs_of body /\ credited `prefix_of` txs_of body) /\
      total M' mod 2 ^ 64 = (total M - sum (map (fun t => charge (acct M (tx_sender H t)) t) debited) + sum (map tx_value credited)) mod 2 ^ 64).
  { intros pre t post Ep Ha. exists pre, []. split; [left; split; [rewrite Ep; eexists; reflexivity|reflexivity]|]. apply total_mod. intros a. rewrite Ha. unfold after_debits. rewrite balance_with, Hrec0, Z.add_0_r. reflexivity. }
  assert (Gc : forall pre t post, txs_of body = pre ++ t :: post -> (forall a, acct M' a = after_credits H M (txs_of body) pre a) ->
    exists debited credited, (debited `prefix_of` txs_of body /\ credited = [] \/ debited = txs_of body /\ credited `prefix_of` txs_of body) /\
      total M' mod 2 ^ 64 = (total M - sum (map (fun t => charge (acct M (tx_sender H t)) t) debited) + sum (map tx_value credited)) mod 2 ^ 64).
  { intros pre t post Ep Ha. exists (txs_of body), pre. split; [right; split; [reflexivity|rewrite Ep; eexists; reflexivity]|]. apply total_mod. intros a. rewrite Ha. unfold after_credits. apply balance_with. }
  assert (Ga : (forall a, Balance (acct M' a) = (Balance (acct M a) - charged H (txs_of body) (acct M a) a + received (txs_of body) a) mod 2 ^ 64) ->
    exists debited credited, (debited `prefix_of` txs_of body /\ credited = [] \/ debited = txs_of body /\ credited `prefix_of` txs_of body) /\
      total M' mod 2 ^ 64 = (total M - sum (map (fun t => charge (acct M (tx_sender H t)) t) debited) + sum (map tx_value credited)) mod 2 ^ 64).
  { intros Ha. exists (txs_of body), (txs_of body). split; [right; split; reflexivity|]. apply total_mod, Ha. }
  destruct r as [[]|e| |]; [congruence| | |].
  - destruct (C94_names_a_fault H oob s c M b e s' c' HH Hr HL Hb E) as (body' & N & Eb' & HN & Hf). assert (body' = body) as -> by congruence.
    assert (N = M') as -> by (apply (lists_unique s'); assumption).
    inversion Hf as [pre t post ? Ep _ _ Ha|pre t post ? ? Ep _ Ha|pre t post ? Ep _ _ _ Ha|pre y post ? ? Ep _ _ Ha|pre t post x ? _ _ _ _ _ Ha|pre t post x p ? _ _ _ _ _ _ Ha|early ? _ _ Ha|x ? _ _ Ha]; subst.
    + exact (Gd pre t post Ep Ha).
    + exact (Gd pre t post Ep Ha).
    + exact (Gc pre t post Ep Ha).
    + apply Ga. intros a. exact (created_balance _ _ _ _ _ _ (Ha a)).
    + apply Ga. intros a. exact (removed_balance _ _ _ _ _ _ (Ha a)).
    + apply Ga. intros a. exact (removed_balance _ _ _ _ _ _ (Ha a)).
    + apply Ga. intros a. exact (removed_balance _ _ _ _ _ _ (Ha a)).
    + apply Ga. intros a. exact (removed_balance _ _ _ _ _ _ (Ha a)).
  - destruct (C132_crash_leaves H oob s c M b s' c' HH Hr HL Hb E) as (_ & [(X & _)|(body' & N & Eb' & HN & Hf)]); [congruence|]. assert (body' = body) as -> by congruence.
    assert (N = M') as -> by (apply (lists_unique s'); assumption).
    destruct Hf as [pre t post Ep _ _ _ Ha|pre t post _ Ep _ _ _ Ha|_ _ _ _ _ _ Ha].
    + exact (Gd pre t post Ep Ha).
    + exact (Gc pre t post Ep Ha).
    + apply Ga. intros a. exact (removed_balance _ _ _ _ _ _ (Ha a)).
  - exfalso. exact (proj1 (C66_panics_partial H oob s c M b OutOfFuel s' c' HH Hr HL Hb E) eq_refl).
Qed.
Print Assumptions C132_coins.

(** ** Without overflow *)
Lemma charged_prefix H d l x a : Forall tx_ok l -> d `prefix_of` l -> charged H d x a <= charged H l x a.
Proof.
  intros Hl (q & ->). apply Forall_app in Hl as (_ & Hq). pose proof (charged_nonneg H q x a Hq). unfold charged in *. rewrite map_app, sum_app. lia.
Qed.
Lemma value_sum H M k d : Forall tx_ok d -> k `prefix_of` d -> sum (map tx_value k) <= sum (map (fun t => charge (acct M (tx_sender H t)) t) d).
Proof.
  intros Hd (q & ->). apply Forall_app in Hd as (Hk & Hq). rewrite map_app, sum_app.
  assert (0 <= sum (map (fun t => charge (acct M (tx_sender H t)) t) q)) by (apply sum_map_nonneg; intros t Ht; apply charge_nonneg; exact (proj1 (Forall_forall _ _) Hq t Ht)).
  assert (sum (map tx_value k) <= sum (map (fun t => charge (acct M (tx_sender H t)) t) k)); [|lia].
  apply sum_map_le. intros t Ht. pose proof (value_64 t (proj1 (Forall_forall _ _) Hk t Ht)) as (_ & V). unfold u64 in V. destruct (acct M (tx_sender H t)); cbn; lia.
Qed.
Lemma total_exact H M M' d k : Forall tx_ok d -> k `prefix_of` d -> total M < 2 ^ 64 ->
  (forall a, charged H d (acct M a) a <= Balance (acct M a)) ->
  (forall a, Balance (acct M' a) = (Balance (acct M a) - charged H d (acct M a) a + received k a) mod 2 ^ 64) ->
  total M' = total M - sum (map (fun t => charge (acct M (tx_sender H t)) t) d) + sum (map tx_value k).
Proof.
  intros Hd Hk Ht Hcov Hb. pose proof (value_sum H M k d Hd Hk) as Hv. set (S := addresses H M M' (d ++ k) []). assert (HN : NoDup S) by apply NoDup_elements.
  assert (HS : forall a x, M !! a = Some x -> a ∈ S) by (intros a x Ex; apply addresses_in; right; left; eauto).
  assert (Hko : Forall tx_ok k) by (destruct Hk as (q & ->); apply Forall_app in Hd; tauto).
  assert (D : sum (map (fun a => charged H d (acct M a) a) S) = sum (map (fun t => charge (acct M (tx_sender H t)) t) d)).
  { unfold charged. apply (sum_exchange S d (tx_sender H) (fun t a => charge (acct M a) t) HN). apply Forall_forall. intros t Hin. apply addresses_in. right. right. right. exists t. rewrite elem_of_app. auto. }
  assert (V : sum (map (received k) S) = sum (map tx_value k)).
  { unfold received. apply (sum_exchange S k tx_recipient (fun t a => tx_value t) HN). apply Forall_forall. intros t Hin. apply addresses_in. right. right. right. exists t. rewrite elem_of_app. auto. }
  assert (Hr : forall a, 0 <= received k a <= sum (map tx_value k)).
  { intros a. unfold received. split; [apply sum_map_nonneg|apply sum_map_le]; intros t Hin; destruct (value_64 t (proj1 (Forall_forall _ _) Hko t Hin)) as (V1 & _); unfold u64 in V1; destruct (decide _); lia. }
  pose proof (total_over M S HN HS) as T1.
  assert (T2 : total M' = sum (map (fun a => Balance (acct M' a)) S)) by (apply total_over; [exact HN|]; intros a x Ex; apply addresses_in; right; right; left; eauto).
  rewrite T2, (sum_map_ext _ (fun a => (Balance (acct M a) - charged H d (acct M a) a) + received k a)), sum_map_add, sum_map_sub, D, V, T1; [reflexivity|].
  intros a Ha. rewrite Hb. apply Z.mod_small. pose proof (Hcov a). pose proof (Hr a).
  assert (Balance (acct M a) - charged H d (acct M a) a <= total M - sum (map (fun t => charge (acct M (tx_sender H t)) t) d)); [|lia].
  rewrite T1, <- D, <- sum_map_sub. apply (sum_pick (fun a => Balance (acct M a) - charged H d (acct M a) a)); [|exact Ha]. intros y _. specialize (Hcov y). lia.
Qed.

(** A block that is not accepted creates no coins: exactly what was charged and not credited is lost. *)
Theorem C132_no_new_coins H oob s c M b body r s' c' M' :
  hash_fn H -> areach H oob s c -> lists s M -> block_ok b -> bl_body b = Some body ->
  Forall no_wrap (txs_of body) ->
  (forall a, AccountType (acct M a) = 1 -> charged H (txs_of body) (acct M a) a <= Balance (acct M a)) ->
  total M < 2 ^ 64 ->
  tree_Push H oob s c b = (r, s', c') -> r <> Ok tt -> lists s' M' ->
  total M' <= total M /\
  exists debited credited,
    (debited `prefix_of` txs_of body /\ credited = [] \/ debited = txs_of body /\ credited `prefix_of` txs_of body) /\
    total M' = total M - sum (map (fun t => charge (acct M (tx_sender H t)) t) debited) + sum (map tx_value credited).
Proof.
  intros HH Hr HL Hb Eb Hw Hv Ht E Hn HL'.
  assert (Hl : all_ok (bb_txs body)) by (destruct Hb as (_ & Hbody); apply (Hbody body Eb)). pose proof (present_ok _ Hl) as Hlo. change (present (bb_txs body)) with (txs_of body) in Hlo.
  assert (G : forall d k, (d `prefix_of` txs_of body /\ k = [] \/ d = txs_of body /\ k `prefix_of` txs_of body) ->
     (forall a, charged H d (acct M a) a <= Balance (acct M a)) ->
     (forall a, Balance (acct M' a) = (Balance (acct M a) - charged H d (acct M a) a + received k a) mod 2 ^ 64) ->
     total M' <= total M /\ exists debited credited,
       (debited `prefix_of` txs_of body /\ credited = [] \/ debited = txs_of body /\ credited `prefix_of` txs_of body) /\
       total M' = total M - sum (map (fun t => charge (acct M (tx_sender H t)) t) debited) + sum (map tx_value credited)).
  { intros d k Hdk Hcov Hbal.
    assert (Hd : Forall tx_ok d) by (destruct Hdk as [((q & Eq) & _)|(-> & _)]; [rewrite Eq in Hlo; apply Forall_app in Hlo; tauto|exact Hlo]).
    assert (Hk : k `prefix_of` d) by (destruct Hdk as [(_ & ->)|(-> & Hk)]; [apply prefix_nil|exact Hk]).
    pose proof (total_exact H M M' d k Hd Hk Ht Hcov Hbal) as T. pose proof (value_sum H M k d Hd Hk). split; [lia|]. exists d, k. auto. }
  destruct (push_ledger H oob s c M b r s' c' HH Hr HL Hb E) as (N & E' & HN & HM & Hc & _).
  assert (N = M') as -> by (apply (lists_unique s'); [exact (holds_lists H s' N HN)|exact HL']). clear HN.
  set (h := bh_height (bl_header b)) in *.
  destruct (pushSenders H oob ledger L_get L_put (bb_txs body) h M) as (rs & M1) eqn:ES. destruct (ok_dec rs) as [->|Hrs].
  - (* all senders were charged *)
    pose proof (senders_covered H oob (bb_txs body) h HH M M1 HM Hl Hw ES) as Hcov0. change (present (bb_txs body)) with (txs_of body) in Hcov0.
    assert (Hcov : forall a, charged H (txs_of body) (acct M a) a <= Balance (acct M a)) by (intros a; destruct (Z.eq_dec (AccountType (acct M a)) 1); auto).
    assert (Gd : forall pre t post, txs_of body = pre ++ t :: post -> (forall a, acct M' a = after_debits H M pre a) -> _) by
      (intros pre t post Ep Ha; exact (G pre [] (or_introl (conj (ex_intro _ (t :: post) Ep) eq_refl))
         (fun a => Z.le_trans _ _ _ (charged_prefix H pre (txs_of body) (acct M a) a Hlo (ex_intro _ (t :: post) Ep)) (Hcov a))
         (fun a => eq_trans (f_equal Balance (Ha a)) (eq_trans (balance_with _ _) (f_equal (fun z => z mod 2 ^ 64) (eq_sym (Z.add_0_r _))))))).
    assert (Gc : forall pre t post, txs_of body = pre ++ t :: post -> (forall a, acct M' a = after_credits H M (txs_of body) pre a) -> _) by
      (intros pre t post Ep Ha; exact (G (txs_of body) pre (or_intror (conj eq_refl (ex_intro _ (t :: post) Ep))) Hcov (fun a => eq_trans (f_equal Balance (Ha a)) (balance_with _ _)))).
    pose proof (G (txs_of body) (txs_of body) (or_intror (conj eq_refl (reflexivity _))) Hcov) as Ga.
    destruct r as [[]|e| |]; [congruence| | |].
    + pose proof (push_refused H oob HH M c b body e M' c' HM Hc Hb Eb E') as Hf.
      inversion Hf as [pre t post ? Ep _ _ Ha|pre t post ? ? Ep _ Ha|pre t post ? Ep _ _ _ Ha|pre y post ? ? Ep _ _ Ha|pre t post x ? _ _ _ _ _ Ha|pre t post x p ? _ _ _ _ _ _ Ha|early ? _ _ Ha|x ? _ _ Ha]; subst.
      * exact (Gd pre t post Ep Ha).
      * exact (Gd pre t post Ep Ha).
      * exact (Gc pre t post Ep Ha).
      * apply Ga. intros a. exact (created_balance _ _ _ _ _ _ (Ha a)).
      * apply Ga. intros a. exact (removed_balance _ _ _ _ _ _ (Ha a)).
      * apply Ga. intros a. exact (removed_balance _ _ _ _ _ _ (Ha a)).
      * apply Ga. intros a. exact (removed_balance _ _ _ _ _ _ (Ha a)).
      * apply Ga. intros a. exact (removed_balance _ _ _ _ _ _ (Ha a)).
    + destruct (push_crashed H oob HH M c b body M' c' HM Hc Hb Eb E') as [pre t post Ep _ _ _ Ha|pre t post _ Ep _ _ _ Ha|_ _ _ _ _ _ Ha].
      * exact (Gd pre t post Ep Ha).
      * exact (Gc pre t post Ep Ha).
      * apply Ga. intros a. exact (removed_balance _ _ _ _ _ _ (Ha a)).
    + exfalso. exact (proj1 (C66_panics_partial H oob s c M b OutOfFuel s' c' HH Hr HL Hb E) eq_refl).
  - (* a sender stopped the block *)
    assert (M' = M1) as ->.
    { unfold ledger_Push, Push in E'. cbv zeta in E'. rewrite Eb in E'. fold h in E'. unfold push_body in E'. unfold andthen at 1 in E'. rewrite ES in E'. destruct rs as [[]| | |]; congruence. }
    unfold pushSenders in ES. destruct (for_stop _ _ _ _ _ Hl ES Hrs) as (p & t & q & M2 & Ep & Hp & Htx & Ef & Eq). apply all_some in Hp.
    change (present (bb_txs body)) with (txs_of body) in Ep.
    destruct (senders_ok H oob HH (map Some p) h M M2 HM Hp Ef) as (HM2 & H2). rewrite present_some in H2.
    assert (M1 = M2) as ->.
    { unfold push_sender in Eq. cbv zeta in Eq. rewrite Lpush_eq in Eq. destruct (_ && _); [congruence|]. destruct (ApplyOutgoingTx H oob _ t h); try congruence. }
    assert (Hwp : Forall no_wrap (present (map Some p))) by (rewrite present_some; rewrite Ep in Hw; apply Forall_app in Hw; tauto).
    pose proof (senders_covered H oob (map Some p) h HH M M2 HM Hp Hwp Ef) as Hcov. rewrite present_some in Hcov.
    apply (G p []).
    + left. split; [rewrite Ep; eexists; reflexivity|reflexivity].
    + intros a. destruct (Z.eq_dec (AccountType (acct M a)) 1) as [E1|E1]; [|auto]. etransitivity; [|apply Hv, E1]. apply charged_prefix; [exact Hlo|]. rewrite Ep. eexists. reflexivity.
    + intros a. rewrite H2, balance_with. change (received [] a) with 0. rewrite Z.add_0_r. reflexivity.
Qed.
Print Assumptions C132_no_new_coins.

(** A block that crashes at its second recipient, a contract: the first transaction is settled, its fee of 5 is lost, and so are the 30 that
    the second one pays; a block whose second transaction overspends loses the 105 of the first. *)
Example C132_example oob :
  let totals txs := let '(r, s', _) := tree_Push toy_hash oob (state_of small_accounts) initial_cache (transfer_block txs) in
    (r, map (fun a => match tree_get_account s' a with Ok x => Balance x | _ => -1 end) [addr 1; addr 2; addr 3; addr 4; contract_addr]) in
  areach toy_hash oob (state_of small_accounts) initial_cache /\ lists (state_of small_accounts) (ledger_of small_accounts) /\
  totals [] = (Ok tt, [1000; 50; 0; 440597534; 500]) /\
  totals [pay 1 (addr 2) 100 5; pay_contract 30] = (Panic, [865; 150; 0; 0; 500]) /\
  totals [pay 1 (addr 2) 100 5; pay 2 (addr 3) 51 0] = (Err (EOverspend 50 51), [895; 50; 0; 0; 500]).
Proof.
  cbv zeta. destruct (state_of_ok oob small_accounts small_accounts_ok) as (Hr & HL). split; [exact Hr|]. split; [exact HL|].
  vm_compute. repeat split; reflexivity.
Qed.
