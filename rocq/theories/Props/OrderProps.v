(** C117: the order of the transactions of a block. *)
From Coq Require Import ZArith List Lia Bool.
From stdpp Require Import gmap list.
From Verif.Model Require Import Base Address Beserial Wire Policy Account Tree Accounts.
From Verif.Spec Require Import AddressSpec TreeSpec TreeHistory PolicySpec BeserialSpec WireSpec AccountSpec AccountsSpec PushSpec RulesSpec.
From Verif.Proofs Require Import BaseFacts PolicyFacts AccountFacts LedgerFacts PushFacts TransferFacts AccountsFacts RulesFacts.
From Verif.Props Require Import TreeProps AccountProps AccountsProps PushProps RulesProps.
Open Scope Z_scope.

(** ** What a sender can pay, in terms of all its transactions *)
(** The uint64 amount taken from an account like [x]. *)
Definition amt (x : Account) (t : Tx) : Z := charge x t mod 2 ^ 64.
(** Spending from [x] is limited by the current balance. *)
Definition limited (x : Account) (h : Z) : bool :=
  match x with
  | AVesting c => negb (h <=? v_start c) && ((v_step_blocks c =? 0) || (v_step_amount c =? 0))
  | _ => true
  end.
(** The conditions that do not depend on the balance. *)
Definition entitled (H : bytes -> bytes) (oob : float64 -> Z) (x : Account) (t : Tx) (h : Z) : Prop :=
  match x, t with
  | ABasic _, _ => True
  | AVesting c, TExtended y =>
      (limited x h = false -> x_value y <= amountUnlocked oob c h) /\
      exists p, proof_ok p /\ signer_of H p = v_owner c /\ x_proof y = proof_bytes p
  | AHTLC k, TExtended y =>
      htlc_regular H k (x_proof y) h \/ htlc_early H k (x_proof y) \/ htlc_timeout H k (x_proof y) h
  | _, TBasic _ => False
  end.

Lemma may_spend_split H oob x v t h : tx_ok t ->
  may_spend H oob (with_balance x v) t h <-> entitled H oob x t h /\ (limited x h = true -> amt x t <= v).
Proof.
  intros Ht. assert (Hv : 0 <= tx_value t < 2 ^ 64) by (destruct t; cbn in *; unfold u64 in *; tauto).
  destruct x as [w|c|k].
  - cbn [with_balance may_spend entitled limited]. unfold amt. cbn [charge]. tauto.
  - destruct t as [b|y]; cbn [with_balance may_spend entitled]; [tauto|].
    unfold amt. cbn [charge tx_value] in *. rewrite Z.mod_small by exact Hv.
    unfold limited, amountUnlocked. cbn [v_start v_step_blocks v_step_amount v_value v_owner].
    destruct (h <=? v_start c); cbn [negb andb]; [split; [intros (A & B); split; [auto|discriminate]|intros ((A & B) & _); auto]|].
    destruct ((v_step_blocks c =? 0) || (v_step_amount c =? 0)).
    + split; [intros (A & B); split; [split; [discriminate|exact B]|auto]|intros ((_ & B) & A); auto].
    + split; [intros (A & B); split; [auto|discriminate]|intros ((A & B) & _); auto].
  - destruct t as [b|y]; cbn [with_balance may_spend entitled limited]; [tauto|].
    unfold amt. cbn [charge tx_value h_value] in *. rewrite Z.mod_small by exact Hv.
    unfold htlc_regular, htlc_early, htlc_timeout. cbn [h_timeout h_recipient h_hash h_sender]. tauto.
Qed.

(** Each amount is covered by what the earlier ones left iff their sum is covered. *)
Definition amounts (H : bytes -> bytes) (x : Account) (l : list Tx) (a : bytes) : Z :=
  AccountsSpec.sum (map (fun t => if decide (tx_sender H t = a) then amt x t else 0) l).
Lemma amt_range x t : 0 <= amt x t < 2 ^ 64.
Proof. apply Z.mod_pos_bound. lia. Qed.
Lemma amounts_nonneg H x l a : 0 <= amounts H x l a.
Proof.
  unfold amounts, AccountsSpec.sum. induction l as [|t l IH]; cbn; [lia|]. pose proof (amt_range x t). case_decide; lia.
Qed.
Lemma covered_iff H x a l : forall B, 0 <= B < 2 ^ 64 ->
  (forall pre t post, l = pre ++ t :: post -> tx_sender H t = a -> amt x t <= (B - charged H pre x a) mod 2 ^ 64) <->
  amounts H x l a <= B.
Proof.
  induction l as [|t l IH]; intros B HB.
  { split; [intros _; cbn; lia|]. intros _ pre t post E. destruct pre; discriminate. }
  change (amounts H x (t :: l) a) with ((if decide (tx_sender H t = a) then amt x t else 0) + amounts H x l a).
  pose proof (amounts_nonneg H x l a) as Hn. pose proof (amt_range x t) as Hr.
  destruct (decide (tx_sender H t = a)) as [Et|Et].
  - assert (Hmod : forall pre, amt x t <= B -> (B - charged H (t :: pre) x a) mod 2 ^ 64 = (B - amt x t - charged H pre x a) mod 2 ^ 64).
    { intros pre _. rewrite charged_cons, decide_True by exact Et. unfold amt.
      rewrite <- (Zminus_mod_idemp_l (B - charge x t mod 2 ^ 64)), Zminus_mod_idemp_r, Zminus_mod_idemp_l. f_equal. lia. }
    split.
    + intros Hall. assert (H1 : amt x t <= B).
      { specialize (Hall [] t l eq_refl Et). change (charged H [] x a) with 0 in Hall. rewrite Z.sub_0_r, Z.mod_small in Hall by lia. exact Hall. }
      enough (amounts H x l a <= B - amt x t) by lia. apply (IH (B - amt x t)); [lia|].
      intros pre u post E Eu. rewrite <- Hmod by exact H1. apply (Hall (t :: pre) u post); [rewrite E; reflexivity|exact Eu].
    + intros Hs pre u post E Eu. destruct pre as [|t' pre]; cbn in E; injection E as <- E.
      * change (charged H [] x a) with 0. rewrite Z.sub_0_r, Z.mod_small by lia. lia.
      * rewrite Hmod by lia. apply (proj2 (IH (B - amt x t) ltac:(lia))) with (post := post); [lia|exact E|exact Eu].
  - rewrite Z.add_0_l, <- (IH B HB). split.
    + intros Hall pre u post E Eu. specialize (Hall (t :: pre) u post). rewrite charged_cons, decide_False, Z.add_0_l in Hall by exact Et.
      apply Hall; [rewrite E; reflexivity|exact Eu].
    + intros Hall pre u post E Eu. destruct pre as [|t' pre]; cbn in E; injection E as <- E; [contradiction|].
      rewrite charged_cons, decide_False, Z.add_0_l by exact Et. apply (Hall pre u post E Eu).
Qed.

Definition senders_rule (H : bytes -> bytes) (oob : float64 -> Z) (M : ledger) (h : Z) (l : list Tx) : Prop :=
  forall pre t post, l = pre ++ t :: post ->
    (tx_sender_type t = 255 \/ tx_sender_type t = AccountType (acct M (tx_sender H t))) /\
    may_spend H oob (after_debits H M pre (tx_sender H t)) t h.
Lemma senders_rule_iff H oob M h l : ledger_ok M -> Forall tx_ok l ->
  senders_rule H oob M h l <->
  Forall (fun t => let x := acct M (tx_sender H t) in
    (tx_sender_type t = 255 \/ tx_sender_type t = AccountType x) /\ entitled H oob x t h /\
    (limited x h = true -> amounts H x l (tx_sender H t) <= Balance x)) l.
Proof.
  intros HM Hl. split.
  - intros Hr. apply Forall_forall. intros t Ht. cbv zeta. rewrite Forall_forall in Hl.
    assert (Hsp : forall pre u post, l = pre ++ u :: post -> entitled H oob (acct M (tx_sender H u)) u h /\
      (limited (acct M (tx_sender H u)) h = true -> amt (acct M (tx_sender H u)) u <=
         (Balance (acct M (tx_sender H u)) - charged H pre (acct M (tx_sender H u)) (tx_sender H u)) mod 2 ^ 64)).
    { intros pre u post E. destruct (Hr pre u post E) as (_ & Hm). unfold after_debits in Hm.
      apply may_spend_split in Hm; [exact Hm|]. apply Hl. rewrite E. set_solver. }
    pose proof Ht as Hs. apply elem_of_list_split in Hs as (pre & post & E). destruct (Hr pre t post E) as (Hty & _).
    split; [exact Hty|]. split; [apply (Hsp pre t post E)|]. intros Hlim.
    pose proof (balance_64 _ (acct_ok M (tx_sender H t) HM)) as HB. unfold u64 in HB.
    apply covered_iff; [exact HB|]. intros pre' u post' E' Eu. destruct (Hsp pre' u post' E') as (_ & Hu). rewrite Eu in Hu. apply Hu, Hlim.
  - intros Hall pre t post E. rewrite Forall_forall in Hall, Hl.
    assert (Ht : t ∈ l) by (rewrite E; set_solver). destruct (Hall t Ht) as (Hty & Hen & Hlim). split; [exact Hty|].
    unfold after_debits. apply may_spend_split; [apply Hl, Ht|]. split; [exact Hen|]. intros Hx. specialize (Hlim Hx).
    pose proof (balance_64 _ (acct_ok M (tx_sender H t) HM)) as HB. unfold u64 in HB.
    exact (proj2 (covered_iff H _ _ l _ HB) Hlim pre t post E eq_refl).
Qed.

(** ** Creations *)
(** The addresses at which the transactions create contracts. *)
Definition created (l : list Tx) : list bytes :=
  flat_map (fun t => if tx_creates t then [tx_recipient t] else []) l.
Lemma last_creation_iff l a : NoDup (created l) -> forall y,
  last_creation l a = Some y <-> TExtended y ∈ l /\ Z.odd (x_flags y) = true /\ x_recipient y = a.
Proof.
  induction l as [|t l IH]; intros Hn y.
  { split; [discriminate|]. intros (Hin & _). inversion Hin. }
  assert (Hn' : NoDup (created l)). { cbn in Hn. apply NoDup_app in Hn. tauto. }
  specialize (IH Hn'). cbn [last_creation].
  assert (Hin : forall z, TExtended z ∈ l -> Z.odd (x_flags z) = true -> x_recipient z ∈ created l).
  { intros z Hz Ho. apply elem_of_list_In, in_flat_map. exists (TExtended z). split; [apply elem_of_list_In, Hz|].
    cbn. rewrite Ho. left. reflexivity. }
  destruct (last_creation l a) as [z|] eqn:El.
  - split.
    + intros [= ->]. destruct (proj1 (IH y) eq_refl) as (A & B). split; [right; exact A|exact B].
    + intros (A & B & C). f_equal. apply elem_of_cons in A as [A|A].
      * exfalso. subst t. destruct (proj1 (IH z) eq_refl) as (Z1 & Z2 & Z3).
        cbn in Hn. rewrite B in Hn. cbn in Hn. apply NoDup_cons in Hn as (Hn1 & _). apply Hn1.
        replace (x_recipient y) with (x_recipient z) by congruence. apply Hin; assumption.
      * pose proof (proj2 (IH y) (conj A (conj B C))) as X. congruence.
  - assert (Hno : ~ (TExtended y ∈ l /\ Z.odd (x_flags y) = true /\ x_recipient y = a)) by (intros X; apply IH in X; discriminate X).
    destruct t as [b|z].
    + split; [discriminate|]. intros (A & X). apply elem_of_cons in A as [A|A]; [discriminate A|tauto].
    + destruct (Z.odd (x_flags z)) eqn:Ez; cbn [andb].
      * case_bool_decide as Ea.
        -- split; [intros [= ->]; split; [left|auto]|]. intros (A & X). apply elem_of_cons in A as [[= ->]|A]; [reflexivity|tauto].
        -- split; [discriminate|]. intros (A & B & C). apply elem_of_cons in A as [[= ->]|A]; [contradiction|tauto].
      * split; [discriminate|]. intros (A & B & C). apply elem_of_cons in A as [[= ->]|A]; [congruence|tauto].
Qed.

Lemma created_perm l l' : l ≡ₚ l' -> created l ≡ₚ created l'.
Proof. intros Hp. unfold created. apply Permutation_flat_map, Hp. Qed.
Lemma last_creation_perm l l' a : l ≡ₚ l' -> NoDup (created l) -> last_creation l a = last_creation l' a.
Proof.
  intros Hp Hn. assert (Hn' : NoDup (created l')) by (rewrite <- (created_perm l l' Hp); exact Hn).
  assert (G : forall l1 l2 y, l1 ≡ₚ l2 -> NoDup (created l1) -> NoDup (created l2) -> last_creation l1 a = Some y -> last_creation l2 a = Some y).
  { intros l1 l2 y Hq H1 H2 E. apply last_creation_iff in E; [|exact H1]. apply last_creation_iff; [exact H2|]. rewrite <- Hq. exact E. }
  destruct (last_creation l a) as [y|] eqn:E; [symmetry; exact (G l l' y Hp Hn Hn' E)|].
  destruct (last_creation l' a) as [y|] eqn:E'; [|reflexivity]. rewrite (G l' l y (Permutation_sym Hp) Hn' Hn E') in E. discriminate.
Qed.

(** ** The rules under permutation *)
Lemma settled_perm H M l l' a x : l ≡ₚ l' -> NoDup (created l) -> settled H M l a x -> settled H M l' a x.
Proof.
  intros Hp Hn. unfold settled. cbv zeta. rewrite (last_creation_perm l l' a Hp Hn).
  assert (E1 : charged H l (acct M a) a = charged H l' (acct M a) a) by (apply sum_perm, Permutation_map, Hp).
  assert (E2 : received l a = received l' a) by (apply sum_perm, Permutation_map, Hp).
  rewrite E1, E2. auto.
Qed.
Lemma to_prune_perm H l l' a x : l ≡ₚ l' -> to_prune H l a x -> to_prune H l' a x.
Proof. intros Hp ((t & Ht & Es) & Hx). split; [|exact Hx]. exists t. split; [rewrite <- Hp; exact Ht|exact Es]. Qed.

Lemma acceptable_perm H oob M h body body' : ledger_ok M -> Forall tx_ok (txs_of body) ->
  txs_of body' ≡ₚ txs_of body -> NoDup (created (txs_of body)) ->
  bb_miner body' = bb_miner body -> bb_pruned body' = bb_pruned body ->
  acceptable H oob M h body -> acceptable H oob M h body'.
Proof.
  intros HM Hok Hp Hn Em Epr [R0 R1 R2 R3 R4 R5].
  assert (Hn' : NoDup (created (txs_of body'))) by (rewrite (created_perm _ _ Hp); exact Hn).
  assert (Hok' : Forall tx_ok (txs_of body')) by (rewrite Hp; exact Hok).
  constructor.
  - exact R0.
  - fold (senders_rule H oob M h (txs_of body')). apply senders_rule_iff; [exact HM|exact Hok'|].
    assert (Hs : senders_rule H oob M h (txs_of body)) by exact R1.
    apply senders_rule_iff in Hs; [|exact HM|exact Hok]. rewrite Hp.
    eapply Forall_impl; [exact Hs|]. intros t (A & B & C). split; [exact A|]. split; [exact B|]. intros Hlim.
    rewrite <- (C Hlim). apply Z.eq_le_incl. apply sum_perm, Permutation_map, Hp.
  - intros t Ht. apply R2. rewrite <- Hp. exact Ht.
  - intros y Hy. apply R3. rewrite <- Hp. exact Hy.
  - intros a x Hx. rewrite Epr. destruct (R4 a x (settled_perm H M _ _ a x Hp Hn' Hx)) as [(A & B)|(A & B)]; [left|right]; (split; [|exact B]).
    + exact (to_prune_perm H _ _ a x (Permutation_sym Hp) A).
    + intros Hq. apply A. exact (to_prune_perm H _ _ a x Hp Hq).
  - rewrite Em. intros x Hx. destruct (R5 x (settled_perm H M _ _ _ x Hp Hn' Hx)) as [A|A]; [left; exact A|right].
    exact (to_prune_perm H _ _ _ x (Permutation_sym Hp) A).
Qed.

(** C117.  Reordering the transactions of a block changes neither whether it is accepted nor any account
    afterwards nor the root hash, unless two of them create contracts at the same address.  Senders may be
    of all kinds and appear any number of times, as may recipients, and the prune list is arbitrary. *)
Theorem C117_order_irrelevant H oob s c b b' body body' o o' s1 s2 c1 c2 :
  hash_fn H -> areach H oob s c ->
  block_ok b -> bl_body b = Some body -> block_ok b' -> bl_body b' = Some body' ->
  bh_height (bl_header b') = bh_height (bl_header b) -> bb_miner body' = bb_miner body -> bb_pruned body' = bb_pruned body ->
  txs_of body' ≡ₚ txs_of body -> NoDup (created (txs_of body)) ->
  tree_Push H oob s c b = (o, s1, c1) -> tree_Push H oob s c b' = (o', s2, c2) ->
  (o = Ok tt <-> o' = Ok tt) /\
  (o = Ok tt -> (forall a, array 20 a -> tree_get_account s1 a = tree_get_account s2 a) /\ Hash H s1 = Hash H s2).
Proof.
  intros HH Hr Hb Eb Hb' Eb' Eh Em Epr Hp Hn E1 E2.
  destruct (C52_ledger_exists H oob s c HH Hr) as (M & HL & _).
  assert (Hok : forall x body, block_ok x -> bl_body x = Some body -> Forall tx_ok (txs_of body)).
  { intros x bd (_ & Hx) Ex. destruct (Hx bd Ex) as (_ & _ & _ & _ & Ht & _). apply Forall_forall. intros t Hin.
    apply elem_of_list_In, in_flat_map in Hin as (y & Hy & Hin). destruct y as [y|]; [|contradiction]. destruct Hin as [->|[]].
    rewrite List.Forall_forall in Ht. destruct (Ht _ Hy) as (t' & [= <-] & Ht'). exact Ht'. }
  assert (Hn' : NoDup (created (txs_of body'))) by (rewrite (created_perm _ _ Hp); exact Hn).
  assert (Hiff : o = Ok tt <-> o' = Ok tt).
  { rewrite (C79_accepts H oob s c M b body o s1 c1 HH Hr HL Hb Eb E1), (C79_accepts H oob s c M b' body' o' s2 c2 HH Hr HL Hb' Eb' E2), Eh.
    split; intros Ha.
    - exact (acceptable_perm H oob M _ body body' (proj1 HL) (Hok b body Hb Eb) Hp Hn Em Epr Ha).
    - exact (acceptable_perm H oob M _ body' body (proj1 HL) (Hok b' body' Hb' Eb') (Permutation_sym Hp) Hn' (eq_sym Em) (eq_sym Epr) Ha). }
  split; [exact Hiff|]. intros Ho. assert (Ho' : o' = Ok tt) by (apply Hiff; exact Ho). subst o o'. clear Hiff.
  assert (Hget : forall a, array 20 a -> tree_get_account s1 a = tree_get_account s2 a).
  { intros a Ha.
    destruct (C79_effect H oob s c M b body s1 c1 a HH Hr HL Hb Eb E1 Ha) as (x & y & z & S1 & P1 & G1 & Z1).
    destruct (C79_effect H oob s c M b' body' s2 c2 a HH Hr HL Hb' Eb' E2 Ha) as (x' & y' & z' & S2 & P2 & G2 & Z2).
    pose proof (settled_perm H M _ _ a x' Hp Hn' S2) as S2'. pose proof (settled_unique H M _ a x x' S1 S2') as <-.
    assert (y = y') as <-.
    { destruct P1 as [(A & ->)|(A & ->)], P2 as [(B & ->)|(B & ->)]; try reflexivity; exfalso.
      - apply B. exact (to_prune_perm H _ _ a x (Permutation_sym Hp) A).
      - apply A. exact (to_prune_perm H _ _ a x Hp B). }
    rewrite Em, Eh in Z2. assert (Ef : fees (txs_of body') = fees (txs_of body)) by (apply sum_perm, Permutation_map, Hp).
    rewrite Ef in Z2. rewrite G1, G2. f_equal. destruct (decide (a = bb_miner body)); [destruct Z1 as (_ & ->), Z2 as (_ & ->); reflexivity|congruence]. }
  split; [exact Hget|].
  destruct (push_ledger H oob s c M b _ s1 c1 HH Hr HL Hb E1) as (M1 & _ & HM1 & _).
  destruct (push_ledger H oob s c M b' _ s2 c2 HH Hr HL Hb' E2) as (M2 & _ & HM2 & _).
  assert (EM : M1 = M2).
  { apply ledger_ext; [apply HM1|apply HM2|]. intros a Ha. specialize (Hget a Ha).
    rewrite (tree_get H s1 M1 a HM1 Ha), (tree_get H s2 M2 a HM2 Ha) in Hget. congruence. }
  subst M2. rewrite (C18_root_is_merkle_root H s1 _ (proj1 HM1)), (C18_root_is_merkle_root H s2 _ (proj1 HM2)). reflexivity.
Qed.
Print Assumptions C117_order_irrelevant.

(** The proviso is needed: with two creations at one address the last one counts. *)
Theorem C117_creations_differ oob :
  exists H s c b b' body body' s1 s2 c1 c2 a,
    hash_fn H /\ areach H oob s c /\ block_ok b /\ bl_body b = Some body /\ block_ok b' /\ bl_body b' = Some body' /\
    bh_height (bl_header b') = bh_height (bl_header b) /\ bb_miner body' = bb_miner body /\ bb_pruned body' = bb_pruned body /\
    txs_of body' ≡ₚ txs_of body /\
    tree_Push H oob s c b = (Ok tt, s1, c1) /\ tree_Push H oob s c b' = (Ok tt, s2, c2) /\
    array 20 a /\ tree_get_account s1 a <> tree_get_account s2 a.
Proof.
  set (both := [TExtended (new_vesting 300); TExtended (new_htlc 100)]).
  set (bk := fun l => block_of 1 (body_of (addr 4) l [])).
  assert (Hok : forall l, l ≡ₚ both -> block_ok (bk l)).
  { intros l Hl. apply block_of_ok; [unfold PolicySpec.u32, WireSpec.u32; lia|]. apply body_of_ok; [apply addr_ok| | |constructor|reflexivity].
    - rewrite Hl. apply Forall_cons. split; [apply new_ok; unfold u64; lia|]. apply Forall_cons. split; [apply new_ok; unfold u64; lia|apply Forall_nil; exact I].
    - unfold zlen. rewrite Hl. reflexivity. }
  assert (T1 : let '(o, s', _) := tree_Push toy_hash oob (state_of small_accounts) initial_cache (bk both) in
    o = Ok tt /\ tree_get_account s' (repeat 77 20) = Ok (AHTLC (MkHTLC 400 (addr 2) (addr 3) (MkHash 3 (repeat 9 32)) 1 500 100)))
    by (vm_compute; split; reflexivity).
  assert (T2 : let '(o, s', _) := tree_Push toy_hash oob (state_of small_accounts) initial_cache (bk (rev both)) in
    o = Ok tt /\ tree_get_account s' (repeat 77 20) = Ok (AVesting (MkVesting 400 (addr 2) 0 1000 300 300)))
    by (vm_compute; split; reflexivity).
  destruct (tree_Push toy_hash oob (state_of small_accounts) initial_cache (bk both)) as ((o1 & s1) & c1) eqn:E1.
  destruct (tree_Push toy_hash oob (state_of small_accounts) initial_cache (bk (rev both))) as ((o2 & s2) & c2) eqn:E2.
  destruct T1 as (-> & T1), T2 as (-> & T2).
  exists toy_hash, (state_of small_accounts), initial_cache, (bk both), (bk (rev both)), (body_of (addr 4) both []), (body_of (addr 4) (rev both) []),
    s1, s2, c1, c2, (repeat 77 20).
  split; [exact toy_hash_fn|]. split; [apply (state_of_ok oob), small_accounts_ok|].
  split; [apply Hok; reflexivity|]. split; [reflexivity|]. split; [apply Hok, Permutation_sym, Permutation_rev|]. split; [reflexivity|].
  split; [reflexivity|]. split; [reflexivity|]. split; [reflexivity|]. split; [rewrite !txs_of_body; apply Permutation_sym, Permutation_rev|].
  split; [exact E1|]. split; [exact E2|]. split; [apply array_repeat; lia|]. rewrite T1, T2. discriminate.
Qed.
Print Assumptions C117_creations_differ.

(** ** Concrete case: two claims of one HTLC and a transfer, in both directions. *)
Definition mixed : list Tx := [claim 200 0; pay 1 (addr 2) 100 5; claim 300 0].
Example C117_case oob :
  areach toy_hash oob (state_of small_accounts) initial_cache /\ Forall tx_ok mixed /\
  rev mixed ≡ₚ mixed /\ rev mixed <> mixed /\ NoDup (created mixed) /\
  let spent := [MkPruned contract_addr (Some (AHTLC (MkHTLC 0 (addr 1) (addr 2) (MkHash 3 (repeat 9 32)) 1 1000 500)))] in
  forall l, l = mixed \/ l = rev mixed ->
  let '(o, s', _) := tree_Push toy_hash oob (state_of small_accounts) initial_cache (block_of 1 (body_of (addr 4) l spent)) in
  o = Ok tt /\ map (tree_get_account s') [addr 1; addr 2; addr 3; contract_addr] =
               [Ok (ABasic 895); Ok (ABasic 150); Ok (ABasic 500); Ok (ABasic 0)].
Proof.
  split; [apply (state_of_ok oob), small_accounts_ok|]. split.
  { apply Forall_cons. split; [apply claim_ok; unfold u64; lia|]. apply Forall_cons. split; [apply pay_ok; [lia|apply addr_ok|unfold u64; lia..]|].
    apply Forall_cons. split; [apply claim_ok; unfold u64; lia|apply Forall_nil; exact I]. }
  split; [apply Permutation_sym, Permutation_rev|]. split; [discriminate|]. split; [constructor|].
  intros spent l [->| ->]; vm_compute; split; reflexivity.
Qed.
