(** Sums of balances, and blocks of plain transfers. *)
From Coq Require Import ZArith List Lia Bool.
From stdpp Require Import gmap list.
From Verif.Model Require Import Base Address Beserial Wire Policy Account Tree Accounts.
From Verif.Spec Require Import AddressSpec TreeSpec TreeHistory PolicySpec BeserialSpec WireSpec AccountSpec AccountsSpec.
From Verif.Proofs Require Import BaseFacts PolicyFacts AccountFacts LedgerFacts PushFacts AccountsFacts.
Open Scope Z_scope.

(** ** Sums *)
Lemma sum_perm l l' : l ≡ₚ l' -> sum l = sum l'.
Proof. unfold sum. induction 1; cbn; lia. Qed.
Lemma sum_app l l' : sum (l ++ l') = sum l + sum l'.
Proof. unfold sum. induction l as [|x l IH]; cbn; lia. Qed.
Lemma sum_map_add {X : Type} (f g : X -> Z) l : sum (map (fun x => f x + g x) l) = sum (map f l) + sum (map g l).
Proof. unfold sum. induction l as [|x l IH]; cbn; lia. Qed.
Lemma sum_map_sub {X : Type} (f g : X -> Z) l : sum (map (fun x => f x - g x) l) = sum (map f l) - sum (map g l).
Proof. unfold sum. induction l as [|x l IH]; cbn; lia. Qed.
Lemma sum_map_ext {X : Type} (f g : X -> Z) l : (forall x, x ∈ l -> f x = g x) -> sum (map f l) = sum (map g l).
Proof.
  unfold sum. induction l as [|x l IH]; intros Hf; cbn; [reflexivity|]. rewrite (Hf x) by constructor. rewrite IH; [reflexivity|].
  intros y Hy. apply Hf. constructor. exact Hy.
Qed.
Lemma sum_map_le {X : Type} (f g : X -> Z) l : (forall x, x ∈ l -> f x <= g x) -> sum (map f l) <= sum (map g l).
Proof.
  unfold sum. induction l as [|x l IH]; intros Hf; cbn; [lia|]. pose proof (Hf x ltac:(constructor)). specialize (IH (fun y Hy => Hf y ltac:(constructor; exact Hy))). lia.
Qed.
Lemma sum_map_zero {X : Type} (l : list X) : sum (map (fun _ => 0) l) = 0.
Proof. unfold sum. induction l; cbn; lia. Qed.
Lemma sum_map_nonneg {X : Type} (f : X -> Z) l : (forall x, x ∈ l -> 0 <= f x) -> 0 <= sum (map f l).
Proof. intros Hf. transitivity (sum (map (fun _ => 0) l)); [rewrite sum_map_zero; lia|]. apply sum_map_le. exact Hf. Qed.
Lemma sum_pick {X : Type} (f : X -> Z) l x : (forall y, y ∈ l -> 0 <= f y) -> x ∈ l -> f x <= sum (map f l).
Proof.
  intros Hf Hx. unfold sum. induction Hx as [x l|x y l Hx IH]; cbn.
  - assert (0 <= foldr Z.add 0 (map f l)); [|lia]. change (foldr Z.add 0 (map f l)) with (sum (map f l)). rewrite <- (sum_map_zero l).
    apply sum_map_le. intros y Hy. apply Hf. constructor. exact Hy.
  - specialize (IH (fun z Hz => Hf z ltac:(constructor; exact Hz))). pose proof (Hf y ltac:(constructor)). lia.
Qed.
(** Exactly one address of [S] equals [a]. *)
Lemma sum_indicator (S : list bytes) a v : NoDup S -> a ∈ S -> sum (map (fun b => if decide (a = b) then v else 0) S) = v.
Proof.
  intros HN Ha. induction Ha as [a S|a b S Ha IH]; apply NoDup_cons in HN as (Hn & HN); cbn [map].
  - change (sum ((if decide (a = a) then v else 0) :: ?l)) with ((if decide (a = a) then v else 0) + sum l). unfold sum at 1. cbn [foldr].
    rewrite decide_True by reflexivity. fold (sum (map (fun b => if decide (a = b) then v else 0) S)).
    rewrite (sum_map_ext _ (fun _ => 0)), sum_map_zero; [lia|]. intros b Hb. rewrite decide_False; [reflexivity|]. intros ->. contradiction.
  - unfold sum in *. cbn [foldr]. rewrite (IH HN). rewrite decide_False; [lia|]. intros ->. contradiction.
Qed.
Lemma sum_exchange (S : list bytes) (l : list Tx) (key : Tx -> bytes) (f : Tx -> bytes -> Z) : NoDup S -> Forall (fun t => key t ∈ S) l ->
  sum (map (fun a => sum (map (fun t => if decide (key t = a) then f t a else 0) l)) S) = sum (map (fun t => f t (key t)) l).
Proof.
  intros HN Hl. induction Hl as [|t l Ht _ IH]; [apply sum_map_zero|]. transitivity (f t (key t) + sum (map (fun t => f t (key t)) l)); [|reflexivity].
  rewrite <- IH, <- (sum_indicator S (key t) (f t (key t)) HN Ht), <- sum_map_add. apply sum_map_ext. intros a _.
  unfold sum at 1. cbn [map foldr]. destruct (decide (key t = a)) as [->|]; reflexivity.
Qed.

(** ** The total over a set of addresses *)
Lemma total_over (M : ledger) (S : list bytes) : NoDup S -> (forall a x, M !! a = Some x -> a ∈ S) -> total M = sum (map (fun a => Balance (acct M a)) S).
Proof.
  revert S. induction M as [|a x M Ha IH] using map_ind; intros S HN HS.
  - unfold total. rewrite map_to_list_empty. cbn. rewrite (sum_map_ext _ (fun _ => 0)), sum_map_zero; [reflexivity|]. intros b _. unfold acct. rewrite lookup_empty. reflexivity.
  - unfold total. rewrite (sum_perm _ _ (fmap_Permutation (fun kv => Balance kv.2) _ _ (map_to_list_insert M a x Ha))). cbn.
    change (foldr Z.add 0 (map (fun kv : bytes * Account => Balance kv.2) (map_to_list M))) with (total M).
    assert (HaS : a ∈ S) by (apply (HS a x), lookup_insert). destruct (elem_of_Permutation S a) as (Hp & _). destruct (Hp HaS) as (S' & HS').
    rewrite (sum_perm _ _ (fmap_Permutation (fun b => Balance (acct (<[a:=x]> M) b)) _ _ HS')). cbn.
    assert (HN' : NoDup (a :: S')) by (rewrite <- HS'; exact HN). apply NoDup_cons in HN' as (Hn' & HN').
    unfold acct at 1. rewrite lookup_insert. cbn [from_option id]. f_equal.
    transitivity (total M); [reflexivity|]. rewrite (IH S' HN').
    + apply sum_map_ext. intros b Hb. unfold acct. rewrite lookup_insert_ne; [reflexivity|]. intros ->. contradiction.
    + intros b y Hb. assert (b <> a) by (intros ->; congruence). assert (Hb' : b ∈ S) by (apply (HS b y); rewrite lookup_insert_ne by congruence; exact Hb).
      rewrite HS' in Hb'. apply elem_of_cons in Hb' as [->|Hb']; [contradiction|exact Hb'].
Qed.

(** ** Debits never overdraw, except for vesting contracts *)
Lemma charge_nonneg x t : tx_ok t -> 0 <= charge x t.
Proof. intros Ht. destruct (value_64 t Ht) as (H1 & H2). unfold u64 in *. destruct x; cbn; lia. Qed.
Lemma charged_nonneg H l x a : Forall tx_ok l -> 0 <= charged H l x a.
Proof.
  intros Hl. unfold charged. apply sum_map_nonneg. intros t Ht. rewrite Forall_forall in Hl.
  destruct (decide (tx_sender H t = a)); [apply charge_nonneg, Hl, Ht|reflexivity].
Qed.
Lemma charged_cons H t l x a : charged H (t :: l) x a = (if decide (tx_sender H t = a) then charge x t else 0) + charged H l x a.
Proof. reflexivity. Qed.
Lemma senders_covered H oob l h : hash_fn H -> forall M M', ledger_ok M -> all_ok l -> Forall no_wrap (present l) ->
  pushSenders H oob ledger L_get L_put l h M = (Ok tt, M') ->
  forall a, AccountType (acct M a) <> 1 -> charged H (present l) (acct M a) a <= Balance (acct M a).
Proof.
  intros HH M M' HM Hl. revert M M' HM. unfold pushSenders. induction Hl as [|t l (x & -> & Hx) _ IH]; intros M M' HM Hw E a Ha; cbn [for_txs] in E.
  - cbn. apply balance_64, acct_ok, HM.
  - apply andthen_ok in E as ([] & M1 & E1 & E2). unfold push_sender in E1. cbv zeta in E1. rewrite content_sender in E1.
    apply Lpush_ok in E1 as (_ & y & Ey & ->). pose proof (acct_ok M (tx_sender H x) HM) as Hax. inversion Hw as [|? ? Hwx Hwl]; subst.
    assert (HM1 : ledger_ok (set_acct M (tx_sender H x) (Some y))).
    { apply ledger_ok_set; [exact HM|apply sender_20; assumption|]. intros z [= <-]. eapply outgoing_ok; [| |exact Ey]; assumption. }
    specialize (IH _ _ HM1 Hwl E2 a). cbn [present flat_map app]. change (flat_map _ l) with (present l). rewrite charged_cons. rewrite acct_set in IH.
    destruct (decide (a = tx_sender H x)) as [->|Hne]; [|rewrite decide_False by congruence; apply IH, Ha]. rewrite decide_True by reflexivity. cbn [from_option id] in IH.
    assert (Hle : charge (acct M (tx_sender H x)) x <= Balance (acct M (tx_sender H x))).
    { destruct (acct M (tx_sender H x)) as [v|c|k]; [|contradiction Ha; reflexivity|].
      - cbn [ApplyOutgoingTx] in Ey. unfold Basic_Outgoing in Ey. rewrite amount_ok in Ey. cbn [charge Balance]. unfold no_wrap in Hwx.
        destruct (value_64 x Hx) as (V1 & V2). unfold u64 in *. unfold w64, two64 in Ey. rewrite Z.mod_small in Ey by lia.
        destruct (Z.ltb_spec v (tx_value x + tx_fee x)); [discriminate Ey|lia].
      - destruct x as [b|z]; [discriminate Ey|]. apply htlc_spend in Ey as (Hle & _); [exact Hle|assumption|assumption]. }
    apply outgoing_balance in Ey; [|assumption|assumption]. subst y. rewrite type_with, charged_with, balance_with in IH. specialize (IH Ha).
    pose proof (charge_nonneg (acct M (tx_sender H x)) x Hx). pose proof (balance_64 _ Hax) as Hb. unfold u64 in Hb. rewrite Z.mod_small in IH by lia. lia.
Qed.
Lemma body_senders H oob b h M M' : push_body H oob ledger L_get L_put b h M = (Ok tt, M') ->
  exists M1, pushSenders H oob ledger L_get L_put (bb_txs b) h M = (Ok tt, M1).
Proof. intros E. unfold push_body in E. apply andthen_ok in E as ([] & M1 & E1 & _). eauto. Qed.


(** The addresses that matter. *)
Definition addresses (H : bytes -> bytes) (M M' : ledger) (l : list Tx) (miner : bytes) : list bytes :=
  elements (list_to_set (miner :: (map_to_list M).*1 ++ (map_to_list M').*1 ++ map (tx_sender H) l ++ map tx_recipient l) : gset bytes).
Lemma addresses_in H M M' l miner a :
  a = miner \/ is_Some (M !! a) \/ is_Some (M' !! a) \/ (exists t, t ∈ l /\ (tx_sender H t = a \/ tx_recipient t = a)) -> a ∈ addresses H M M' l miner.
Proof.
  intros Ha. unfold addresses. rewrite elem_of_elements, elem_of_list_to_set, elem_of_cons, !elem_of_app.
  assert (Hk : forall N : ledger, is_Some (N !! a) -> a ∈ (map_to_list N).*1).
  { intros N (x & E). apply elem_of_list_fmap. exists (a, x). split; [reflexivity|]. apply elem_of_map_to_list, E. }
  destruct Ha as [->|[Hs|[Hs|(t & Ht & [<-|<-])]]]; [auto|auto|auto 6| |].
  - do 3 right. left. apply (elem_of_list_fmap_1 (tx_sender H)), Ht.
  - do 4 right. apply (elem_of_list_fmap_1 tx_recipient), Ht.
Qed.

(** ** Exact effect on balances when nothing overflows *)
Theorem balances_exact H oob M c b M' c' body : hash_fn H -> ledger_ok M -> cache_ok c -> block_ok b -> bl_body b = Some body ->
  ledger_Push H oob M c b = (Ok tt, M', c') ->
  Forall no_wrap (txs_of body) ->
  (forall a, AccountType (acct M a) = 1 -> charged H (txs_of body) (acct M a) a <= Balance (acct M a)) ->
  total M + block_reward_spec (bh_height (bl_header b)) + unpaid_fees H M (txs_of body) < 2 ^ 64 ->
  (forall a, charged H (txs_of body) (acct M a) a <= Balance (acct M a) /\
     Balance (acct M' a) = Balance (acct M a) - charged H (txs_of body) (acct M a) a + received (txs_of body) a +
       (if decide (a = bb_miner body) then block_reward_spec (bh_height (bl_header b)) + fees (txs_of body) else 0)) /\
  total M' = total M + block_reward_spec (bh_height (bl_header b)) + unpaid_fees H M (txs_of body).
Proof.
  intros HH HM Hc Hb Eb E Hw Hv Ht. destruct (push_effect H oob HH M c b M' c' HM Hc Hb E) as (HM' & body' & Eb' & Hh0 & Hf & He).
  assert (body' = body) as -> by congruence. clear Eb'. set (l := txs_of body) in *. set (reward := block_reward_spec (bh_height (bl_header b))) in *.
  pose proof (block_reward_bound (bh_height (bl_header b))) as Hrb. fold reward in Hrb.
  assert (Hl : all_ok (bb_txs body)) by (destruct Hb as (_ & Hb); apply (Hb body Eb)). pose proof (present_ok _ Hl) as Hlo. change (present (bb_txs body)) with l in Hlo.
  assert (Hlo' : forall t, t ∈ l -> tx_ok t) by (apply Forall_forall; exact Hlo).
  assert (Hcov : forall a, charged H l (acct M a) a <= Balance (acct M a)).
  { intros a. destruct (Z.eq_dec (AccountType (acct M a)) 1) as [E1|E1]; [apply Hv, E1|].
    unfold Push in E. cbv zeta in E. rewrite Eb in E. destruct (push_body H oob ledger L_get L_put body (bh_height (bl_header b)) M) as ([[]| | |] & M1) eqn:E2; try discriminate E.
    destruct (body_senders _ _ _ _ _ _ E2) as (M2 & E3). apply (senders_covered H oob _ _ HH M M2 HM Hl Hw E3 a E1). }
  set (S := addresses H M M' l (bb_miner body)). assert (HN : NoDup S) by apply NoDup_elements.
  assert (HS1 : forall a x, M !! a = Some x -> a ∈ S) by (intros a x Ex; apply addresses_in; right; left; eauto).
  assert (HS2 : forall a x, M' !! a = Some x -> a ∈ S) by (intros a x Ex; apply addresses_in; right; right; left; eauto).
  assert (Hsend : Forall (fun t => tx_sender H t ∈ S) l) by (apply Forall_forall; intros t Htl; apply addresses_in; right; right; right; eauto).
  assert (Hrecv : Forall (fun t => tx_recipient t ∈ S) l) by (apply Forall_forall; intros t Htl; apply addresses_in; right; right; right; eauto).
  pose proof (total_over M S HN HS1) as T1. pose proof (total_over M' S HN HS2) as T2.
  (* debits, credits *)
  assert (D : sum (map (fun a => charged H l (acct M a) a) S) = sum (map (fun t => charge (acct M (tx_sender H t)) t) l)).
  { unfold charged. apply (sum_exchange S l (tx_sender H) (fun t a => charge (acct M a) t) HN Hsend). }
  assert (V : sum (map (received l) S) = sum (map tx_value l)).
  { unfold received. apply (sum_exchange S l tx_recipient (fun t a => tx_value t) HN Hrecv). }
  assert (F : sum (map (fun t => charge (acct M (tx_sender H t)) t) l) = sum (map tx_value l) + fees l - unpaid_fees H M l).
  { unfold fees, unpaid_fees. rewrite <- sum_map_add, <- sum_map_sub. apply sum_map_ext. intros t _. destruct (acct M (tx_sender H t)); cbn; lia. }
  assert (Hrn : forall a, 0 <= received l a <= sum (map tx_value l)).
  { intros a. unfold received. split.
    - apply sum_map_nonneg. intros t Htl. destruct (value_64 t (Hlo' t Htl)) as (V1 & _). unfold u64 in V1. destruct (decide _); lia.
    - apply sum_map_le. intros t Htl. destruct (value_64 t (Hlo' t Htl)) as (V1 & _). unfold u64 in V1. destruct (decide _); lia. }
  assert (Hfn : 0 <= fees l).
  { unfold fees. apply sum_map_nonneg. intros t Htl. destruct (value_64 t (Hlo' t Htl)) as (_ & V2). unfold u64 in V2. lia. }
  assert (Hbound : forall a, Balance (acct M a) - charged H l (acct M a) a + received l a + fees l <= total M + unpaid_fees H M l).
  { intros a. destruct (Hrn a) as (_ & Hra).
    assert (Hda : Balance (acct M a) - charged H l (acct M a) a <= total M - sum (map (fun a => charged H l (acct M a) a) S)).
    { rewrite T1, <- sum_map_sub. destruct (decide (a ∈ S)) as [Ha|Ha].
      - apply (sum_pick (fun a => Balance (acct M a) - charged H l (acct M a) a)); [|exact Ha]. intros y _. specialize (Hcov y). lia.
      - assert (E0 : acct M a = ABasic 0) by (unfold acct; destruct (M !! a) eqn:Ea; [destruct (Ha (HS1 _ _ Ea))|reflexivity]).
        pose proof (charged_nonneg H l (acct M a) a Hlo). rewrite E0 at 1. cbn [Balance]. transitivity 0; [lia|]. apply sum_map_nonneg. intros y _. specialize (Hcov y). lia. }
    rewrite D, F in Hda. lia. }
  assert (Hex : forall a, Balance (acct M' a) = Balance (acct M a) - charged H l (acct M a) a + received l a + (if decide (a = bb_miner body) then reward + fees l else 0)).
  { intros a. destruct (He a) as (x & y & Hx & Hy & Hm). specialize (Hbound a). specialize (Hcov a). specialize (Hrn a).
    assert (Bx : Balance x = Balance (acct M a) - charged H l (acct M a) a + received l a).
    { transitivity ((Balance (acct M a) - charged H l (acct M a) a + received l a) mod 2 ^ 64); [|apply Z.mod_small; lia].
      unfold settled in Hx. cbv zeta in Hx. destruct (last_creation l a) as [t|]; [apply (contract_balance _ _ _ _ _ Hx)|]. rewrite Hx. apply balance_with. }
    assert (By : Balance y = Balance x).
    { destruct Hy as [((_ & _ & H0) & _ & ->)|(_ & _ & ->)]; [symmetry; exact H0|reflexivity]. }
    destruct (decide (a = bb_miner body)) as [->|].
    - destruct Hm as (_ & ->). cbn [Balance]. rewrite Z.mod_small by lia. lia.
    - rewrite Hm. lia. }
  split; [intros a; split; [apply Hcov|apply Hex]|].
  rewrite T2, (sum_map_ext _ _ S (fun a _ => Hex a)), !sum_map_add, sum_map_sub, <- T1, D, V, F.
  assert (HmS : bb_miner body ∈ S) by (apply addresses_in; left; reflexivity).
  assert (E1 : sum (map (fun a => if decide (a = bb_miner body) then reward + fees l else 0) S) = reward + fees l).
  { etransitivity; [|exact (sum_indicator S (bb_miner body) (reward + fees l) HN HmS)]. apply sum_map_ext. intros a _.
    destruct (decide (a = bb_miner body)) as [->|Hne]; [rewrite decide_True by reflexivity|rewrite decide_False by congruence]; reflexivity. }
  rewrite E1. lia.
Qed.

(** ** Blocks of plain transfers *)
Lemma basic_eq x : is_basic x -> x = ABasic (Balance x).
Proof. intros (v & ->). reflexivity. Qed.
Lemma plain_types H M N t : (forall a, AccountType (acct N a) = AccountType (acct M a)) -> plain_transfer H M t -> plain_transfer H N t.
Proof.
  intros HT (H1 & H2 & H3 & H4 & H5 & H6). split; [exact H1|]. split; [exact H2|]. split; [exact H3|]. split; [exact H4|].
  rewrite !basic_type in *. rewrite !HT. auto.
Qed.
Lemma sent_cons H t l a : sent H (t :: l) a = (if decide (tx_sender H t = a) then tx_value t + tx_fee t else 0) + sent H l a.
Proof. reflexivity. Qed.
Lemma sent_nonneg H l a : Forall tx_ok l -> 0 <= sent H l a.
Proof.
  intros Hl. unfold sent. apply sum_map_nonneg. intros t Ht. rewrite Forall_forall in Hl.
  destruct (value_64 t (Hl t Ht)) as (V1 & V2). unfold u64 in *. destruct (decide _); lia.
Qed.
Lemma plain_senders H oob l h : hash_fn H -> forall M, ledger_ok M -> all_ok l -> Forall (plain_transfer H M) (present l) ->
  let r := pushSenders H oob ledger L_get L_put l h M in
  ((forall a, sent H (present l) a <= Balance (acct M a)) -> fst r = Ok tt) /\
  ((exists a, Balance (acct M a) < sent H (present l) a) -> overspends (fst r)).
Proof.
  intros HH M HM Hl. revert M HM. unfold pushSenders. cbv zeta. induction Hl as [|t l (x & -> & Hx) Hl IH]; intros M HM Hp; cbn [for_txs].
  - split; [reflexivity|]. intros (a & Ha). cbn in Ha. pose proof (balance_64 _ (acct_ok M a HM)) as Hb. unfold u64 in Hb. lia.
  - cbn [present flat_map app] in *. change (flat_map _ l) with (present l) in *. inversion Hp as [|? ? Hpx Hpl]; subst.
    pose proof Hpx as (T1 & _ & _ & Hw & Hsb & _). pose proof (present_ok _ Hl) as Hlo.
    set (v := Balance (acct M (tx_sender H x))). destruct (value_64 x Hx) as (V1 & V2). unfold no_wrap in Hw. unfold u64 in *.
    pose proof (balance_64 _ (acct_ok M (tx_sender H x) HM)) as Hv. fold v in Hv. unfold u64 in Hv.
    assert (Es : push_sender H oob ledger L_get L_put h x M =
      if v <? tx_value x + tx_fee x then (Err (EOverspend v (tx_value x + tx_fee x)), M) else (Ok tt, set_acct M (tx_sender H x) (Some (ABasic (v - (tx_value x + tx_fee x)))))).
    { unfold push_sender. cbv zeta. rewrite content_sender, content_sender_type, Lpush_eq, T1. rewrite (basic_eq _ Hsb). fold v.
      cbn [AccountType Z.eqb negb andb AccountUnknown ApplyOutgoingTx]. unfold Basic_Outgoing. rewrite amount_ok. unfold w64, two64.
      rewrite (Z.mod_small (tx_value x + tx_fee x)) by lia. destruct (Z.ltb_spec v (tx_value x + tx_fee x)); [reflexivity|].
      rewrite Z.mod_small by lia. reflexivity. }
    unfold andthen. rewrite Es. destruct (Z.ltb_spec v (tx_value x + tx_fee x)) as [Hlt|Hge].
    + split; [|intros _; eexists _, _; split; [reflexivity|exact Hlt]]. intros Ha. specialize (Ha (tx_sender H x)). rewrite sent_cons, decide_True in Ha by reflexivity.
      pose proof (sent_nonneg H (present l) (tx_sender H x) Hlo). fold v in Ha. lia.
    +
      set (M1 := set_acct M (tx_sender H x) (Some (ABasic (v - (tx_value x + tx_fee x))))).
      assert (HM1 : ledger_ok M1) by (apply ledger_ok_set; [exact HM|apply sender_20; assumption|intros y [= <-]; cbn; unfold u64; lia]).
      assert (HT : forall a, AccountType (acct M1 a) = AccountType (acct M a)).
      { intros a. unfold M1. rewrite acct_set. destruct (decide (a = tx_sender H x)) as [->|]; [|reflexivity]. rewrite (basic_eq _ Hsb). reflexivity. }
      assert (Hp1 : Forall (plain_transfer H M1) (present l)) by (eapply Forall_impl; [exact Hpl|intros u; apply plain_types, HT]).
      destruct (IH M1 HM1 Hp1) as (I1 & I2).
      assert (Heq : forall a, Balance (acct M1 a) - sent H (present l) a = Balance (acct M a) - sent H (x :: present l) a).
      { intros a. rewrite sent_cons. unfold M1. rewrite acct_set. destruct (decide (a = tx_sender H x)) as [->|Hne].
        - rewrite decide_True by reflexivity. cbn [from_option id Balance]. fold v. lia.
        - rewrite decide_False by congruence. lia. }
      split.
      * intros Ha. apply I1. intros a. specialize (Ha a). specialize (Heq a). lia.
      * intros (a & Ha). apply I2. exists a. specialize (Heq a). lia.
Qed.
Lemma plain_recipients H l h : forall M, ledger_ok M -> all_ok l -> Forall (plain_transfer H M) (present l) ->
  fst (pushRecipients H ledger L_get L_put l h M) = Ok tt.
Proof.
  intros M HM Hl. revert M HM. unfold pushRecipients. induction Hl as [|t l (x & -> & Hx) Hl IH]; intros M HM Hp; cbn [for_txs]; [reflexivity|].
  cbn [present flat_map app] in *. change (flat_map _ l) with (present l) in *. inversion Hp as [|? ? Hpx Hpl]; subst.
  pose proof Hpx as (_ & T2 & T3 & _ & _ & Hrb). unfold andthen at 1. unfold push_recipient at 1. cbv zeta.
  rewrite creates_ok, T3, content_recipient, content_recipient_type, T2, Lpush_eq, (basic_eq _ Hrb). cbn [AccountType Z.eqb negb andb AccountUnknown ApplyIncomingTx].
  apply IH.
  - apply ledger_ok_set; [exact HM|apply recipient_20, Hx|]. intros y [= <-]. cbn. apply Z.mod_pos_bound. reflexivity.
  - eapply Forall_impl; [exact Hpl|]. intros u. apply plain_types. intros a. rewrite acct_set.
    destruct (decide (a = tx_recipient x)) as [->|]; [|reflexivity]. rewrite (basic_eq _ Hrb). reflexivity.
Qed.
Lemma plain_create H M l h : forall N, all_ok l -> Forall (plain_transfer H M) (present l) -> createContracts H ledger L_get L_put l h N = (Ok tt, N).
Proof.
  intros N Hl. unfold createContracts. induction Hl as [|t l (x & -> & Hx) Hl IH]; intros Hp; cbn [for_txs]; [reflexivity|].
  cbn [present flat_map app] in *. change (flat_map _ l) with (present l) in *. inversion Hp as [|? ? Hpx Hpl]; subst.
  destruct Hpx as (_ & _ & T3 & _). unfold andthen at 1. unfold create_step at 1. rewrite creates_ok, T3. cbn [done]. apply IH, Hpl.
Qed.
Lemma plain_prune H M l : forall N, all_ok l -> (forall a, AccountType (acct N a) = AccountType (acct M a)) -> Forall (plain_transfer H M) (present l) ->
  prune_txs H ledger L_get L_put l ∅ N = (Ok ∅, N).
Proof.
  intros N Hl HT. induction Hl as [|t l (x & -> & Hx) Hl IH]; intros Hp; cbn [prune_txs]; [reflexivity|].
  cbn [present flat_map app] in *. change (flat_map _ l) with (present l) in *. inversion Hp as [|? ? Hpx Hpl]; subst.
  destruct Hpx as (_ & _ & _ & _ & Hsb & _). unfold andthen at 1. cbn [get_account L_get]. rewrite get_sender.
  apply basic_type in Hsb. rewrite HT, Hsb. rewrite orb_true_r. apply IH, Hpl.
Qed.
Lemma run_ok {X Y : Type} (m : step ledger X) (k : X -> step ledger Y) M x M1 : m M = (Ok x, M1) -> andthen ledger m k M = k x M1.
Proof. unfold andthen. intros ->. reflexivity. Qed.
Lemma run_err {X Y : Type} (m : step ledger X) (k : X -> step ledger Y) M e M1 : m M = (Err e, M1) -> andthen ledger m k M = (Err e, M1).
Proof. unfold andthen. intros ->. reflexivity. Qed.
Theorem plain_outcome H oob M c b body : hash_fn H -> ledger_ok M -> cache_ok c -> block_ok b -> bl_body b = Some body ->
  bh_height (bl_header b) <> 0 -> Forall (plain_transfer H M) (txs_of body) -> is_basic (acct M (bb_miner body)) -> bb_pruned body = [] ->
  let r := ledger_Push H oob M c b in
  ((forall a, sent H (txs_of body) a <= Balance (acct M a)) -> fst (fst r) = Ok tt) /\
  ((exists a, Balance (acct M a) < sent H (txs_of body) a) -> overspends (fst (fst r))).
Proof.
  intros HH HM Hc Hb Eb Hh0 Hp Hmb Epr. pose proof Hb as (Hh & Hbb). destruct (Hbb body Eb) as (Hm & _ & _ & _ & Hl & _).
  cbv zeta. unfold Push. cbv zeta. rewrite Eb. set (h := bh_height (bl_header b)) in *.
  destruct (plain_senders H oob (bb_txs body) h HH M HM Hl Hp) as (P1 & P2).
  destruct (senders_inv H oob HH M (bb_txs body) h M Hl (same_refl M HM)) as (I1 & _).
  unfold push_body. destruct (pushSenders H oob ledger L_get L_put (bb_txs body) h M) as (r1 & M1) eqn:E1. cbn [fst snd] in *.
  split; intros Ha; [|destruct (P2 Ha) as (av & sp & -> & Hlt); rewrite (run_err _ _ _ _ _ E1); exists av, sp; split; [reflexivity|exact Hlt]]. rewrite (P1 Ha) in E1. rewrite (run_ok _ _ _ _ _ E1). clear P1 P2 Ha E1 r1.
  assert (Hp1 : Forall (plain_transfer H M1) (txs_of body)) by (eapply Forall_impl; [exact Hp|intros u; apply plain_types, I1]).
  pose proof (plain_recipients H (bb_txs body) h M1 (proj1 I1) Hl Hp1) as P2.
  destruct (recipients_inv H M (bb_txs body) h M1 Hl I1) as (I2 & _).
  destruct (pushRecipients H ledger L_get L_put (bb_txs body) h M1) as (r2 & M2) eqn:E2. cbn [fst snd] in *. subst r2. rewrite (run_ok _ _ _ _ _ E2).
  rewrite (run_ok _ _ _ _ _ (plain_create H M (bb_txs body) h M2 Hl Hp)).
  unfold pruneAccounts. rewrite Epr. cbn [prune_map foldl]. rewrite (run_ok _ _ _ _ _ (plain_prune H M (bb_txs body) M2 Hl (proj2 I2) Hp)).
  rewrite decide_True by reflexivity. cbn [done].
  destruct (BlockReward_ok c h Hc ltac:(apply Hh)) as (_ & Er). destruct (BlockReward c h) as (c1 & base). cbn [snd] in Er. subst base.
  destruct (Z.eqb_spec h 0) as [|_]; [contradiction|]. unfold andthen at 1. unfold stop at 1. rewrite inherents_eq by (assumption || apply block_reward_bound).
  assert (Hmb2 : is_basic (acct M2 (bb_miner body))) by (rewrite basic_type in *; rewrite (proj2 I2); exact Hmb). destruct Hmb2 as (v & ->). reflexivity.
Qed.
Lemma plain_charged H M l a : Forall (plain_transfer H M) l -> charged H l (acct M a) a = sent H l a.
Proof.
  intros Hp. unfold charged, sent. apply sum_map_ext. intros t Ht. rewrite Forall_forall in Hp. specialize (Hp t Ht).
  destruct (decide (tx_sender H t = a)) as [<-|]; [|reflexivity]. destruct Hp as (_ & _ & _ & _ & (v & ->) & _). reflexivity.
Qed.
Lemma plain_unpaid H M l : Forall (plain_transfer H M) l -> unpaid_fees H M l = 0.
Proof.
  intros Hp. unfold unpaid_fees. transitivity (sum (map (fun _ : Tx => 0) l)); [|apply sum_map_zero]. apply sum_map_ext. intros t Ht. rewrite Forall_forall in Hp.
  specialize (Hp t Ht). destruct Hp as (_ & _ & _ & _ & (v & ->) & _). reflexivity.
Qed.
