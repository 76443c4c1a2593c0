(** What Push does to a ledger. *)
From Coq Require Import ZArith List Lia Bool.
From stdpp Require Import gmap list.
From Verif.Model Require Import Base Address Beserial Wire Policy Account Accounts.
From Verif.Spec Require Import PolicySpec BeserialSpec WireSpec AccountSpec AccountsSpec.
From Verif.Proofs Require Import BaseFacts PolicyFacts AccountFacts LedgerFacts.
Open Scope Z_scope.

Lemma block_reward_bound h : 0 <= block_reward_spec h < 2 ^ 64.
Proof.
  unfold block_reward_spec. pose proof (supply_before_bounds (Z.to_nat h)) as Hs. pose proof (reward_spec_bounds (supply_before (Z.to_nat h)) h) as Hr.
  unfold TotalSupply, InitialSupply in *. specialize (Hr ltac:(lia)). lia.
Qed.

(** ** Accounts with another balance *)
Lemma with_with x v w : with_balance (with_balance x v) w = with_balance x w.
Proof. destruct x; reflexivity. Qed.
Lemma with_same x : with_balance x (Balance x) = x.
Proof. destruct x as [|[]|[]]; reflexivity. Qed.
Lemma balance_with x v : Balance (with_balance x v) = v.
Proof. destruct x; reflexivity. Qed.
Lemma type_with x v : AccountType (with_balance x v) = AccountType x.
Proof. destruct x; reflexivity. Qed.
Lemma charge_with x v t : charge (with_balance x v) t = charge x t.
Proof. destruct x; reflexivity. Qed.
Lemma basic_with x v : is_basic (with_balance x v) <-> is_basic x.
Proof. unfold is_basic. destruct x; cbn; split; intros (w & E); try discriminate E; eauto. Qed.
Lemma basic_type x : is_basic x <-> AccountType x = 0.
Proof. unfold is_basic. destruct x; cbn; split; try discriminate; try (intros (w & E); discriminate E); eauto. Qed.
Lemma charged_with H l x v a : charged H l (with_balance x v) a = charged H l x a.
Proof. unfold charged. f_equal. apply map_ext. intros t. rewrite charge_with. reflexivity. Qed.
Lemma mod_balance x : account_ok x -> Balance x mod 2 ^ 64 = Balance x.
Proof. intros Hx. apply Z.mod_small, balance_64, Hx. Qed.

Lemma outgoing_balance H oob x t h x' : account_ok x -> tx_ok t -> ApplyOutgoingTx H oob x t h = Ok x' ->
  x' = with_balance x ((Balance x - charge x t) mod 2 ^ 64).
Proof.
  intros Hx Ht E. destruct x as [v|c|k].
  - cbn [ApplyOutgoingTx] in E. unfold Basic_Outgoing in E. rewrite amount_ok in E. destruct (v <? w64 (tx_value t + tx_fee t)); [discriminate E|].
    injection E as <-. cbn [with_balance Balance charge]. f_equal. unfold w64, two64. rewrite Zminus_mod_idemp_r. reflexivity.
  - destruct t as [b|y]; [discriminate E|]. apply vesting_spend in E; [|apply (tx_ok_ext y Ht)]. apply E.
  - destruct t as [b|y]; [discriminate E|]. apply htlc_spend in E as (Hle & _ & ->); [|assumption|assumption].
    cbn [Balance charge]. rewrite Z.mod_small; [reflexivity|]. destruct (tx_ok_ext y Ht) as (_ & _ & Hv & _). destruct Hx as (Hk & _). unfold u64 in *. cbn [tx_value]. lia.
Qed.
Lemma incoming_balance x t h x' : ApplyIncomingTx x t h = Ok x' -> is_basic x /\ x' = with_balance x ((Balance x + tx_value t) mod 2 ^ 64).
Proof. destruct x as [v| |]; cbn; try discriminate. intros [= <-]. split; [eexists; reflexivity|]. rewrite amount_ok. reflexivity. Qed.

(** ** The list of transactions *)
Definition present (l : list (option Tx)) : list Tx := flat_map (fun t => match t with Some t => [t] | None => [] end) l.
Lemma present_ok l : all_ok l -> Forall tx_ok (present l).
Proof. induction 1 as [|t l (x & -> & Hx) _ IH]; constructor; assumption. Qed.

Section Phases.
  Context (H : bytes -> bytes) (oob : float64 -> Z) (HH : hash_fn H).
  Notation Lpush := (pushTx ledger L_get L_put).
  Lemma Lpush_eq a typ t h op M : Lpush a typ t h op M =
    if negb (typ =? AccountUnknown) && negb (typ =? AccountType (acct M a)) then (Err (EAccountTypeMismatch typ (AccountType (acct M a))), M)
    else match op (acct M a) t h with
         | Ok x => (Ok tt, set_acct M a (Some x))
         | Err e => (Err e, M) | Panic => (Panic, M) | OutOfFuel => (OutOfFuel, M)
         end.
  Proof.
    unfold pushTx, andthen, get_account, L_get. destruct (negb (typ =? AccountUnknown) && negb (typ =? AccountType (acct M a))); [reflexivity|].
    unfold stop, put_account, L_put. destruct (op (acct M a) t h); reflexivity.
  Qed.
  Lemma Lpush_ok a typ t h op M M' : Lpush a typ t h op M = (Ok tt, M') ->
    (typ = 255 \/ typ = AccountType (acct M a)) /\ exists x, op (acct M a) t h = Ok x /\ M' = set_acct M a (Some x).
  Proof.
    rewrite Lpush_eq. unfold AccountUnknown. destruct (Z.eqb_spec typ 255) as [->|Hu]; cbn [negb andb];
      [|destruct (Z.eqb_spec typ (AccountType (acct M a))) as [->|Ht]; cbn [negb]; [|discriminate]];
      (destruct (op (acct M a) t h) as [x| | |]; [intros [= <-]|discriminate..]; split; [auto|eauto]).
  Qed.
  Lemma andthen_ok {X Y : Type} (m : step ledger X) (k : X -> step ledger Y) M y M' :
    andthen ledger m k M = (Ok y, M') -> exists x M1, m M = (Ok x, M1) /\ k x M1 = (Ok y, M').
  Proof. unfold andthen. destruct (m M) as ([x| | |] & M1); [eauto|discriminate..]. Qed.

  (** Debits. *)
  Lemma senders_ok l h : forall M M', ledger_ok M -> all_ok l -> pushSenders H oob ledger L_get L_put l h M = (Ok tt, M') ->
    ledger_ok M' /\
    forall a, acct M' a = with_balance (acct M a) ((Balance (acct M a) - charged H (present l) (acct M a) a) mod 2 ^ 64).
  Proof.
    unfold pushSenders. intros M M' HM Hl. revert M M' HM. induction Hl as [|t l (x & -> & Hx) _ IH]; intros M M' HM E; cbn [for_txs] in E.
    - injection E as <-. split; [exact HM|]. intros a. cbn. rewrite Z.sub_0_r, mod_balance, with_same by (apply acct_ok, HM). reflexivity.
    - apply andthen_ok in E as ([] & M1 & E1 & E2). unfold push_sender in E1. cbv zeta in E1. rewrite content_sender in E1.
      apply Lpush_ok in E1 as (_ & y & Ey & ->). pose proof (acct_ok M (tx_sender H x) HM) as Hax.
      assert (HM1 : ledger_ok (set_acct M (tx_sender H x) (Some y))).
      { apply ledger_ok_set; [exact HM|apply sender_20; assumption|]. intros z [= <-]. eapply outgoing_ok; [| |exact Ey]; assumption. }
      destruct (IH _ _ HM1 E2) as (HM' & Hb). split; [exact HM'|]. intros a. rewrite Hb. cbn [present flat_map app]. change (flat_map _ l) with (present l).
      unfold charged at 2. cbn [map sum foldr]. change (foldr Z.add 0 (map _ (present l))) with (charged H (present l) (acct M a) a).
      destruct (decide (tx_sender H x = a)) as [<-|Hne].
      + rewrite acct_set_eq. cbn [from_option id]. apply outgoing_balance in Ey; [|assumption|assumption]. subst y.
        rewrite with_with, balance_with, charged_with. f_equal. rewrite Zminus_mod_idemp_l. f_equal. unfold charged, sum. lia.
      + rewrite acct_set_ne by congruence. f_equal.
  Qed.
  (** Credits. *)
  Lemma recipients_ok l h : forall M M', ledger_ok M -> all_ok l -> pushRecipients H ledger L_get L_put l h M = (Ok tt, M') ->
    ledger_ok M' /\ Forall (fun t => is_basic (acct M (tx_recipient t))) (present l) /\
    forall a, acct M' a = with_balance (acct M a) ((Balance (acct M a) + received (present l) a) mod 2 ^ 64).
  Proof.
    unfold pushRecipients. intros M M' HM Hl. revert M M' HM. induction Hl as [|t l (x & -> & Hx) _ IH]; intros M M' HM E; cbn [for_txs] in E.
    - injection E as <-. split; [exact HM|]. split; [constructor|]. intros a. cbn. rewrite Z.add_0_r, mod_balance, with_same by (apply acct_ok, HM). reflexivity.
    - apply andthen_ok in E as ([] & M1 & E1 & E2). unfold push_recipient in E1. cbv zeta in E1. rewrite content_recipient in E1.
      apply Lpush_ok in E1 as (_ & y & Ey & ->). pose proof (incoming_ok _ _ _ _ Ey) as Hy. apply incoming_balance in Ey as (Hba & Ey).
      assert (HM1 : ledger_ok (set_acct M (tx_recipient x) (Some y))).
      { apply ledger_ok_set; [exact HM|apply recipient_20; assumption|]. intros z [= <-]. exact Hy. }
      destruct (IH _ _ HM1 E2) as (HM' & Hf & Hb). split; [exact HM'|]. cbn [present flat_map app]. change (flat_map _ l) with (present l). split.
      + constructor; [exact Hba|]. eapply Forall_impl; [exact Hf|]. cbn. intros u Hu. rewrite acct_set in Hu.
        destruct (decide (tx_recipient u = tx_recipient x)) as [->|]; [exact Hba|exact Hu].
      + intros a. rewrite Hb. unfold received at 2. cbn [map sum foldr]. change (foldr Z.add 0 (map _ (present l))) with (received (present l) a).
        destruct (decide (tx_recipient x = a)) as [<-|Hne].
        * rewrite acct_set_eq. cbn [from_option id]. subst y. rewrite with_with, balance_with. f_equal. rewrite Zplus_mod_idemp_l. f_equal. lia.
        * rewrite acct_set_ne by congruence. f_equal.
  Qed.
  (** Contract creation. *)
  Lemma contract_balance typ d v b x : contract_from typ d v b x -> Balance x = b.
  Proof. intros [(_ & c & -> & Hc)|(_ & k & -> & Hk)]; [apply Hc|apply Hk]. Qed.
  Lemma create_one x h M M' : ledger_ok M -> tx_ok x -> create_step H ledger L_get L_put h x M = (Ok tt, M') ->
    ledger_ok M' /\
    ((tx_creates x = false /\ M' = M) \/
     exists y a, x = TExtended y /\ tx_creates x = true /\ M' = set_acct M (x_recipient y) (Some a) /\
       contract_from (x_recipient_type y) (x_data y) (x_value y) (Balance (acct M (x_recipient y))) a).
  Proof.
    intros HM Hx E. unfold create_step in E. rewrite creates_ok in E. destruct (tx_creates x) eqn:Ec; [|injection E as <-; auto].
    unfold createContract in E. cbv zeta in E. rewrite creates_ok, Ec, content_recipient, content_recipient_type in E. cbn [negb] in E.
    apply andthen_ok in E as (y & M1 & E1 & E2). injection E1 as <- <-. destruct (tx_recipient_type x =? 0); [discriminate E2|].
    destruct ((tx_recipient_type x =? 1) || (tx_recipient_type x =? 2)) eqn:E12; [|discriminate E2].
    apply andthen_ok in E2 as (a & M1 & E1 & E2). injection E1 as E1 <-. injection E2 as <-.
    assert (H12 : tx_recipient_type x = 1 \/ tx_recipient_type x = 2) by (apply orb_true_iff in E12 as [E|E]; apply Z.eqb_eq in E; auto).
    pose proof (acct_ok M (tx_recipient x) HM) as Ha. pose proof (balance_64 _ Ha) as Hb.
    destruct x as [z|z]; [discriminate Ec|]. cbn [tx_recipient tx_recipient_type] in *.
    destruct (init_spec z _ h _ Hx Hb H12) as [(a' & E' & Hc & Hok)|(e & E')]; rewrite E' in E1; [|discriminate E1]. injection E1 as ->.
    split; [apply ledger_ok_set; [exact HM|apply (recipient_20 (TExtended z)), Hx|intros ? [= <-]; exact Hok]|]. right. exists z, a. auto.
  Qed.
  Lemma create_ok l h : forall M M', ledger_ok M -> all_ok l -> createContracts H ledger L_get L_put l h M = (Ok tt, M') ->
    ledger_ok M' /\
    forall a, match last_creation (present l) a with
              | None => acct M' a = acct M a
              | Some t => contract_from (x_recipient_type t) (x_data t) (x_value t) (Balance (acct M a)) (acct M' a)
              end.
  Proof.
    unfold createContracts. intros M M' HM Hl. revert M M' HM. induction Hl as [|t l (x & -> & Hx) _ IH]; intros M M' HM E; cbn [for_txs] in E.
    - injection E as <-. split; [exact HM|]. intros a. reflexivity.
    - apply andthen_ok in E as ([] & M1 & E1 & E2). destruct (create_one x h M M1 HM Hx E1) as (HM1 & Hc). destruct (IH _ _ HM1 E2) as (HM' & Hb).
      split; [exact HM'|]. intros a. specialize (Hb a). cbn [present flat_map app last_creation]. change (flat_map _ l) with (present l).
      destruct Hc as [(Ec & ->)|(y & z & -> & Ec & -> & Hz)].
      + destruct (last_creation (present l) a); [exact Hb|]. destruct x as [|y]; [exact Hb|]. cbn [tx_creates] in Ec. rewrite Ec. exact Hb.
      + cbn [tx_creates] in Ec. rewrite Ec. cbn [andb]. rewrite acct_set in Hb.
        destruct (decide (a = x_recipient y)) as [->|Hne]; cbn [from_option id] in Hb.
        * rewrite (contract_balance _ _ _ _ _ Hz) in Hb. destruct (last_creation (present l) (x_recipient y)); [exact Hb|].
          rewrite bool_decide_true by reflexivity. rewrite Hb. exact Hz.
        * destruct (last_creation (present l) a); [exact Hb|]. rewrite bool_decide_false by congruence. exact Hb.
  Qed.
  (** Pruning. *)
  Lemma AccountEq_true p x : AccountEq p (Some x) = true <-> p = Some x.
  Proof.
    destruct p as [p|]; [|split; discriminate].
    assert (Hh : forall a b, hash_eqb a b = true <-> a = b).
    { intros [a1 a2] [b1 b2]. unfold hash_eqb. cbn. rewrite andb_true_iff, Z.eqb_eq, bytes_eqb_eq. split; [intros (-> & ->); reflexivity|intros [= -> ->]; auto]. }
    destruct p as [v|[]|[]], x as [w|[]|[]]; cbn [AccountEq]; try (split; discriminate); cbn;
      rewrite ?andb_true_iff, ?Z.eqb_eq, ?bytes_eqb_eq, ?Hh; (split; [|intros [= ]; subst; auto 10]); intros; destruct_and?; subst; reflexivity.
  Qed.
  Lemma prune_txs_ok l : forall m M m' M', ledger_ok M -> all_ok l -> prune_txs H ledger L_get L_put l m M = (Ok m', M') ->
    ledger_ok M' /\
    forall a, (to_prune H (present l) a (acct M a) /\ m !! a = Some (Some (acct M a)) /\ acct M' a = ABasic 0 /\ m' !! a = None) \/
              (~ to_prune H (present l) a (acct M a) /\ acct M' a = acct M a /\ m' !! a = m !! a).
  Proof.
    intros m M m' M' HM Hl. revert m M m' M' HM. induction Hl as [|t l (x & -> & Hx) _ IH]; intros m M m' M' HM E; cbn [prune_txs] in E.
    - injection E as <- <-. split; [exact HM|]. intros a. right. split; [|auto]. intros ((t & Ht & _) & _). inversion Ht.
    - rewrite get_sender in E. apply andthen_ok in E as (y & M1 & E1 & E2). injection E1 as <- <-. cbn [present flat_map app]. change (flat_map _ l) with (present l).
      assert (Hcons : forall a z, a <> tx_sender H x -> to_prune H (x :: present l) a z <-> to_prune H (present l) a z).
      { intros a z Hne. unfold to_prune. split; intros ((u & Hu & Eu) & Hr).
        - split; [|exact Hr]. apply elem_of_cons in Hu as [->|Hu]; [congruence|eauto].
        - split; [|exact Hr]. exists u. split; [constructor; exact Hu|exact Eu]. }
      assert (Hself : forall z, to_prune H (x :: present l) (tx_sender H x) z <-> ~ is_basic z /\ Balance z = 0).
      { intros z. unfold to_prune. split; [tauto|]. intros Hz. split; [|exact Hz]. exists x. split; [constructor|reflexivity]. }
      destruct (negb (IsEmpty (acct M (tx_sender H x))) || (AccountType (acct M (tx_sender H x)) =? 0)) eqn:Es.
      + destruct (IH _ _ _ _ HM E2) as (HM' & Hb). split; [exact HM'|]. intros a. specialize (Hb a).
        destruct (decide (a = tx_sender H x)) as [->|Hne]; [|rewrite !Hcons by exact Hne; exact Hb].
        assert (Hn : ~ (~ is_basic (acct M (tx_sender H x)) /\ Balance (acct M (tx_sender H x)) = 0)).
        { intros (H1 & H2). apply orb_true_iff in Es as [Es|Es].
          - unfold IsEmpty in Es. rewrite H2 in Es. discriminate Es.
          - apply H1, basic_type, Z.eqb_eq, Es. }
        rewrite Hself. right. split; [exact Hn|]. destruct Hb as [((_ & Hp) & _)|(_ & Hb)]; [contradiction|exact Hb].
      + apply orb_false_iff in Es as (Es1 & Es2). apply negb_false_iff, Z.eqb_eq in Es1. apply Z.eqb_neq in Es2. rewrite <- basic_type in Es2.
        destruct (m !! tx_sender H x) as [p|] eqn:Em; [|discriminate E2].
        destruct (AccountEq p (Some (acct M (tx_sender H x)))) eqn:Eeq; [|discriminate E2]. apply AccountEq_true in Eeq as ->. cbn [negb] in E2.
        apply andthen_ok in E2 as ([] & M1 & E1 & E2). injection E1 as <-.
        assert (HM1 : ledger_ok (set_acct M (tx_sender H x) None)) by (apply ledger_ok_set; [exact HM|apply sender_20; assumption|discriminate]).
        destruct (IH _ _ _ _ HM1 E2) as (HM' & Hb). split; [exact HM'|]. intros a. specialize (Hb a).
        destruct (decide (a = tx_sender H x)) as [->|Hne].
        * rewrite Hself. left. split; [auto|]. split; [exact Em|]. rewrite acct_set_eq in Hb. cbn [from_option id] in Hb. rewrite lookup_delete in Hb.
          destruct Hb as [((_ & Hp & _) & _)|(_ & Hb)]; [|exact Hb]. contradiction Hp. eexists; reflexivity.
        * rewrite acct_set_ne in Hb by exact Hne. rewrite lookup_delete_ne in Hb by congruence. rewrite !Hcons by exact Hne. exact Hb.
  Qed.
  Lemma prune_map_listed l a : prune_map l !! a = listed l a.
  Proof.
    unfold prune_map, listed. assert (G : forall (m : gmap bytes (option Account)) r, m !! a = r ->
      foldl (fun m p => <[p_address p := p_account p]> m) m l !! a = foldl (fun r p => if decide (p_address p = a) then Some (p_account p) else r) r l).
    { induction l as [|p l IH]; intros m r E; cbn [foldl]; [exact E|]. apply IH. destruct (decide (p_address p = a)) as [->|Hne]; [apply lookup_insert|].
      rewrite lookup_insert_ne by exact Hne. exact E. }
    apply G, lookup_empty.
  Qed.
  Lemma prune_ok b : forall M M', ledger_ok M -> all_ok (bb_txs b) -> pruneAccounts H ledger L_get L_put b M = (Ok tt, M') ->
    ledger_ok M' /\
    forall a, (to_prune H (txs_of b) a (acct M a) /\ listed (bb_pruned b) a = Some (Some (acct M a)) /\ acct M' a = ABasic 0) \/
              (~ to_prune H (txs_of b) a (acct M a) /\ listed (bb_pruned b) a = None /\ acct M' a = acct M a).
  Proof.
    intros M M' HM Hl E. unfold pruneAccounts in E. apply andthen_ok in E as (m' & M1 & E1 & E2).
    destruct (decide (m' = ∅)) as [->|]; [|discriminate E2]. injection E2 as <-.
    destruct (prune_txs_ok _ _ _ _ _ HM Hl E1) as (HM' & Hb). split; [exact HM'|]. intros a. specialize (Hb a). rewrite <- prune_map_listed.
    destruct Hb as [(H1 & H2 & H3 & _)|(H1 & H2 & H3)]; [left; auto|right]. rewrite lookup_empty in H3. auto.
  Qed.
  (** The first four phases. *)
  Lemma body_ok_effect b h M M' : ledger_ok M -> all_ok (bb_txs b) -> push_body H oob ledger L_get L_put b h M = (Ok tt, M') ->
    ledger_ok M' /\
    Forall (fun t => is_basic (acct M (tx_recipient t))) (txs_of b) /\
    forall a, exists x, settled H M (txs_of b) a x /\
      ((to_prune H (txs_of b) a x /\ listed (bb_pruned b) a = Some (Some x) /\ acct M' a = ABasic 0) \/
       (~ to_prune H (txs_of b) a x /\ listed (bb_pruned b) a = None /\ acct M' a = x)).
  Proof.
    intros HM Hl E. unfold push_body in E.
    apply andthen_ok in E as ([] & M1 & E1 & E). destruct (senders_ok _ _ _ _ HM Hl E1) as (HM1 & H1).
    apply andthen_ok in E as ([] & M2 & E2 & E). destruct (recipients_ok _ _ _ _ HM1 Hl E2) as (HM2 & Hf & H2).
    apply andthen_ok in E as ([] & M3 & E3 & E). destruct (create_ok _ _ _ _ HM2 Hl E3) as (HM3 & H3).
    destruct (prune_ok _ _ _ HM3 Hl E) as (HM4 & H4). split; [exact HM4|]. split.
    - eapply Forall_impl; [exact Hf|]. intros t Ht. cbv beta in *. rewrite H1 in Ht. exact (proj1 (basic_with _ _) Ht).
    - intros a. exists (acct M3 a). split; [|apply H4]. unfold settled. specialize (H3 a). change (txs_of b) with (present (bb_txs b)).
      assert (E0 : acct M2 a = with_balance (acct M a) ((Balance (acct M a) - charged H (present (bb_txs b)) (acct M a) a + received (present (bb_txs b)) a) mod 2 ^ 64)).
      { rewrite H2, H1, with_with, balance_with, Zplus_mod_idemp_l. reflexivity. }
      rewrite E0, balance_with in H3. cbv zeta. destruct (last_creation (present (bb_txs b)) a); [exact H3|].
      rewrite H3. reflexivity.
  Qed.
  (** The reward. *)
  Lemma add_fees_ok l : forall r, all_ok l -> 0 <= r < 2 ^ 64 -> add_fees l r = Ok ((r + fees (present l)) mod 2 ^ 64).
  Proof.
    intros r Hl. revert r. induction Hl as [|t l (x & -> & Hx) _ IH]; intros r Hr; cbn [add_fees].
    - unfold fees. cbn. rewrite Z.add_0_r, Z.mod_small by exact Hr. reflexivity.
    - rewrite amount_ok. cbn [snd]. rewrite IH by (apply Z.mod_pos_bound; reflexivity). f_equal. unfold w64, two64. rewrite Zplus_mod_idemp_l. f_equal.
      cbn [present flat_map app fees map sum foldr]. unfold fees. cbn [map sum foldr]. unfold sum, present. lia.
  Qed.
  Lemma inherents_eq b h base M : all_ok (bb_txs b) -> 0 <= base < 2 ^ 64 ->
    pushInherents ledger L_get L_put b h base M =
    match acct M (bb_miner b) with
    | ABasic v => (Ok tt, set_acct M (bb_miner b) (Some (ABasic ((v + base + fees (txs_of b)) mod 2 ^ 64))))
    | x => (Err (EAccountTypeMismatch 0 (AccountType x)), M)
    end.
  Proof.
    intros Hl Hb. unfold pushInherents. rewrite (add_fees_ok _ _ Hl Hb). unfold andthen at 1. unfold stop at 1. rewrite Lpush_eq.
    destruct (acct M (bb_miner b)) as [v|c|k]; cbn [AccountType Z.eqb negb andb AccountUnknown]; try reflexivity.
    cbn [ApplyIncomingTx Amount coinbase fst b_value]. unfold w64, two64. rewrite Zplus_mod_idemp_r, Z.add_assoc. reflexivity.
  Qed.

  Theorem push_effect M c b M' c' : ledger_ok M -> cache_ok c -> block_ok b ->
    Push H oob ledger L_get L_put M c b = (Ok tt, M', c') ->
    ledger_ok M' /\
    exists body, bl_body b = Some body /\ bh_height (bl_header b) <> 0 /\
    Forall (fun t => is_basic (acct M (tx_recipient t))) (txs_of body) /\
    forall a, exists x y, settled H M (txs_of body) a x /\
      ((to_prune H (txs_of body) a x /\ listed (bb_pruned body) a = Some (Some x) /\ y = ABasic 0) \/
       (~ to_prune H (txs_of body) a x /\ listed (bb_pruned body) a = None /\ y = x)) /\
      (if decide (a = bb_miner body) then
         is_basic y /\ acct M' a = ABasic ((Balance y + block_reward_spec (bh_height (bl_header b)) + fees (txs_of body)) mod 2 ^ 64)
       else acct M' a = y).
  Proof.
    intros HM Hc (Hh & Hb) E. unfold Push in E. cbv zeta in E. destruct (bl_body b) as [body|]; [|discriminate E].
    destruct (Hb body eq_refl) as (Hm & _ & _ & _ & Hl & _). set (h := bh_height (bl_header b)) in *.
    destruct (push_body H oob ledger L_get L_put body h M) as (r & M1) eqn:E1. destruct r as [[]| | |]; try discriminate E.
    destruct (body_ok_effect body h M M1 HM Hl E1) as (HM1 & Hf & He).
    assert (Hh32 : PolicySpec.u32 h) by (apply Hh). destruct (BlockReward_ok c h Hc Hh32) as (Hc' & Er).
    destruct (BlockReward c h) as (c1 & base). cbn [fst snd] in *. subst base. destruct (Z.eqb_spec h 0) as [|Hh0]; [discriminate E|].
    unfold andthen at 1 in E. unfold stop at 1 in E.
    pose proof (block_reward_bound h) as Hbase. rewrite inherents_eq in E by assumption.
    destruct (acct M1 (bb_miner body)) as [v| |] eqn:Ev; try discriminate E. injection E as <- <-. split.
    - apply ledger_ok_set; [exact HM1|exact Hm|]. intros z [= <-]. cbn. apply Z.mod_pos_bound. reflexivity.
    - exists body. split; [reflexivity|]. split; [exact Hh0|]. split; [exact Hf|]. intros a. destruct (He a) as (x & Hx & Hd). exists x, (acct M1 a).
      split; [exact Hx|]. split; [destruct Hd as [(D1 & D2 & D3)|(D1 & D2 & D3)]; [left|right]; auto|].
      rewrite acct_set. destruct (decide (a = bb_miner body)) as [->|]; [|reflexivity]. rewrite Ev. split; [eexists; reflexivity|]. reflexivity.
  Qed.
End Phases.
