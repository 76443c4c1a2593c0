(** Push accepts a block exactly if it follows the rules of Spec/RulesSpec.v. *)
From Coq Require Import ZArith List Lia Bool.
From stdpp Require Import gmap list.
From Verif.Model Require Import Base Address Beserial Wire Policy Account Accounts.
From Verif.Spec Require Import PolicySpec BeserialSpec WireSpec AccountSpec AccountsSpec RulesSpec.
From Verif.Proofs Require Import BaseFacts PolicyFacts AccountFacts LedgerFacts PushFacts.
Open Scope Z_scope.

Lemma may_spend_ok H oob x t h : account_ok x -> tx_ok t ->
  may_spend H oob x t h <-> exists x', ApplyOutgoingTx H oob x t h = Ok x'.
Proof.
  intros Hx Ht. destruct x as [v|c|k].
  - cbn [may_spend ApplyOutgoingTx]. unfold Basic_Outgoing. rewrite amount_ok. unfold w64. change two64 with (2 ^ 64).
    destruct (Z.ltb_spec v ((tx_value t + tx_fee t) mod 2 ^ 64)); split; try lia; eauto. intros (x' & E). discriminate E.
  - destruct t as [b|y]; cbn [may_spend].
    + split; [tauto|]. intros (x' & E). discriminate E.
    + pose proof (tx_ok_ext y Ht) as (_ & Hp & _). split.
      * intros (H1 & H2). eexists. apply vesting_spend; [exact Hp|]. split; [exact H1|]. split; [exact H2|reflexivity].
      * intros (x' & E). apply vesting_spend in E; [|exact Hp]. tauto.
  - destruct t as [b|y]; cbn [may_spend].
    + split; [tauto|]. intros (x' & E). discriminate E.
    + split.
      * intros (H1 & H2). eexists. apply htlc_spend; [assumption|assumption|]. split; [exact H1|]. split; [exact H2|reflexivity].
      * intros (x' & E). apply htlc_spend in E; [|assumption|assumption]. tauto.
Qed.

Section Rules.
  Context (H : bytes -> bytes) (oob : float64 -> Z) (HH : hash_fn H).

  (** Debits: [pre] have been applied to M0, giving M. *)
  Definition debited (M0 M : ledger) (pre : list Tx) : Prop := forall a, acct M a = after_debits H M0 pre a.
  Lemma debited_step M0 M pre t x' : debited M0 M pre -> ledger_ok M -> tx_ok t ->
    forall h, ApplyOutgoingTx H oob (acct M (tx_sender H t)) t h = Ok x' ->
    debited M0 (set_acct M (tx_sender H t) (Some x')) (pre ++ [t]).
  Proof.
    intros Hd HM Ht h E a. pose proof (acct_ok M (tx_sender H t) HM) as Hax. apply outgoing_balance in E; [|assumption|assumption]. subst x'.
    unfold after_debits, charged. rewrite map_app. unfold sum. rewrite foldr_app. cbn [map foldr].
    assert (Hs : forall l z, foldr Z.add z l = foldr Z.add 0 l + z) by (induction l as [|y l IH]; intros z; cbn; [lia|rewrite IH; lia]).
    rewrite Hs. fold (sum (map (fun t0 => if decide (tx_sender H t0 = a) then charge (acct M0 a) t0 else 0) pre)).
    fold (charged H pre (acct M0 a) a). destruct (decide (tx_sender H t = a)) as [<-|Hne].
    - rewrite acct_set_eq. cbn [from_option id]. rewrite Hd. unfold after_debits. rewrite with_with, balance_with, charge_with.
      f_equal. rewrite Zminus_mod_idemp_l. f_equal. lia.
    - rewrite acct_set_ne by congruence. rewrite Hd. unfold after_debits. f_equal. f_equal. lia.
  Qed.
  Lemma senders_iff M0 h l : forall pre M, ledger_ok M -> all_ok l -> debited M0 M pre ->
    (exists M', pushSenders H oob ledger L_get L_put l h M = (Ok tt, M')) <->
    (forall p t q, present l = p ++ t :: q ->
      (tx_sender_type t = 255 \/ tx_sender_type t = AccountType (acct M0 (tx_sender H t))) /\
      may_spend H oob (after_debits H M0 (pre ++ p) (tx_sender H t)) t h).
  Proof.
    unfold pushSenders. intros pre M HM Hl. revert pre M HM. induction Hl as [|t l (x & -> & Hx) _ IH]; intros pre M HM Hd; cbn [for_txs].
    - split; [|eauto]. intros _ p t q E. destruct p; discriminate E.
    - cbn [present flat_map app]. change (flat_map _ l) with (present l).
      assert (Et : AccountType (acct M (tx_sender H x)) = AccountType (acct M0 (tx_sender H x))) by (rewrite Hd; apply type_with).
      pose proof (acct_ok M (tx_sender H x) HM) as Hax.
      assert (Hnext : forall x', ApplyOutgoingTx H oob (acct M (tx_sender H x)) x h = Ok x' -> ledger_ok (set_acct M (tx_sender H x) (Some x'))).
      { intros x' E. apply ledger_ok_set; [exact HM|apply sender_20; assumption|]. intros z [= <-]. eapply outgoing_ok; [| |exact E]; assumption. }
      split.
      + intros (M' & E). apply andthen_ok in E as ([] & M1 & E1 & E2). unfold push_sender in E1. cbv zeta in E1. rewrite content_sender, content_sender_type in E1.
        apply Lpush_ok in E1 as (Hty & y & Ey & ->). intros p t q Ep. destruct p as [|z p]; cbn in Ep.
        * injection Ep as <- <-. rewrite app_nil_r, <- Et, <- Hd. split; [exact Hty|]. apply may_spend_ok; [assumption|assumption|eauto].
        * injection Ep as <- Ep. pose proof (IH (pre ++ [x]) _ (Hnext _ Ey) (debited_step M0 M pre x y Hd HM Hx h Ey)) as (IH1 & _).
          specialize (IH1 (ex_intro _ M' E2) p t q Ep). rewrite <- app_assoc in IH1. exact IH1.
      + intros Hall. pose proof (Hall [] x (present l) eq_refl) as (Hty & Hsp). rewrite app_nil_r, <- Hd in Hsp. rewrite <- Et in Hty.
        apply may_spend_ok in Hsp as (y & Ey); [|assumption|assumption].
        pose proof (IH (pre ++ [x]) _ (Hnext _ Ey) (debited_step M0 M pre x y Hd HM Hx h Ey)) as (_ & IH2).
        destruct IH2 as (M' & E2).
        { intros p t q Ep. rewrite <- app_assoc. apply Hall with (q := q). cbn. rewrite Ep. reflexivity. }
        exists M'. unfold andthen at 1. unfold push_sender. cbv zeta. rewrite content_sender, content_sender_type, Lpush_eq, Ey. unfold AccountUnknown.
        assert (Hc : negb (tx_sender_type x =? 255) && negb (tx_sender_type x =? AccountType (acct M (tx_sender H x))) = false).
        { destruct Hty as [-> | ->]; [reflexivity|]. rewrite (Z.eqb_refl (AccountType _)). apply andb_false_r. }
        rewrite Hc. exact E2.
  Qed.

  Definition recipient_rule (M : ledger) (t : Tx) : Prop :=
    is_basic (acct M (tx_recipient t)) /\ (tx_creates t = true \/ tx_recipient_type t = 0 \/ tx_recipient_type t = 255).
  Lemma recipients_iff h l : forall M, ledger_ok M -> all_ok l ->
    (exists M', pushRecipients H ledger L_get L_put l h M = (Ok tt, M')) <-> Forall (recipient_rule M) (present l).
  Proof.
    unfold pushRecipients. intros M HM Hl. revert M HM. induction Hl as [|t l (x & -> & Hx) _ IH]; intros M HM; cbn [for_txs].
    - split; [constructor|eauto].
    - cbn [present flat_map app]. change (flat_map _ l) with (present l).
      assert (Hnext : forall y, ApplyIncomingTx (acct M (tx_recipient x)) x h = Ok y ->
        ledger_ok (set_acct M (tx_recipient x) (Some y)) /\
        forall t, recipient_rule (set_acct M (tx_recipient x) (Some y)) t <-> recipient_rule M t).
      { intros y Ey. pose proof (incoming_ok _ _ _ _ Ey) as Hy. apply incoming_balance in Ey as (Hb & Ey). split.
        - apply ledger_ok_set; [exact HM|apply recipient_20; assumption|]. intros z [= <-]. exact Hy.
        - intros t. unfold recipient_rule. rewrite acct_set. destruct (decide (tx_recipient t = tx_recipient x)) as [->|]; [|tauto].
          cbn [from_option id]. subst y. rewrite basic_with. tauto. }
      split.
      + intros (M' & E). apply andthen_ok in E as ([] & M1 & E1 & E2). unfold push_recipient in E1. cbv zeta in E1.
        rewrite content_recipient, content_recipient_type, creates_ok in E1. apply Lpush_ok in E1 as (Hty & y & Ey & ->).
        destruct (Hnext y Ey) as (HM1 & Hr). constructor.
        * apply incoming_balance in Ey as (Hb & _). split; [exact Hb|]. destruct (tx_creates x); [auto|]. right.
          apply basic_type in Hb. rewrite Hb in Hty. tauto.
        * eapply Forall_impl; [apply (IH _ HM1); eauto|]. intros t Ht. apply Hr. exact Ht.
      + intros Hall. apply Forall_cons in Hall as ((Hb & Hty) & Hall). pose proof Hb as (v & Ev).
        assert (Ey : exists y, ApplyIncomingTx (acct M (tx_recipient x)) x h = Ok y) by (rewrite Ev; cbn; eauto). destruct Ey as (y & Ey).
        destruct (Hnext y Ey) as (HM1 & Hr). destruct (IH _ HM1) as (_ & IH2). destruct IH2 as (M' & E2).
        { eapply Forall_impl; [exact Hall|]. intros t Ht. apply Hr. exact Ht. }
        exists M'. unfold andthen at 1. unfold push_recipient. cbv zeta. rewrite content_recipient, content_recipient_type, creates_ok, Lpush_eq, Ey. unfold AccountUnknown.
        match goal with |- context [if ?b then (Err (EAccountTypeMismatch _ _), _) else _] => assert (Hc : b = false) end.
        { destruct (tx_creates x); [reflexivity|]. destruct Hty as [Hty|[-> | ->]]; [discriminate Hty| |reflexivity]. rewrite Ev. reflexivity. }
        rewrite Hc. exact E2.
  Qed.

  Definition creation_rule (t : Tx) : Prop :=
    match t with
    | TExtended y => tx_creates t = true -> exists balance x, contract_from (x_recipient_type y) (x_data y) (x_value y) balance x
    | TBasic _ => True
    end.
  Lemma contract_rebalance typ d v b x b' : contract_from typ d v b x -> contract_from typ d v b' (with_balance x b').
  Proof.
    intros [(-> & c & -> & Hc)|(-> & k & -> & Hk)]; [left|right]; (split; [reflexivity|]); eexists; (split; [reflexivity|]).
    - unfold vesting_from in *. cbn. tauto.
    - unfold htlc_from in *. cbn. tauto.
  Qed.
  Lemma create_one_iff x h M : ledger_ok M -> tx_ok x ->
    (exists M', create_step H ledger L_get L_put h x M = (Ok tt, M')) <-> creation_rule x.
  Proof.
    intros HM Hx. split.
    - intros (M' & E). destruct (create_one H x h M M' HM Hx E) as (_ & [(Ec & _)|(y & a & -> & Ec & _ & Hc)]).
      + destruct x; cbn; [exact I|]. cbn in Ec. rewrite Ec. discriminate.
      + cbn. intros _. eauto.
    - intros Hr. unfold create_step. rewrite creates_ok. destruct (tx_creates x) eqn:Ec; [|eauto].
      destruct x as [b|y]; [discriminate Ec|]. cbn [creation_rule] in Hr. rewrite Ec in Hr. destruct (Hr eq_refl) as (bal & z & Hz).
      unfold createContract. cbv zeta. rewrite creates_ok, Ec, content_recipient, content_recipient_type. cbn [negb tx_recipient tx_recipient_type].
      unfold andthen at 1. unfold get_account, L_get.
      assert (Hty : x_recipient_type y = 1 \/ x_recipient_type y = 2) by (destruct Hz as [(-> & _)|(-> & _)]; auto).
      assert (E0 : (x_recipient_type y =? 0) = false) by (destruct Hty as [-> | ->]; reflexivity).
      assert (E1 : (x_recipient_type y =? 1) || (x_recipient_type y =? 2) = true) by (destruct Hty as [-> | ->]; reflexivity).
      rewrite E0, E1. unfold andthen, stop. rewrite (init_ok y _ h _ _ (contract_rebalance _ _ _ _ _ (Balance (acct M (x_recipient y))) Hz)).
      unfold put_account, L_put. eauto.
  Qed.
  Lemma create_iff h l : forall M, ledger_ok M -> all_ok l ->
    (exists M', createContracts H ledger L_get L_put l h M = (Ok tt, M')) <-> Forall creation_rule (present l).
  Proof.
    unfold createContracts. intros M HM Hl. revert M HM. induction Hl as [|t l (x & -> & Hx) _ IH]; intros M HM; cbn [for_txs].
    - split; [constructor|eauto].
    - cbn [present flat_map app]. change (flat_map _ l) with (present l). split.
      + intros (M' & E). apply andthen_ok in E as ([] & M1 & E1 & E2). constructor; [apply (create_one_iff x h M HM Hx); eauto|].
        destruct (create_one H x h M M1 HM Hx E1) as (HM1 & _). apply (IH _ HM1). eauto.
      + intros Hall. apply Forall_cons in Hall as (Hr & Hall). apply (create_one_iff x h M HM Hx) in Hr as (M1 & E1).
        destruct (create_one H x h M M1 HM Hx E1) as (HM1 & _). apply (IH _ HM1) in Hall as (M' & E2).
        exists M'. unfold andthen. rewrite E1. exact E2.
  Qed.

  (** Pruning. *)
  Lemma prune_txs_iff l : forall m M, ledger_ok M -> all_ok l ->
    (forall a, to_prune H (present l) a (acct M a) -> m !! a = Some (Some (acct M a))) ->
    exists m' M', prune_txs H ledger L_get L_put l m M = (Ok m', M').
  Proof.
    intros m M HM Hl. revert m M HM. induction Hl as [|t l (x & -> & Hx) _ IH]; intros m M HM Hp; cbn [prune_txs].
    - unfold done. eauto.
    - cbn [present flat_map app] in Hp. change (flat_map _ l) with (present l) in Hp.
      rewrite get_sender. unfold andthen at 1. unfold get_account, L_get.
      assert (Hcons : forall a z, to_prune H (present l) a z -> to_prune H (x :: present l) a z).
      { intros a z ((u & Hu & Eu) & Hr). split; [|exact Hr]. exists u. split; [constructor; exact Hu|exact Eu]. }
      destruct (negb (IsEmpty (acct M (tx_sender H x))) || (AccountType (acct M (tx_sender H x)) =? 0)) eqn:Es.
      + apply IH; [exact HM|]. intros a Ha. apply Hp, Hcons, Ha.
      + apply orb_false_iff in Es as (Es1 & Es2). apply negb_false_iff, Z.eqb_eq in Es1. apply Z.eqb_neq in Es2. rewrite <- basic_type in Es2.
        rewrite Hp by (split; [exists x; split; [constructor|reflexivity]|split; assumption]).
        rewrite (proj2 (AccountEq_true _ _) eq_refl). cbn [negb]. unfold andthen at 1. unfold put_account, L_put.
        apply IH; [apply ledger_ok_set; [exact HM|apply sender_20; assumption|discriminate]|]. intros a Ha.
        destruct (decide (a = tx_sender H x)) as [->|Hne].
        * rewrite acct_set_eq in Ha. destruct Ha as (_ & Hnb & _). contradiction Hnb. eexists; reflexivity.
        * rewrite acct_set_ne in * by exact Hne. rewrite lookup_delete_ne by congruence. apply Hp, Hcons, Ha.
  Qed.
  Lemma prune_iff b M : ledger_ok M -> all_ok (bb_txs b) ->
    (exists M', pruneAccounts H ledger L_get L_put b M = (Ok tt, M')) <->
    (forall a, (to_prune H (txs_of b) a (acct M a) /\ listed (bb_pruned b) a = Some (Some (acct M a))) \/
               (~ to_prune H (txs_of b) a (acct M a) /\ listed (bb_pruned b) a = None)).
  Proof.
    intros HM Hl. split.
    - intros (M' & E) a. destruct (prune_ok H HH b M M' HM Hl E) as (_ & He). destruct (He a) as [He'|He']; tauto.
    - intros Hall. destruct (prune_txs_iff (bb_txs b) (prune_map (bb_pruned b)) M HM Hl) as (m' & M' & E).
      { intros a Ha. rewrite prune_map_listed. destruct (Hall a) as [(_ & He)|(Hn & _)]; [exact He|]. contradiction (Hn Ha). }
      exists M'. unfold pruneAccounts. unfold andthen at 1. rewrite E. rewrite decide_True; [reflexivity|].
      apply map_eq. intros a. rewrite lookup_empty. destruct (prune_txs_ok H HH _ _ _ _ _ HM Hl E) as (_ & He).
      destruct (He a) as [(_ & _ & _ & He')|(Hn & _ & He')]; [exact He'|]. rewrite He', prune_map_listed.
      destruct (Hall a) as [(Hy & _)|(_ & He'')]; [contradiction (Hn Hy)|exact He''].
  Qed.

  Lemma settled_unique M l a x y : settled H M l a x -> settled H M l a y -> x = y.
  Proof. unfold settled. cbv zeta. destruct (last_creation l a); [apply contract_from_unique|congruence]. Qed.

  Theorem push_iff M c b body : ledger_ok M -> cache_ok c -> block_ok b -> bl_body b = Some body ->
    (exists M' c', Push H oob ledger L_get L_put M c b = (Ok tt, M', c')) <-> acceptable H oob M (bh_height (bl_header b)) body.
  Proof.
    intros HM Hc Hb Eb. pose proof Hb as (Hh & Hbody). destruct (Hbody body Eb) as (Hm & _ & _ & _ & Hl & _). set (h := bh_height (bl_header b)) in *.
    assert (Hd0 : debited M M []).
    { intros a. unfold after_debits, charged. cbn. rewrite Z.sub_0_r, mod_balance, with_same by (apply acct_ok, HM). reflexivity. }
    pose proof (senders_iff M h (bb_txs body) [] M HM Hl Hd0) as IS. change (present (bb_txs body)) with (txs_of body) in IS. cbn [app] in IS.
    assert (Hrec : forall M1, (forall a, acct M1 a = with_balance (acct M a) ((Balance (acct M a) - charged H (txs_of body) (acct M a) a) mod 2 ^ 64)) ->
      forall t, recipient_rule M1 t <-> recipient_rule M t).
    { intros M1 H1 t. unfold recipient_rule. rewrite H1, basic_with. tauto. }
    assert (Hset : forall M1 M2 M3,
      (forall a, acct M1 a = with_balance (acct M a) ((Balance (acct M a) - charged H (txs_of body) (acct M a) a) mod 2 ^ 64)) ->
      (forall a, acct M2 a = with_balance (acct M1 a) ((Balance (acct M1 a) + received (txs_of body) a) mod 2 ^ 64)) ->
      (forall a, match last_creation (txs_of body) a with
              | None => acct M3 a = acct M2 a
              | Some t => contract_from (x_recipient_type t) (x_data t) (x_value t) (Balance (acct M2 a)) (acct M3 a)
              end) ->
      forall a, settled H M (txs_of body) a (acct M3 a)).
    { intros M1 M2 M3 H1 H2 H3 a. unfold settled. specialize (H3 a). cbv zeta.
      assert (E0 : acct M2 a = with_balance (acct M a) ((Balance (acct M a) - charged H (txs_of body) (acct M a) a + received (txs_of body) a) mod 2 ^ 64)).
      { rewrite H2, H1, with_with, balance_with, Zplus_mod_idemp_l. reflexivity. }
      rewrite E0, balance_with in H3. destruct (last_creation (txs_of body) a); exact H3. }
    assert (Hmin : forall M3 M4, (forall a, settled H M (txs_of body) a (acct M3 a)) ->
      (forall a, (to_prune H (txs_of body) a (acct M3 a) /\ listed (bb_pruned body) a = Some (Some (acct M3 a)) /\ acct M4 a = ABasic 0) \/
              (~ to_prune H (txs_of body) a (acct M3 a) /\ listed (bb_pruned body) a = None /\ acct M4 a = acct M3 a)) ->
      (is_basic (acct M4 (bb_miner body)) <-> forall x, settled H M (txs_of body) (bb_miner body) x -> is_basic x \/ to_prune H (txs_of body) (bb_miner body) x)).
    { intros M3 M4 Hs H4. destruct (H4 (bb_miner body)) as [(P1 & _ & ->)|(P1 & _ & ->)].
      - split; [|intros _; eexists; reflexivity]. intros _ x Hx. rewrite (settled_unique _ _ _ _ _ Hx (Hs _)). auto.
      - split.
        + intros Hbx x Hx. rewrite (settled_unique _ _ _ _ _ Hx (Hs _)). auto.
        + intros Hall. destruct (Hall _ (Hs _)) as [Hx|Hx]; [exact Hx|contradiction (P1 Hx)]. }
    destruct (BlockReward_ok c h Hc ltac:(apply Hh)) as (Hc' & Er).
    split.
    - intros (M' & c' & E). unfold Push in E. cbv zeta in E. rewrite Eb in E. fold h in E.
      destruct (push_body H oob ledger L_get L_put body h M) as (r & M4) eqn:E1. destruct r as [[]| | |]; try discriminate E.
      unfold push_body in E1.
      apply andthen_ok in E1 as ([] & M1 & F1 & E1). destruct (senders_ok H oob HH _ _ _ _ HM Hl F1) as (HM1 & H1).
      apply andthen_ok in E1 as ([] & M2 & F2 & E1). destruct (recipients_ok H _ _ _ _ HM1 Hl F2) as (HM2 & _ & H2).
      apply andthen_ok in E1 as ([] & M3 & F3 & F4). destruct (create_ok H _ _ _ _ HM2 Hl F3) as (HM3 & H3).
      destruct (prune_ok H HH _ _ _ HM3 Hl F4) as (HM4 & H4). pose proof (Hset M1 M2 M3 H1 H2 H3) as Hs.
      destruct (BlockReward c h) as (c1 & base) eqn:Eb1. cbn [snd fst] in *. subst base. destruct (Z.eqb_spec h 0) as [|Hh0]; [discriminate E|].
      unfold andthen at 1 in E. unfold stop at 1 in E.
      rewrite inherents_eq in E by (try assumption; apply block_reward_bound).
      constructor.
      + exact Hh0.
      + apply IS. eauto.
      + intros t Ht. apply (Hrec M1 H1). revert t Ht. rewrite <- Forall_forall. apply (recipients_iff h _ _ HM1 Hl). eauto.
      + intros y Hy Hcr. assert (Hf : Forall creation_rule (txs_of body)) by (apply (create_iff h _ _ HM2 Hl); eauto).
        exact (proj1 (Forall_forall _ _) Hf _ Hy Hcr).
      + intros a x Hx. rewrite (settled_unique _ _ _ _ _ Hx (Hs a)). apply (prune_iff body M3 HM3 Hl). eauto.
      + apply (Hmin M3 M4 Hs H4). destruct (acct M4 (bb_miner body)) as [v| |]; [eexists; reflexivity|discriminate E..].
    - intros [Hh0 R1 R2 R3 R4 R5].
      destruct (proj2 IS R1) as (M1 & F1). destruct (senders_ok H oob HH _ _ _ _ HM Hl F1) as (HM1 & H1).
      assert (Hr : Forall (recipient_rule M1) (present (bb_txs body))).
      { apply Forall_forall. intros t Ht. apply (Hrec M1 H1). apply R2. exact Ht. }
      apply (recipients_iff h _ _ HM1 Hl) in Hr as (M2 & F2). destruct (recipients_ok H _ _ _ _ HM1 Hl F2) as (HM2 & _ & H2).
      assert (Hr : Forall creation_rule (present (bb_txs body))).
      { apply Forall_forall. intros [|y] Ht; [exact I|]. intros Hcr. exact (R3 y Ht Hcr). }
      apply (create_iff h _ _ HM2 Hl) in Hr as (M3 & F3). destruct (create_ok H _ _ _ _ HM2 Hl F3) as (HM3 & H3).
      pose proof (Hset M1 M2 M3 H1 H2 H3) as Hs.
      assert (Hr : exists M4, pruneAccounts H ledger L_get L_put body M3 = (Ok tt, M4)).
      { apply (prune_iff body M3 HM3 Hl). intros a. apply R4, Hs. }
      destruct Hr as (M4 & F4). destruct (prune_ok H HH _ _ _ HM3 Hl F4) as (HM4 & H4).
      pose proof (proj2 (Hmin M3 M4 Hs H4) R5) as (v & Ev).
      unfold Push. cbv zeta. rewrite Eb. fold h. unfold push_body. unfold andthen at 1. rewrite F1. unfold andthen at 1. rewrite F2. unfold andthen at 1. rewrite F3, F4.
      destruct (BlockReward c h) as (c1 & base). cbn [snd] in Er. subst base. destruct (Z.eqb_spec h 0) as [|_]; [contradiction|].
      unfold andthen at 1. unfold stop at 1. rewrite inherents_eq by (try assumption; apply block_reward_bound). rewrite Ev. eauto.
  Qed.
End Rules.
