(** Push depends only on what [same_block] compares. *)
From Coq Require Import ZArith List Lia Bool.
From stdpp Require Import gmap list.
From Verif.Model Require Import Base Beserial Wire Policy Account Nibbles Tree Accounts.
From Verif.Spec Require Import BeserialSpec WireSpec AccountSpec PushSpec.
From Verif.Proofs Require Import BaseFacts BeserialFacts WireFacts LayoutFacts AccountFacts AccountsFacts LedgerFacts.
Open Scope Z_scope.

Lemma resigned_signer H p p' : resigned p p' -> SignerAddress H p = SignerAddress H p'.
Proof. intros (_ & _ & E1 & E2). unfold SignerAddress. rewrite E1, E2. reflexivity. Qed.
Lemma read_proof_bytes p : proof_ok p -> read_full ty_proof (proof_bytes p) = Ok (v_proof p).
Proof. intros Hp. apply read_full_enc, proof_layout, Hp. Qed.

Lemma vesting_same H oob c x x' h : x_value x = x_value x' ->
  x_proof x = x_proof x' \/ (exists p p', resigned p p' /\ x_proof x = proof_bytes p /\ x_proof x' = proof_bytes p') ->
  Vesting_Outgoing H oob c (TExtended x) h = Vesting_Outgoing H oob c (TExtended x') h.
Proof.
  intros Ev Ep. unfold Vesting_Outgoing. cbn [as_extended bind]. rewrite Ev. destruct (_ <? x_value x'); [reflexivity|].
  destruct Ep as [->|(p & p' & Hp & -> & ->)]; [reflexivity|].
  rewrite !read_proof_bytes by apply Hp. cbn [bind]. rewrite !proof_of_v, (resigned_signer H p p' Hp). reflexivity.
Qed.
Lemma check_same H k d d' h : same_keys 2 d d' ->
  match d, d' with
  | [], [] => True
  | t :: r, t' :: r' => HTLC_check H k t r h = HTLC_check H k t' r' h
  | _, _ => False
  end.
Proof.
  intros Hk. remember 2 as typ eqn:Et in Hk.
  destruct Hk as [d d'|typ d|p p' Hp|alg depth depth' root pre pre' p p' H1 H2 H3 H4 H5 H6 Hr|p p' q q' Hp Hq|p p' Hp]; try discriminate Et; clear Et.
  - destruct d; [exact I|reflexivity].
  - unfold HTLC_check. cbn [Z.eqb Pos.eqb]. destruct (_ <? h); [reflexivity|]. pose proof Hr as (R1 & R2 & _).
    rewrite (read_full_enc _ _ _ (enc_regular alg depth root pre p H1 H2 H4 H5 R1)), (read_full_enc _ _ _ (enc_regular alg depth' root pre' p' H1 H3 H4 H6 R2)).
    cbn [bind fld nth num_of]. rewrite !proof_of_v, (resigned_signer H p p' Hr). reflexivity.
  - unfold HTLC_check. cbn [Z.eqb Pos.eqb]. pose proof Hp as (P1 & P2 & _). pose proof Hq as (Q1 & Q2 & _).
    rewrite (read_full_enc _ _ _ (enc_early p q P1 Q1)), (read_full_enc _ _ _ (enc_early p' q' P2 Q2)).
    cbn [bind fld nth]. rewrite !proof_of_v, (resigned_signer H p p' Hp), (resigned_signer H q q' Hq). reflexivity.
  - unfold HTLC_check. cbn [Z.eqb Pos.eqb]. destruct (h <=? _); [reflexivity|]. pose proof Hp as (P1 & P2 & _).
    rewrite (read_full_enc _ _ _ (enc_timeout p P1)), (read_full_enc _ _ _ (enc_timeout p' P2)).
    cbn [bind fld nth]. rewrite !proof_of_v, (resigned_signer H p p' Hp). reflexivity.
Qed.
Lemma htlc_same H k x x' h : x_value x = x_value x' -> same_keys 2 (x_proof x) (x_proof x') ->
  HTLC_Outgoing H k (TExtended x) h = HTLC_Outgoing H k (TExtended x') h.
Proof.
  intros Ev Hk. unfold HTLC_Outgoing. cbn [as_extended bind]. rewrite Ev. destruct (_ <? x_value x'); [reflexivity|].
  pose proof (check_same H k _ _ h Hk) as Hc. destruct (x_proof x) as [|t r], (x_proof x') as [|t' r']; try tauto; try reflexivity.
  rewrite Hc. reflexivity.
Qed.
Lemma same_amount H t t' : same_effect H t t' -> Amount t = Amount t'.
Proof. intros (_ & _ & _ & _ & Ev & Ef & _). destruct t, t'; cbn in *; congruence. Qed.
Lemma outgoing_same H oob t t' acc h : same_effect H t t' -> tx_sender_type t = 255 \/ tx_sender_type t = AccountType acc ->
  ApplyOutgoingTx H oob acc t h = ApplyOutgoingTx H oob acc t' h.
Proof.
  intros Hs Ht. pose proof (same_amount H t t' Hs) as Ea. destruct Hs as (_ & Et & _ & _ & Ev & _ & _ & _ & Hk).
  destruct acc as [v|c|k]; cbn [ApplyOutgoingTx AccountType] in *.
  - unfold Basic_Outgoing. rewrite Ea. reflexivity.
  - destruct t as [b|x], t' as [b'|x']; cbn [tx_sender_type] in *; try (exfalso; lia). cbn [tx_value tx_same_keys] in *.
    apply vesting_same; [exact Ev|]. remember (x_sender_type x) as typ eqn:Ety. destruct Hk; try (exfalso; lia); [left; reflexivity|right; eauto].
  - destruct t as [b|x], t' as [b'|x']; cbn [tx_sender_type] in *; try (exfalso; lia). cbn [tx_value tx_same_keys] in *.
    apply htlc_same; [exact Ev|]. destruct Ht as [Ht|Ht]; rewrite Ht in Hk; [|exact Hk].
    remember 255 as typ eqn:Ety in Hk. destruct Hk; try discriminate Ety. apply keys_same.
Qed.
Lemma incoming_same H t t' acc h : same_effect H t t' -> ApplyIncomingTx acc t h = ApplyIncomingTx acc t' h.
Proof. intros Hs. destruct acc; [|reflexivity..]. cbn [ApplyIncomingTx]. rewrite (same_amount H t t' Hs). reflexivity. Qed.
Lemma init_same H t t' typ h b : same_effect H t t' -> tx_creates t = true -> Account_Init typ t h b = Account_Init typ t' h b.
Proof.
  intros (_ & _ & _ & _ & Ev & _ & Ec & Ed & _) Hc. specialize (Ed Hc). rewrite Hc in Ec.
  destruct t as [|x], t' as [|x']; try discriminate. cbn [tx_value tx_data] in *.
  unfold Account_Init, Vesting_Init, HTLC_Init. cbn [as_extended bind]. rewrite Ev, Ed. reflexivity.
Qed.

Section Cong.
  Context (H : bytes -> bytes) (oob : float64 -> Z) (T : Type).
  Context (get : T -> bytes -> res Account) (put : T -> bytes -> option Account -> res T).
  Let same (t t' : option Tx) : Prop :=
    match t, t' with Some t, Some t' => same_effect H t t' | None, None => True | _, _ => False end.
  Lemma pushTx_same a typ t t' h op s : (forall acc, typ = 255 \/ typ = AccountType acc -> op acc t h = op acc t' h) ->
    pushTx T get put a typ t h op s = pushTx T get put a typ t' h op s.
  Proof.
    intros Hop. unfold pushTx, andthen, get_account. destruct (get s a) as [acc| | |]; try reflexivity.
    unfold AccountUnknown. destruct (Z.eqb_spec typ 255) as [E|E]; cbn [negb andb].
    - unfold stop. rewrite (Hop acc) by auto. reflexivity.
    - destruct (Z.eqb_spec typ (AccountType acc)) as [E'|E']; cbn [negb]; [|reflexivity].
      unfold stop. rewrite (Hop acc) by auto. reflexivity.
  Qed.
  Lemma for_same f l l' : Forall2 same l l' -> (forall t t' s, same_effect H t t' -> f t s = f t' s) ->
    forall s, for_txs T f l s = for_txs T f l' s.
  Proof.
    intros Hl Hf. induction Hl as [|t t' l l' Ht _ IH]; intros s; [reflexivity|]. destruct t as [t|], t' as [t'|]; try (exfalso; exact Ht); try reflexivity.
    cbn [for_txs]. unfold andthen. rewrite (Hf t t' s Ht). destruct (f t' s) as ([[]| | |] & s'); try reflexivity. apply IH.
  Qed.
  Lemma senders_same l l' h s : Forall2 same l l' -> pushSenders H oob T get put l h s = pushSenders H oob T get put l' h s.
  Proof.
    intros Hl. apply for_same; [exact Hl|]. intros t t' s' Ht. unfold push_sender. cbv zeta.
    rewrite !content_sender, !content_sender_type. pose proof Ht as (E1 & E2 & _). rewrite E1, <- E2.
    apply pushTx_same. intros acc Hty. apply outgoing_same; assumption.
  Qed.
  Lemma recipients_same l l' h s : Forall2 same l l' -> pushRecipients H T get put l h s = pushRecipients H T get put l' h s.
  Proof.
    intros Hl. apply for_same; [exact Hl|]. intros t t' s' Ht. unfold push_recipient. cbv zeta.
    rewrite !content_recipient, !creates_ok, !content_recipient_type. pose proof Ht as (_ & _ & E1 & E2 & _ & _ & E3 & _). rewrite E1, E2, E3.
    apply pushTx_same. intros acc _. apply (incoming_same H); assumption.
  Qed.
  Lemma create_same l l' h s : Forall2 same l l' -> createContracts H T get put l h s = createContracts H T get put l' h s.
  Proof.
    intros Hl. apply for_same; [exact Hl|]. intros t t' s' Ht. unfold create_step, createContract. cbv zeta.
    rewrite !content_recipient, !creates_ok, !content_recipient_type. pose proof Ht as (_ & _ & E1 & E2 & _ & _ & E3 & _). rewrite E1, E2, <- E3.
    destruct (tx_creates t) eqn:Ec; [|reflexivity]. cbn [negb]. unfold andthen at 1 3. destruct (get_account _ _ _ _) as ([acc| | |] & s1); try reflexivity.
    destruct (_ =? 0); [reflexivity|]. destruct (_ || _); [|reflexivity]. unfold andthen, stop. rewrite (init_same H t t') by assumption. reflexivity.
  Qed.
  Lemma prune_same l l' : Forall2 same l l' -> forall m s, prune_txs H T get put l m s = prune_txs H T get put l' m s.
  Proof.
    induction 1 as [|t t' l l' Ht _ IH]; intros m s; [reflexivity|]. destruct t as [t|], t' as [t'|]; try (exfalso; exact Ht); try reflexivity.
    cbn [prune_txs]. assert (E : fst (GetSender H t) = fst (GetSender H t')) by (destruct Ht as (E & _), t, t'; exact E). cbv zeta. rewrite E.
    unfold andthen at 1 3. destruct (get_account _ _ _ _) as ([acc| | |] & s1); try reflexivity.
    destruct (negb _ || _); [apply IH|]. destruct (m !! _) as [p|]; [|reflexivity]. destruct (negb _); [reflexivity|].
    unfold andthen. destruct (put_account _ _ _ _ _) as ([[]| | |] & s2); try reflexivity. apply IH.
  Qed.
  Lemma fees_same l l' : Forall2 same l l' -> forall r, add_fees l r = add_fees l' r.
  Proof.
    induction 1 as [|t t' l l' Ht _ IH]; intros r; [reflexivity|]. destruct t as [t|], t' as [t'|]; try (exfalso; exact Ht); try reflexivity.
    cbn [add_fees]. rewrite (same_amount H t t' Ht). apply IH.
  Qed.
  Lemma Push_same s c b b' : same_block H b b' -> Push H oob T get put s c b = Push H oob T get put s c b'.
  Proof.
    intros (Eh & Hb). unfold Push. cbv zeta. rewrite Eh. destruct (bl_body b) as [d|], (bl_body b') as [d'|]; try tauto.
    destruct Hb as (Em & Ep & Hl). change (Forall2 same (bb_txs d) (bb_txs d')) in Hl. set (h := bh_height (bl_header b')).
    assert (Hbody : push_body H oob T get put d h s = push_body H oob T get put d' h s).
    { unfold push_body. unfold andthen at 1 4. rewrite (senders_same _ _ h s Hl). destruct (pushSenders _ _ _ _ _ _ _ _) as ([[]| | |] & s1); try reflexivity.
      unfold andthen at 1 3. rewrite (recipients_same _ _ h s1 Hl). destruct (pushRecipients _ _ _ _ _ _ _) as ([[]| | |] & s2); try reflexivity.
      unfold andthen at 1 2. rewrite (create_same _ _ h s2 Hl). destruct (createContracts _ _ _ _ _ _ _) as ([[]| | |] & s3); try reflexivity.
      unfold pruneAccounts, andthen. rewrite Ep, (prune_same _ _ Hl). reflexivity. }
    rewrite Hbody. destruct (push_body H oob T get put d' h s) as ([[]| | |] & s1); try reflexivity. destruct (BlockReward c h) as (c' & base).
    assert (Hi : forall base s, pushInherents T get put d h base s = pushInherents T get put d' h base s).
    { intros x s2. unfold pushInherents, andthen, stop. rewrite (fees_same _ _ Hl), Em. destruct (add_fees _ _); reflexivity. }
    destruct base as [z| | |]; try reflexivity. change (andthen T (stop T (Ok z)) (fun base => pushInherents T get put d h base) s1) with (pushInherents T get put d h z s1). change (andthen T (stop T (Ok z)) (fun base => pushInherents T get put d' h base) s1) with (pushInherents T get put d' h z s1). rewrite Hi. reflexivity.
  Qed.
End Cong.
