(** Why a block is refused, and what it leaves behind. *)
From Coq Require Import ZArith List Lia Bool.
From stdpp Require Import gmap list.
From Verif.Model Require Import Base Address Beserial Wire Policy Account Accounts.
From Verif.Spec Require Import PolicySpec BeserialSpec WireSpec AccountSpec AccountsSpec RulesSpec FaultSpec.
From Verif.Proofs Require Import BaseFacts BeserialFacts WireFacts InterlinkFacts BlockFacts LayoutFacts PolicyFacts AccountFacts LedgerFacts PushFacts RulesFacts ErrorFacts.
From Verif.Props Require Import WireProps.
Open Scope Z_scope.

(** ** Refusal by an account *)
Lemma within_proof : well_declared codec_within ty_proof.
Proof. apply declared_proof. exact path_within. Qed.
Ltac declared' := apply declared_fields; repeat match goal with |- Forall _ _ => constructor end;
  match goal with
  | |- well_declared _ ty_proof => exact within_proof
  | |- well_declared _ ty_hash => exact hash_within
  | |- well_declared _ (TNum _) => exact I
  | |- _ => split; [intros _; reflexivity|exact I]
  end.
Lemma within_regular : well_declared codec_within ty_regular.
Proof. change ty_regular with (TStruct (map field [TNum U8; TNum U8; bytesN 32; bytesN 32; ty_proof])). declared'. Qed.
Lemma within_early : well_declared codec_within ty_early.
Proof. change ty_early with (TStruct (map field [ty_proof; ty_proof])). declared'. Qed.
Lemma within_timeout : well_declared codec_within ty_timeout.
Proof. change ty_timeout with (TStruct (map field [ty_proof])). declared'. Qed.
Lemma within_hp : well_declared codec_within ty_htlc_params.
Proof. change ty_htlc_params with (TStruct (map field [bytesN 20; bytesN 20; ty_hash; TNum U8; TNum U32])). declared'. Qed.

Lemma no_proof d e : read_full ty_proof d = Err e -> decode_error e /\ ~ exists p, is_proof d p.
Proof.
  intros E. split; [exact (read_full_within _ _ within_proof _ E)|]. intros (p & Hp & ->).
  rewrite (read_full_enc _ _ _ (proof_layout p Hp)) in E. discriminate E.
Qed.
Lemma htlc_fault H k ty d height e : bytes_ok d -> HTLC_check H k ty d height = Err e -> proof_fault H (AHTLC k) (ty :: d) height e.
Proof.
  intros Hd E. unfold HTLC_check in E.
  destruct (Z.eqb_spec ty 1) as [-> |H1]; [|destruct (Z.eqb_spec ty 2) as [-> |H2]; [|destruct (Z.eqb_spec ty 3) as [-> |H3]]]; cbn [proof_fault].
  - destruct (h_timeout k <? height); [congruence|].
    destruct (read_full_inv _ _ _ safe_regular reads_regular Hd) as [(e' & Er)|(v & Er & alg & depth & root & pre & p & -> & A1 & A2 & A3 & A4 & Hp & Ed)]; rewrite Er in E; cbn [bind] in E.
    + right. injection E as ->. split; [exact (read_full_within _ _ within_regular _ Er)|].
      intros (alg & depth & root & pre & p & A1 & A2 & A3 & A4 & Hp & ->). rewrite (read_full_enc _ _ _ (enc_regular _ _ _ _ _ A1 A2 A3 A4 Hp)) in Er. discriminate Er.
    + left. exists alg, depth, root, pre, (proof_bytes p). repeat (split; [assumption|]). cbn [fld nth num_of] in E. rewrite num_bytes, proof_of_v in E.
      destruct (Z.eqb_spec alg (Algorithm (h_hash k))) as [Ea|Ea]; cbn [negb orb] in E; [|rewrite bool_decide_false by tauto; congruence].
      destruct (bytes_eqb root (Bytes (h_hash k))) eqn:Eb; cbn [negb] in E; [apply bytes_eqb_eq in Eb|].
      * rewrite bool_decide_true by auto. destruct (signer_cases H p Hp) as [(Hl & Es)|(_ & Es)]; rewrite Es in E; cbn [bind] in E; [|discriminate E].
        destruct (bytes_eqb (signer_of H p) (h_recipient k)) eqn:Eq; [discriminate E|]. split; [congruence|]. exists p. split; [split; [apply read_proof_ok; assumption|reflexivity]|].
        intros Eq'. rewrite Eq', bytes_eqb_refl in Eq. discriminate Eq.
      * rewrite bool_decide_false; [congruence|]. intros (_ & ->). rewrite bytes_eqb_refl in Eb. discriminate Eb.
  - destruct (read_full_inv _ _ _ safe_early reads_early Hd) as [(e' & Er)|(v & Er & p & q & -> & Hp & Hq & Ed)]; rewrite Er in E; cbn [bind] in E.
    + right. injection E as ->. split; [exact (read_full_within _ _ within_early _ Er)|].
      intros (p & q & Hp & Hq & ->). rewrite (read_full_enc _ _ _ (enc_early _ _ Hp Hq)) in Er. discriminate Er.
    + left. cbn [fld nth] in E. rewrite !proof_of_v in E. destruct (signer_cases H p Hp) as [(Hl & Es)|(_ & Es)]; rewrite Es in E; cbn [bind] in E; [|discriminate E].
      exists p, (proof_bytes q). split; [apply read_proof_ok; assumption|]. split; [exact Ed|].
      destruct (bytes_eqb (signer_of H p) (h_recipient k)) eqn:Eq; cbn [negb] in E.
      * apply bytes_eqb_eq in Eq. rewrite bool_decide_true by exact Eq.
        destruct (signer_cases H q Hq) as [(Hlq & Esq)|(_ & Esq)]; rewrite Esq in E; cbn [bind] in E; [|discriminate E].
        destruct (bytes_eqb (signer_of H q) (h_sender k)) eqn:Eqq; [discriminate E|]. split; [congruence|]. exists q. split; [split; [apply read_proof_ok; assumption|reflexivity]|].
        intros Eq'. rewrite Eq', bytes_eqb_refl in Eqq. discriminate Eqq.
      * rewrite bool_decide_false; [congruence|]. intros Eq'. rewrite Eq', bytes_eqb_refl in Eq. discriminate Eq.
  - destruct (height <=? h_timeout k); [congruence|].
    destruct (read_full_inv _ _ _ safe_timeout reads_timeout Hd) as [(e' & Er)|(v & Er & p & -> & Hp & Ed)]; rewrite Er in E; cbn [bind] in E.
    + right. injection E as ->. split; [exact (read_full_within _ _ within_timeout _ Er)|].
      intros (p & Hp & ->). rewrite (read_full_enc _ _ _ (enc_timeout _ Hp)) in Er. discriminate Er.
    + left. cbn [fld nth] in E. rewrite !proof_of_v in E. destruct (signer_cases H p Hp) as [(Hl & Es)|(_ & Es)]; rewrite Es in E; cbn [bind] in E; [|discriminate E].
      destruct (bytes_eqb (signer_of H p) (h_sender k)) eqn:Eq; [discriminate E|]. split; [congruence|]. exists p. split; [split; [apply read_proof_ok; assumption|exact Ed]|].
      intros Eq'. rewrite Eq', bytes_eqb_refl in Eq. discriminate Eq.
  - injection E as <-. destruct ty as [|[ty|ty|]|ty]; try reflexivity; [destruct ty; try reflexivity; congruence|destruct ty; try reflexivity; congruence|congruence].
Qed.
Lemma outgoing_refuses H oob x t height e : tx_ok t -> ApplyOutgoingTx H oob x t height = Err e -> refuses H oob x t height e.
Proof.
  intros Ht E. unfold refuses. destruct x as [v|c|k]; cbn [ApplyOutgoingTx available wanted] in *.
  - unfold Basic_Outgoing in E. rewrite amount_ok in E. unfold w64 in E. change two64 with (2 ^ 64) in E.
    destruct (v <? (tx_value t + tx_fee t) mod 2 ^ 64); [congruence|discriminate E].
  - destruct t as [b|y]; [discriminate E|]. unfold Vesting_Outgoing in E. cbn [as_extended bind tx_value] in *.
    destruct (amountUnlocked oob c height <? x_value y); [congruence|]. exists y. split; [reflexivity|]. cbn [proof_fault].
    destruct (tx_ok_ext y Ht) as (_ & Hd & _). destruct (read_proof_full H _ Hd) as [(e' & Er)|(p & Ep & Er & Hs)]; rewrite Er in E; cbn [bind] in E.
    + right. injection E as ->. apply no_proof, Er.
    + rewrite proof_of_v in E. destruct Hs as [(Hp & Es)|(_ & _ & Es)]; rewrite Es in E; cbn [bind] in E; [|discriminate E].
      destruct (bytes_eqb (signer_of H p) (v_owner c)) eqn:Eq; [discriminate E|]. left. split; [congruence|]. exists p. split; [split; assumption|].
      intros Eq'. rewrite Eq', bytes_eqb_refl in Eq. discriminate Eq.
  - destruct t as [b|y]; [discriminate E|]. unfold HTLC_Outgoing in E. cbn [as_extended bind tx_value] in *.
    destruct (h_value k <? x_value y); [congruence|]. exists y. split; [reflexivity|]. destruct (tx_ok_ext y Ht) as (_ & Hd & _).
    destruct (x_proof y) as [|ty d]; [cbn; congruence|]. apply htlc_fault; [inversion Hd; assumption|].
    destruct (HTLC_check H k ty d height); cbn [bind] in E; try discriminate E. congruence.
Qed.

(** ** Refusal of a creation *)
Lemma split_at {A} n (l : list A) m : List.length l = (n + m)%nat -> exists a b, l = a ++ b /\ List.length a = n /\ List.length b = m.
Proof. intros E. exists (firstn n l), (skipn n l). split; [symmetry; apply firstn_skipn|]. rewrite firstn_length, skipn_length. lia. Qed.
Lemma num_of_bytes n d : bytes_ok d -> List.length d = n -> exists z, 0 <= z < 256 ^ Z.of_nat n /\ d = be n z.
Proof.
  intros Hd E. exists (be_get d). subst n. split; [apply be_get_bound, Hd|]. unfold be. rewrite big_endian_be_put. symmetry. apply be_put_get, Hd.
Qed.
Lemma vesting_reads d : bytes_ok d ->
  (zlen d = 24 -> exists v, read_full ty_vesting24 d = Ok v) /\
  (zlen d = 36 -> exists v, read_full ty_vesting36 d = Ok v) /\
  (zlen d = 44 -> exists v, read_full ty_vesting44 d = Ok v).
Proof.
  intros Hd. unfold zlen. split; [|split]; intros Hl.
  - destruct (split_at 20 d 4 ltac:(lia)) as (o & r & -> & L1 & L2). apply bytes_ok_app in Hd as (Ho & Hr).
    destruct (num_of_bytes _ _ Hr L2) as (b & Hb & ->). eexists. apply read_full_enc, enc_v24; [split; assumption|exact Hb].
  - destruct (split_at 20 d 16 ltac:(lia)) as (o & r & -> & L1 & L2). apply bytes_ok_app in Hd as (Ho & Hr). clear Hl.
    destruct (split_at 4 r 12 ltac:(lia)) as (r1 & r2 & -> & L3 & L4). apply bytes_ok_app in Hr as (Hr1 & Hr2).
    destruct (split_at 4 r2 8 ltac:(lia)) as (r3 & r4 & -> & L5 & L6). apply bytes_ok_app in Hr2 as (Hr3 & Hr4).
    destruct (num_of_bytes _ _ Hr1 L3) as (b1 & Hb1 & ->). destruct (num_of_bytes _ _ Hr3 L5) as (b2 & Hb2 & ->). destruct (num_of_bytes _ _ Hr4 L6) as (b3 & Hb3 & ->).
    eexists. apply read_full_enc, enc_v36; [split; assumption|assumption..].
  - destruct (split_at 20 d 24 ltac:(lia)) as (o & r & -> & L1 & L2). apply bytes_ok_app in Hd as (Ho & Hr). clear Hl.
    destruct (split_at 4 r 20 ltac:(lia)) as (r1 & r2 & -> & L3 & L4). apply bytes_ok_app in Hr as (Hr1 & Hr2).
    destruct (split_at 4 r2 16 ltac:(lia)) as (r3 & r4 & -> & L5 & L6). apply bytes_ok_app in Hr2 as (Hr3 & Hr4).
    destruct (split_at 8 r4 8 ltac:(lia)) as (r5 & r6 & -> & L7 & L8). apply bytes_ok_app in Hr4 as (Hr5 & Hr6).
    destruct (num_of_bytes _ _ Hr1 L3) as (b1 & Hb1 & ->). destruct (num_of_bytes _ _ Hr3 L5) as (b2 & Hb2 & ->).
    destruct (num_of_bytes _ _ Hr5 L7) as (b3 & Hb3 & ->). destruct (num_of_bytes _ _ Hr6 L8) as (b4 & Hb4 & ->).
    eexists. apply read_full_enc, enc_v44; [split; assumption|assumption..].
Qed.
Lemma hp_reads d : bytes_ok d -> zlen d = 78 -> exists v, read_full ty_htlc_params d = Ok v.
Proof.
  intros Hd. unfold zlen. intros Hl.
  destruct (split_at 20 d 58 ltac:(lia)) as (r1 & r & -> & L1 & L). apply bytes_ok_app in Hd as (Hr1 & Hr). clear Hl.
  destruct (split_at 20 r 38 ltac:(lia)) as (r2 & r' & -> & L2 & L'). apply bytes_ok_app in Hr as (Hr2 & Hr'). clear L.
  destruct (split_at 33 r' 5 ltac:(lia)) as (r3 & r & -> & L3 & L). apply bytes_ok_app in Hr' as (Hr3 & Hr).
  destruct (split_at 1 r 4 ltac:(lia)) as (r4 & r5 & -> & L4 & L5). apply bytes_ok_app in Hr as (Hr4 & Hr5).
  destruct (num_of_bytes _ _ Hr4 L4) as (n & Hn & ->). destruct (num_of_bytes _ _ Hr5 L5) as (to & Hto & ->).
  destruct r3 as [|alg r3]; [discriminate L3|]. apply Forall_cons in Hr3 as (Ha & Hr3). injection L3 as L3.
  eexists. apply read_full_enc, (enc_hp r1 r2 (MkHash alg r3) n to); [split; assumption|split; assumption| |exact Hn|exact Hto].
  split; [exact Ha|split; assumption].
Qed.
Lemma init_refused y typ height balance e : tx_ok (TExtended y) -> typ = 1 \/ typ = 2 -> x_recipient_type y = typ ->
  Account_Init typ (TExtended y) height balance = Err e -> creation_refused y e.
Proof.
  intros Hy Htyp Et E. destruct (tx_ok_ext y Hy) as (Hd & _). unfold creation_refused. rewrite Et. unfold Account_Init in E. destruct Htyp as [-> | ->]; cbn [Z.eqb Pos.eqb] in *.
  - unfold Vesting_Init in E. cbn [as_extended bind] in E. destruct (vesting_reads _ Hd) as (R24 & R36 & R44).
    destruct (Z.eqb_spec (zlen (x_data y)) 24) as [L|L1]; [destruct (R24 L) as (v & Ev); rewrite Ev in E; discriminate E|].
    destruct (Z.eqb_spec (zlen (x_data y)) 36) as [L|L2]; [destruct (R36 L) as (v & Ev); rewrite Ev in E; discriminate E|].
    destruct (Z.eqb_spec (zlen (x_data y)) 44) as [L|L3]; [destruct (R44 L) as (v & Ev); rewrite Ev in E; discriminate E|].
    split; [congruence|]. rewrite !elem_of_cons, elem_of_nil. tauto.
  - unfold HTLC_Init in E. cbn [as_extended bind] in E.
    destruct (read_full_inv _ _ _ safe_hp reads_hp Hd) as [(e' & Er)|(v & Er & sn & rc & h & n & to & -> & H1 & H2 & H3 & H4 & H5 & Ed)]; rewrite Er in E; cbn [bind] in E.
    + left. injection E as ->. split; [|exact (read_full_within _ _ within_hp _ Er)]. intros L. destruct (hp_reads _ Hd L) as (v & Ev). congruence.
    + right. cbn [fld nth num_of] in E. destruct (Z.eqb_spec n 0) as [->|]; [|discriminate E]. injection E as <-.
      destruct H1 as (L1 & _). destruct H2 as (L2 & _). destruct H3 as (_ & L3 & _). rewrite Ed. split; [|split; [|reflexivity]].
      * unfold zlen. rewrite !app_length, L1, L2. cbn [List.length]. rewrite L3. reflexivity.
      * rewrite lookup_app_r by lia. rewrite L1, lookup_app_r by lia. rewrite L2, lookup_app_r by (cbn [List.length]; lia). cbn [List.length]. rewrite L3. reflexivity.
Qed.

(** ** The first fault *)
Lemma all_some p : Forall tx_ok p <-> all_ok (map Some p).
Proof.
  unfold all_ok. rewrite Forall_map. apply Forall_iff. intros t. split; [eauto|]. intros (x & [= ->] & Hx). exact Hx.
Qed.
Lemma present_some p : present (map Some p) = p.
Proof. induction p as [|t p IH]; [reflexivity|]. cbn. f_equal. exact IH. Qed.
Lemma for_err f l : forall M e M', all_ok l -> for_txs ledger f l M = (Err e, M') ->
  exists p t q M1, present l = p ++ t :: q /\ Forall tx_ok p /\ tx_ok t /\ for_txs ledger f (map Some p) M = (Ok tt, M1) /\ f t M1 = (Err e, M').
Proof.
  intros M e M' Hl. revert M. induction Hl as [|t l (x & -> & Hx) _ IH]; intros M E; cbn [for_txs] in E; [discriminate E|].
  unfold andthen in E. destruct (f x M) as ([[]|e1| |] & M1) eqn:E1; try discriminate E.
  - destruct (IH _ E) as (p & t & q & M2 & Ep & Hp & Ht & Ef & Eq). exists (x :: p), t, q, M2. cbn [present flat_map app map for_txs]. change (flat_map _ l) with (present l).
    rewrite Ep. split; [reflexivity|]. split; [constructor; assumption|]. split; [exact Ht|]. split; [|exact Eq]. unfold andthen. rewrite E1. exact Ef.
  - exists [], x, (present l), M. injection E as <- <-. split; [reflexivity|]. split; [constructor|]. split; [exact Hx|]. split; [reflexivity|]. exact E1.
Qed.
Section Refusal.
  Context (H : bytes -> bytes) (oob : float64 -> Z) (HH : hash_fn H).
  Lemma prune_err l : forall m M e M', all_ok l -> prune_txs H ledger L_get L_put l m M = (Err e, M') ->
    exists p t q m1, present l = p ++ t :: q /\ Forall tx_ok p /\ tx_ok t /\
      prune_txs H ledger L_get L_put (map Some p) m M = (Ok m1, M') /\
      ~ is_basic (acct M' (tx_sender H t)) /\ Balance (acct M' (tx_sender H t)) = 0 /\
      ((m1 !! tx_sender H t = None /\ e = EPruneMissing (tx_sender H t)) \/
       (exists x, m1 !! tx_sender H t = Some x /\ x <> Some (acct M' (tx_sender H t)) /\ e = EPruneAltered (tx_sender H t))).
  Proof.
    intros m M e M' Hl. revert m M. induction Hl as [|t l (x & -> & Hx) _ IH]; intros m M E; cbn [prune_txs] in E; [discriminate E|].
    unfold andthen at 1, get_account, L_get in E. rewrite get_sender in E. cbn [present flat_map app]. change (flat_map _ l) with (present l).
    destruct (negb (IsEmpty (acct M (tx_sender H x))) || (AccountType (acct M (tx_sender H x)) =? 0)) eqn:Es.
    - destruct (IH _ _ E) as (p & t & q & m1 & Ep & Hp & Ht & Ef & Hr). exists (x :: p), t, q, m1. rewrite Ep.
      split; [reflexivity|]. split; [constructor; assumption|]. split; [exact Ht|]. split; [|exact Hr]. cbn [map prune_txs]. unfold andthen at 1, get_account, L_get. rewrite get_sender, Es. exact Ef.
    - destruct (m !! tx_sender H x) as [pa|] eqn:Em.
      + destruct (AccountEq pa (Some (acct M (tx_sender H x)))) eqn:Eeq; cbn [negb] in E.
        * unfold andthen, put_account, L_put in E.
          destruct (IH _ _ E) as (p & t & q & m1 & Ep & Hp & Ht & Ef & Hr). exists (x :: p), t, q, m1. rewrite Ep.
          split; [reflexivity|]. split; [constructor; assumption|]. split; [exact Ht|]. split; [|exact Hr]. cbn [map prune_txs]. unfold andthen at 1, get_account, L_get. rewrite get_sender, Es, Em, Eeq. exact Ef.
        * exists [], x, (present l), m. unfold stop in E. injection E as <- <-. apply orb_false_iff in Es as (Es1 & Es2). apply negb_false_iff, Z.eqb_eq in Es1. apply Z.eqb_neq in Es2. rewrite <- basic_type in Es2.
          repeat (split; [first [reflexivity | constructor | assumption]|]). right. exists pa. split; [exact Em|]. split; [|reflexivity].
          intros ->. rewrite (proj2 (AccountEq_true _ _) eq_refl) in Eeq. discriminate Eeq.
      + exists [], x, (present l), m. unfold stop in E. injection E as <- <-. apply orb_false_iff in Es as (Es1 & Es2). apply negb_false_iff, Z.eqb_eq in Es1. apply Z.eqb_neq in Es2. rewrite <- basic_type in Es2.
        repeat (split; [first [reflexivity | constructor | assumption]|]). left. auto.
  Qed.
  Lemma andthen_err {X Y : Type} (m : step ledger X) (k : X -> step ledger Y) M e M' :
    andthen ledger m k M = (Err e, M') -> m M = (Err e, M') \/ exists x M1, m M = (Ok x, M1) /\ k x M1 = (Err e, M').
  Proof. unfold andthen. destruct (m M) as ([x|e1| |] & M1); [eauto|intros [= -> ->]; auto|discriminate..]. Qed.

  Lemma andthen_run {X Y : Type} (m : step ledger X) (k : X -> step ledger Y) M x M1 : m M = (Ok x, M1) -> andthen ledger m k M = k x M1.
  Proof. unfold andthen. intros ->. reflexivity. Qed.

  Theorem push_refused M c b body e M' c' : ledger_ok M -> cache_ok c -> block_ok b -> bl_body b = Some body ->
    Push H oob ledger L_get L_put M c b = (Err e, M', c') -> refused H oob M (bh_height (bl_header b)) body e M'.
  Proof.
    intros HM Hc (Hh & Hb) Eb E. unfold Push in E. cbv zeta in E. rewrite Eb in E.
    destruct (Hb body Eb) as (Hm & _ & _ & _ & Hl & _). set (h := bh_height (bl_header b)) in *.
    assert (HX : push_body H oob ledger L_get L_put body h M = (Err e, M') \/
                 exists M1, push_body H oob ledger L_get L_put body h M = (Ok tt, M1) /\ exists x, acct M1 (bb_miner body) = x /\ ~ is_basic x /\ e = EAccountTypeMismatch 0 (AccountType x) /\ M' = M1).
    { destruct (push_body H oob ledger L_get L_put body h M) as (r & M1) eqn:E1. destruct r as [[]| | |]; try discriminate E; [right|left; congruence].
      exists M1. split; [reflexivity|]. assert (Hh32 : PolicySpec.u32 h) by (apply Hh). destruct (BlockReward_ok c h Hc Hh32) as (Hc' & Er).
      destruct (BlockReward c h) as (c1 & base). cbn [fst snd] in *. subst base. destruct (Z.eqb_spec h 0) as [|Hh0]; [discriminate E|].
      unfold andthen at 1 in E. unfold stop at 1 in E. pose proof (block_reward_bound h) as Hbase. rewrite inherents_eq in E by assumption.
      eexists. split; [reflexivity|]. destruct (acct M1 (bb_miner body)) as [v| |]; try discriminate E; injection E as <- <- _; (split; [intros (v & Ev); discriminate Ev|split; reflexivity]). }
    clear E. unfold push_body in HX. change (txs_of body) with (present (bb_txs body)) in *.
    (* the senders *)
    assert (HS : pushSenders H oob ledger L_get L_put (bb_txs body) h M = (Err e, M') \/ exists M1, pushSenders H oob ledger L_get L_put (bb_txs body) h M = (Ok tt, M1)).
    { destruct HX as [E|(M1 & E & _)]; [apply andthen_err in E as [E|([] & M1 & E & _)]|apply andthen_ok in E as ([] & M2 & E & _)]; eauto. }
    destruct HS as [ES|(M1 & ES)].
    { unfold pushSenders in ES. apply for_err in ES as (p & t & q & M1 & Ep & Hp & Ht & Ef & Eq); [|exact Hl].
      destruct (senders_ok H oob HH (map Some p) h M M1 HM (proj1 (all_some p) Hp) Ef) as (HM1 & H1). rewrite present_some in H1. fold (after_debits H M p) in H1.
      unfold push_sender in Eq. cbv zeta in Eq. rewrite content_sender, content_sender_type, Lpush_eq in Eq. unfold AccountUnknown in Eq.
      assert (Ety : AccountType (acct M1 (tx_sender H t)) = AccountType (acct M (tx_sender H t))) by (rewrite H1; apply type_with).
      destruct (negb (tx_sender_type t =? 255) && negb (tx_sender_type t =? AccountType (acct M1 (tx_sender H t)))) eqn:Ec.
      - injection Eq as <- <-. rewrite Ety in *. apply andb_true_iff in Ec as (C1 & C2). apply negb_true_iff, Z.eqb_neq in C1, C2.
        eapply refused_sender_type; [exact Ep|exact C1|exact C2|exact H1].
      - destruct (ApplyOutgoingTx H oob (acct M1 (tx_sender H t)) t h) eqn:Eo; try discriminate Eq. injection Eq as <- <-.
        eapply refused_sender; [exact Ep| |exact H1]. unfold after_debits. rewrite <- H1. apply outgoing_refuses; [exact Ht|exact Eo]. }
    destruct (senders_ok H oob HH _ _ _ _ HM Hl ES) as (HM1 & H1).
    assert (HX1 : andthen ledger (pushRecipients H ledger L_get L_put (bb_txs body) h)
        (fun _ => andthen ledger (createContracts H ledger L_get L_put (bb_txs body) h) (fun _ => pruneAccounts H ledger L_get L_put body)) M1 = (Err e, M') \/
      exists M4, andthen ledger (pushRecipients H ledger L_get L_put (bb_txs body) h)
        (fun _ => andthen ledger (createContracts H ledger L_get L_put (bb_txs body) h) (fun _ => pruneAccounts H ledger L_get L_put body)) M1 = (Ok tt, M4) /\
        exists x, acct M4 (bb_miner body) = x /\ ~ is_basic x /\ e = EAccountTypeMismatch 0 (AccountType x) /\ M' = M4).
    { rewrite (andthen_run _ _ _ _ _ ES) in HX. exact HX. }
    clear HX. rename HX1 into HX.
    (* the recipients *)
    assert (HR : pushRecipients H ledger L_get L_put (bb_txs body) h M1 = (Err e, M') \/ exists M2, pushRecipients H ledger L_get L_put (bb_txs body) h M1 = (Ok tt, M2)).
    { destruct HX as [E|(M4 & E & _)]; [apply andthen_err in E as [E|([] & M2 & E & _)]|apply andthen_ok in E as ([] & M2 & E & _)]; eauto. }
    assert (H12 : forall p M2, (forall a, acct M2 a = with_balance (acct M1 a) ((Balance (acct M1 a) + received p a) mod 2 ^ 64)) ->
      forall a, acct M2 a = after_credits H M (present (bb_txs body)) p a).
    { intros p M2 H2 a. rewrite H2, H1, with_with, balance_with, Zplus_mod_idemp_l. reflexivity. }
    destruct HR as [ER|(M2 & ER)].
    { unfold pushRecipients in ER. apply for_err in ER as (p & t & q & M2 & Ep & Hp & Ht & Ef & Eq); [|exact Hl].
      destruct (recipients_ok H (map Some p) h M1 M2 HM1 (proj1 (all_some p) Hp) Ef) as (HM2 & _ & H2). rewrite present_some in H2. pose proof (H12 p M2 H2) as H3.
      unfold push_recipient in Eq. cbv zeta in Eq. rewrite content_recipient, content_recipient_type, creates_ok, Lpush_eq in Eq. unfold AccountUnknown in Eq.
      assert (Ety : AccountType (acct M2 (tx_recipient t)) = AccountType (acct M (tx_recipient t))) by (rewrite H3; apply type_with).
      destruct (tx_creates t) eqn:Ecr; cbn [Z.eqb Pos.eqb negb andb] in Eq.
      { destruct (acct M2 (tx_recipient t)); discriminate Eq. }
      destruct (negb (tx_recipient_type t =? 255) && negb (tx_recipient_type t =? AccountType (acct M2 (tx_recipient t)))) eqn:Ec.
      - injection Eq as <- <-. rewrite Ety in *. apply andb_true_iff in Ec as (C1 & C2). apply negb_true_iff, Z.eqb_neq in C1, C2.
        eapply refused_recipient_type; [exact Ep|exact Ecr|exact C1|exact C2|exact H3].
      - destruct (acct M2 (tx_recipient t)); discriminate Eq. }
    destruct (recipients_ok H _ _ _ _ HM1 Hl ER) as (HM2 & _ & H2). pose proof (H12 _ M2 H2) as H02. clear H12 H2.
    assert (HX1 : andthen ledger (createContracts H ledger L_get L_put (bb_txs body) h) (fun _ => pruneAccounts H ledger L_get L_put body) M2 = (Err e, M') \/
      exists M4, andthen ledger (createContracts H ledger L_get L_put (bb_txs body) h) (fun _ => pruneAccounts H ledger L_get L_put body) M2 = (Ok tt, M4) /\
        exists x, acct M4 (bb_miner body) = x /\ ~ is_basic x /\ e = EAccountTypeMismatch 0 (AccountType x) /\ M' = M4).
    { rewrite (andthen_run _ _ _ _ _ ER) in HX. exact HX. }
    clear HX. rename HX1 into HX.
    (* the creations *)
    assert (HR : createContracts H ledger L_get L_put (bb_txs body) h M2 = (Err e, M') \/ exists M3, createContracts H ledger L_get L_put (bb_txs body) h M2 = (Ok tt, M3)).
    { destruct HX as [E|(M4 & E & _)]; [apply andthen_err in E as [E|([] & M3 & E & _)]|apply andthen_ok in E as ([] & M3 & E & _)]; eauto. }
    assert (H23 : forall p M3, (forall a, match last_creation p a with None => acct M3 a = acct M2 a
        | Some t => contract_from (x_recipient_type t) (x_data t) (x_value t) (Balance (acct M2 a)) (acct M3 a) end) ->
      forall a, after_creations H M (present (bb_txs body)) p a (acct M3 a)).
    { intros p M3 H3 a. specialize (H3 a). unfold after_creations. rewrite H02 in H3. exact H3. }
    destruct HR as [EC|(M3 & EC)].
    { unfold createContracts in EC. apply for_err in EC as (p & t & q & M3 & Ep & Hp & Ht & Ef & Eq); [|exact Hl].
      destruct (create_ok H (map Some p) h M2 M3 HM2 (proj1 (all_some p) Hp) Ef) as (HM3 & H3). rewrite present_some in H3. pose proof (H23 p M3 H3) as H4.
      unfold create_step in Eq. rewrite creates_ok in Eq. destruct (tx_creates t) eqn:Ecr; [|discriminate Eq]. destruct t as [|y]; [discriminate Ecr|].
      unfold createContract in Eq. cbv zeta in Eq. rewrite creates_ok, Ecr, content_recipient, content_recipient_type in Eq. cbn [negb tx_recipient tx_recipient_type] in Eq.
      unfold andthen at 1, get_account, L_get in Eq.
      assert (G : creation_refused y e /\ M' = M3).
      { destruct (Z.eqb_spec (x_recipient_type y) 0) as [E0|E0].
        - injection Eq as <- <-. unfold creation_refused. rewrite E0. split; reflexivity.
        - destruct ((x_recipient_type y =? 1) || (x_recipient_type y =? 2)) eqn:E12.
          + unfold andthen, stop in Eq. destruct (Account_Init (x_recipient_type y) (TExtended y) h (Balance (acct M3 (x_recipient y)))) eqn:Ei; try discriminate Eq.
            injection Eq as <- <-. split; [|reflexivity]. eapply init_refused; [exact Ht| |reflexivity|exact Ei].
            apply orb_true_iff in E12 as [E12|E12]; apply Z.eqb_eq in E12; auto.
          + injection Eq as <- <-. split; [|reflexivity]. unfold creation_refused. apply orb_false_iff in E12 as (-> & ->). rewrite (proj2 (Z.eqb_neq _ _) E0). reflexivity. }
      destruct G as (G & ->). eapply refused_creation; [exact Ep|exact Ecr|exact G|exact H4]. }
    destruct (create_ok H _ _ _ _ HM2 Hl EC) as (HM3 & H3). pose proof (H23 _ M3 H3) as H03. clear H23 H3.
    assert (Hset : forall a, settled H M (present (bb_txs body)) a (acct M3 a)).
    { intros a. specialize (H03 a). unfold after_creations in H03. unfold settled. cbv zeta. destruct (last_creation (present (bb_txs body)) a); [|exact H03].
      unfold after_credits in H03. rewrite balance_with in H03. exact H03. }
    assert (HX1 : pruneAccounts H ledger L_get L_put body M3 = (Err e, M') \/
      exists M4, pruneAccounts H ledger L_get L_put body M3 = (Ok tt, M4) /\
        exists x, acct M4 (bb_miner body) = x /\ ~ is_basic x /\ e = EAccountTypeMismatch 0 (AccountType x) /\ M' = M4).
    { rewrite (andthen_run _ _ _ _ _ EC) in HX. exact HX. }
    clear HX. rename HX1 into HX. unfold pruneAccounts in HX.
    assert (H34 : forall p (m : gmap bytes (option Account)) M4, (forall a, (to_prune H p a (acct M3 a) /\ prune_map (bb_pruned body) !! a = Some (Some (acct M3 a)) /\ acct M4 a = ABasic 0 /\ m !! a = None) \/
              (~ to_prune H p a (acct M3 a) /\ acct M4 a = acct M3 a /\ m !! a = prune_map (bb_pruned body) !! a)) ->
      forall a, after_removals H M (present (bb_txs body)) p a (acct M4 a)).
    { intros p m M4 H4 a. exists (acct M3 a). split; [apply Hset|]. destruct (H4 a) as [(P1 & _ & P2 & _)|(P1 & P2 & _)]; auto. }
    destruct HX as [E|(M4 & E & x & Ex & Hx & -> & ->)].
    - apply andthen_err in E as [E|(m' & M4 & E & E')].
      + apply prune_err in E as (p & t & q & m1 & Ep & Hp & Ht & Ef & Hnb & Hz & Hc'); [|exact Hl].
        destruct (prune_txs_ok H HH (map Some p) _ _ _ _ HM3 (proj1 (all_some p) Hp) Ef) as (HM4 & H4). rewrite present_some in H4. pose proof (H34 p m1 M' H4) as H04.
        destruct (H4 (tx_sender H t)) as [(_ & _ & Ea & _)|(_ & Ea & Em)]; [rewrite Ea in Hnb; contradiction Hnb; eexists; reflexivity|].
        rewrite prune_map_listed in Em. rewrite Ea in *. destruct Hc' as [(Em' & ->)|(x & Em' & Hne & ->)].
        * eapply refused_prune_missing; [exact Ep|apply Hset|exact Hnb|exact Hz|congruence|exact H04].
        * eapply refused_prune_altered; [exact Ep|apply Hset|exact Hnb|exact Hz|rewrite <- Em; exact Em'|exact Hne|exact H04].
      + destruct (decide (m' = ∅)) as [->|Hne]; [discriminate E'|]. injection E' as <- <-.
        destruct (prune_txs_ok H HH _ _ _ _ _ HM3 Hl E) as (HM4 & H4). pose proof (H34 _ m' M4 H4) as H04.
        apply refused_prune_early; [| |exact H04].
        * intros E0. apply Hne. apply map_to_list_empty_iff. destruct (map_to_list m'); [reflexivity|discriminate E0].
        * intros a. rewrite elem_of_list_In, in_map_iff. change (txs_of body) with (present (bb_txs body)). split.
          -- intros ((k & v) & <- & Hin). apply elem_of_list_In, elem_of_map_to_list in Hin. cbn [fst].
             destruct (H4 k) as [(_ & _ & _ & En)|(Hn & _ & Em)]; [congruence|]. rewrite prune_map_listed, Hin in Em. split; [congruence|].
             intros x Hx. rewrite (settled_unique H M _ _ _ _ Hx (Hset k)). exact Hn.
          -- intros (Hl' & Hn). specialize (Hn _ (Hset a)). destruct (H4 a) as [(Hy & _)|(_ & _ & Em)]; [contradiction (Hn Hy)|].
             rewrite prune_map_listed in Em. destruct (listed (bb_pruned body) a) as [v|]; [|congruence].
             exists (a, v). split; [reflexivity|]. apply elem_of_list_In, elem_of_map_to_list. exact Em.
    - apply andthen_ok in E as (m' & M5 & E & E'). destruct (decide (m' = ∅)) as [->|Hne]; [|discriminate E']. injection E' as <-.
      destruct (prune_txs_ok H HH _ _ _ _ _ HM3 Hl E) as (HM4 & H4). pose proof (H34 _ ∅ M5 H4) as H04.
      apply refused_miner; [|exact Hx|exact H04]. specialize (H04 (bb_miner body)). rewrite Ex in H04. exact H04.
  Qed.
End Refusal.
