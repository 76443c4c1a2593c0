(** The exact answer of Push. *)
From Coq Require Import ZArith List Lia Bool.
From stdpp Require Import gmap list.
From Verif.Model Require Import Base Address Beserial Wire Policy Account Accounts.
From Verif.Spec Require Import PolicySpec BeserialSpec WireSpec AccountSpec AccountsSpec RulesSpec FaultSpec OutcomeSpec.
From Verif.Proofs Require Import BaseFacts BeserialFacts WireFacts InterlinkFacts BlockFacts LayoutFacts PolicyFacts AccountFacts LedgerFacts PushFacts RulesFacts ErrorFacts FaultFacts.
From Verif.Props Require Import WireProps.
Open Scope Z_scope.

(** ** The answer of an account *)
Lemma long_bytes pub nodes sig :
  pub ++ zlen nodes :: List.concat nodes ++ sig = proof_bytes (MkProof pub (MkMerklePath (MkBitSet (zlen nodes) []) nodes) sig).
Proof. reflexivity. Qed.
Lemma readable_read H d : readable d -> exists p, enc ty_proof no_tags (v_proof p) d /\
  ((is_proof d p /\ SignerAddress H p = Ok (signer_of H p)) \/ (long_proof d /\ SignerAddress H p = Panic)).
Proof.
  intros [(p & Hp & ->)|Hl].
  - exists p. split; [apply proof_layout, Hp|]. left. split; [split; [exact Hp|reflexivity]|]. apply signer_ok. apply Hp.
  - pose proof Hl as (pub & nodes & sig & A1 & A2 & A3 & Hn & ->). destruct (long_proof_enc (zlen nodes) pub nodes sig Hn A1 A2 eq_refl A3) as (He & Hs).
    eexists. split; [exact He|]. right. split; [exact Hl|apply Hs].
Qed.
Lemma read_readable p : read_proof p -> (Len (Branches (Path p)) <= 248 -> is_proof (proof_bytes p) p) /\ (248 < Len (Branches (Path p)) -> long_proof (proof_bytes p)).
Proof.
  intros Hp. split; [intros Hl; split; [apply read_proof_ok; assumption|reflexivity]|]. intros Hl. destruct p as [pub [[x bits] nodes] sig].
  destruct Hp as (A1 & A3 & Hu & El & Hz & Hf & _). cbn [PublicKey Signature Path Branches Hashes Len Bits] in *. unfold u8 in Hu.
  assert (E : w8 (x + 7) / 8 = 0).
  { unfold w8. replace (x + 7) with (x - 249 + 1 * two8) by (unfold two8; lia). rewrite Z.mod_add by discriminate. rewrite Z.mod_small by (unfold two8; lia). apply Z.div_small. lia. }
  rewrite E in Hz. assert (bits = []) as -> by (destruct bits; [reflexivity|unfold zlen in Hz; cbn in Hz; lia]).
  exists pub, nodes, sig. rewrite El. repeat (split; [first [assumption|lia]|]). reflexivity.
Qed.
Lemma read_is_readable p : read_proof p -> readable (proof_bytes p).
Proof.
  intros Hp. destruct (read_readable p Hp) as (R1 & R2). destruct (Z.le_gt_cases (Len (Branches (Path p))) 248) as [Hl|Hl]; [left; eauto|right; auto].
Qed.
Lemma v_proof_inj p q : v_proof p = v_proof q -> p = q.
Proof. intros E. rewrite <- (proof_of_v p), E. apply proof_of_v. Qed.
Lemma enc_unique p q d : enc ty_proof no_tags (v_proof p) d -> enc ty_proof no_tags (v_proof q) d -> p = q.
Proof. intros E1 E2. apply read_full_enc in E1, E2. apply v_proof_inj. congruence. Qed.
Lemma not_both d p : is_proof d p -> long_proof d -> False.
Proof.
  intros (Hp & Ed) Hl. pose proof Hl as (pub & nodes & sig & A1 & A2 & A3 & Hn & El). destruct (long_proof_enc (zlen nodes) pub nodes sig Hn A1 A2 eq_refl A3) as (He & Hs).
  rewrite <- long_bytes, <- El in He. pose proof (proof_layout p Hp) as Hq. rewrite <- Ed in Hq. rewrite (enc_unique _ _ _ Hq He) in Hp.
  specialize (Hs (fun _ => [])). rewrite (signer_ok _ _ (proj1 (proj2 Hp))) in Hs. discriminate Hs.
Qed.

Definition check_sig (H : bytes -> bytes) (p : SignatureProof) (who : bytes) (wrong : error) : res unit :=
  let? s := SignerAddress H p in if bytes_eqb s who then Ok tt else Err wrong.
Lemma eqb_decide (a b : bytes) (X : Type) (u v : X) : (if bytes_eqb a b then u else v) = if decide (a = b) then u else v.
Proof.
  destruct (decide (a = b)) as [->|Hn]; [rewrite bytes_eqb_refl; reflexivity|]. destruct (bytes_eqb a b) eqn:E; [|reflexivity]. apply bytes_eqb_eq in E. contradiction.
Qed.
Lemma check_signed H p who wrong : read_proof p -> signed_by H (proof_bytes p) who wrong (check_sig H p who wrong).
Proof.
  intros Hp. destruct (read_readable p Hp) as (R1 & R2). unfold check_sig. destruct (signer_cases H p Hp) as [(Hl & ->)|(Hl & ->)]; cbn [bind].
  - left. exists p. split; [auto|]. rewrite eqb_decide. reflexivity.
  - right. left. auto.
Qed.
Lemma signed_check H p d who wrong r : readable d -> enc ty_proof no_tags (v_proof p) d -> signed_by H d who wrong r -> r = check_sig H p who wrong.
Proof.
  intros Hr He [(q & Hq & ->)|[(Hl & ->)|(Hn & _)]]; [| |contradiction (Hn Hr)].
  - assert (Eq : q = p). { eapply enc_unique; [|exact He]. destruct Hq as (Hq & ->). apply proof_layout, Hq. } subst q.
    unfold check_sig. rewrite signer_ok by (apply Hq). cbn [bind]. rewrite eqb_decide. reflexivity.
  - destruct (readable_read H d (or_intror Hl)) as (q & Hq & Hs). rewrite (enc_unique _ _ _ He Hq). unfold check_sig.
    destruct Hs as [(Hs & _)|(_ & ->)]; [exfalso; exact (not_both _ _ Hs Hl)|reflexivity].
Qed.
Lemma unreadable d e : read_full ty_proof d = Err e -> ~ readable d /\ undecodable (Err e).
Proof.
  intros E. split; [|exists e; split; [exact (read_full_within _ _ within_proof _ E)|reflexivity]].
  intros Hr. destruct (readable_read (fun _ => []) d Hr) as (p & He & _). rewrite (read_full_enc _ _ _ He) in E. discriminate E.
Qed.
Lemma signed_full H d who wrong : bytes_ok d ->
  let r := let? p := read_full ty_proof d in check_sig H (proof_of p) who wrong in
  signed_by H d who wrong r /\ forall r', signed_by H d who wrong r' -> same_answer r' r.
Proof.
  intros Hd. cbv zeta. destruct (read_full_inv ty_proof _ d safe_proof reads_proof Hd) as [(e & E)|(v & E & p & -> & Hp & ->)]; rewrite E; cbn [bind].
  - destruct (unreadable d e E) as (Hn & Hu). split; [right; right; auto|]. intros r' [(p & Hp & _)|[(Hl & _)|(_ & Hu')]]; [exfalso; apply Hn; left; eauto|exfalso; apply Hn; right; auto|].
    right. left. auto.
  - rewrite proof_of_v. split; [apply check_signed, Hp|]. intros r' Hs. left.
    pose proof (read_is_readable p Hp) as Hr. destruct (readable_read H _ Hr) as (q & Hq & _).
    pose proof (read_full_enc _ _ _ Hq) as E'. assert (q = p) as -> by (apply v_proof_inj; congruence). eapply signed_check; eassumption.
Qed.
Lemma enc_regular' alg depth root pre p rest : u8 alg -> u8 depth -> array 32 root -> array 32 pre -> enc ty_proof no_tags (v_proof p) rest ->
  enc ty_regular no_tags (VStruct [VNum alg; VNum depth; vbytes root; vbytes pre; v_proof p]) (alg :: depth :: root ++ pre ++ rest).
Proof.
  intros H1 H2 H3 H4 H5. change (alg :: depth :: root ++ pre ++ rest) with ([alg] ++ [depth] ++ root ++ pre ++ rest).
  rewrite <- (be1 alg H1), <- (be1 depth H2). apply enc_struct. enc_fields_tac;
    first [apply (enc_int U8); assumption | apply enc_bytesN; assumption | assumption].
Qed.
Lemma enc_early' p q d1 d2 : enc ty_proof no_tags (v_proof p) d1 -> enc ty_proof no_tags (v_proof q) d2 -> enc ty_early no_tags (VStruct [v_proof p; v_proof q]) (d1 ++ d2).
Proof. intros Hp Hq. apply enc_struct. enc_fields_tac; assumption. Qed.
Lemma enc_timeout' p d : enc ty_proof no_tags (v_proof p) d -> enc ty_timeout no_tags (VStruct [v_proof p]) d.
Proof. intros Hp. apply enc_struct. enc_fields_tac; assumption. Qed.

Lemma same_refl r : same_answer r r.
Proof. left. reflexivity. Qed.
Lemma htlc_answers H k proof height : bytes_ok proof ->
  let r := match proof with [] => Err EMissingProof | ty :: d => HTLC_check H k ty d height end in
  htlc_answer H k proof height r /\ forall r', htlc_answer H k proof height r' -> same_answer r' r.
Proof.
  intros Hd. cbv zeta. destruct proof as [|ty d]; [split; [reflexivity|intros r' ->; apply same_refl]|]. apply Forall_cons in Hd as (_ & Hd). unfold HTLC_check.
  destruct (Z.eqb_spec ty 1) as [-> |H1]; [|destruct (Z.eqb_spec ty 2) as [-> |H2]; [|destruct (Z.eqb_spec ty 3) as [-> |H3]]]; cbn [htlc_answer].
  - destruct (h_timeout k <? height); [split; [reflexivity|intros r' ->; apply same_refl]|].
    destruct (read_full_inv _ _ _ safe_regular reads_regular Hd) as [(e' & Er)|(v & Er & alg & depth & root & pre & p & -> & A1 & A2 & A3 & A4 & Hp & Ed)]; rewrite Er; cbn [bind].
    + assert (Hn : ~ exists alg depth root preimage rest, u8 alg /\ u8 depth /\ array 32 root /\ array 32 preimage /\ readable rest /\ d = alg :: depth :: root ++ preimage ++ rest).
      { intros (alg & depth & root & pre & rest & A1 & A2 & A3 & A4 & Hr & ->). destruct (readable_read H rest Hr) as (p & He & _).
        rewrite (read_full_enc _ _ _ (enc_regular' _ _ _ _ _ _ A1 A2 A3 A4 He)) in Er. discriminate Er. }
      assert (Hu : undecodable (Err e')) by (exists e'; split; [exact (read_full_within _ _ within_regular _ Er)|reflexivity]).
      split; [right; auto|]. intros r' [(alg & depth & root & pre & rest & A1 & A2 & A3 & A4 & Hr & Ed & _)|(_ & Hu')]; [|right; left; auto].
      exfalso. apply Hn. exists alg, depth, root, pre, rest. tauto.
    + cbn [fld nth num_of]. rewrite num_bytes, proof_of_v. fold (check_sig H p (h_recipient k) EHTLCRecipientSig).
      set (r := if negb (alg =? Algorithm (h_hash k)) || negb (bytes_eqb root (Bytes (h_hash k))) then Err EHTLCHash else check_sig H p (h_recipient k) EHTLCRecipientSig).
      assert (Er' : r = if decide (alg = Algorithm (h_hash k) /\ root = Bytes (h_hash k)) then check_sig H p (h_recipient k) EHTLCRecipientSig else Err EHTLCHash).
      { unfold r. destruct (Z.eqb_spec alg (Algorithm (h_hash k))) as [Ea|Ea]; cbn [negb orb]; [|rewrite decide_False by tauto; reflexivity].
        destruct (bytes_eqb root (Bytes (h_hash k))) eqn:Eb; cbn [negb]; [apply bytes_eqb_eq in Eb; rewrite decide_True by auto; reflexivity|].
        rewrite decide_False; [reflexivity|]. intros (_ & ->). rewrite bytes_eqb_refl in Eb. discriminate Eb. }
      split.
      * left. exists alg, depth, root, pre, (proof_bytes p). repeat (split; [first [assumption|apply read_is_readable, Hp]|]).
        rewrite Er'. destruct (decide _); [apply check_signed, Hp|reflexivity].
      * intros r' [(alg' & depth' & root' & pre' & rest & B1 & B2 & B3 & B4 & Hr & Ed' & Ha)|(Hn & _)].
        -- left. destruct (readable_read H rest Hr) as (q & He & _). pose proof (read_full_enc _ _ _ (enc_regular' _ _ _ _ _ _ B1 B2 B3 B4 He)) as Er2. rewrite <- Ed', Er in Er2.
           assert (alg' = alg) as -> by congruence. assert (vbytes root' = vbytes root) as E3 by congruence. assert (q = p) as -> by (apply v_proof_inj; congruence).
           assert (root' = root) as -> by (rewrite <- (bytes_of_vbytes root), <- E3; symmetry; apply bytes_of_vbytes). rewrite Er'. destruct (decide _); [|exact Ha]. eapply signed_check; eassumption.
        -- exfalso. apply Hn. exists alg, depth, root, pre, (proof_bytes p). repeat (split; [first [assumption|apply read_is_readable, Hp]|]). exact Ed.
  - destruct (read_full_inv _ _ _ safe_early reads_early Hd) as [(e' & Er)|(v & Er & p & q & -> & Hp & Hq & Ed)]; rewrite Er; cbn [bind].
    + assert (Hn : ~ exists d1 d2, readable d1 /\ readable d2 /\ d = d1 ++ d2).
      { intros (d1 & d2 & R1 & R2 & ->). destruct (readable_read H d1 R1) as (p & He & _). destruct (readable_read H d2 R2) as (q & Hq & _).
        rewrite (read_full_enc _ _ _ (enc_early' _ _ _ _ He Hq)) in Er. discriminate Er. }
      assert (Hu : undecodable (Err e')) by (exists e'; split; [exact (read_full_within _ _ within_early _ Er)|reflexivity]).
      split; [right; auto|]. intros r' [(d1 & d2 & R1 & R2 & Ed & _)|(_ & Hu')]; [|right; left; auto]. exfalso. apply Hn. exists d1, d2. auto.
    + cbn [fld nth]. rewrite !proof_of_v.
      set (r := let? recipient := SignerAddress H p in if negb (bytes_eqb recipient (h_recipient k)) then Err EHTLCRecipientSig else
                let? sender := SignerAddress H q in if bytes_eqb sender (h_sender k) then Ok tt else Err EHTLCSenderSig).
      assert (Er' : r = let? _ := check_sig H p (h_recipient k) EHTLCRecipientSig in check_sig H q (h_sender k) EHTLCSenderSig).
      { unfold r, check_sig. destruct (SignerAddress H p) as [sg|e| |]; cbn [bind]; try reflexivity. destruct (bytes_eqb sg (h_recipient k)); reflexivity. }
      assert (Rn : forall c : res unit, c <> Ok tt -> (let? _ := c in check_sig H q (h_sender k) EHTLCSenderSig) = c) by (intros [[]| | |] Hc; [congruence|reflexivity..]).
      split.
      * left. exists (proof_bytes p), (proof_bytes q). repeat (split; [first [assumption|apply read_is_readable; assumption]|]). rewrite Er'.
        pose proof (check_signed H p (h_recipient k) EHTLCRecipientSig Hp) as Hs. destruct (check_sig H p (h_recipient k) EHTLCRecipientSig) as [[]|e| |] eqn:Ec.
        -- right. split; [exact Hs|]. cbn [bind]. apply check_signed, Hq.
        -- left. rewrite Rn by discriminate. split; [exact Hs|discriminate].
        -- left. rewrite Rn by discriminate. split; [exact Hs|discriminate].
        -- left. rewrite Rn by discriminate. split; [exact Hs|discriminate].
      * intros r' [(d1 & d2 & R1 & R2 & Ed' & Ha)|(Hn & _)].
        -- left. destruct (readable_read H d1 R1) as (p' & He1 & _). destruct (readable_read H d2 R2) as (q' & He2 & _).
           pose proof (read_full_enc _ _ _ (enc_early' _ _ _ _ He1 He2)) as Er2. rewrite <- Ed', Er in Er2.
           assert (p' = p) as -> by (apply v_proof_inj; congruence). assert (q' = q) as -> by (apply v_proof_inj; congruence).
           rewrite Er'. destruct Ha as [(Hs & Hne)|(Hs & Hs2)].
           ++ rewrite <- (signed_check H p d1 _ _ _ R1 He1 Hs). symmetry. apply Rn, Hne.
           ++ rewrite <- (signed_check H p d1 _ _ _ R1 He1 Hs). cbn [bind]. apply (signed_check H q d2 _ _ _ R2 He2 Hs2).
        -- exfalso. apply Hn. exists (proof_bytes p), (proof_bytes q). split; [apply read_is_readable, Hp|]. split; [apply read_is_readable, Hq|exact Ed].
  - destruct (height <=? h_timeout k); [split; [reflexivity|intros r' ->; apply same_refl]|].
    assert (E : (let? p := read_full ty_timeout d in let? signer := SignerAddress H (proof_of (fld 0 p)) in if bytes_eqb signer (h_sender k) then Ok tt else Err EHTLCSenderSig) =
                 (let? p := read_full ty_timeout d in check_sig H (proof_of (fld 0 p)) (h_sender k) EHTLCSenderSig)) by reflexivity.
    rewrite E. clear E.
    destruct (read_full_inv _ _ _ safe_timeout reads_timeout Hd) as [(e' & Er)|(v & Er & p & -> & Hp & Ed)]; rewrite Er; cbn [bind].
    + assert (Hn : ~ readable d). { intros Hr. destruct (readable_read H d Hr) as (p & He & _). rewrite (read_full_enc _ _ _ (enc_timeout' _ _ He)) in Er. discriminate Er. }
      assert (Hu : undecodable (Err e')) by (exists e'; split; [exact (read_full_within _ _ within_timeout _ Er)|reflexivity]).
      split; [right; right; auto|]. intros r' [(p & Hp & _)|[(Hl & _)|(_ & Hu')]]; [exfalso; apply Hn; left; eauto|exfalso; apply Hn; right; auto|]. right. left. auto.
    + cbn [fld nth]. rewrite proof_of_v. subst d. split; [apply check_signed, Hp|]. intros r' Hs. left.
      pose proof (read_is_readable p Hp) as Hr. destruct (readable_read H _ Hr) as (q & Hq & _).
      pose proof (read_full_enc _ _ _ (enc_timeout' _ _ Hq)) as E'. rewrite Er in E'. assert (q = p) as -> by (apply v_proof_inj; congruence). eapply signed_check; eassumption.
  - assert (E : forall r', htlc_answer H k (ty :: d) height r' <-> r' = Err EHTLCProofType).
    { intros r'. destruct ty as [|[ty|ty|]|ty]; cbn [htlc_answer]; try reflexivity; [destruct ty; try reflexivity; congruence|destruct ty; try reflexivity; congruence|congruence]. }
    split; [apply E; reflexivity|]. intros r' Hr. apply E in Hr. subst r'. apply same_refl.
Qed.
Lemma spend_answers H oob x t height : tx_ok t ->
  let r := let? _ := ApplyOutgoingTx H oob x t height in Ok tt in
  spend_answer H oob x t height r /\ forall r', spend_answer H oob x t height r' -> same_answer r' r.
Proof.
  intros Ht. cbv zeta. destruct x as [v|c|k].
  - cbn [ApplyOutgoingTx spend_answer available wanted]. unfold Basic_Outgoing. rewrite amount_ok. unfold w64. change two64 with (2 ^ 64).
    destruct t as [b|y]; (destruct (v <? _); split; [reflexivity|intros r' ->; apply same_refl|reflexivity|intros r' ->; apply same_refl]).
  - destruct t as [b|y]; [split; [reflexivity|intros r' ->; apply same_refl]|]. cbn [ApplyOutgoingTx spend_answer available wanted tx_value]. unfold Vesting_Outgoing. cbn [as_extended bind].
    destruct (amountUnlocked oob c height <? x_value y); [split; [reflexivity|intros r' ->; apply same_refl]|].
    destruct (tx_ok_ext y Ht) as (_ & Hd & _). destruct (signed_full H (x_proof y) (v_owner c) EBadSignature Hd) as (S1 & S2). cbv zeta in S1, S2.
    match goal with |- signed_by _ _ _ _ ?r /\ _ => assert (E : r = let? p := read_full ty_proof (x_proof y) in check_sig H (proof_of p) (v_owner c) EBadSignature) end.
    { destruct (read_full ty_proof (x_proof y)) as [p|e| |]; cbn [bind]; try reflexivity. unfold check_sig. destruct (SignerAddress H (proof_of p)) as [s|e| |]; cbn [bind]; try reflexivity. destruct (bytes_eqb s (v_owner c)); reflexivity. }
    rewrite E. auto.
  - destruct t as [b|y]; [split; [reflexivity|intros r' ->; apply same_refl]|]. cbn [ApplyOutgoingTx spend_answer available wanted tx_value]. unfold HTLC_Outgoing. cbn [as_extended bind].
    destruct (h_value k <? x_value y); [split; [reflexivity|intros r' ->; apply same_refl]|].
    destruct (tx_ok_ext y Ht) as (_ & Hd & _). destruct (htlc_answers H k (x_proof y) height Hd) as (S1 & S2). cbv zeta in S1, S2.
    match goal with |- htlc_answer _ _ _ _ ?r /\ _ => assert (E : r = match x_proof y with [] => Err EMissingProof | ty :: d => HTLC_check H k ty d height end) end.
    { destruct (x_proof y) as [|ty d]; [reflexivity|]. destruct (HTLC_check H k ty d height) as [[]|e| |]; reflexivity. }
    rewrite E. auto.
Qed.

(** ** The phases *)
Lemma same_stop r r' : same_answer r' r -> r' <> Ok tt -> r <> Ok tt.
Proof. intros [->|[(_ & e & _ & ->)|(l & l' & _ & -> & _)]]; [auto|discriminate|discriminate]. Qed.
Lemma all_present l : all_ok l -> l = map Some (present l).
Proof. induction 1 as [|t l (x & -> & Hx) _ IH]; [reflexivity|]. cbn [present flat_map app map]. change (flat_map _ l) with (present l). rewrite <- IH. reflexivity. Qed.
Lemma for_stop f l : forall M r M', all_ok l -> for_txs ledger f l M = (r, M') -> r <> Ok tt ->
  exists p t q M1, present l = p ++ t :: q /\ Forall tx_ok p /\ tx_ok t /\ for_txs ledger f (map Some p) M = (Ok tt, M1) /\ f t M1 = (r, M').
Proof.
  intros M r M' Hl. revert M. induction Hl as [|t l (x & -> & Hx) _ IH]; intros M E Hr; cbn [for_txs] in E; [injection E as <-; congruence|].
  unfold andthen in E. destruct (f x M) as (r1 & M1) eqn:E1. destruct r1 as [[]|e| |].
  2-4: exists [], x, (present l), M; injection E as <- <-; split; [reflexivity|]; split; [constructor|]; split; [exact Hx|]; split; [reflexivity|]; exact E1.
  destruct (IH _ E Hr) as (p & t & q & M2 & Ep & Hp & Ht & Ef & Eq). exists (x :: p), t, q, M2. cbn [present flat_map app map for_txs]. change (flat_map _ l) with (present l).
  rewrite Ep. split; [reflexivity|]. split; [constructor; assumption|]. split; [exact Ht|]. split; [|exact Eq]. unfold andthen. rewrite E1. exact Ef.
Qed.
Lemma for_at f p t q : forall M M1 r M', for_txs ledger f (map Some p) M = (Ok tt, M1) -> f t M1 = (r, M') -> r <> Ok tt ->
  for_txs ledger f (map Some (p ++ t :: q)) M = (r, M').
Proof.
  induction p as [|x p IH]; intros M M1 r M' E1 E2 Hr; cbn [map app for_txs] in *.
  - injection E1 as <-. unfold andthen. rewrite E2. destruct r as [[]| | |]; [congruence|reflexivity..].
  - unfold andthen in *. destruct (f x M) as (r1 & M2). destruct r1 as [[]| | |]; try discriminate E1. eapply IH; eassumption.
Qed.
Lemma ok_parts l p t q : all_ok l -> present l = p ++ t :: q -> all_ok (map Some p) /\ tx_ok t /\ l = map Some (p ++ t :: q).
Proof.
  intros Hl E. pose proof (present_ok l Hl) as Hp. rewrite E in Hp. apply Forall_app in Hp as (Hp & Hq). apply Forall_cons in Hq as (Ht & _).
  split; [apply all_some, Hp|]. split; [exact Ht|]. rewrite <- E. apply all_present, Hl.
Qed.

Section Outcome.
  Context (H : bytes -> bytes) (oob : float64 -> Z) (HH : hash_fn H).
  Lemma debited_nil M : ledger_ok M -> debited H M M [].
  Proof. intros HM a. unfold after_debits, charged. cbn. rewrite Z.sub_0_r, mod_balance, with_same by (apply acct_ok, HM). reflexivity. Qed.

  (** *** Senders *)
  Definition sender_stop (M : ledger) (h : Z) (l : list Tx) (r : res unit) : Prop :=
    exists pre t post, l = pre ++ t :: post /\ senders_pass H oob M h pre /\
      ((tx_sender_type t <> 255 /\ tx_sender_type t <> AccountType (acct M (tx_sender H t)) /\
        r = Err (EAccountTypeMismatch (tx_sender_type t) (AccountType (acct M (tx_sender H t))))) \/
       ((tx_sender_type t = 255 \/ tx_sender_type t = AccountType (acct M (tx_sender H t))) /\
        spend_answer H oob (after_debits H M pre (tx_sender H t)) t h r /\ r <> Ok tt)).
  Lemma pass_iff M h l : ledger_ok M -> all_ok l ->
    (exists M', pushSenders H oob ledger L_get L_put l h M = (Ok tt, M')) <-> senders_pass H oob M h (present l).
  Proof. intros HM Hl. exact (senders_iff H oob HH M h l [] M HM Hl (debited_nil M HM)). Qed.
  Lemma step_sender M M1 h p t : tx_ok t -> (forall a, acct M1 a = after_debits H M p a) ->
    fst (push_sender H oob ledger L_get L_put h t M1) =
    if decide (tx_sender_type t <> 255 /\ tx_sender_type t <> AccountType (acct M (tx_sender H t)))
    then Err (EAccountTypeMismatch (tx_sender_type t) (AccountType (acct M (tx_sender H t))))
    else let? _ := ApplyOutgoingTx H oob (after_debits H M p (tx_sender H t)) t h in Ok tt.
  Proof.
    intros Ht H1. unfold push_sender. cbv zeta. rewrite content_sender, content_sender_type, Lpush_eq, H1. unfold AccountUnknown, after_debits at 1 2. rewrite type_with.
    destruct (decide _) as [(C1 & C2)|Hn].
    - apply Z.eqb_neq in C1, C2. rewrite C1, C2. reflexivity.
    - replace (negb (tx_sender_type t =? 255) && negb (tx_sender_type t =? AccountType (acct M (tx_sender H t)))) with false.
      + destruct (ApplyOutgoingTx H oob _ t h); reflexivity.
      + symmetry. apply not_true_iff_false. intros C. apply Hn. apply andb_true_iff in C as (C1 & C2). apply negb_true_iff, Z.eqb_neq in C1, C2. auto.
  Qed.
  Lemma senders_answer M h l : ledger_ok M -> all_ok l ->
    let '(r, _) := pushSenders H oob ledger L_get L_put l h M in
    (r <> Ok tt -> sender_stop M h (present l) r) /\ (forall r', sender_stop M h (present l) r' -> r <> Ok tt /\ same_answer r' r).
  Proof.
    intros HM Hl. destruct (pushSenders H oob ledger L_get L_put l h M) as (r & M') eqn:E. unfold pushSenders in E. split.
    - intros Hr. destruct (for_stop _ _ _ _ _ Hl E Hr) as (p & t & q & M1 & Ep & Hp & Ht & Ef & Eq). apply all_some in Hp.
      destruct (senders_ok H oob HH (map Some p) h M M1 HM Hp Ef) as (HM1 & H1). rewrite present_some in H1. fold (after_debits H M p) in H1.
      exists p, t, q. split; [exact Ep|]. split. { rewrite <- (present_some p). apply (pass_iff M h _ HM Hp). exists M1. exact Ef. }
      pose proof (step_sender M M1 h p t Ht H1) as Es. rewrite Eq in Es. cbn [fst] in Es. destruct (decide _) as [(C1 & C2)|Hn] in Es.
      + left. auto.
      + right. split; [destruct (decide (tx_sender_type t = 255)); [auto|]; destruct (decide (tx_sender_type t = AccountType (acct M (tx_sender H t)))); [auto|tauto]|].
        split; [|exact Hr]. rewrite Es. apply spend_answers, Ht.
    - intros r' (p & t & q & Ep & Hpass & Hs). destruct (ok_parts l p t q Hl Ep) as (Hp & Ht & El).
      rewrite <- (present_some p) in Hpass. apply (pass_iff M h _ HM Hp) in Hpass as (M1 & Ef).
      destruct (senders_ok H oob HH (map Some p) h M M1 HM Hp Ef) as (HM1 & H1). rewrite present_some in H1. fold (after_debits H M p) in H1.
      pose proof (step_sender M M1 h p t Ht H1) as Es. destruct (push_sender H oob ledger L_get L_put h t M1) as (r1 & M2) eqn:Eq. cbn [fst] in Es.
      assert (G : r1 <> Ok tt /\ same_answer r' r1).
      { destruct Hs as [(C1 & C2 & ->)|(C & Hs & Hr)].
        - rewrite decide_True in Es by auto. subst r1. split; [discriminate|apply same_refl].
        - rewrite decide_False in Es by tauto. subst r1. pose proof (proj2 (spend_answers H oob (after_debits H M p (tx_sender H t)) t h Ht) _ Hs) as Hsame. split; [exact (same_stop _ _ Hsame Hr)|exact Hsame]. }
      rewrite El in E. rewrite (for_at _ p t q M M1 r1 M2 Ef Eq (proj1 G)) in E. injection E as <- _. exact G.
  Qed.

  (** *** Recipients *)
  Definition recipient_stop (M : ledger) (l : list Tx) (r : res unit) : Prop :=
    exists pre t post, l = pre ++ t :: post /\ recipients_pass M pre /\
      ((tx_creates t = false /\ tx_recipient_type t <> 255 /\ tx_recipient_type t <> AccountType (acct M (tx_recipient t)) /\
        r = Err (EAccountTypeMismatch (tx_recipient_type t) (AccountType (acct M (tx_recipient t))))) \/
       ((tx_creates t = true \/ tx_recipient_type t = 255 \/ tx_recipient_type t = AccountType (acct M (tx_recipient t))) /\
        ~ is_basic (acct M (tx_recipient t)) /\ r = Panic)).
  (** [M0]: the accounts before the debits *)
  Definition same_kinds (M0 M : ledger) : Prop := forall a, exists v, acct M a = with_balance (acct M0 a) v.
  Lemma kinds_rule M0 M t : same_kinds M0 M -> recipient_rule M t <-> recipient_rule M0 t.
  Proof. intros Hk. unfold recipient_rule. destruct (Hk (tx_recipient t)) as (v & ->). rewrite basic_with. tauto. Qed.
  Lemma recipients_pass_iff M0 M h l : ledger_ok M -> all_ok l -> same_kinds M0 M ->
    (exists M', pushRecipients H ledger L_get L_put l h M = (Ok tt, M')) <-> recipients_pass M0 (present l).
  Proof.
    intros HM Hl Hk. rewrite (recipients_iff H h l M HM Hl), Forall_forall. unfold recipients_pass. split; intros Hall t Ht; apply (kinds_rule M0 M t Hk), Hall, Ht.
  Qed.
  Lemma step_recipient M0 M1 h t : same_kinds M0 M1 ->
    fst (push_recipient H ledger L_get L_put h t M1) =
    if decide (tx_creates t = false /\ tx_recipient_type t <> 255 /\ tx_recipient_type t <> AccountType (acct M0 (tx_recipient t)))
    then Err (EAccountTypeMismatch (tx_recipient_type t) (AccountType (acct M0 (tx_recipient t))))
    else match acct M0 (tx_recipient t) with ABasic _ => Ok tt | _ => Panic end.
  Proof.
    intros Hk. unfold push_recipient. cbv zeta. rewrite content_recipient, content_recipient_type, creates_ok, Lpush_eq. unfold AccountUnknown. destruct (Hk (tx_recipient t)) as (v & ->). rewrite type_with.
    assert (Eop : (match ApplyIncomingTx (with_balance (acct M0 (tx_recipient t)) v) t h with Ok x => (Ok tt, set_acct M1 (tx_recipient t) (Some x)) | Err e => (Err e, M1) | Panic => (Panic, M1) | OutOfFuel => (OutOfFuel, M1) end).1 =
                  match acct M0 (tx_recipient t) with ABasic _ => Ok tt | _ => Panic end) by (destruct (acct M0 (tx_recipient t)); reflexivity).
    destruct (decide _) as [(C0 & C1 & C2)|Hn].
    - rewrite C0. apply Z.eqb_neq in C1, C2. rewrite C1, C2. reflexivity.
    - replace (negb ((if tx_creates t then 255 else tx_recipient_type t) =? 255) && negb ((if tx_creates t then 255 else tx_recipient_type t) =? AccountType (acct M0 (tx_recipient t)))) with false; [exact Eop|].
      symmetry. apply not_true_iff_false. intros C. apply Hn. destruct (tx_creates t); [discriminate C|]. apply andb_true_iff in C as (C1 & C2). apply negb_true_iff, Z.eqb_neq in C1, C2. auto.
  Qed.
  Lemma kinds_after M0 M p M1 : same_kinds M0 M -> (forall a, acct M1 a = with_balance (acct M a) ((Balance (acct M a) + received p a) mod 2 ^ 64)) -> same_kinds M0 M1.
  Proof. intros Hk H1 a. destruct (Hk a) as (v & Ev). eexists. rewrite H1, Ev, with_with. reflexivity. Qed.
  Lemma recipients_answer M0 M h l : ledger_ok M -> all_ok l -> same_kinds M0 M ->
    let '(r, _) := pushRecipients H ledger L_get L_put l h M in
    (r <> Ok tt -> recipient_stop M0 (present l) r) /\ (forall r', recipient_stop M0 (present l) r' -> r' = r /\ r <> Ok tt).
  Proof.
    intros HM Hl Hk. destruct (pushRecipients H ledger L_get L_put l h M) as (r & M') eqn:E. unfold pushRecipients in E. split.
    - intros Hr. destruct (for_stop _ _ _ _ _ Hl E Hr) as (p & t & q & M1 & Ep & Hp & Ht & Ef & Eq). apply all_some in Hp.
      destruct (recipients_ok H (map Some p) h M M1 HM Hp Ef) as (HM1 & _ & H1). rewrite present_some in H1. pose proof (kinds_after M0 M p M1 Hk H1) as Hk1.
      exists p, t, q. split; [exact Ep|]. split. { rewrite <- (present_some p). apply (recipients_pass_iff M0 M h _ HM Hp Hk). exists M1. exact Ef. }
      pose proof (step_recipient M0 M1 h t Hk1) as Es. rewrite Eq in Es. cbn [fst] in Es. destruct (decide _) as [(C0 & C1 & C2)|Hn] in Es.
      + left. auto.
      + right. destruct (acct M0 (tx_recipient t)) as [v|v|k] eqn:Ea; [congruence| |].
        * split; [|split; [intros (w & X); discriminate X|exact Es]]. destruct (tx_creates t); [auto|]. destruct (decide (tx_recipient_type t = 255)); [auto|]. destruct (decide (tx_recipient_type t = AccountType (AVesting v))); [auto|tauto].
        * split; [|split; [intros (w & X); discriminate X|exact Es]]. destruct (tx_creates t); [auto|]. destruct (decide (tx_recipient_type t = 255)); [auto|]. destruct (decide (tx_recipient_type t = AccountType (AHTLC k))); [auto|tauto].
    - intros r' (p & t & q & Ep & Hpass & Hs). destruct (ok_parts l p t q Hl Ep) as (Hp & Ht & El).
      rewrite <- (present_some p) in Hpass. apply (recipients_pass_iff M0 M h _ HM Hp Hk) in Hpass as (M1 & Ef).
      destruct (recipients_ok H (map Some p) h M M1 HM Hp Ef) as (HM1 & _ & H1). rewrite present_some in H1. pose proof (kinds_after M0 M p M1 Hk H1) as Hk1.
      pose proof (step_recipient M0 M1 h t Hk1) as Es. destruct (push_recipient H ledger L_get L_put h t M1) as (r1 & M2) eqn:Eq. cbn [fst] in Es.
      assert (G : r' = r1 /\ r1 <> Ok tt).
      { destruct Hs as [(C0 & C1 & C2 & ->)|(C & Hb & ->)].
        - rewrite decide_True in Es by auto. subst r1. split; [reflexivity|discriminate].
        - rewrite decide_False in Es by (intros (X0 & X1 & X2); destruct C as [C|[C|C]]; congruence). destruct (acct M0 (tx_recipient t)) as [v|v|k]; [contradiction Hb; eexists; reflexivity|subst r1; split; [reflexivity|discriminate]..]. }
      rewrite El in E. rewrite (for_at _ p t q M M1 r1 M2 Ef Eq (proj2 G)) in E. injection E as <- _. exact G.
  Qed.

  (** *** Creations *)
  Definition creation_stop (l : list Tx) (r : res unit) : Prop :=
    exists pre y post e, l = pre ++ TExtended y :: post /\ creations_pass pre /\ tx_creates (TExtended y) = true /\ creation_refused y e /\ r = Err e.
  Lemma creations_pass_iff M h l : ledger_ok M -> all_ok l ->
    (exists M', createContracts H ledger L_get L_put l h M = (Ok tt, M')) <-> creations_pass (present l).
  Proof.
    intros HM Hl. rewrite (create_iff H h l M HM Hl), Forall_forall. unfold creations_pass. split.
    - intros Hall y Hy Hc. exact (Hall _ Hy Hc).
    - intros Hall [|y] Ht; [exact I|]. intros Hc. exact (Hall y Ht Hc).
  Qed.
  (** A creation is refused with one error, up to those of the decoder. *)
  Lemma creation_same y e e' : creation_refused y e -> creation_refused y e' -> same_answer (Err e') (Err e).
  Proof.
    unfold creation_refused. destruct (_ =? 0); [intros -> ->; apply same_refl|]. destruct (_ =? 1); [intros (-> & _) (-> & _); apply same_refl|].
    destruct (_ =? 2); [|intros -> ->; apply same_refl].
    intros [(L1 & D1)|(L1 & _ & ->)] [(L2 & D2)|(L2 & _ & ->)]; try lia; [right; left; split; eexists; eauto|apply same_refl].
  Qed.
  Lemma refused_no_contract y e : tx_ok (TExtended y) -> creation_refused y e -> forall balance x, ~ contract_from (x_recipient_type y) (x_data y) (x_value y) balance x.
  Proof.
    intros Hy Hr b x Hc. pose proof (init_ok y _ 0 _ _ Hc) as Ei. unfold creation_refused in Hr.
    destruct Hc as [(Et & c & -> & Hc)|(Et & k & -> & Hk)]; rewrite Et in *; cbn [Z.eqb Pos.eqb] in Hr.
    - destruct Hr as (_ & Hn). apply Hn. cbn [Account_Init Z.eqb Pos.eqb] in Ei. unfold Account_Init in Ei. cbn [Z.eqb Pos.eqb] in Ei. unfold Vesting_Init in Ei. cbn [as_extended bind] in Ei.
      destruct (Z.eqb_spec (zlen (x_data y)) 24) as [->|]; [rewrite !elem_of_cons; auto|]. destruct (Z.eqb_spec (zlen (x_data y)) 36) as [->|]; [rewrite !elem_of_cons; auto|].
      destruct (Z.eqb_spec (zlen (x_data y)) 44) as [->|]; [rewrite !elem_of_cons; auto|]. discriminate Ei.
    - unfold Account_Init in Ei. cbn [Z.eqb Pos.eqb] in Ei. unfold HTLC_Init in Ei. cbn [as_extended bind] in Ei. destruct (tx_ok_ext y Hy) as (Hd & _).
      destruct (read_full_inv _ _ _ safe_hp reads_hp Hd) as [(e' & Er)|(v & Er & sn & rc & hh & n & to & -> & H1 & H2 & H3 & H4 & H5 & Ed)]; rewrite Er in Ei; cbn [bind] in Ei; [discriminate Ei|].
      cbn [fld nth num_of] in Ei. destruct (Z.eqb_spec n 0) as [->|Hn0]; [discriminate Ei|].
      destruct H1 as (L1 & _). destruct H2 as (L2 & _). destruct H3 as (_ & L3 & _).
      assert (EL : zlen (x_data y) = 78). { rewrite Ed. unfold zlen. rewrite !app_length, L1, L2. cbn [List.length]. rewrite L3. reflexivity. }
      assert (E73 : x_data y !! 73%nat = Some n).
      { rewrite Ed. rewrite lookup_app_r by lia. rewrite L1, lookup_app_r by lia. rewrite L2, lookup_app_r by (cbn [List.length]; lia). cbn [List.length]. rewrite L3, (be1 n H4). reflexivity. }
      destruct Hr as [(X & _)|(_ & X & _)]; [contradiction|]. rewrite E73 in X. congruence.
  Qed.
  Lemma step_creation M h t : ledger_ok M -> tx_ok t ->
    let r := fst (create_step H ledger L_get L_put h t M) in
    r = Ok tt \/ exists y e, t = TExtended y /\ tx_creates t = true /\ creation_refused y e /\ r = Err e.
  Proof.
    intros HM Ht. cbv zeta. unfold create_step. rewrite creates_ok. destruct (tx_creates t) eqn:Ecr; [|left; reflexivity]. destruct t as [|y]; [discriminate Ecr|].
    unfold createContract. cbv zeta. rewrite creates_ok, Ecr, content_recipient, content_recipient_type. cbn [negb tx_recipient tx_recipient_type].
    unfold andthen at 1, get_account, L_get.
    destruct (Z.eqb_spec (x_recipient_type y) 0) as [E0|E0].
    - right. exists y. eexists. split; [reflexivity|]. split; [reflexivity|]. split; [|reflexivity]. unfold creation_refused. rewrite E0. reflexivity.
    - destruct ((x_recipient_type y =? 1) || (x_recipient_type y =? 2)) eqn:E12.
      + assert (H12 : x_recipient_type y = 1 \/ x_recipient_type y = 2) by (apply orb_true_iff in E12 as [E12|E12]; apply Z.eqb_eq in E12; auto).
        unfold andthen, stop. destruct (Account_Init (x_recipient_type y) (TExtended y) h (Balance (acct M (x_recipient y)))) as [x|e| |] eqn:Ei.
        * left. reflexivity.
        * right. exists y, e. split; [reflexivity|]. split; [reflexivity|]. split; [|reflexivity]. eapply init_refused; [exact Ht|exact H12|reflexivity|exact Ei].
        * exfalso. destruct (tx_ok_ext y Ht) as (Hd & _). destruct H12 as [E1|E1]; rewrite E1 in Ei; unfold Account_Init in Ei; cbn [Z.eqb Pos.eqb] in Ei.
          -- unfold Vesting_Init in Ei. cbn [as_extended bind] in Ei. destruct (vesting_reads _ Hd) as (R24 & R36 & R44).
             destruct (Z.eqb_spec (zlen (x_data y)) 24) as [L|L1]; [destruct (R24 L) as (v & Ev); rewrite Ev in Ei; discriminate Ei|].
             destruct (Z.eqb_spec (zlen (x_data y)) 36) as [L|L2]; [destruct (R36 L) as (v & Ev); rewrite Ev in Ei; discriminate Ei|].
             destruct (Z.eqb_spec (zlen (x_data y)) 44) as [L|L3]; [destruct (R44 L) as (v & Ev); rewrite Ev in Ei; discriminate Ei|discriminate Ei].
          -- unfold HTLC_Init in Ei. cbn [as_extended bind] in Ei.
             destruct (read_full_inv _ _ _ safe_hp reads_hp Hd) as [(e' & Er)|(v & Er & sn & rc & hh & n & to & -> & H1 & H2 & H3 & H4 & H5 & Ed)]; rewrite Er in Ei; cbn [bind] in Ei; [discriminate Ei|].
             cbn [fld nth num_of] in Ei. destruct (Z.eqb_spec n 0); discriminate Ei.
        * exfalso. destruct (tx_ok_ext y Ht) as (Hd & _). destruct H12 as [E1|E1]; rewrite E1 in Ei; unfold Account_Init in Ei; cbn [Z.eqb Pos.eqb] in Ei.
          -- unfold Vesting_Init in Ei. cbn [as_extended bind] in Ei. destruct (vesting_reads _ Hd) as (R24 & R36 & R44).
             destruct (Z.eqb_spec (zlen (x_data y)) 24) as [L|L1]; [destruct (R24 L) as (v & Ev); rewrite Ev in Ei; discriminate Ei|].
             destruct (Z.eqb_spec (zlen (x_data y)) 36) as [L|L2]; [destruct (R36 L) as (v & Ev); rewrite Ev in Ei; discriminate Ei|].
             destruct (Z.eqb_spec (zlen (x_data y)) 44) as [L|L3]; [destruct (R44 L) as (v & Ev); rewrite Ev in Ei; discriminate Ei|discriminate Ei].
          -- unfold HTLC_Init in Ei. cbn [as_extended bind] in Ei.
             destruct (read_full_inv _ _ _ safe_hp reads_hp Hd) as [(e' & Er)|(v & Er & sn & rc & hh & n & to & -> & H1 & H2 & H3 & H4 & H5 & Ed)]; rewrite Er in Ei; cbn [bind] in Ei; [discriminate Ei|].
             cbn [fld nth num_of] in Ei. destruct (Z.eqb_spec n 0); discriminate Ei.
      + right. exists y. eexists. split; [reflexivity|]. split; [reflexivity|]. split; [|reflexivity]. unfold creation_refused. apply orb_false_iff in E12 as (-> & ->). rewrite (proj2 (Z.eqb_neq _ _) E0). reflexivity.
  Qed.
  Lemma creations_answer M h l : ledger_ok M -> all_ok l ->
    let '(r, _) := createContracts H ledger L_get L_put l h M in
    (r <> Ok tt -> creation_stop (present l) r) /\ (forall r', creation_stop (present l) r' -> r <> Ok tt /\ same_answer r' r).
  Proof.
    intros HM Hl. destruct (createContracts H ledger L_get L_put l h M) as (r & M') eqn:E. unfold createContracts in E. split.
    - intros Hr. destruct (for_stop _ _ _ _ _ Hl E Hr) as (p & t & q & M1 & Ep & Hp & Ht & Ef & Eq). apply all_some in Hp.
      destruct (create_ok H (map Some p) h M M1 HM Hp Ef) as (HM1 & _). pose proof (step_creation M1 h t HM1 Ht) as Hs. cbv zeta in Hs. rewrite Eq in Hs. cbn [fst] in Hs.
      destruct Hs as [Hs|(y & e & -> & Hc & Hre & ->)]; [contradiction|]. exists p, y, q, e. split; [exact Ep|].
      split; [rewrite <- (present_some p); apply (creations_pass_iff M h _ HM Hp); exists M1; exact Ef|]. auto.
    - intros r' (p & y & q & e & Ep & Hpass & Hc & Hre & ->). destruct (ok_parts l p _ q Hl Ep) as (Hp & Ht & El).
      rewrite <- (present_some p) in Hpass. apply (creations_pass_iff M h _ HM Hp) in Hpass as (M1 & Ef). destruct (create_ok H (map Some p) h M M1 HM Hp Ef) as (HM1 & _).
      pose proof (step_creation M1 h _ HM1 Ht) as Hs. cbv zeta in Hs. destruct (create_step H ledger L_get L_put h (TExtended y) M1) as (r1 & M2) eqn:Eq. cbn [fst] in Hs.
      assert (G : r1 <> Ok tt /\ same_answer (Err e) r1).
      { destruct Hs as [->|(y' & e' & [= <-] & _ & Hre' & ->)].
        - exfalso. destruct (proj1 (create_one_iff H (TExtended y) h M1 HM1 Ht) (ex_intro _ M2 Eq) Hc) as (b & x & Hx). exact (refused_no_contract y e Ht Hre b x Hx).
        - split; [discriminate|]. exact (creation_same y e' e Hre' Hre). }
      rewrite El in E. rewrite (for_at _ p _ q M M1 r1 M2 Ef Eq (proj1 G)) in E. injection E as <- _. exact G.
  Qed.

  (** *** Removals *)
  Lemma prune_app l1 l2 : forall m M m1 M1, prune_txs H ledger L_get L_put l1 m M = (Ok m1, M1) ->
    prune_txs H ledger L_get L_put (l1 ++ l2) m M = prune_txs H ledger L_get L_put l2 m1 M1.
  Proof.
    induction l1 as [|[t|] l1 IH]; intros m M m1 M1 E; cbn [prune_txs app] in *; [injection E as <- <-; reflexivity| |discriminate E].
    unfold andthen in E at 1. unfold andthen at 1. unfold get_account, L_get in *. cbv beta iota in *. destruct (_ || _); [exact (IH _ _ _ _ E)|].
    destruct (m !! fst (GetSender H t)) as [pa|]; [|discriminate E]. destruct (negb _); [discriminate E|]. unfold andthen, put_account, L_put in *. exact (IH _ _ _ _ E).
  Qed.
  Lemma prune_total l : forall m M, all_ok l -> (exists m' M', prune_txs H ledger L_get L_put l m M = (Ok m', M')) \/ (exists e M', prune_txs H ledger L_get L_put l m M = (Err e, M')).
  Proof.
    intros m M Hl. revert m M. induction Hl as [|t l (x & -> & Hx) _ IH]; intros m M; cbn [prune_txs]; [left; eexists _, _; reflexivity|].
    unfold andthen at 1 3. unfold get_account, L_get. destruct (_ || _); [apply IH|]. destruct (m !! _) as [pa|]; [|right; eexists _, _; reflexivity].
    destruct (negb _); [right; eexists _, _; reflexivity|]. unfold andthen, put_account, L_put. apply IH.
  Qed.
  (** [M]: the accounts after the creations *)
  Definition prune_stop (M : ledger) (body : BlockBody) (r : res unit) : Prop :=
    (exists pre t post, txs_of body = pre ++ t :: post /\
      (forall a, to_prune H pre a (acct M a) -> listed (bb_pruned body) a = Some (Some (acct M a))) /\
      ~ is_basic (acct M (tx_sender H t)) /\ Balance (acct M (tx_sender H t)) = 0 /\
      ((listed (bb_pruned body) (tx_sender H t) = None /\ r = Err (EPruneMissing (tx_sender H t))) \/
       (exists p, listed (bb_pruned body) (tx_sender H t) = Some p /\ p <> Some (acct M (tx_sender H t)) /\ r = Err (EPruneAltered (tx_sender H t))))) \/
    (exists early, (forall a, to_prune H (txs_of body) a (acct M a) -> listed (bb_pruned body) a = Some (Some (acct M a))) /\ early <> [] /\
      (forall a, a ∈ early <-> listed (bb_pruned body) a <> None /\ ~ to_prune H (txs_of body) a (acct M a)) /\ r = Err (EPruneEarly early)).
  Lemma prune_answer M body : ledger_ok M -> all_ok (bb_txs body) ->
    let '(r, _) := pruneAccounts H ledger L_get L_put body M in
    (r <> Ok tt -> prune_stop M body r) /\ (forall r', prune_stop M body r' -> r <> Ok tt /\ same_answer r' r).
  Proof.
    intros HM Hl. unfold pruneAccounts. change (txs_of body) with (present (bb_txs body)).
    assert (Hpass : forall p m M', all_ok (map Some p) -> prune_txs H ledger L_get L_put (map Some p) (prune_map (bb_pruned body)) M = (Ok m, M') ->
      (forall a, to_prune H p a (acct M a) -> listed (bb_pruned body) a = Some (Some (acct M a)))).
    { intros p m M' Hp E a Ha. destruct (prune_txs_ok H HH _ _ _ _ _ HM Hp E) as (_ & Hb). rewrite present_some in Hb. rewrite <- prune_map_listed. destruct (Hb a) as [(_ & X & _)|(X & _)]; [exact X|contradiction]. }
    assert (Hrun : forall p, all_ok (map Some p) -> (forall a, to_prune H p a (acct M a) -> listed (bb_pruned body) a = Some (Some (acct M a))) ->
      exists m M', prune_txs H ledger L_get L_put (map Some p) (prune_map (bb_pruned body)) M = (Ok m, M')).
    { intros p Hp Ha. apply (prune_txs_iff H HH _ _ M HM Hp). rewrite present_some. intros a X. rewrite prune_map_listed. apply Ha, X. }
    assert (Hearly : forall m M', prune_txs H ledger L_get L_put (bb_txs body) (prune_map (bb_pruned body)) M = (Ok m, M') ->
      forall a, a ∈ map fst (map_to_list m) <-> listed (bb_pruned body) a <> None /\ ~ to_prune H (present (bb_txs body)) a (acct M a)).
    { intros m M' E a. destruct (prune_txs_ok H HH _ _ _ _ _ HM Hl E) as (_ & H4). rewrite elem_of_list_In, in_map_iff. split.
      - intros ((k & v) & <- & Hin). apply elem_of_list_In, elem_of_map_to_list in Hin. cbn [fst]. destruct (H4 k) as [(_ & _ & _ & En)|(Hn & _ & Em)]; [congruence|].
        rewrite prune_map_listed, Hin in Em. split; [congruence|exact Hn].
      - intros (Hl' & Hn). destruct (H4 a) as [(Hy & _)|(_ & _ & Em)]; [contradiction|]. rewrite prune_map_listed in Em. destruct (listed (bb_pruned body) a) as [v|]; [|congruence].
        exists (a, v). split; [reflexivity|]. apply elem_of_list_In, elem_of_map_to_list. exact Em. }
    assert (El : bb_txs body = map Some (present (bb_txs body))) by apply all_present, Hl.
    unfold andthen. destruct (prune_txs H ledger L_get L_put (bb_txs body) (prune_map (bb_pruned body)) M) as (rp & M') eqn:E.
    assert (Hstop1 : forall r' : res unit, (exists pre t post, present (bb_txs body) = pre ++ t :: post /\
      (forall a, to_prune H pre a (acct M a) -> listed (bb_pruned body) a = Some (Some (acct M a))) /\
      ~ is_basic (acct M (tx_sender H t)) /\ Balance (acct M (tx_sender H t)) = 0 /\
      ((listed (bb_pruned body) (tx_sender H t) = None /\ r' = Err (EPruneMissing (tx_sender H t))) \/
       (exists p, listed (bb_pruned body) (tx_sender H t) = Some p /\ p <> Some (acct M (tx_sender H t)) /\ r' = Err (EPruneAltered (tx_sender H t))))) ->
      exists e, r' = Err e /\ rp = Err e).
    { intros r' (pre & t & post & Ep & Ha & Hnb & Hz & Hf). destruct (ok_parts _ pre t post Hl Ep) as (Hp & Ht & El').
      destruct (Hrun pre Hp Ha) as (m1 & M1 & E1). destruct (prune_txs_ok H HH _ _ _ _ _ HM Hp E1) as (_ & Hb). rewrite present_some in Hb. specialize (Hb (tx_sender H t)).
      destruct Hb as [(Hpr & Hm & _)|(Hpr & Ha1 & Hm)].
      { exfalso. rewrite prune_map_listed in Hm. destruct Hf as [(Hf & _)|(p & Hf & Hne & _)]; congruence. }
      rewrite El', map_app in E. rewrite (prune_app _ _ _ _ _ _ E1) in E. cbn [map prune_txs] in E. unfold andthen at 1, get_account, L_get in E. rewrite get_sender, Ha1 in E.
      assert (C : negb (IsEmpty (acct M (tx_sender H t))) || (AccountType (acct M (tx_sender H t)) =? 0) = false).
      { apply orb_false_iff. split; [apply negb_false_iff, Z.eqb_eq, Hz|]. apply Z.eqb_neq. intros X. apply Hnb, basic_type, X. }
      rewrite C in E. rewrite prune_map_listed in Hm. rewrite Hm in E. destruct Hf as [(Hf & ->)|(p & Hf & Hne & ->)]; rewrite Hf in E.
      - injection E as <- _. eauto.
      - destruct (AccountEq p (Some (acct M (tx_sender H t)))) eqn:Eq; cbn [negb] in E; [apply AccountEq_true in Eq; contradiction|]. injection E as <- _. eauto. }
    destruct (prune_total (bb_txs body) (prune_map (bb_pruned body)) M Hl) as [(m' & M2 & E2)|(e & M2 & E2)]; rewrite E in E2; injection E2 as -> ->.
    - assert (Hp : forall a, to_prune H (present (bb_txs body)) a (acct M a) -> listed (bb_pruned body) a = Some (Some (acct M a))).
      { rewrite El in E. eapply Hpass; [|exact E]. rewrite <- El. exact Hl. }
      pose proof (Hearly m' M2 eq_refl) as He. destruct (decide (m' = ∅)) as [->|Hne].
      + split; [intros X; contradiction X; reflexivity|]. intros r' [X|(early & _ & Hn & He' & _)]; [destruct (Hstop1 r' X) as (e & _ & X'); discriminate X'|].
        exfalso. destruct early as [|a early]; [congruence|]. assert (X : a ∈ a :: early) by constructor. apply He', He in X. rewrite map_to_list_empty in X. inversion X.
      + split.
        * intros _. right. eexists. split; [exact Hp|]. split; [|split; [exact He|reflexivity]]. intros E0. apply Hne. apply map_to_list_empty_iff. destruct (map_to_list m'); [reflexivity|discriminate E0].
        * intros r' [X|(early & _ & Hn & He' & ->)]; [destruct (Hstop1 r' X) as (e & _ & X'); discriminate X'|]. split; [discriminate|]. right. right. eexists _, _. split; [reflexivity|]. split; [reflexivity|].
          intros a. rewrite He', He. reflexivity.
    - split.
      + intros _. left. apply prune_err in E as (p & t & q & m1 & Ep & Hp & Ht & Ef & Hnb & Hz & Hc'); [|exact Hl]. apply all_some in Hp.
        pose proof (Hpass p m1 M2 Hp Ef) as Hps. destruct (prune_txs_ok H HH (map Some p) _ _ _ _ HM Hp Ef) as (_ & H4). rewrite present_some in H4.
        destruct (H4 (tx_sender H t)) as [(_ & _ & Ea & _)|(_ & Ea & Em)]; [rewrite Ea in Hnb; contradiction Hnb; eexists; reflexivity|]. rewrite prune_map_listed in Em. rewrite Ea in *.
        exists p, t, q. split; [exact Ep|]. split; [exact Hps|]. split; [exact Hnb|]. split; [exact Hz|]. destruct Hc' as [(Em' & ->)|(x & Em' & Hne & ->)]; [left; split; congruence|right]. exists x. split; [congruence|auto].
      + intros r' [X|(early & Hp & _)].
        * destruct (Hstop1 r' X) as (e' & -> & [= ->]). split; [discriminate|apply same_refl].
        * exfalso. rewrite El in E. rewrite El in Hl. destruct (Hrun (present (bb_txs body)) Hl Hp) as (m & M3 & E3). congruence.
  Qed.

  (** *** The whole block *)
  Lemma ok_dec (r : res unit) : r = Ok tt \/ r <> Ok tt.
  Proof. destruct r as [[]| | |]; [left; reflexivity|right; discriminate..]. Qed.
  Lemma basic_dec (x : Account) : is_basic x \/ ~ is_basic x.
  Proof. destruct x as [v| |]; [left; eexists; reflexivity|right; intros (v & E); discriminate E..]. Qed.
  Lemma prune_dec (l : list Tx) a x : to_prune H l a x \/ ~ to_prune H l a x.
  Proof.
    unfold to_prune. destruct (basic_dec x) as [Hb|Hb]; [right; tauto|]. destruct (decide (Balance x = 0)) as [Hz|Hz]; [|right; tauto].
    destruct (decide (a ∈ map (tx_sender H) l)) as [Ha|Ha].
    - left. apply elem_of_list_fmap in Ha as (t & -> & Ht). eauto.
    - right. intros ((t & Ht & <-) & _). apply Ha. apply elem_of_list_fmap. eauto.
  Qed.
  Theorem push_answers M c b body : ledger_ok M -> cache_ok c -> block_ok b -> bl_body b = Some body ->
    let '(r, _, _) := Push H oob ledger L_get L_put M c b in
    push_answer H oob M (bh_height (bl_header b)) body r /\
    forall r', push_answer H oob M (bh_height (bl_header b)) body r' -> same_answer r' r.
  Proof.
    intros HM Hc Hb Eb. destruct (Push H oob ledger L_get L_put M c b) as ((r & M') & c') eqn:E.
    pose proof (push_iff H oob HH M c b body HM Hc Hb Eb) as Hacc. pose proof Hb as (Hh & Hbody). destruct (Hbody body Eb) as (Hm & _ & _ & _ & Hl & _).
    set (h := bh_height (bl_header b)) in *.
    assert (Hok : acceptable H oob M h body -> r = Ok tt) by (intros Ha; apply Hacc in Ha as (M'' & c'' & E''); congruence).
    assert (Hok' : r = Ok tt -> acceptable H oob M h body) by (intros ->; apply Hacc; eauto).
    unfold Push in E. cbv zeta in E. rewrite Eb in E. fold h in E. unfold push_body in E. unfold andthen at 1 in E.
    (* senders *)
    pose proof (senders_answer M h (bb_txs body) HM Hl) as AS. pose proof (pass_iff M h (bb_txs body) HM Hl) as IS. change (present (bb_txs body)) with (txs_of body) in *.
    assert (Ts : forall r', push_answer H oob M h body r' -> sender_stop M h (txs_of body) r' \/ senders_pass H oob M h (txs_of body)).
    { intros r' Ha. inversion Ha as [Hx| pre t post ? ? ? ? | pre t post ? ? ? ? ? ? | | | | | | | |]; subst; try (right; assumption).
      - right. destruct Hx. assumption.
      - left. exists pre, t, post. split; [assumption|]. split; [assumption|]. left. auto.
      - left. exists pre, t, post. split; [assumption|]. split; [assumption|]. right. auto. }
    destruct (pushSenders H oob ledger L_get L_put (bb_txs body) h M) as (rs & M1) eqn:ES. destruct AS as (AS1 & AS2).
    destruct (ok_dec rs) as [->|Hrs].
    2:{ assert (r = rs) as -> by (destruct rs as [[]| | |]; [congruence|injection E as <- _ _; reflexivity..]). split.
        - destruct (AS1 Hrs) as (pre & t & post & Ep & Hp & [(C1 & C2 & ->)|(C & Hs & Hr)]); [eapply answer_sender_type; eassumption|eapply answer_sender; eassumption].
        - intros r' Ha. destruct (Ts r' Ha) as [Hs|Hs]; [apply AS2, Hs|]. exfalso. apply IS in Hs as (M2 & E2). congruence. }
    pose proof (proj1 IS (ex_intro _ M1 eq_refl)) as PS.
    destruct (senders_ok H oob HH _ _ _ _ HM Hl ES) as (HM1 & H1). change (present (bb_txs body)) with (txs_of body) in H1.
    assert (Hk : same_kinds M M1) by (intros a; eexists; apply H1).
    assert (Ts' : forall r', push_answer H oob M h body r' -> ~ sender_stop M h (txs_of body) r') by (intros r' _ Hs; destruct (AS2 r' Hs) as (X & _); congruence).
    clear AS1 AS2 IS. unfold andthen at 1 in E.
    (* recipients *)
    pose proof (recipients_answer M M1 h (bb_txs body) HM1 Hl Hk) as AR. pose proof (recipients_pass_iff M M1 h (bb_txs body) HM1 Hl Hk) as IR. change (present (bb_txs body)) with (txs_of body) in *.
    assert (Tr : forall r', push_answer H oob M h body r' -> recipient_stop M (txs_of body) r' \/ recipients_pass M (txs_of body)).
    { intros r' Ha. inversion Ha as [Hx| pre t post ? ? ? ? | pre t post ? ? ? ? ? ? | pre t post ? ? ? ? ? ? | pre t post ? ? ? ? ? | | | | | |]; subst; try (right; assumption).
      - right. destruct Hx. assumption.
      - contradiction (Ts' _ Ha). exists pre, t, post. split; [assumption|]. split; [assumption|]. left. auto.
      - contradiction (Ts' _ Ha). exists pre, t, post. split; [assumption|]. split; [assumption|]. right. auto.
      - left. exists pre, t, post. split; [assumption|]. split; [assumption|]. left. auto.
      - left. exists pre, t, post. split; [assumption|]. split; [assumption|]. right. auto. }
    destruct (pushRecipients H ledger L_get L_put (bb_txs body) h M1) as (rr & M2) eqn:ER. destruct AR as (AR1 & AR2).
    destruct (ok_dec rr) as [->|Hrr].
    2:{ assert (r = rr) as -> by (destruct rr as [[]| | |]; [congruence|injection E as <- _ _; reflexivity..]). split.
        - destruct (AR1 Hrr) as (pre & t & post & Ep & Hp & [(C0 & C1 & C2 & ->)|(C & Hs & ->)]); [eapply answer_recipient_type; eassumption|eapply answer_recipient; eassumption].
        - intros r' Ha. destruct (Tr r' Ha) as [Hs|Hs]; [left; apply AR2, Hs|]. exfalso. apply IR in Hs as (M3 & E3). congruence. }
    pose proof (proj1 IR (ex_intro _ M2 eq_refl)) as PR.
    destruct (recipients_ok H _ _ _ _ HM1 Hl ER) as (HM2 & _ & H2). change (present (bb_txs body)) with (txs_of body) in H2.
    assert (Tr' : forall r', push_answer H oob M h body r' -> ~ recipient_stop M (txs_of body) r') by (intros r' _ Hs; destruct (AR2 r' Hs) as (_ & X); congruence).
    clear AR1 AR2 IR. unfold andthen at 1 in E.
    (* creations *)
    pose proof (creations_answer M2 h (bb_txs body) HM2 Hl) as AC. pose proof (creations_pass_iff M2 h (bb_txs body) HM2 Hl) as IC. change (present (bb_txs body)) with (txs_of body) in *.
    assert (Tc : forall r', push_answer H oob M h body r' -> creation_stop (txs_of body) r' \/ creations_pass (txs_of body)).
    { intros r' Ha. inversion Ha as [Hx| pre t post ? ? ? ? | pre t post ? ? ? ? ? ? | pre t post ? ? ? ? ? ? | pre t post ? ? ? ? ? | pre y post e | | | | |]; subst; try (right; assumption).
      - right. destruct Hx. assumption.
      - contradiction (Ts' _ Ha). exists pre, t, post. split; [assumption|]. split; [assumption|]. left. auto.
      - contradiction (Ts' _ Ha). exists pre, t, post. split; [assumption|]. split; [assumption|]. right. auto.
      - contradiction (Tr' _ Ha). exists pre, t, post. split; [assumption|]. split; [assumption|]. left. auto.
      - contradiction (Tr' _ Ha). exists pre, t, post. split; [assumption|]. split; [assumption|]. right. auto.
      - left. exists pre, y, post, e. auto. }
    destruct (createContracts H ledger L_get L_put (bb_txs body) h M2) as (rc & M3) eqn:EC. destruct AC as (AC1 & AC2).
    destruct (ok_dec rc) as [->|Hrc].
    2:{ assert (r = rc) as -> by (destruct rc as [[]| | |]; [congruence|injection E as <- _ _; reflexivity..]). split.
        - destruct (AC1 Hrc) as (pre & y & post & e & Ep & Hp & Hcr & Hre & ->). eapply answer_creation; eassumption.
        - intros r' Ha. destruct (Tc r' Ha) as [Hs|Hs]; [apply AC2, Hs|]. exfalso. apply IC in Hs as (M4 & E4). congruence. }
    pose proof (proj1 IC (ex_intro _ M3 eq_refl)) as PC.
    destruct (create_ok H _ _ _ _ HM2 Hl EC) as (HM3 & H3). change (present (bb_txs body)) with (txs_of body) in H3.
    assert (Tc' : forall r', push_answer H oob M h body r' -> ~ creation_stop (txs_of body) r') by (intros r' _ Hs; destruct (AC2 r' Hs) as (X & _); congruence).
    clear AC1 AC2 IC.
    assert (Hset : forall a, settled H M (txs_of body) a (acct M3 a)).
    { intros a. unfold settled. specialize (H3 a). cbv zeta.
      assert (E0 : acct M2 a = with_balance (acct M a) ((Balance (acct M a) - charged H (txs_of body) (acct M a) a + received (txs_of body) a) mod 2 ^ 64)).
      { rewrite H2, H1, with_with, balance_with, Zplus_mod_idemp_l. reflexivity. }
      rewrite E0, balance_with in H3. destruct (last_creation (txs_of body) a); exact H3. }
    assert (Huniq : forall a x, settled H M (txs_of body) a x -> x = acct M3 a) by (intros a x Hx; exact (settled_unique H M _ _ _ _ Hx (Hset a))).
    assert (Hrem : forall l, removals_pass H M body l <-> forall a, to_prune H l a (acct M3 a) -> listed (bb_pruned body) a = Some (Some (acct M3 a))).
    { intros l. split; [intros Hp a Ha; exact (Hp a _ (Hset a) Ha)|]. intros Hp a x Hx Ha. rewrite (Huniq a x Hx) in *. auto. }
    assert (Hearl : no_early_removals H M body <-> forall a, ~ to_prune H (txs_of body) a (acct M3 a) -> listed (bb_pruned body) a = None).
    { split; [intros Hp a Ha; exact (Hp a _ (Hset a) Ha)|]. intros Hp a x Hx Ha. rewrite (Huniq a x Hx) in *. auto. }
    (* removals *)
    pose proof (prune_answer M3 body HM3 Hl) as AP. pose proof (prune_iff H HH body M3 HM3 Hl) as IP.
    assert (Tp : forall r', push_answer H oob M h body r' -> prune_stop M3 body r' \/ removals_pass H M body (txs_of body) /\ no_early_removals H M body).
    { intros r' Ha. inversion Ha as [Hx| pre t post ? ? ? ? | pre t post ? ? ? ? ? ? | pre t post ? ? ? ? ? ? | pre t post ? ? ? ? ? | pre y post e | pre t post x S1 S2 S3 Ep Hr Hx Hnb Hz Hli | pre t post x p S1 S2 S3 Ep Hr Hx Hnb Hz Hli Hne | early S1 S2 S3 Hr Hne He | |]; subst; try (right; split; assumption).
      - right. destruct Hx as [_ _ _ _ Hx _]. split; intros a x X Y; destruct (Hx a x X) as [(Y1 & Y2)|(Y1 & Y2)]; [exact Y2|contradiction|contradiction|exact Y2].
      - contradiction (Ts' _ Ha). exists pre, t, post. split; [assumption|]. split; [assumption|]. left. auto.
      - contradiction (Ts' _ Ha). exists pre, t, post. split; [assumption|]. split; [assumption|]. right. auto.
      - contradiction (Tr' _ Ha). exists pre, t, post. split; [assumption|]. split; [assumption|]. left. auto.
      - contradiction (Tr' _ Ha). exists pre, t, post. split; [assumption|]. split; [assumption|]. right. auto.
      - contradiction (Tc' _ Ha). exists pre, y, post, e. auto.
      - left. left. rewrite (Huniq _ _ Hx) in *. exists pre, t, post. split; [exact Ep|]. split; [apply Hrem, Hr|]. auto.
      - left. left. rewrite (Huniq _ _ Hx) in *. exists pre, t, post. split; [exact Ep|]. split; [apply Hrem, Hr|]. split; [exact Hnb|]. split; [exact Hz|]. right. exists p. auto.
      - left. right. exists early. split; [apply Hrem, Hr|]. split; [exact Hne|]. split; [|reflexivity]. intros a. rewrite (He a). split; intros (X1 & X2); (split; [exact X1|]); [apply X2, Hset|]. intros x Hx. rewrite (Huniq _ _ Hx). exact X2. }
    destruct (pruneAccounts H ledger L_get L_put body M3) as (rp & M4) eqn:EP. destruct AP as (AP1 & AP2).
    destruct (ok_dec rp) as [->|Hrp].
    2:{ assert (r = rp) as -> by (destruct rp as [[]| | |]; [congruence|injection E as <- _ _; reflexivity..]). split.
        - destruct (AP1 Hrp) as [(pre & t & post & Ep & Hp & Hnb & Hz & [(Hli & ->)|(p & Hli & Hne & ->)])|(early & Hp & Hne & He & ->)].
          + eapply answer_prune_missing; try eassumption; [apply Hrem, Hp|apply Hset].
          + eapply answer_prune_altered; try eassumption; [apply Hrem, Hp|apply Hset].
          + apply answer_prune_early; try assumption; [apply Hrem, Hp|]. intros a. rewrite (He a). split; intros (X1 & X2); (split; [exact X1|]); [|apply X2, Hset]. intros x Hx. rewrite (Huniq _ _ Hx). exact X2.
        - intros r' Ha. destruct (Tp r' Ha) as [Hs|(Hs1 & Hs2)]; [apply AP2, Hs|]. exfalso.
          assert (X : exists M5, (rp, M4) = (Ok tt, M5)).
          { apply IP. intros a. destruct (prune_dec (txs_of body) a (acct M3 a)) as [Hd|Hd]; [left|right]; (split; [exact Hd|]); [exact (proj1 (Hrem _) Hs1 a Hd)|exact (proj1 Hearl Hs2 a Hd)]. }
          destruct X as (M5 & X). congruence. }
    assert (Tp' : forall r', push_answer H oob M h body r' -> ~ prune_stop M3 body r') by (intros r' _ Hs; destruct (AP2 r' Hs) as (X & _); congruence).
    assert (PP : removals_pass H M body (txs_of body) /\ no_early_removals H M body).
    { pose proof (proj1 IP (ex_intro _ M4 eq_refl)) as X. split; [apply Hrem|apply Hearl]; intros a Ha; destruct (X a) as [(Y1 & Y2)|(Y1 & Y2)]; first [exact Y2|contradiction]. }
    destruct PP as (PP1 & PP2). clear AP1 AP2 IP. destruct (prune_ok H HH _ _ _ HM3 Hl EP) as (HM4 & H4).
    destruct (BlockReward_ok c h Hc ltac:(apply Hh)) as (Hc' & Er). destruct (BlockReward c h) as (c1 & base) eqn:Eb1. cbn [snd fst] in *. subst base.
    assert (Hmin : forall x, settled H M (txs_of body) (bb_miner body) x -> ~ is_basic x -> ~ to_prune H (txs_of body) (bb_miner body) x -> acct M4 (bb_miner body) = x).
    { intros x Hx _ Hp. rewrite (Huniq _ _ Hx) in *. destruct (H4 (bb_miner body)) as [(P1 & _ & _)|(_ & _ & ->)]; [contradiction (Hp P1)|reflexivity]. }
    assert (Tm : forall r', push_answer H oob M h body r' -> acceptable H oob M h body /\ r' = Ok tt \/ (h = 0 /\ r' = Panic) \/
      (h <> 0 /\ exists x, settled H M (txs_of body) (bb_miner body) x /\ ~ is_basic x /\ ~ to_prune H (txs_of body) (bb_miner body) x /\ r' = Err (EAccountTypeMismatch 0 (AccountType x)))).
    { intros r' Ha. inversion Ha as [Hx| pre t post ? ? ? ? | pre t post ? ? ? ? ? ? | pre t post ? ? ? ? ? ? | pre t post ? ? ? ? ? | pre y post e | pre t post x S1 S2 S3 Ep Hr Hx Hnb Hz Hli | pre t post x p S1 S2 S3 Ep Hr Hx Hnb Hz Hli Hne | early S1 S2 S3 Hr Hne He | ? ? ? ? ? H0 | x ? ? ? ? ? H0 Hx Hnb Hp]; subst.
      - left. auto.
      - contradiction (Ts' _ Ha). exists pre, t, post. split; [assumption|]. split; [assumption|]. left. auto.
      - contradiction (Ts' _ Ha). exists pre, t, post. split; [assumption|]. split; [assumption|]. right. auto.
      - contradiction (Tr' _ Ha). exists pre, t, post. split; [assumption|]. split; [assumption|]. left. auto.
      - contradiction (Tr' _ Ha). exists pre, t, post. split; [assumption|]. split; [assumption|]. right. auto.
      - contradiction (Tc' _ Ha). exists pre, y, post, e. auto.
      - contradiction (Tp' _ Ha). left. rewrite (Huniq _ _ Hx) in *. exists pre, t, post. split; [exact Ep|]. split; [apply Hrem, Hr|]. auto.
      - contradiction (Tp' _ Ha). left. rewrite (Huniq _ _ Hx) in *. exists pre, t, post. split; [exact Ep|]. split; [apply Hrem, Hr|]. split; [exact Hnb|]. split; [exact Hz|]. right. exists p. auto.
      - contradiction (Tp' _ Ha). right. exists early. split; [apply Hrem, Hr|]. split; [exact Hne|]. split; [|reflexivity]. intros a. rewrite (He a). split; intros (X1 & X2); (split; [exact X1|]); [apply X2, Hset|]. intros x Hx. rewrite (Huniq _ _ Hx). exact X2.
      - right. left. auto.
      - right. right. split; [exact H0|]. exists x. auto. }
    destruct (Z.eqb_spec h 0) as [Hz|Hz].
    { assert (r = Panic) as -> by (cbn in E; injection E as <- _ _; reflexivity). split; [apply answer_height; assumption|].
      intros r' Ha. destruct (Tm r' Ha) as [(Hx & _)|[(_ & ->)|(Hn & _)]]; [|apply same_refl|contradiction (Hn Hz)]. destruct Hx as [Hx _ _ _ _ _]. contradiction (Hx Hz). }
    unfold andthen at 1 in E. unfold stop at 1 in E. rewrite inherents_eq in E by (try assumption; apply block_reward_bound).
    destruct (prune_dec (txs_of body) (bb_miner body) (acct M3 (bb_miner body))) as [Hd|Hd].
    { destruct (H4 (bb_miner body)) as [(_ & _ & E4)|(X & _)]; [|contradiction (X Hd)]. rewrite E4 in E. injection E as <- _ _. split; [apply answer_accept; auto|].
      intros r' Ha. destruct (Tm r' Ha) as [(_ & ->)|[(X & _)|(_ & x & Hx & _ & Hp & _)]]; [apply same_refl|contradiction (Hz X)|]. rewrite (Huniq _ _ Hx) in Hp. contradiction (Hp Hd). }
    destruct (H4 (bb_miner body)) as [(X & _)|(_ & _ & E4)]; [contradiction (Hd X)|]. rewrite E4 in E.
    destruct (basic_dec (acct M3 (bb_miner body))) as [(v & Ev)|Hnb].
    { rewrite Ev in E. injection E as <- _ _. split; [apply answer_accept; auto|].
      intros r' Ha. destruct (Tm r' Ha) as [(_ & ->)|[(X & _)|(_ & x & Hx & Hp & _)]]; [apply same_refl|contradiction (Hz X)|]. rewrite (Huniq _ _ Hx), Ev in Hp. contradiction Hp. eexists. reflexivity. }
    assert (r = Err (EAccountTypeMismatch 0 (AccountType (acct M3 (bb_miner body))))) as ->.
    { destruct (acct M3 (bb_miner body)) as [v| |]; [contradiction Hnb; eexists; reflexivity|injection E as <- _ _; reflexivity..]. }
    split; [eapply answer_miner; eauto|].
    intros r' Ha. destruct (Tm r' Ha) as [(Hx & _)|[(X & _)|(_ & x & Hx & _ & _ & ->)]]; [discriminate (Hok Hx)|contradiction (Hz X)|]. rewrite (Huniq _ _ Hx). apply same_refl.
  Qed.

  (** *** What a crash leaves behind *)
  Lemma sender_kept h t M M' : push_sender H oob ledger L_get L_put h t M = (Panic, M') -> M' = M.
  Proof.
    unfold push_sender. cbv zeta. rewrite Lpush_eq. destruct (_ && _); [discriminate|]. destruct (ApplyOutgoingTx H oob _ t h); try discriminate. congruence.
  Qed.
  Lemma recipient_kept h t M M' : push_recipient H ledger L_get L_put h t M = (Panic, M') -> M' = M.
  Proof.
    unfold push_recipient. cbv zeta. rewrite Lpush_eq. destruct (_ && _); [discriminate|]. destruct (ApplyIncomingTx _ t h); try discriminate. congruence.
  Qed.
  Theorem push_crashed M c b body M' c' : ledger_ok M -> cache_ok c -> block_ok b -> bl_body b = Some body ->
    Push H oob ledger L_get L_put M c b = (Panic, M', c') -> crashed H oob M (bh_height (bl_header b)) body M'.
  Proof.
    intros HM Hc Hb Eb E. pose proof Hb as (Hh & Hbody). destruct (Hbody body Eb) as (Hm & _ & _ & _ & Hl & _). set (h := bh_height (bl_header b)) in *.
    unfold Push in E. cbv zeta in E. rewrite Eb in E. fold h in E. unfold push_body in E. unfold andthen at 1 in E.
    (* senders *)
    pose proof (pass_iff M h (bb_txs body) HM Hl) as IS. change (present (bb_txs body)) with (txs_of body) in *.
    destruct (pushSenders H oob ledger L_get L_put (bb_txs body) h M) as (rs & M1) eqn:ES.
    destruct (ok_dec rs) as [->|Hrs].
    2:{ assert (rs = Panic /\ M' = M1) as (-> & ->) by (destruct rs as [[]| | |]; [congruence|injection E; split; congruence..]).
        unfold pushSenders in ES. destruct (for_stop _ _ _ _ _ Hl ES Hrs) as (p & t & q & M2 & Ep & Hp & Ht & Ef & Eq). apply all_some in Hp.
        destruct (senders_ok H oob HH (map Some p) h M M2 HM Hp Ef) as (HM2 & H2). rewrite present_some in H2. fold (after_debits H M p) in H2.
        pose proof (step_sender M M2 h p t Ht H2) as Es. rewrite Eq in Es. cbn [fst] in Es. rewrite (sender_kept _ _ _ _ Eq) in *.
        destruct (decide _) as [_|Hn] in Es; [discriminate Es|].
        eapply crashed_sender; [exact Ep| | |rewrite Es; apply spend_answers, Ht|exact H2].
        - rewrite <- (present_some p). apply (pass_iff M h _ HM Hp). exists M2. exact Ef.
        - destruct (decide (tx_sender_type t = 255)); [auto|]; destruct (decide (tx_sender_type t = AccountType (acct M (tx_sender H t)))); [auto|tauto]. }
    pose proof (proj1 IS (ex_intro _ M1 eq_refl)) as PS.
    destruct (senders_ok H oob HH _ _ _ _ HM Hl ES) as (HM1 & H1). change (present (bb_txs body)) with (txs_of body) in H1.
    assert (Hk : same_kinds M M1) by (intros a; eexists; apply H1). unfold andthen at 1 in E.
    assert (H12 : forall p M2, (forall a, acct M2 a = with_balance (acct M1 a) ((Balance (acct M1 a) + received p a) mod 2 ^ 64)) ->
      forall a, acct M2 a = after_credits H M (txs_of body) p a).
    { intros p M2 H2 a. rewrite H2, H1, with_with, balance_with, Zplus_mod_idemp_l. reflexivity. }
    (* recipients *)
    pose proof (recipients_pass_iff M M1 h (bb_txs body) HM1 Hl Hk) as IR. change (present (bb_txs body)) with (txs_of body) in *.
    destruct (pushRecipients H ledger L_get L_put (bb_txs body) h M1) as (rr & M2) eqn:ER.
    destruct (ok_dec rr) as [->|Hrr].
    2:{ assert (rr = Panic /\ M' = M2) as (-> & ->) by (destruct rr as [[]| | |]; [congruence|injection E; split; congruence..]).
        unfold pushRecipients in ER. destruct (for_stop _ _ _ _ _ Hl ER Hrr) as (p & t & q & M3 & Ep & Hp & Ht & Ef & Eq). apply all_some in Hp.
        destruct (recipients_ok H (map Some p) h M1 M3 HM1 Hp Ef) as (HM3 & _ & H3). rewrite present_some in H3.
        pose proof (step_recipient M M3 h t (kinds_after M M1 p M3 Hk H3)) as Es. rewrite Eq in Es. cbn [fst] in Es. rewrite (recipient_kept _ _ _ _ Eq) in *.
        destruct (decide _) as [_|Hn] in Es; [discriminate Es|].
        eapply crashed_recipient; [exact PS|exact Ep| | | |exact (H12 p M3 H3)].
        - rewrite <- (present_some p). apply (recipients_pass_iff M M1 h _ HM1 Hp Hk). exists M3. exact Ef.
        - destruct (tx_creates t); [auto|]. destruct (decide (tx_recipient_type t = 255)); [auto|]; destruct (decide (tx_recipient_type t = AccountType (acct M (tx_recipient t)))); [auto|tauto].
        - intros (v & Ev). rewrite Ev in Es. discriminate Es. }
    pose proof (proj1 IR (ex_intro _ M2 eq_refl)) as PR.
    destruct (recipients_ok H _ _ _ _ HM1 Hl ER) as (HM2 & _ & H2). change (present (bb_txs body)) with (txs_of body) in H2.
    unfold andthen at 1 in E.
    (* creations *)
    pose proof (creations_answer M2 h (bb_txs body) HM2 Hl) as AC. pose proof (creations_pass_iff M2 h (bb_txs body) HM2 Hl) as IC. change (present (bb_txs body)) with (txs_of body) in *.
    destruct (createContracts H ledger L_get L_put (bb_txs body) h M2) as (rc & M3) eqn:EC. destruct AC as (AC1 & _).
    destruct (ok_dec rc) as [->|Hrc].
    2:{ destruct (AC1 Hrc) as (? & ? & ? & e & _ & _ & _ & _ & ->). discriminate E. }
    pose proof (proj1 IC (ex_intro _ M3 eq_refl)) as PC.
    destruct (create_ok H _ _ _ _ HM2 Hl EC) as (HM3 & H3). change (present (bb_txs body)) with (txs_of body) in H3.
    assert (Hset : forall a, settled H M (txs_of body) a (acct M3 a)).
    { intros a. unfold settled. specialize (H3 a). cbv zeta.
      assert (E0 : acct M2 a = with_balance (acct M a) ((Balance (acct M a) - charged H (txs_of body) (acct M a) a + received (txs_of body) a) mod 2 ^ 64)).
      { rewrite H2, H1, with_with, balance_with, Zplus_mod_idemp_l. reflexivity. }
      rewrite E0, balance_with in H3. destruct (last_creation (txs_of body) a); exact H3. }
    assert (Huniq : forall a x, settled H M (txs_of body) a x -> x = acct M3 a) by (intros a x Hx; exact (settled_unique H M _ _ _ _ Hx (Hset a))).
    (* removals *)
    pose proof (prune_answer M3 body HM3 Hl) as AP.
    destruct (pruneAccounts H ledger L_get L_put body M3) as (rp & M4) eqn:EP. destruct AP as (AP1 & _).
    destruct (ok_dec rp) as [->|Hrp].
    2:{ destruct (AP1 Hrp) as [(? & ? & ? & _ & _ & _ & _ & [(_ & ->)|(? & _ & _ & ->)])|(? & _ & _ & _ & ->)]; discriminate E. }
    destruct (prune_ok H HH _ _ _ HM3 Hl EP) as (HM4 & H4).
    destruct (BlockReward_ok c h Hc ltac:(apply Hh)) as (Hc' & Er). destruct (BlockReward c h) as (c1 & base) eqn:Eb1. cbn [snd fst] in *. subst base.
    destruct (Z.eqb_spec h 0) as [Hz|Hz].
    - cbn in E. injection E as <- _. apply crashed_height; try assumption.
      + intros a x Hx Ha. rewrite (Huniq _ _ Hx) in *. destruct (H4 a) as [(_ & X & _)|(X & _)]; [exact X|contradiction].
      + intros a x Hx Ha. rewrite (Huniq _ _ Hx) in *. destruct (H4 a) as [(X & _)|(_ & X & _)]; [contradiction|exact X].
      + intros a. exists (acct M3 a). split; [apply Hset|]. destruct (H4 a) as [(X & _ & Y)|(X & _ & Y)]; auto.
    - exfalso. unfold andthen at 1 in E. unfold stop at 1 in E. rewrite inherents_eq in E by (try assumption; apply block_reward_bound).
      destruct (acct M4 (bb_miner body)); discriminate E.
  Qed.
End Outcome.
