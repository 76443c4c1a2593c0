(** The float64 arithmetic of vesting contracts, through Flocq. *)
From Coq Require Import ZArith Lia Bool Reals Psatz.
From Coq.Floats Require Import SpecFloat.
From Flocq Require Import Core Relative BinarySingleNaN.
From Verif.Model Require Import Base Wire Account.
From Verif.Spec Require Import WireSpec AccountSpec.
Open Scope Z_scope.

Lemma prec53 : FLX.Prec_gt_0 53. Proof. reflexivity. Qed.
Lemma emax1024 : Prec_lt_emax 53 1024. Proof. reflexivity. Qed.
#[local] Existing Instance prec53.
#[local] Existing Instance emax1024.

(** ** SpecFloat's operations are Flocq's *)
Lemma choice_eq s m l : round_nearest_even m l = choice_mode mode_NE s m l.
Proof. destruct l as [|c]; [reflexivity|]. destruct c; [|reflexivity..]. cbn. unfold Round.cond_incr. destruct (Z.even m); reflexivity. Qed.
Lemma round_aux_eq sx mx ex lx : SpecFloat.binary_round_aux 53 1024 sx mx ex lx = binary_round_aux 53 1024 mode_NE sx mx ex lx.
Proof.
  unfold SpecFloat.binary_round_aux, binary_round_aux. destruct (shr_fexp 53 1024 mx ex lx) as (mrs & e). cbn.
  rewrite (choice_eq sx). reflexivity.
Qed.
Lemma round_eq s m e : SpecFloat.binary_round 53 1024 s m e = binary_round 53 1024 mode_NE s m e.
Proof. unfold SpecFloat.binary_round, binary_round, shl_align_fexp. destruct (shl_align _ _ _). apply round_aux_eq. Qed.
Lemma normalize_eq m : float_of_uint m = B2SF (binary_normalize 53 1024 _ _ mode_NE m 0 false).
Proof. unfold float_of_uint. destruct m as [|p|p]; [reflexivity| |]; cbn [SpecFloat.binary_normalize binary_normalize]; rewrite B2SF_SF2B; apply round_eq. Qed.
Lemma mul_eq (x y : binary_float 53 1024) : float_mul (B2SF x) (B2SF y) = B2SF (Bmult mode_NE x y).
Proof.
  unfold float_mul. destruct x as [| | |sx mx ex Bx]; destruct y as [| | |sy my ey By]; try reflexivity.
  cbn [SFmul B2SF Bmult]. rewrite B2SF_SF2B. apply round_aux_eq.
Qed.
Lemma div_eq (x y : binary_float 53 1024) : float_div (B2SF x) (B2SF y) = B2SF (Bdiv mode_NE x y).
Proof.
  unfold float_div. destruct x as [| | |sx mx ex Bx]; destruct y as [| | |sy my ey By]; try reflexivity.
  cbn [SFdiv B2SF Bdiv]. rewrite B2SF_SF2B. destruct (SFdiv_core_binary _ _ _ _ _ _) as ((mz & ez) & lz). apply round_aux_eq.
Qed.

(** ** Rounding *)
Definition rnd (x : R) : R := round radix2 (FLT_exp (-1074) 53) ZnearestE x.
Lemma rnd_le x y : (x <= y)%R -> (rnd x <= rnd y)%R.
Proof. apply round_le; typeclasses eauto. Qed.
Lemma rnd_int z : (Z.abs z <= 2 ^ 53) -> rnd (IZR z) = IZR z.
Proof.
  intros Hz. apply round_generic; [typeclasses eauto|]. destruct (Z.eq_dec (Z.abs z) (2 ^ 53)) as [E|E].
  - assert (Hz' : z = 2 ^ 53 \/ z = - 2 ^ 53) by lia. destruct Hz' as [-> | ->].
    + apply (generic_format_bpow radix2 (FLT_exp (-1074) 53) 53). cbn. lia.
    + change (- 2 ^ 53) with (- (2 ^ 53)). rewrite opp_IZR. apply generic_format_opp. apply (generic_format_bpow radix2 (FLT_exp (-1074) 53) 53). cbn. lia.
  - apply generic_format_FLT. apply (FLT_spec radix2 (-1074) 53 (IZR z) (Float radix2 z 0)); cbn; try lia.
    unfold F2R. cbn. rewrite Rmult_1_r. reflexivity.
Qed.
Lemma rnd_pow e : -1000 <= e -> rnd (bpow radix2 e) = bpow radix2 e.
Proof. intros He. apply round_generic; [typeclasses eauto|]. apply generic_format_bpow. unfold FLT_exp. lia. Qed.
Lemma rnd_0 : rnd 0 = 0%R.
Proof. apply round_0. typeclasses eauto. Qed.
Lemma rnd_pos x : (0 <= x)%R -> (0 <= rnd x)%R.
Proof. intros Hx. rewrite <- rnd_0. apply rnd_le. exact Hx. Qed.
(** Relative error. *)
Lemma rnd_error x : (bpow radix2 (-1000) <= x)%R -> (x * (1 - bpow radix2 (-53)) <= rnd x <= x * (1 + bpow radix2 (-53)))%R.
Proof.
  intros Hx. assert (Hp : (0 < x)%R) by (eapply Rlt_le_trans; [|exact Hx]; apply bpow_gt_0).
  pose proof (relative_error_N_FLT radix2 (-1074) 53 prec53 (fun n => negb (Z.even n)) x) as He.
  rewrite (Rabs_pos_eq x) in He by lra. specialize (He ltac:(eapply Rle_trans; [|exact Hx]; apply bpow_le; lia)).
  fold ZnearestE in He. fold (rnd x) in He. apply Rabs_le_inv in He.
  replace (/ 2 * bpow radix2 (- (53) + 1))%R with (bpow radix2 (-53)) in He.
  - lra.
  - change (/ 2)%R with (bpow radix2 (-1)). rewrite <- bpow_plus. reflexivity.
Qed.

(** ** The unlocked amount in real arithmetic *)
Definition share (d s a : Z) : R := rnd (rnd (IZR d / IZR s) * rnd (IZR a)).
Lemma trunc_eq (b : binary_float 53 1024) : is_finite b = true -> (0 <= B2R b)%R -> float_trunc (B2SF b) = Some (Zfloor (B2R b)).
Proof.
  destruct b as [s| | |s m e Hb]; try discriminate; intros _ Hp.
  - cbn. rewrite (Zfloor_IZR 0). reflexivity.
  - cbn [B2SF float_trunc B2R] in *. destruct s; [exfalso|].
    + cbn in Hp. assert (F2R (Float radix2 (Z.neg m) e) < 0)%R by (apply F2R_lt_0; reflexivity). lra.
    + cbn [cond_Zopp]. f_equal. symmetry. destruct (Z.leb_spec 0 e).
      * unfold F2R. cbn [Fnum Fexp]. rewrite <- IZR_Zpower by assumption. rewrite <- mult_IZR. apply Zfloor_IZR.
      * unfold F2R. cbn [Fnum Fexp]. replace (bpow radix2 e) with (/ IZR (2 ^ (- e)))%R.
        -- apply Zfloor_div. lia.
        -- rewrite <- (Z.opp_involutive e) at 2. rewrite bpow_opp. f_equal. rewrite <- IZR_Zpower by lia. reflexivity.
Qed.
Lemma small x k : (0 <= x)%R -> (x <= bpow radix2 k)%R -> -1000 <= k -> k < 1024 ->
  Rlt_bool (Rabs (round radix2 (SpecFloat.fexp 53 1024) (round_mode mode_NE) x)) (bpow radix2 1024) = true.
Proof.
  intros Hx Hk H1 H2. apply Rlt_bool_true. change (round radix2 (SpecFloat.fexp 53 1024) (round_mode mode_NE) x) with (rnd x).
  rewrite Rabs_pos_eq by (apply rnd_pos; exact Hx). apply Rle_lt_trans with (bpow radix2 k); [|apply bpow_lt; lia].
  rewrite <- (rnd_pow k) by lia. apply rnd_le. exact Hk.
Qed.
Lemma rnd_bpow x k : (x <= bpow radix2 k)%R -> -1000 <= k -> (rnd x <= bpow radix2 k)%R.
Proof. intros H1 H2. rewrite <- (rnd_pow k) by assumption. apply rnd_le. exact H1. Qed.
Lemma IZR_bpow z k : z <= 2 ^ k -> 0 <= k -> (IZR z <= bpow radix2 k)%R.
Proof. intros Hz Hk. rewrite <- IZR_Zpower by assumption. apply IZR_le. exact Hz. Qed.
Lemma uint_float z : 0 <= z <= 2 ^ 64 -> exists b : binary_float 53 1024, float_of_uint z = B2SF b /\ is_finite b = true /\ B2R b = rnd (IZR z).
Proof.
  intros Hz. exists (binary_normalize 53 1024 _ _ mode_NE z 0 false). split; [apply normalize_eq|].
  pose proof (binary_normalize_correct 53 1024 _ _ mode_NE z 0 false) as Hn. cbv zeta in Hn.
  assert (E : F2R (Float radix2 z 0) = IZR z) by (unfold F2R; cbn; ring). rewrite E in Hn.
  rewrite (small (IZR z) 64) in Hn; [|apply IZR_le; lia|apply IZR_bpow; lia|lia|lia]. destruct Hn as (H1 & H2 & _). split; assumption.
Qed.
Lemma quot_le d s : 0 <= d -> 1 <= s -> (0 <= IZR d / IZR s <= IZR d)%R.
Proof.
  intros Hd Hs. assert (0 <= IZR d)%R by (apply IZR_le; exact Hd). assert (1 <= IZR s)%R by (apply IZR_le; exact Hs).
  split; [apply Rmult_le_pos; [assumption|apply Rlt_le, Rinv_0_lt_compat; lra]|].
  apply Rmult_le_reg_r with (IZR s); [lra|]. unfold Rdiv. rewrite Rmult_assoc, Rinv_l by lra. nra.
Qed.
Lemma share_bound d s a : 0 <= d <= 2 ^ 32 -> 1 <= s -> 0 <= a <= 2 ^ 64 -> (0 <= rnd (IZR d / IZR s) <= bpow radix2 32 /\ 0 <= rnd (IZR a) <= bpow radix2 64 /\ 0 <= share d s a <= bpow radix2 96)%R.
Proof.
  intros Hd Hs Ha. pose proof (quot_le d s ltac:(lia) Hs) as Hq.
  assert (H1 : (0 <= rnd (IZR d / IZR s) <= bpow radix2 32)%R).
  { split; [apply rnd_pos; lra|]. apply rnd_bpow; [|lia]. pose proof (IZR_bpow d 32 ltac:(lia) ltac:(lia)). lra. }
  assert (H2 : (0 <= rnd (IZR a) <= bpow radix2 64)%R).
  { split; [apply rnd_pos, IZR_le; lia|]. apply rnd_bpow; [|lia]. apply IZR_bpow; lia. }
  assert (H3 : (rnd (IZR d / IZR s) * rnd (IZR a) <= bpow radix2 96)%R).
  { change 96 with (32 + 64). rewrite bpow_plus. apply Rmult_le_compat; lra. }
  split; [exact H1|]. split; [exact H2|]. split; [apply rnd_pos, Rmult_le_pos; lra|]. apply rnd_bpow; [exact H3|lia].
Qed.
Lemma unlocked_float oob d s a : 1 <= d < 2 ^ 32 -> 1 <= s < 2 ^ 32 -> 0 <= a < 2 ^ 64 ->
  exists f, uint64_of_float oob (float_mul (float_div (float_of_uint d) (float_of_uint s)) (float_of_uint a)) =
            if Zfloor (share d s a) <? 2 ^ 64 then Zfloor (share d s a) else oob f.
Proof.
  intros Hd Hs Ha.
  destruct (uint_float d ltac:(lia)) as (bd & -> & Fd & Rd). destruct (uint_float s ltac:(lia)) as (bs & -> & Fs & Rs).
  destruct (uint_float a ltac:(lia)) as (ba & -> & Fa & Ra). rewrite div_eq, mul_eq.
  rewrite (rnd_int d) in Rd by lia. rewrite (rnd_int s) in Rs by lia.
  destruct (share_bound d s a ltac:(lia) ltac:(lia) ltac:(lia)) as (B1 & B2 & B3).
  pose proof (quot_le d s ltac:(lia) ltac:(lia)) as Hq.
  pose proof (Bdiv_correct 53 1024 _ _ mode_NE bd bs) as Hdiv. rewrite Rd, Rs in Hdiv.
  assert (Hs0 : IZR s <> 0%R) by (apply not_0_IZR; lia). specialize (Hdiv Hs0).
  rewrite (small _ 32) in Hdiv; [|lra|pose proof (IZR_bpow d 32 ltac:(lia) ltac:(lia)); lra|lia|lia].
  destruct Hdiv as (Q1 & Q2 & _). rewrite Fd in Q2.
  pose proof (Bmult_correct 53 1024 _ _ mode_NE (Bdiv mode_NE bd bs) ba) as Hmul. rewrite Q1, Ra in Hmul.
  change (round radix2 (SpecFloat.fexp 53 1024) (round_mode mode_NE) (IZR d / IZR s)) with (rnd (IZR d / IZR s)) in *.
  rewrite (small _ 96) in Hmul; [|apply Rmult_le_pos; lra|change 96 with (32 + 64); rewrite bpow_plus; apply Rmult_le_compat; lra|lia|lia].
  destruct Hmul as (M1 & M2 & _). rewrite Q2, Fa in M2.
  change (round radix2 (SpecFloat.fexp 53 1024) (round_mode mode_NE) (rnd (IZR d / IZR s) * rnd (IZR a))) with (share d s a) in M1.
  exists (B2SF (Bmult mode_NE (Bdiv mode_NE bd bs) ba)). unfold uint64_of_float. rewrite trunc_eq; [|exact M2|rewrite M1; lra].
  rewrite M1. change two64 with (2 ^ 64). assert (0 <= Zfloor (share d s a)) by (apply Zfloor_lub; cbn; lra).
  destruct (Z.leb_spec 0 (Zfloor (share d s a))); [reflexivity|lia].
Qed.
Lemma share_le d e s a : 0 <= d <= e -> 1 <= s -> 0 <= a -> (share d s a <= share e s a)%R.
Proof.
  intros Hd Hs Ha. apply rnd_le. apply Rmult_le_compat_r; [apply rnd_pos, IZR_le; exact Ha|]. apply rnd_le.
  apply Rmult_le_compat_r; [apply Rlt_le, Rinv_0_lt_compat, IZR_lt; lia|apply IZR_le; lia].
Qed.
(** Full steps. *)
Lemma share_steps k s a : 0 <= k <= 2 ^ 53 -> 1 <= s -> 0 <= a <= 2 ^ 53 -> k * a <= 2 ^ 53 -> share (k * s) s a = IZR (k * a).
Proof.
  intros Hk Hs Ha Hka. unfold share. rewrite mult_IZR. unfold Rdiv. rewrite Rmult_assoc, Rinv_r, Rmult_1_r by (apply not_0_IZR; lia).
  rewrite (rnd_int k), (rnd_int a) by lia. rewrite <- mult_IZR. apply rnd_int. nia.
Qed.
(** The exact proportional share, up to the rounding error. *)
Lemma share_error d s a : 1 <= d < 2 ^ 32 -> 1 <= s < 2 ^ 32 -> 1 <= a < 2 ^ 64 ->
  (IZR d / IZR s * IZR a * (1 - bpow radix2 (-51)) <= share d s a <= IZR d / IZR s * IZR a * (1 + bpow radix2 (-51)))%R.
Proof.
  intros Hd Hs Ha. assert (L : (bpow radix2 (-32) <= IZR d / IZR s)%R).
  { assert (1 <= IZR d)%R by (apply IZR_le; lia). assert (0 < IZR s <= bpow radix2 32)%R by (split; [apply IZR_lt; lia|apply IZR_bpow; lia]).
    apply Rmult_le_reg_r with (IZR s); [lra|]. unfold Rdiv. rewrite Rmult_assoc, Rinv_l by lra.
    apply Rle_trans with (bpow radix2 (-32) * bpow radix2 32)%R; [apply Rmult_le_compat_l; [apply bpow_ge_0|lra]|]. rewrite <- bpow_plus. cbn. lra. }
  assert (La : (1 <= IZR a)%R) by (apply IZR_le; lia).
  set (x := (IZR d / IZR s)%R) in *. set (u := bpow radix2 (-53)). assert (Hu : (u = / 9007199254740992)%R) by reflexivity.
  assert (H51 : (bpow radix2 (-51) = 4 * u)%R) by (unfold u; cbn; lra). rewrite H51.
  assert (X0 : (0 < x)%R) by (eapply Rlt_le_trans; [|exact L]; apply bpow_gt_0).
  pose proof (rnd_error x ltac:(eapply Rle_trans; [|exact L]; apply bpow_le; lia)) as E1. fold u in E1.
  pose proof (rnd_error (IZR a) ltac:(eapply Rle_trans; [|exact La]; change 1%R with (bpow radix2 0); apply bpow_le; lia)) as E2. fold u in E2.
  unfold share. fold x. set (p := rnd x) in *. set (q := rnd (IZR a)) in *.
  assert (P0 : (0 < x * (1 - u))%R) by (apply Rmult_lt_0_compat; [exact X0|rewrite Hu; lra]).
  assert (Q0 : (0 < IZR a * (1 - u))%R) by (apply Rmult_lt_0_compat; [lra|rewrite Hu; lra]).
  assert (PQ : (x * (1 - u) * (IZR a * (1 - u)) <= p * q <= x * (1 + u) * (IZR a * (1 + u)))%R).
  { split; apply Rmult_le_compat; lra. }
  assert (big : (bpow radix2 (-1000) <= p * q)%R).
  { apply Rle_trans with (bpow radix2 (-33) * bpow radix2 (-1))%R; [rewrite <- bpow_plus; apply bpow_le; lia|].
    eapply Rle_trans; [|apply PQ]. apply Rmult_le_compat; [apply bpow_ge_0|apply bpow_ge_0| |].
    - replace (bpow radix2 (-33)) with (bpow radix2 (-32) * bpow radix2 (-1))%R by (rewrite <- bpow_plus; reflexivity).
      apply Rmult_le_compat; [apply bpow_ge_0|apply bpow_ge_0|exact L|rewrite Hu; cbn; lra].
    - replace (bpow radix2 (-1)) with (1 * bpow radix2 (-1))%R by ring. apply Rmult_le_compat; [lra|apply bpow_ge_0|exact La|rewrite Hu; cbn; lra]. }
  pose proof (rnd_error (p * q)%R big) as E3. fold u in E3. set (r := rnd (p * q)%R) in *.
  assert (XA : (0 < x * IZR a)%R) by (apply Rmult_lt_0_compat; lra). set (y := (x * IZR a)%R) in *.
  assert (E : (x * (1 - u) * (IZR a * (1 - u)) = y * ((1 - u) * (1 - u)))%R) by (unfold y; ring).
  assert (E' : (x * (1 + u) * (IZR a * (1 + u)) = y * ((1 + u) * (1 + u)))%R) by (unfold y; ring). rewrite E, E' in PQ.
  split.
  - apply Rle_trans with (y * ((1 - u) * (1 - u)) * (1 - u))%R.
    + rewrite (Rmult_assoc y). apply Rmult_le_compat_l; [lra|]. rewrite Hu. lra.
    + eapply Rle_trans; [|apply E3]. apply Rmult_le_compat_r; [rewrite Hu; lra|lra].
  - apply Rle_trans with (y * ((1 + u) * (1 + u)) * (1 + u))%R.
    + eapply Rle_trans; [apply E3|]. apply Rmult_le_compat_r; [rewrite Hu; lra|lra].
    + rewrite (Rmult_assoc y). apply Rmult_le_compat_l; [lra|]. rewrite Hu. lra.
Qed.

(** ** The unlocked amount *)
Section Unlocked.
  Context (oob : float64 -> Z) (c : Vesting) (Hc : account_ok (AVesting c)).
  Context (Hs : v_step_blocks c <> 0) (Ha : v_step_amount c <> 0).
  Lemma steps_pos : 1 <= v_step_blocks c < 2 ^ 32 /\ 1 <= v_step_amount c < 2 ^ 64 /\ 0 <= v_start c < 2 ^ 32.
  Proof. destruct Hc as (_ & _ & H1 & H2 & H3 & _). unfold u32, u64 in *. lia. Qed.
  Lemma unlocked_share h : u32 h -> v_start c < h ->
    exists f, amountUnlocked oob c h =
      if Zfloor (share (h - v_start c) (v_step_blocks c) (v_step_amount c)) <? 2 ^ 64
      then Zfloor (share (h - v_start c) (v_step_blocks c) (v_step_amount c)) else oob f.
  Proof.
    intros Hh Hl. destruct steps_pos as (H1 & H2 & H3). unfold u32 in *. unfold amountUnlocked.
    destruct (Z.leb_spec h (v_start c)); [lia|]. rewrite (proj2 (Z.eqb_neq _ _) Hs), (proj2 (Z.eqb_neq _ _) Ha). cbn [orb].
    assert (E : w32 (h - v_start c) = h - v_start c) by (unfold w32, two32; apply Z.mod_small; lia). rewrite E. apply unlocked_float; lia.
  Qed.
  Lemma share_exact d : (IZR (d * v_step_amount c) = IZR d / IZR (v_step_blocks c) * IZR (v_step_amount c) * IZR (v_step_blocks c))%R.
  Proof. destruct steps_pos as (H1 & _). rewrite mult_IZR. field. apply not_0_IZR. lia. Qed.
  Lemma share_fits h : u32 h -> v_start c < h -> (h - v_start c) * v_step_amount c < 2 ^ 63 * v_step_blocks c ->
    Zfloor (share (h - v_start c) (v_step_blocks c) (v_step_amount c)) < 2 ^ 64.
  Proof.
    intros Hh Hl Hr. destruct steps_pos as (H1 & H2 & H3). unfold u32 in *. set (d := h - v_start c) in *.
    apply lt_IZR. eapply Rle_lt_trans; [apply Zfloor_lb|]. destruct (share_error d (v_step_blocks c) (v_step_amount c)) as (_ & Hu); [lia..|].
    eapply Rle_lt_trans; [exact Hu|]. apply IZR_lt in Hr. rewrite share_exact, mult_IZR in Hr.
    assert (0 < IZR (v_step_blocks c))%R by (apply IZR_lt; lia). set (y := (IZR d / IZR (v_step_blocks c) * IZR (v_step_amount c))%R) in *.
    assert (y < IZR (2 ^ 63))%R by (apply Rmult_lt_reg_r with (IZR (v_step_blocks c)); assumption).
    apply Rlt_le_trans with (IZR (2 ^ 63) * (1 + 1))%R; [|change (2 ^ 64) with (2 ^ 63 * 2); rewrite mult_IZR; lra].
    apply Rle_lt_trans with (y * (1 + 1))%R; [|apply Rmult_lt_compat_r; lra]. apply Rmult_le_compat_l; [|cbn; lra].
    unfold y. pose proof (quot_le d (v_step_blocks c) ltac:(lia) ltac:(lia)). apply Rmult_le_pos; [lra|apply IZR_le; lia].
  Qed.
  Lemma unlocked_fits h : u32 h -> v_start c < h -> (h - v_start c) * v_step_amount c < 2 ^ 63 * v_step_blocks c ->
    amountUnlocked oob c h = Zfloor (share (h - v_start c) (v_step_blocks c) (v_step_amount c)).
  Proof. intros H1 H2 H3. destruct (unlocked_share h H1 H2) as (f & ->). rewrite (proj2 (Z.ltb_lt _ _) (share_fits h H1 H2 H3)). reflexivity. Qed.
  (** At most the proportional amount plus 1, at least that minus 1. *)
  Lemma unlocked_linear h : u32 h -> v_start c < h -> (h - v_start c) * v_step_amount c <= 2 ^ 51 * v_step_blocks c ->
    let linear := (h - v_start c) * v_step_amount c / v_step_blocks c in
    linear - 1 <= amountUnlocked oob c h <= linear + 1.
  Proof.
    intros Hh Hl Hr. destruct steps_pos as (H1 & H2 & H3). unfold u32 in *. cbv zeta. rewrite unlocked_fits by (unfold u32; lia).
    set (d := h - v_start c) in *. destruct (share_error d (v_step_blocks c) (v_step_amount c)) as (Hlo & Hup); [lia..|].
    assert (Es : Zfloor (IZR d / IZR (v_step_blocks c) * IZR (v_step_amount c)) = d * v_step_amount c / v_step_blocks c).
    { rewrite <- Zfloor_div by lia. f_equal. rewrite mult_IZR. field. apply not_0_IZR. lia. }
    apply IZR_le in Hr. rewrite share_exact, mult_IZR in Hr. assert (0 < IZR (v_step_blocks c))%R by (apply IZR_lt; lia).
    set (y := (IZR d / IZR (v_step_blocks c) * IZR (v_step_amount c))%R) in *. rewrite <- Es.
    assert (Hy : (y <= IZR (2 ^ 51))%R) by (apply Rmult_le_reg_r with (IZR (v_step_blocks c)); assumption).
    assert (H51 : (bpow radix2 (-51) = / IZR (2 ^ 51))%R) by reflexivity. rewrite H51 in *.
    assert (Hy1 : (y * / IZR (2 ^ 51) <= 1)%R). { apply Rmult_le_reg_r with (IZR (2 ^ 51)); [apply IZR_lt; reflexivity|]. rewrite Rmult_assoc, Rinv_l; [lra|apply not_0_IZR; discriminate]. }
    pose proof (Zfloor_lb y) as F1. pose proof (Zfloor_ub y) as F2. split.
    - apply Zfloor_lub. rewrite minus_IZR. lra.
    - set (S := share d (v_step_blocks c) (v_step_amount c)) in *. assert (Hlt : (IZR (Zfloor S) < IZR (Zfloor y + 2))%R).
      + rewrite plus_IZR. pose proof (Zfloor_lb S). lra.
      + apply lt_IZR in Hlt. lia.
  Qed.
  Lemma unlocked_mono h h' : u32 h' -> v_start c < h <= h' -> (h' - v_start c) * v_step_amount c < 2 ^ 63 * v_step_blocks c ->
    amountUnlocked oob c h <= amountUnlocked oob c h'.
  Proof.
    intros Hh Hl Hr. destruct steps_pos as (H1 & H2 & H3). unfold u32 in *. rewrite !unlocked_fits; unfold u32; try lia; [|nia].
    apply Zfloor_le. apply share_le; lia.
  Qed.
  (** Between the completed steps and the next one. *)
  Lemma unlocked_between h : u32 h -> v_start c < h ->
    let k := (h - v_start c) / v_step_blocks c in
    (k + 1) * v_step_amount c <= 2 ^ 53 ->
    k * v_step_amount c <= amountUnlocked oob c h <= (k + 1) * v_step_amount c /\
    ((h - v_start c) mod v_step_blocks c = 0 -> amountUnlocked oob c h = k * v_step_amount c).
  Proof.
    intros Hh Hl k Hr. destruct steps_pos as (H1 & H2 & H3). unfold u32 in *. set (d := h - v_start c) in *.
    pose proof (Z.div_mod d (v_step_blocks c) ltac:(lia)) as Hdm. pose proof (Z.mod_pos_bound d (v_step_blocks c) ltac:(lia)) as Hmb. fold k in Hdm.
    assert (Hk : 0 <= k) by (apply Z.div_pos; lia). assert (Hk53 : k + 1 <= 2 ^ 53) by nia.
    assert (Hf : d * v_step_amount c < 2 ^ 63 * v_step_blocks c).
    { assert (d <= (k + 1) * v_step_blocks c) by nia. assert (d * v_step_amount c <= (k + 1) * v_step_amount c * v_step_blocks c) by nia. nia. }
    rewrite unlocked_fits; fold d; try (unfold u32; lia).
    assert (Lo : (IZR (k * v_step_amount c) <= share d (v_step_blocks c) (v_step_amount c))%R).
    { rewrite <- (share_steps k (v_step_blocks c)) by nia. apply share_le; nia. }
    assert (Up : (share d (v_step_blocks c) (v_step_amount c) <= IZR ((k + 1) * v_step_amount c))%R).
    { rewrite <- (share_steps (k + 1) (v_step_blocks c)) by nia. apply share_le; nia. }
    split; [split|].
    - apply Zfloor_lub. exact Lo.
    - apply le_IZR. eapply Rle_trans; [apply Zfloor_lb|exact Up].
    - intros Hm. assert (E : d = k * v_step_blocks c) by lia. rewrite E, share_steps by nia. apply Zfloor_IZR.
  Qed.
  (** Already the first block after the start unlocks money. *)
  Lemma unlocked_early : v_start c + 1 < 2 ^ 32 -> 2 <= v_step_blocks c -> 2 * v_step_blocks c <= v_step_amount c ->
    0 < amountUnlocked oob c (v_start c + 1).
  Proof.
    intros Hl H2s H2a. destruct steps_pos as (H1 & H2 & H3). rewrite unlocked_fits; try (unfold u32; lia).
    replace (v_start c + 1 - v_start c) with 1 by lia. apply Z.lt_le_trans with 1; [lia|]. apply Zfloor_lub.
    destruct (share_error 1 (v_step_blocks c) (v_step_amount c)) as (Hlo & _); [lia..|]. eapply Rle_trans; [|exact Hlo].
    assert (Hy : (2 <= 1 / IZR (v_step_blocks c) * IZR (v_step_amount c))%R).
    { assert (0 < IZR (v_step_blocks c))%R by (apply IZR_lt; lia). apply IZR_le in H2a. rewrite mult_IZR in H2a.
      apply Rmult_le_reg_r with (IZR (v_step_blocks c)); [lra|]. replace (1 / IZR (v_step_blocks c) * IZR (v_step_amount c) * IZR (v_step_blocks c))%R with (IZR (v_step_amount c)) by (field; lra). lra. }
    cbn [bpow]. cbn. cbn in Hy. lra.
  Qed.
End Unlocked.
