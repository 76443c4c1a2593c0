(** Lemmas about compact targets. *)
From Coq Require Import ZArith List Lia Bool.
Import ListNotations.
From Verif.Model Require Import Base Target.
From Verif.Proofs Require Import BaseFacts.
Open Scope Z_scope.

Lemma lor_add a k b : 0 <= k -> 0 <= b < 2 ^ k -> Z.lor (a * 2 ^ k) b = a * 2 ^ k + b.
Proof.
  intros Hk Hb. assert (L : Z.land (a * 2 ^ k) b = 0).
  { apply Z.bits_inj'. intros i Hi. rewrite Z.land_spec, Z.bits_0. destruct (Z.ltb_spec i k).
    - rewrite Z.mul_pow2_bits_low by lia. reflexivity.
    - assert (E : b mod 2 ^ k = b) by (apply Z.mod_small; exact Hb). rewrite <- E, Z.mod_pow2_bits_high by lia. apply andb_false_r. }
  rewrite <- Z.lxor_lor by exact L. symmetry. apply Z.add_nocarry_lxor. exact L.
Qed.
Lemma big_bytes_len t : 0 < t -> exists n : nat, big_bytes t = be_put (S n) t /\ 256 ^ Z.of_nat n <= t < 256 ^ Z.of_nat (S n).
Proof.
  intros Ht. unfold big_bytes. rewrite Z.abs_eq by lia. destruct (Z.eqb_spec t 0); [lia|].
  pose proof (Z.log2_nonneg t). pose proof (Z.log2_spec t Ht) as (L1 & L2).
  assert (0 <= Z.log2 t / 8) by (apply Z.div_pos; lia).
  exists (Z.to_nat (Z.log2 t / 8)). replace (Z.to_nat (Z.log2 t / 8 + 1)) with (S (Z.to_nat (Z.log2 t / 8))) by lia. split; [reflexivity|].
  rewrite Nat2Z.inj_succ, Z2Nat.id by lia. change 256 with (2 ^ 8). rewrite <- !Z.pow_mul_r by lia.
  pose proof (Z.div_mod (Z.log2 t) 8 ltac:(lia)). pose proof (Z.mod_pos_bound (Z.log2 t) 8 ltac:(lia)).
  split; [eapply Z.le_trans; [apply Z.pow_le_mono_r|exact L1]; lia|]. eapply Z.lt_le_trans; [exact L2|]. apply Z.pow_le_mono_r; lia.
Qed.
Lemma div_bounds q a : 0 < a -> 0 <= q -> q / a * a <= q < q / a * a + a.
Proof. intros Ha Hq. pose proof (Z.div_mod q a ltac:(lia)). pose proof (Z.mod_pos_bound q a Ha). lia. Qed.

(** The three leading bytes. *)
Lemma leading t n : 256 ^ (Z.of_nat n + 2) <= t < 256 ^ (Z.of_nat n + 3) ->
  let q := t / 256 ^ Z.of_nat n in
  65536 <= q < 16777216 /\
  be_put (S (S (S n))) t = q / 65536 :: (q / 256) mod 256 :: q mod 256 :: be_put n t.
Proof.
  intros (H1 & H2). cbv zeta. set (u := 256 ^ Z.of_nat n) in *. assert (Hu : 0 < u) by (apply Z.pow_pos_nonneg; lia).
  rewrite Z.pow_add_r in H1, H2 by lia. fold u in H1, H2. change (256 ^ 2) with 65536 in H1. change (256 ^ 3) with 16777216 in H2.
  assert (Hq : 65536 <= t / u < 16777216).
  { split; [apply Z.div_le_lower_bound; lia|apply Z.div_lt_upper_bound; lia]. }
  split; [exact Hq|]. cbn [be_put]. fold u.
  assert (E2 : t / 256 ^ Z.of_nat (S n) = t / u / 256).
  { rewrite Nat2Z.inj_succ, Z.pow_succ_r by lia. fold u. rewrite Z.mul_comm. symmetry. apply Z.div_div; lia. }
  assert (E3 : t / 256 ^ Z.of_nat (S (S n)) = t / u / 65536).
  { rewrite !Nat2Z.inj_succ, !Z.pow_succ_r by lia. fold u. replace (256 * (256 * u)) with (u * 65536) by lia. symmetry. apply Z.div_div; lia. }
  rewrite E2, E3. f_equal. apply Z.mod_small. split; [apply Z.div_pos; lia|]. apply Z.div_lt_upper_bound; lia.
Qed.
Lemma compact_value t : 2 ^ 16 <= t < 2 ^ 2032 ->
  exists c, TargetToCompact t = Ok c /\ 0 <= c < 2 ^ 32 /\ c mod 2 ^ 24 < 2 ^ 23 /\ 2 ^ 15 <= c mod 2 ^ 24 /\ 3 <= c / 2 ^ 24 /\
    let unit := 256 ^ (c / 2 ^ 24 - 3) in let v := (c mod 2 ^ 24) * unit in v <= t < v + unit.
Proof.
  intros (H1 & H2). destruct (big_bytes_len t ltac:(lia)) as (n0 & Eb & L1 & L2).
  assert (Hn0 : (2 <= n0)%nat).
  { destruct n0 as [|[|n0]]; [exfalso..|lia]; [change (256 ^ Z.of_nat 1) with 256 in L2|change (256 ^ Z.of_nat 2) with 65536 in L2]; change (2 ^ 16) with 65536 in H1; lia. }
  assert (Hn254 : Z.of_nat n0 < 254).
  { destruct (Z.ltb_spec (Z.of_nat n0) 254) as [|Hge]; [assumption|exfalso]. assert (2 ^ 2032 <= 256 ^ Z.of_nat n0); [|lia].
    change 256 with (2 ^ 8). rewrite <- Z.pow_mul_r by lia. apply Z.pow_le_mono_r; lia. }
  destruct n0 as [|[|n]]; [lia|lia|]. clear Hn0.
  destruct (leading t n) as (Hq & El).
  { replace (Z.of_nat n + 2) with (Z.of_nat (S (S n))) by lia. replace (Z.of_nat n + 3) with (Z.of_nat (S (S (S n)))) by lia. exact (conj L1 L2). }
  set (q := t / 256 ^ Z.of_nat n) in *. set (u := 256 ^ Z.of_nat n) in *. assert (Hu : 0 < u) by (apply Z.pow_pos_nonneg; lia).
  assert (Hz : zlen (big_bytes t) = Z.of_nat n + 3) by (rewrite Eb; unfold zlen; rewrite be_put_length; lia).
  unfold TargetToCompact. cbv zeta. rewrite Hz, Eb, El. cbn [index nth_error bind].
  assert (Hqt : q * u <= t < q * u + u) by (apply div_bounds; lia).
  pose proof (div_bounds q 65536 ltac:(lia) ltac:(lia)) as D0. pose proof (div_bounds q 256 ltac:(lia) ltac:(lia)) as D1.
  pose proof (div_bounds (q / 256) 256 ltac:(lia) ltac:(apply Z.div_pos; lia)) as D2. rewrite Z.div_div in D2 by lia. change (256 * 256) with 65536 in D2.
  pose proof (Z.mod_pos_bound (q / 256) 256 ltac:(lia)) as M1. pose proof (Z.mod_pos_bound q 256 ltac:(lia)) as M2.
  assert (D3 : q / 256 = q / 65536 * 256 + (q / 256) mod 256).
  { pose proof (Z.div_mod (q / 256) 256 ltac:(lia)) as D. rewrite Z.div_div in D by lia. change (256 * 256) with 65536 in D. lia. }
  pose proof (Z.div_mod q 256 ltac:(lia)) as D4.
  set (b0 := q / 65536) in *. set (b1 := (q / 256) mod 256) in *. set (b2 := q mod 256) in *.
  assert (B0 : 1 <= b0 < 256) by lia.
  assert (C : forall e m, 3 <= e < 256 -> 2 ^ 15 <= m < 2 ^ 23 -> let c := e * 2 ^ 24 + m in
    0 <= c < 2 ^ 32 /\ c mod 2 ^ 24 = m /\ c / 2 ^ 24 = e).
  { intros e m He Hm. cbv zeta. split; [lia|]. split; [rewrite Z.add_comm, Z.mod_add by lia; apply Z.mod_small; lia|].
    rewrite Z.add_comm, Z.div_add by lia. rewrite Z.div_small by lia. reflexivity. }
  assert (W : forall x, 0 <= x < 2 ^ 32 -> w32 x = x) by (intros x Hx; apply Z.mod_small; unfold two32; lia).
  destruct (Z.leb_spec 128 b0) as [Hhi|Hlo].
  - replace (3 <=? Z.of_nat n + 3) with true by (symmetry; apply Z.leb_le; lia). cbn [andb].
    eexists. split; [reflexivity|].
    assert (E : Z.lor (Z.lor (w32 (Z.shiftl (w32 (Z.of_nat n + 3 + 1)) 24)) (w32 (Z.shiftl b0 8))) b1 = (Z.of_nat n + 4) * 2 ^ 24 + (b0 * 256 + b1)).
    { rewrite !Z.shiftl_mul_pow2 by lia. rewrite (W (Z.of_nat n + 3 + 1)) by lia. rewrite (W (_ * 2 ^ 24)) by lia. rewrite (W (b0 * 2 ^ 8)) by lia.
      rewrite (lor_add (Z.of_nat n + 3 + 1) 24 (b0 * 2 ^ 8)) by lia.
      replace ((Z.of_nat n + 3 + 1) * 2 ^ 24 + b0 * 2 ^ 8) with (((Z.of_nat n + 4) * 2 ^ 16 + b0) * 2 ^ 8) by lia.
      rewrite lor_add by lia. lia. }
    rewrite E. destruct (C (Z.of_nat n + 4) (b0 * 256 + b1) ltac:(lia) ltac:(lia)) as (C1 & C2 & C3). cbv zeta in C1, C2, C3. rewrite C2, C3.
    split; [exact C1|]. split; [lia|]. split; [lia|]. split; [lia|]. cbv zeta.
    replace (Z.of_nat n + 4 - 3) with (Z.succ (Z.of_nat n)) by lia. rewrite Z.pow_succ_r by lia. fold u.
    assert (Eq : q = (b0 * 256 + b1) * 256 + b2) by lia. rewrite Eq in Hqt.
    assert (0 <= b2 * u) by (apply Z.mul_nonneg_nonneg; lia). assert (b2 * u <= 255 * u) by (apply Z.mul_le_mono_nonneg_r; lia). lia.
  - replace ((false && (3 <=? Z.of_nat n + 3))) with false by reflexivity. cbn [andb].
    eexists. split; [reflexivity|].
    assert (E : Z.lor (Z.lor (Z.lor (w32 (Z.shiftl (w32 (Z.of_nat n + 3)) 24)) (w32 (Z.shiftl b0 16))) (w32 (Z.shiftl b1 8))) b2 =
                (Z.of_nat n + 3) * 2 ^ 24 + (b0 * 65536 + b1 * 256 + b2)).
    { rewrite !Z.shiftl_mul_pow2 by lia. rewrite (W (Z.of_nat n + 3)) by lia. rewrite (W (_ * 2 ^ 24)) by lia. rewrite (W (b0 * 2 ^ 16)) by lia. rewrite (W (b1 * 2 ^ 8)) by lia.
      rewrite (lor_add (Z.of_nat n + 3) 24 (b0 * 2 ^ 16)) by lia.
      replace ((Z.of_nat n + 3) * 2 ^ 24 + b0 * 2 ^ 16) with (((Z.of_nat n + 3) * 2 ^ 8 + b0) * 2 ^ 16) by lia.
      rewrite lor_add by lia.
      replace (((Z.of_nat n + 3) * 2 ^ 8 + b0) * 2 ^ 16 + b1 * 2 ^ 8) with ((((Z.of_nat n + 3) * 2 ^ 8 + b0) * 2 ^ 8 + b1) * 2 ^ 8) by lia.
      rewrite lor_add by lia. lia. }
    rewrite E. destruct (C (Z.of_nat n + 3) (b0 * 65536 + b1 * 256 + b2) ltac:(lia) ltac:(lia)) as (C1 & C2 & C3). cbv zeta in C1, C2, C3. rewrite C2, C3.
    split; [exact C1|]. split; [lia|]. split; [lia|]. split; [lia|]. cbv zeta.
    replace (Z.of_nat n + 3 - 3) with (Z.of_nat n) by lia. fold u.
    replace (b0 * 65536 + b1 * 256 + b2) with q by lia. exact Hqt.
Qed.
Lemma target_max : BlockTargetMax = 2 ^ 240.
Proof. reflexivity. Qed.
