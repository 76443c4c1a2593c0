(** Lemmas about the emission schedule and the memo table. *)
From Coq Require Import ZArith List Lia Bool.
From Coq Require Import ZifyBool ZifyNat.
Import ListNotations.
From Verif.Model Require Import Base Policy.
From Verif.Spec Require Import PolicySpec.
Open Scope Z_scope.

Lemma reward_spec_bounds s h :
  s <= TotalSupply -> 0 <= reward_spec s h <= TotalSupply - s.
Proof.
  intros Hs. unfold reward_spec, TotalSupply in *.
  destruct (h =? 0); [lia|].
  destruct ((48692960 <=? h) && (4000 <=? 2100000000000000 - s)) eqn:Hc; [lia|].
  split; [apply Z.div_pos; lia|].
  apply Z.div_le_upper_bound; lia.
Qed.

Lemma reward_model s h :
  0 <= s <= TotalSupply -> BlockRewardBySupply s h = reward_spec s h.
Proof.
  intros Hs. unfold BlockRewardBySupply, reward_spec.
  destruct (h =? 0); [reflexivity|].
  assert (Hw : w64 (TotalSupply - s) = TotalSupply - s).
  { apply Z.mod_small. unfold TotalSupply, two64 in *. lia. }
  rewrite Hw. unfold EmissionTailStart, EmissionTailReward, EmissionSpeed.
  replace TotalSupply with 2100000000000000 in * by reflexivity.
  destruct ((48692960 <=? h) && (4000 <=? 2100000000000000 - s)) eqn:Hc; [reflexivity|].
  set (r := 2100000000000000 - s) in *.
  assert (Hr : 0 <= r <= 2100000000000000) by lia.
  change (2 ^ 22) with 4194304.
  assert (Hm : w64 (r - r mod 4194304) = r - r mod 4194304).
  { apply Z.mod_small. unfold two64.
    pose proof (Z.mod_pos_bound r 4194304 ltac:(lia)).
    pose proof (Z.mod_le r 4194304 ltac:(lia) ltac:(lia)). lia. }
  rewrite Hm.
  rewrite (Z.div_mod r 4194304) at 1 by lia.
  replace (4194304 * (r / 4194304) + r mod 4194304 - r mod 4194304) with ((r / 4194304) * 4194304) by ring.
  apply Z.div_mul; lia.
Qed.

Lemma supply_before_S n :
  supply_before (S n) = supply_before n + reward_spec (supply_before n) (Z.of_nat n).
Proof. reflexivity. Qed.

Lemma supply_before_bounds n : InitialSupply <= supply_before n <= TotalSupply.
Proof.
  induction n as [|n IH].
  - cbn. unfold InitialSupply, TotalSupply. lia.
  - rewrite supply_before_S.
    pose proof (reward_spec_bounds (supply_before n) (Z.of_nat n) ltac:(lia)). lia.
Qed.

Lemma supply_before_mono n m : (n <= m)%nat -> supply_before n <= supply_before m.
Proof.
  induction 1 as [|m Hle IH]; [lia|].
  rewrite supply_before_S.
  pose proof (reward_spec_bounds (supply_before m) (Z.of_nat m) ltac:(pose proof (supply_before_bounds m); lia)).
  lia.
Qed.

Lemma supply_loop_spec n : forall k,
  supply_loop n (supply_before k) (Z.of_nat k) = supply_before (n + k).
Proof.
  induction n as [|n IH]; intros k; cbn [supply_loop plus]; [reflexivity|].
  pose proof (supply_before_bounds k) as Hb.
  rewrite reward_model by (unfold InitialSupply in Hb; lia).
  rewrite <- supply_before_S.
  assert (Hw : w64 (supply_before (S k)) = supply_before (S k)).
  { apply Z.mod_small. pose proof (supply_before_bounds (S k)).
    unfold InitialSupply, TotalSupply, two64 in *. lia. }
  rewrite Hw. replace (Z.of_nat k + 1) with (Z.of_nat (S k)) by lia.
  rewrite IH. f_equal. lia.
Qed.

Lemma SupplyBetween_spec a b :
  0 <= a <= b -> SupplyBetween (supply_before (Z.to_nat a)) a b = supply_before (Z.to_nat b).
Proof.
  intros Hab. unfold SupplyBetween.
  replace a with (Z.of_nat (Z.to_nat a)) at 3 by lia.
  rewrite supply_loop_spec. f_equal. lia.
Qed.

(** ** The memo table *)
Definition cache_ok (c : cache) : Prop :=
  c <> [] /\ (zlen c <= two32) /\
  forall j s, nth_error c j = Some s -> s = supply_before (Z.to_nat (5000 * Z.of_nat j)).

Lemma cache_ok_initial : cache_ok initial_cache.
Proof.
  split; [discriminate|]. split; [unfold zlen, two32; cbn; lia|].
  intros [|[|j]] s Hs; cbn in Hs; try discriminate. injection Hs as <-. reflexivity.
Qed.

Lemma fill_step_spec j :
  0 <= j -> 5000 * (j + 1) < two32 ->
  fill_step (supply_before (Z.to_nat (5000 * j))) j = supply_before (Z.to_nat (5000 * (j + 1))).
Proof.
  intros Hj Hb. unfold fill_step, SupplyCacheInterval, w32.
  rewrite !(Z.mod_small (j * 5000)) by lia.
  rewrite (Z.mod_small (j * 5000 + 5000)) by lia.
  replace (5000 * j) with (j * 5000) by ring.
  replace (5000 * (j + 1)) with (j * 5000 + 5000) by ring.
  apply SupplyBetween_spec. lia.
Qed.

Lemma cache_ok_snoc c s :
  cache_ok c -> zlen c + 1 <= two32 -> s = supply_before (Z.to_nat (5000 * zlen c)) ->
  cache_ok (c ++ [s]).
Proof.
  intros (Hne & Hlen & Hc) Hl Hs. split; [destruct c; discriminate|].
  split; [unfold zlen in *; rewrite app_length; cbn [length]; lia|].
  intros j x Hx. destruct (Nat.lt_ge_cases j (length c)) as [Hlt|Hge].
  - rewrite nth_error_app1 in Hx by lia. apply Hc, Hx.
  - rewrite nth_error_app2 in Hx by lia.
    destruct (j - length c)%nat as [|k] eqn:Hk; [|destruct k; discriminate].
    cbn in Hx. injection Hx as <-. rewrite Hs. unfold zlen. do 2 f_equal. lia.
Qed.

(** Facts about the start index chosen by the code. *)
Lemma start_index_ok c endI :
  cache_ok c -> 0 <= endI < two32 ->
  let st := start_index c endI in
  0 <= st <= endI /\ (st < endI -> st = zlen c - 1) /\
  exists s, nth_error c (Z.to_nat st) = Some s /\ s = supply_before (Z.to_nat (5000 * st)).
Proof.
  intros (Hne & Hlen & Hc) HendI st.
  assert (Hpos : 1 <= zlen c) by (destruct c; [contradiction|unfold zlen; cbn [length]; lia]).
  assert (Hin : 0 <= st < zlen c /\ st <= endI /\ (st < endI -> st = zlen c - 1)).
  { subst st. unfold start_index, w32.
    rewrite (Z.mod_small (zlen c - 1)) by lia.
    destruct (zlen c =? 0) eqn:H0; [lia|].
    destruct (zlen c - 1 <? endI) eqn:H1; lia. }
  destruct Hin as (Hr & Hle & Himp).
  split; [lia|]. split; [exact Himp|].
  destruct (nth_error c (Z.to_nat st)) as [s|] eqn:Hs.
  - exists s. split; [reflexivity|]. apply Hc in Hs. rewrite Hs. do 2 f_equal. lia.
  - exfalso. apply nth_error_None in Hs. unfold zlen in Hr. lia.
Qed.

Lemma fill_loop_ok n : forall i c,
  cache_ok c -> (n = O \/ i = zlen c - 1) -> 0 <= i ->
  5000 * (i + Z.of_nat n) < two32 ->
  let '(s', c') := fill_loop n (supply_before (Z.to_nat (5000 * i))) i c in
  s' = supply_before (Z.to_nat (5000 * (i + Z.of_nat n))) /\ cache_ok c'.
Proof.
  induction n as [|n IH]; intros i c Hc Hi Hpos Hb; cbn [fill_loop].
  - rewrite Z.add_0_r. auto.
  - destruct Hi as [Hi|Hi]; [discriminate|].
    assert (Hstep : fill_step (supply_before (Z.to_nat (5000 * i))) i
                    = supply_before (Z.to_nat (5000 * (i + 1)))).
    { apply fill_step_spec; lia. }
    rewrite Hstep.
    specialize (IH (i + 1) (c ++ [supply_before (Z.to_nat (5000 * (i + 1)))])).
    replace (i + Z.of_nat (S n)) with (i + 1 + Z.of_nat n) by lia.
    apply IH; [|right|lia|lia].
    + apply cache_ok_snoc; [exact Hc|unfold two32 in *; lia|].
      do 2 f_equal. lia.
    + unfold zlen in *. rewrite app_length. cbn [length]. lia.
Qed.

(** ** The end of the emission: bounds for the supply still to be emitted. *)
Definition remaining (n : nat) : Z := TotalSupply - supply_before n.
(** The tail start as an opaque natural number (never evaluated). *)
Lemma tail_sig : {n : nat | Z.of_nat n = 48692960}.
Proof. exists (Z.to_nat 48692960). apply Z2Nat.id. lia. Qed.
Definition tail_nat : nat := proj1_sig tail_sig.
Lemma tail_nat_Z : Z.of_nat tail_nat = 48692960.
Proof. exact (proj2_sig tail_sig). Qed.
Global Opaque tail_nat.

Lemma remaining_nonneg n : 0 <= remaining n.
Proof. unfold remaining. pose proof (supply_before_bounds n). lia. Qed.

Lemma remaining_S_early n :
  (1 <= n)%nat -> Z.of_nat n < 48692960 ->
  remaining (S n) = remaining n - remaining n / 2^22.
Proof.
  intros H1 Hn. unfold remaining. rewrite supply_before_S. unfold reward_spec.
  replace (Z.of_nat n =? 0) with false by lia.
  replace (48692960 <=? Z.of_nat n) with false by lia.
  cbn [andb]. unfold TotalSupply. lia.
Qed.

Lemma remaining_S_late n :
  48692960 <= Z.of_nat n ->
  remaining (S n) = if 4000 <=? remaining n then remaining n - 4000 else remaining n.
Proof.
  intros Hn. unfold remaining. rewrite supply_before_S. unfold reward_spec.
  replace (Z.of_nat n =? 0) with false by lia.
  replace (48692960 <=? Z.of_nat n) with true by lia.
  cbn [andb]. unfold TotalSupply.
  destruct (4000 <=? 2100000000000000 - supply_before n) eqn:Hc; [lia|].
  pose proof (remaining_nonneg n) as Hr. unfold remaining, TotalSupply in Hr.
  rewrite Z.div_small; lia.
Qed.

(** Fixed-point powers of (1 - 2^-22), rounded down / up. *)
Definition fp : Z := 2^120.
Definition c1 : Z := fp - 2^98.
Fixpoint pow_lo (p : positive) : Z :=
  match p with
  | xH => c1
  | xO q => let x := pow_lo q in x * x / fp
  | xI q => let x := pow_lo q in (x * x / fp) * c1 / fp
  end.
Definition cdiv (a b : Z) : Z := - (- a / b).
Fixpoint pow_hi (p : positive) : Z :=
  match p with
  | xH => c1
  | xO q => let x := pow_hi q in cdiv (x * x) fp
  | xI q => let x := pow_hi q in cdiv (cdiv (x * x) fp * c1) fp
  end.

Lemma fp_pos : 0 < fp. Proof. reflexivity. Qed.
Lemma c1_pos : 0 < c1. Proof. reflexivity. Qed.

Lemma pow_lo_nonneg p : 0 <= pow_lo p.
Proof.
  pose proof fp_pos. pose proof c1_pos.
  induction p as [q IH|q IH|]; cbn [pow_lo]; [| |lia].
  - apply Z.div_pos; [|lia]. apply Z.mul_nonneg_nonneg; [|lia]. apply Z.div_pos; [nia|lia].
  - apply Z.div_pos; [nia|lia].
Qed.

Lemma cdiv_nonneg a b : 0 <= a -> 0 < b -> 0 <= cdiv a b.
Proof. intros Ha Hb. unfold cdiv. assert (- a / b <= 0); [|lia].
  apply Z.div_le_upper_bound; lia. Qed.

Lemma pow_hi_nonneg p : 0 <= pow_hi p.
Proof.
  pose proof fp_pos. pose proof c1_pos.
  induction p as [q IH|q IH|]; cbn [pow_hi]; [| |lia].
  - apply cdiv_nonneg; [|lia]. apply Z.mul_nonneg_nonneg; [|lia]. apply cdiv_nonneg; [nia|lia].
  - apply cdiv_nonneg; [nia|lia].
Qed.

Lemma div_mul_le a b : 0 < b -> (a / b) * b <= a.
Proof. intros Hb. pose proof (Z.mul_div_le a b Hb). lia. Qed.

Lemma cdiv_mul_ge a b : 0 < b -> a <= cdiv a b * b.
Proof. intros Hb. unfold cdiv. pose proof (div_mul_le (- a) b Hb). lia. Qed.

(** one-step contraction *)
Lemma early_step_lo n :
  (1 <= n)%nat -> Z.of_nat n < 48692960 ->
  remaining n * c1 <= remaining (S n) * fp.
Proof.
  intros H1 H2. rewrite remaining_S_early by assumption.
  set (r := remaining n). pose proof (div_mul_le r (2^22) ltac:(lia)) as Hd.
  unfold c1, fp. change (2^120) with (2^98 * 2^22). change (2^22) with 4194304 in *. nia.
Qed.

Lemma early_step_hi n :
  (1 <= n)%nat -> Z.of_nat n < 48692960 ->
  (remaining (S n) - (2^22 - 1)) * fp <= (remaining n - (2^22 - 1)) * c1.
Proof.
  intros H1 H2. rewrite remaining_S_early by assumption.
  set (r := remaining n).
  pose proof (Z.mod_pos_bound r (2^22) ltac:(lia)) as Hm.
  pose proof (Z.div_mod r (2^22) ltac:(lia)) as Hd.
  unfold c1, fp. change (2^120) with (2^98 * 2^22). change (2^22) with 4194304 in *. nia.
Qed.

Lemma compose_lo a b c x y :
  0 < fp -> 0 <= y -> 0 <= a ->
  a * x <= b * fp -> b * y <= c * fp -> a * (x * y / fp) <= c * fp.
Proof.
  intros Hfp Hy Ha H1 H2. pose proof (div_mul_le (x * y) fp Hfp) as Hd.
  assert (H3 : a * (x * y / fp) * fp <= c * fp * fp); [|nia].
  assert (a * (x * y / fp) * fp <= a * (x * y)) by nia.
  assert (a * (x * y) <= b * fp * y) by nia.
  assert (b * fp * y <= c * fp * fp) by nia. lia.
Qed.

Lemma compose_hi a b c x y :
  0 < fp -> 0 <= y -> 0 <= a ->
  b * fp <= a * x -> c * fp <= b * y -> c * fp <= a * cdiv (x * y) fp.
Proof.
  intros Hfp Hy Ha H1 H2. pose proof (cdiv_mul_ge (x * y) fp Hfp) as Hd.
  assert (H3 : c * fp * fp <= a * cdiv (x * y) fp * fp); [|nia].
  assert (a * (x * y) <= a * (cdiv (x * y) fp * fp)) by nia.
  assert (b * fp * y <= a * (x * y)) by nia.
  assert (c * fp * fp <= b * fp * y) by nia. lia.
Qed.

Lemma early_pow_lo p : forall n,
  (1 <= n)%nat -> Z.of_nat n + Z.pos p <= 48692960 ->
  remaining n * pow_lo p <= remaining (n + Pos.to_nat p) * fp.
Proof.
  pose proof fp_pos as Hfp. pose proof c1_pos as Hc1.
  induction p as [q IH|q IH|]; intros n H1 H2; cbn [pow_lo].
  - assert (Ha : remaining n * (pow_lo q * pow_lo q / fp)
                 <= remaining (n + Pos.to_nat q + Pos.to_nat q) * fp).
    { eapply compose_lo; [lia|apply pow_lo_nonneg|apply remaining_nonneg| |].
      - apply IH; lia.
      - apply IH; lia. }
    replace (n + Pos.to_nat q~1)%nat with (S (n + Pos.to_nat q + Pos.to_nat q)) by lia.
    eapply compose_lo; [lia|lia|apply remaining_nonneg|exact Ha|].
    apply early_step_lo; lia.
  - replace (n + Pos.to_nat q~0)%nat with (n + Pos.to_nat q + Pos.to_nat q)%nat by lia.
    eapply compose_lo; [lia|apply pow_lo_nonneg|apply remaining_nonneg| |].
    + apply IH; lia.
    + apply IH; lia.
  - replace (n + Pos.to_nat 1)%nat with (S n) by lia. apply early_step_lo; lia.
Qed.

Lemma early_pow_hi p : forall n,
  (1 <= n)%nat -> Z.of_nat n + Z.pos p <= 48692960 ->
  (forall k, Z.of_nat k <= 48692960 -> 2^22 - 1 <= remaining k) ->
  (remaining (n + Pos.to_nat p) - (2^22 - 1)) * fp <= (remaining n - (2^22 - 1)) * pow_hi p.
Proof.
  pose proof fp_pos as Hfp. pose proof c1_pos as Hc1.
  intros n H1 H2 Hbig. revert n H1 H2.
  induction p as [q IH|q IH|]; intros n H1 H2; cbn [pow_hi].
  - assert (Ha : (remaining (n + Pos.to_nat q + Pos.to_nat q) - (2^22-1)) * fp
                 <= (remaining n - (2^22-1)) * (cdiv (pow_hi q * pow_hi q) fp)).
    { eapply compose_hi; [lia|apply pow_hi_nonneg|specialize (Hbig n); lia| |].
      - apply IH; lia.
      - apply IH; lia. }
    replace (n + Pos.to_nat q~1)%nat with (S (n + Pos.to_nat q + Pos.to_nat q)) by lia.
    eapply compose_hi; [lia|lia|specialize (Hbig n); lia|exact Ha|].
    apply early_step_hi; lia.
  - replace (n + Pos.to_nat q~0)%nat with (n + Pos.to_nat q + Pos.to_nat q)%nat by lia.
    eapply compose_hi; [lia|apply pow_hi_nonneg|specialize (Hbig n); lia| |].
    + apply IH; lia.
    + apply IH; lia.
  - replace (n + Pos.to_nat 1)%nat with (S n) by lia. apply early_step_hi; lia.
Qed.

Lemma remaining_1 : remaining 1 = 1848000000000000.
Proof. reflexivity. Qed.

Lemma remaining_antimono n m : (n <= m)%nat -> remaining m <= remaining n.
Proof. intros H. unfold remaining. pose proof (supply_before_mono n m H). lia. Qed.

Lemma remaining_tail_lo : 16782002798 <= remaining tail_nat.
Proof.
  pose proof (early_pow_lo 48692959 1 ltac:(lia) ltac:(lia)) as H.
  replace (1 + Pos.to_nat 48692959)%nat with tail_nat in H by (pose proof tail_nat_Z; lia).
  rewrite remaining_1 in H.
  assert (Hc : 16782002797 * fp < 1848000000000000 * pow_lo 48692959) by (vm_compute; reflexivity).
  pose proof fp_pos. nia.
Qed.

Lemma remaining_tail_hi : remaining tail_nat <= 16786197064.
Proof.
  assert (Hbig : forall k, Z.of_nat k <= 48692960 -> 2^22 - 1 <= remaining k).
  { intros k Hk. pose proof remaining_tail_lo.
    pose proof (remaining_antimono k tail_nat ltac:(pose proof tail_nat_Z; lia)). lia. }
  pose proof (early_pow_hi 48692959 1 ltac:(lia) ltac:(lia) Hbig) as H.
  replace (1 + Pos.to_nat 48692959)%nat with tail_nat in H by (pose proof tail_nat_Z; lia).
  rewrite remaining_1 in H.
  assert (Hc : (1848000000000000 - (2^22-1)) * pow_hi 48692959 < (16786197065 - (2^22 - 1)) * fp)
    by (vm_compute; reflexivity).
  pose proof fp_pos. nia.
Qed.

Lemma remaining_tail_run k :
  4000 * Z.of_nat k <= remaining tail_nat ->
  remaining (tail_nat + k) = remaining tail_nat - 4000 * Z.of_nat k.
Proof.
  induction k as [|k IH]; intros Hk.
  - rewrite Nat.add_0_r. lia.
  - rewrite Nat.add_succ_r, remaining_S_late by (pose proof tail_nat_Z; lia).
    rewrite IH by lia.
    replace (4000 <=? remaining tail_nat - 4000 * Z.of_nat k) with true by lia. lia.
Qed.

Definition tail_blocks : Z := remaining tail_nat / 4000.

Lemma tail_blocks_bounds : 4195500 <= tail_blocks <= 4196549.
Proof.
  unfold tail_blocks. pose proof remaining_tail_lo. pose proof remaining_tail_hi.
  split; [apply Z.div_le_lower_bound; lia|].
  apply Z.lt_succ_r, Z.div_lt_upper_bound; lia.
Qed.

Lemma remaining_end k :
  tail_blocks <= Z.of_nat k -> 0 <= remaining (tail_nat + k) < 4000.
Proof.
  pose proof tail_blocks_bounds as Htb.
  intros Hk.
  assert (Hbase : 0 <= remaining (tail_nat + Z.to_nat tail_blocks) < 4000).
  { pose proof (Z.mod_pos_bound (remaining tail_nat) 4000 ltac:(lia)).
    pose proof (Z.div_mod (remaining tail_nat) 4000 ltac:(lia)).
    fold tail_blocks in *.
    rewrite remaining_tail_run by lia. lia. }
  replace k with (Z.to_nat tail_blocks + (k - Z.to_nat tail_blocks))%nat by lia.
  induction (k - Z.to_nat tail_blocks)%nat as [|j IH].
  - rewrite Nat.add_0_r. exact Hbase.
  - replace (tail_nat + (Z.to_nat tail_blocks + S j))%nat
      with (S (tail_nat + (Z.to_nat tail_blocks + j))) by lia.
    rewrite remaining_S_late by (pose proof tail_nat_Z; lia).
    replace (4000 <=? remaining (tail_nat + (Z.to_nat tail_blocks + j))) with false by lia.
    exact IH.
Qed.

Lemma block_reward_spec_unfold h :
  0 < h ->
  block_reward_spec h =
    if (48692960 <=? h) && (4000 <=? remaining (Z.to_nat h)) then 4000
    else remaining (Z.to_nat h) / 2^22.
Proof.
  intros Hh. unfold block_reward_spec, reward_spec.
  replace (h =? 0) with false by lia. reflexivity.
Qed.

Lemma reward_late h :
  48692960 <= h ->
  block_reward_spec h = if h - 48692960 <? tail_blocks then 4000 else 0.
Proof.
  intros Hh. rewrite block_reward_spec_unfold by lia.
  replace (48692960 <=? h) with true by lia. cbn [andb].
  replace (Z.to_nat h) with (tail_nat + Z.to_nat (h - 48692960))%nat by (pose proof tail_nat_Z; lia).
  pose proof (Z.mod_pos_bound (remaining tail_nat) 4000 ltac:(lia)) as Hm.
  pose proof (Z.div_mod (remaining tail_nat) 4000 ltac:(lia)) as Hd.
  fold tail_blocks in Hd.
  destruct (h - 48692960 <? tail_blocks) eqn:Hc.
  - rewrite remaining_tail_run by lia.
    replace (4000 <=? remaining tail_nat - 4000 * Z.of_nat (Z.to_nat (h - 48692960)))
      with true by lia. reflexivity.
  - pose proof (remaining_end (Z.to_nat (h - 48692960)) ltac:(lia)) as He.
    replace (4000 <=? remaining (tail_nat + Z.to_nat (h - 48692960))) with false by lia.
    apply Z.div_small. lia.
Qed.

Lemma reward_early h :
  0 < h < 48692960 -> block_reward_spec h = remaining (Z.to_nat h) / 2^22.
Proof.
  intros Hh. rewrite block_reward_spec_unfold by lia.
  replace (48692960 <=? h) with false by lia. reflexivity.
Qed.

Lemma reward_early_ge h : 0 < h < 48692960 -> 4001 <= block_reward_spec h.
Proof.
  intros Hh. rewrite reward_early by lia.
  pose proof remaining_tail_lo.
  pose proof (remaining_antimono (Z.to_nat h) tail_nat ltac:(pose proof tail_nat_Z; lia)).
  apply Z.div_le_lower_bound; lia.
Qed.

Lemma reward_antimono h1 h2 :
  0 < h1 <= h2 -> block_reward_spec h2 <= block_reward_spec h1.
Proof.
  intros Hh. destruct (Z_lt_le_dec h2 48692960) as [H2|H2].
  - rewrite !reward_early by lia. apply Z.div_le_mono; [lia|].
    apply remaining_antimono. lia.
  - destruct (Z_lt_le_dec h1 48692960) as [H1|H1].
    + pose proof (reward_early_ge h1 ltac:(lia)). rewrite (reward_late h2) by lia.
      destruct (_ <? _); lia.
    + rewrite !reward_late by lia.
      destruct (h1 - 48692960 <? tail_blocks) eqn:E1;
      destruct (h2 - 48692960 <? tail_blocks) eqn:E2; lia.
Qed.

Lemma reward_zero h : 52890000 <= h -> block_reward_spec h = 0.
Proof.
  intros Hh. rewrite reward_late by lia. pose proof tail_blocks_bounds.
  replace (h - 48692960 <? tail_blocks) with false by lia. reflexivity.
Qed.

Lemma reward_positive h : 0 < h <= 52888000 -> 0 < block_reward_spec h.
Proof.
  intros Hh. destruct (Z_lt_le_dec h 48692960) as [H1|H1].
  - pose proof (reward_early_ge h ltac:(lia)). lia.
  - rewrite reward_late by lia. pose proof tail_blocks_bounds.
    replace (h - 48692960 <? tail_blocks) with true by lia. lia.
Qed.

Lemma supply_before_S_reward h :
  0 <= h -> supply_before (S (Z.to_nat h)) = supply_before (Z.to_nat h) + block_reward_spec h.
Proof.
  intros Hh. rewrite supply_before_S. unfold block_reward_spec. do 2 f_equal. lia.
Qed.

Lemma supply_const n k : 52890000 <= Z.of_nat n -> supply_before (n + k) = supply_before n.
Proof.
  intros Hn. induction k as [|k IH]; [rewrite Nat.add_0_r; reflexivity|].
  rewrite Nat.add_succ_r.
  pose proof (supply_before_S_reward (Z.of_nat (n + k)) ltac:(lia)) as H.
  rewrite Nat2Z.id in H. rewrite H, IH, reward_zero by lia. lia.
Qed.

(** ** Sequential and concurrent callers *)
Lemma SupplyBetween_empty x s e : e <= s -> SupplyBetween x s e = x.
Proof.
  intros H. unfold SupplyBetween.
  destruct (Z.to_nat (e - s)) eqn:E; [reflexivity|lia].
Qed.

Lemma tail_sum h :
  u32 h ->
  SupplyBetween (supply_before (Z.to_nat (5000 * (h / 5000))))
                (w32 (h / 5000 * SupplyCacheInterval)) (w32 (h + 1))
  = supply_after_spec h.
Proof.
  unfold u32, w32, supply_after_spec, SupplyCacheInterval. intros Hh.
  change (2^32) with two32 in Hh.
  pose proof (Z.mul_div_le h 5000 ltac:(lia)) as Hle.
  assert (0 <= h / 5000) by (apply Z.div_pos; lia).
  rewrite (Z.mod_small (h / 5000 * 5000)) by lia.
  destruct (Z.eq_dec h (two32 - 1)) as [He|Hne].
  - replace ((h + 1) mod two32) with 0 by (subst h; reflexivity).
    rewrite SupplyBetween_empty by lia.
    assert (Hq : h / 5000 = 858993) by (subst h; reflexivity).
    pose proof (supply_const (Z.to_nat (5000 * (h / 5000)))
                  (S (Z.to_nat h) - Z.to_nat (5000 * (h / 5000)))%nat ltac:(lia)) as Hsc.
    rewrite <- Hsc. f_equal. lia.
  - rewrite (Z.mod_small (h + 1)) by lia.
    replace (h / 5000 * 5000) with (5000 * (h / 5000)) by ring.
    rewrite SupplyBetween_spec by lia. f_equal. lia.
Qed.

Lemma SupplyAfter_ok c h :
  cache_ok c -> u32 h ->
  cache_ok (fst (SupplyAfter c h)) /\ snd (SupplyAfter c h) = Ok (supply_after_spec h).
Proof.
  intros Hc Hh. unfold SupplyAfter. pose proof Hh as Hh'. unfold u32 in Hh'.
  change (2^32) with two32 in Hh'.
  change (h / SupplyCacheInterval) with (h / 5000).
  assert (HendI : 0 <= h / 5000 < two32).
  { split; [apply Z.div_pos; lia|apply Z.div_lt_upper_bound; lia]. }
  assert (Hmul : 5000 * (h / 5000) <= h) by (apply Z.mul_div_le; lia).
  pose proof (start_index_ok c (h / 5000) Hc HendI) as Hst.
  set (st := start_index c (h / 5000)) in *.
  destruct Hst as (Hr & Himp & s & Hs & Hsv).
  unfold index. rewrite Hs.
  pose proof (fill_loop_ok (Z.to_nat (h / 5000 - st)) st c Hc) as Hf.
  rewrite <- Hsv in Hf.
  destruct (fill_loop (Z.to_nat (h / 5000 - st)) s st c) as [s' c'].
  replace (st + Z.of_nat (Z.to_nat (h / 5000 - st))) with (h / 5000) in Hf by lia.
  destruct Hf as (Hs' & Hc'); [destruct (Z.eq_dec st (h / 5000)); [left; lia|right; apply Himp; lia]|lia|lia|].
  cbn [fst snd]. split; [exact Hc'|].
  rewrite Hs', tail_sum by exact Hh. reflexivity.
Qed.

Lemma BlockReward_ok c h :
  cache_ok c -> u32 h ->
  cache_ok (fst (BlockReward c h)) /\
  snd (BlockReward c h) = if h =? 0 then Panic else Ok (block_reward_spec h).
Proof.
  intros Hc Hh. unfold BlockReward.
  destruct (h <? 1) eqn:H1.
  - unfold u32 in Hh. replace (h =? 0) with true by lia. cbn. auto.
  - unfold u32 in Hh. replace (h =? 0) with false by lia.
    assert (Hw : w32 (h - 1) = h - 1).
    { apply Z.mod_small. change two32 with (2^32). lia. }
    rewrite Hw.
    pose proof (SupplyAfter_ok c (h - 1) Hc ltac:(unfold u32; lia)) as (Hc' & Hr).
    destruct (SupplyAfter c (h - 1)) as [c' r]. cbn [fst snd] in *.
    split; [exact Hc'|]. rewrite Hr. cbn [bind].
    unfold block_reward_spec, supply_after_spec.
    replace (S (Z.to_nat (h - 1))) with (Z.to_nat h) by lia.
    rewrite reward_model; [reflexivity|].
    pose proof (supply_before_bounds (Z.to_nat h)). unfold InitialSupply in *. lia.
Qed.

Definition call_height (o : policy_call) : Z :=
  match o with CallSupplyAfter h | CallBlockReward h => h end.

Lemma cache_after_ok hist :
  Forall (fun o => u32 (call_height o)) hist -> cache_ok (cache_after hist).
Proof.
  unfold cache_after. pose proof cache_ok_initial as Hi. revert Hi.
  generalize initial_cache.
  induction hist as [|o hist IH]; intros c Hc Hall; cbn [fold_left]; [exact Hc|].
  inversion Hall as [|? ? Ho Hrest]; subst.
  apply IH; [|exact Hrest]. destruct o as [h|h]; cbn [policy_step call_height] in *.
  - apply SupplyAfter_ok; assumption.
  - apply BlockReward_ok; assumption.
Qed.

(** *** the interleaving machine *)
Definition holds_lock (p : pc) : bool :=
  match p with TLocked _ | TLoop _ _ _ => true | _ => false end.

Definition pc_ok (c : cache) (p : pc) : Prop :=
  match p with
  | TIdle h | TLocked h => u32 h
  | TLoop h i s => u32 h /\ 0 <= i <= h / 5000 /\ (i < h / 5000 -> i = zlen c - 1) /\
                   s = supply_before (Z.to_nat (5000 * i))
  | TTail h i s => u32 h /\ 0 <= i /\
                   SupplyBetween s i (w32 (h + 1)) = supply_after_spec h
  | TDone h r => u32 h /\ r = supply_after_spec h
  | TPanicked _ => False
  end.

Definition machine_ok (m : machine) : Prop :=
  cache_ok (m_cache m) /\
  (forall t p, nth_error (m_threads m) t = Some p ->
     (holds_lock p = true <-> m_lock m = Some t) /\ pc_ok (m_cache m) p) /\
  (forall t, m_lock m = Some t -> exists p, nth_error (m_threads m) t = Some p /\ holds_lock p = true).

Lemma set_thread_nth l t p : (t < length l)%nat ->
  forall t', nth_error (set_thread l t p) t' = if Nat.eqb t' t then Some p else nth_error l t'.
Proof.
  intros Ht t'. unfold set_thread.
  destruct (Nat.eqb_spec t' t) as [->|Hne].
  - rewrite nth_error_app2; rewrite firstn_length_le by lia; [|lia].
    rewrite Nat.sub_diag. reflexivity.
  - destruct (Nat.lt_ge_cases t' t) as [Hlt|Hge].
    + rewrite nth_error_app1 by (rewrite firstn_length_le; lia).
      rewrite <- (firstn_skipn t l) at 2.
      rewrite nth_error_app1; [reflexivity|rewrite firstn_length_le; lia].
    + rewrite nth_error_app2; rewrite firstn_length_le by lia; [|lia].
      destruct (t' - t)%nat as [|k] eqn:Hk; [lia|]. cbn [nth_error].
      rewrite <- (firstn_skipn (S t) l) at 2.
      rewrite nth_error_app2; rewrite firstn_length_le by lia; [|lia].
      f_equal. lia.
Qed.

Lemma pc_ok_cache_irrel c c' p : holds_lock p = false -> pc_ok c p -> pc_ok c' p.
Proof. destruct p; cbn; intros H1 H2; try discriminate; exact H2. Qed.

Lemma machine_step_ok t m m' :
  machine_ok m -> machine_step t m = Some m' -> machine_ok m'.
Proof.
  intros (Hc & Ht & Hl) Hstep. unfold machine_step in Hstep.
  destruct (nth_error (m_threads m) t) as [p|] eqn:Hp; [|discriminate].
  assert (Hlen : (t < length (m_threads m))%nat).
  { apply nth_error_Some. rewrite Hp. discriminate. }
  destruct (Ht t p Hp) as (Hhl & Hpc).
  (* generic closing argument *)
  assert (Hclose : forall c' lk p',
    cache_ok c' ->
    pc_ok c' p' ->
    (holds_lock p' = true <-> lk = Some t) ->
    (forall t' q, t' <> t -> nth_error (m_threads m) t' = Some q ->
        (holds_lock q = true <-> lk = Some t') /\ pc_ok c' q) ->
    (forall t', lk = Some t' -> t' = t) ->
    machine_ok {| m_cache := c'; m_lock := lk; m_threads := set_thread (m_threads m) t p' |}).
  { intros c' lk p' Hc' Hp' Hlk Hoth Hown. unfold machine_ok. cbn [m_cache m_lock m_threads].
    split; [exact Hc'|]. split.
    - intros t' q Hq. rewrite set_thread_nth in Hq by exact Hlen.
      destruct (Nat.eqb_spec t' t) as [->|Hne].
      + injection Hq as <-. auto.
      + apply Hoth; assumption.
    - intros t' Hlk'. pose proof (Hown t' Hlk') as ->. exists p'. split; [|apply Hlk; exact Hlk'].
      rewrite set_thread_nth by exact Hlen. rewrite Nat.eqb_refl. reflexivity. }
  (* another thread that holds the lock cannot exist when t holds it *)
  assert (Hothers : forall t' q, t' <> t -> nth_error (m_threads m) t' = Some q ->
             m_lock m = Some t -> holds_lock q = false).
  { intros t' q Hne Hq Hlk. destruct (holds_lock q) eqn:Hh; [|reflexivity].
    apply (Ht t' q Hq) in Hh. congruence. }
  destruct p as [h|h|h i s|h i s|h r|h]; try discriminate; cbn [pc_ok holds_lock] in Hpc, Hhl.
  - (* Lock *)
    destruct (m_lock m) as [o|] eqn:Hlk; [discriminate|]. injection Hstep as <-.
    apply Hclose; [exact Hc|exact Hpc|cbn; tauto| |congruence].
    intros t' q Hne Hq. destruct (Ht t' q Hq) as (Hq1 & Hq2). split; [|exact Hq2].
    split; [intros Hh; apply Hq1 in Hh; discriminate|congruence].
  - (* reads *)
    injection Hstep as <-. assert (Hlk : m_lock m = Some t) by (apply Hhl; reflexivity).
    assert (HendI : 0 <= h / 5000 < two32).
    { unfold u32 in Hpc. change (2^32) with two32 in Hpc.
      split; [apply Z.div_pos; lia|apply Z.div_lt_upper_bound; lia]. }
    pose proof (start_index_ok (m_cache m) (h / 5000) Hc HendI) as Hst.
    unfold SupplyCacheInterval.
    set (st := start_index (m_cache m) (h / 5000)) in *.
    destruct Hst as (Hr & Himp & s & Hs & Hsv).
    unfold index. rewrite Hs.
    apply Hclose; [exact Hc| |cbn; tauto| |congruence].
    + cbn. split; [exact Hpc|]. split; [exact Hr|]. split; [exact Himp|exact Hsv].
    + intros t' q Hne Hq. apply (Ht t' q Hq).
  - (* fill loop *)
    assert (Hlk : m_lock m = Some t) by (apply Hhl; reflexivity).
    destruct Hpc as (Hu & Hi & Himp & Hsv).
    unfold SupplyCacheInterval in Hstep.
    assert (Hmul : 5000 * (h / 5000) <= h) by (apply Z.mul_div_le; lia).
    pose proof Hu as Hu'. unfold u32 in Hu'. change (2^32) with two32 in Hu'.
    destruct (i <? h / 5000) eqn:Hlt; injection Hstep as <-.
    + assert (Hstep' : fill_step s i = supply_before (Z.to_nat (5000 * (i + 1)))).
      { rewrite Hsv. apply fill_step_spec; lia. }
      apply Hclose; [| |cbn; tauto| |congruence].
      * apply cache_ok_snoc; [exact Hc|unfold two32 in *; lia|].
        rewrite Hstep'. do 2 f_equal. lia.
      * cbn. split; [exact Hu|]. split; [lia|]. split; [|exact Hstep'].
        intros _. unfold zlen in *. rewrite app_length. cbn [length]. lia.
      * intros t' q Hne Hq. destruct (Ht t' q Hq) as (Hq1 & Hq2). split; [exact Hq1|].
        eapply pc_ok_cache_irrel; [|exact Hq2]. eapply Hothers; eassumption.
    + apply Hclose; [exact Hc| |cbn; split; discriminate| |congruence].
      * cbn. split; [exact Hu|]. split.
        { apply Z.mod_pos_bound. unfold two32. lia. }
        replace i with (h / 5000) in Hsv by lia. rewrite Hsv. apply tail_sum. exact Hu.
      * intros t' q Hne Hq. destruct (Ht t' q Hq) as (Hq1 & Hq2). split; [|exact Hq2].
        split; [|discriminate]. intros Hh. rewrite (Hothers t' q Hne Hq Hlk) in Hh. discriminate.
  - (* final loop *)
    injection Hstep as <-. destruct Hpc as (Hu & Hi & Hsum).
    assert (Hnl : m_lock m <> Some t) by (intros Hx; apply Hhl in Hx; discriminate).
    assert (Hm : machine_ok {| m_cache := m_cache m; m_lock := m_lock m;
       m_threads := set_thread (m_threads m) t
         (if i <? w32 (h + 1) then TTail h (i + 1) (w64 (s + BlockRewardBySupply s i)) else TDone h s) |}).
    { unfold machine_ok. cbn [m_cache m_lock m_threads]. split; [exact Hc|]. split.
      - intros t' q Hq. rewrite set_thread_nth in Hq by exact Hlen.
        destruct (Nat.eqb_spec t' t) as [->|Hne]; [|apply Ht; exact Hq].
        injection Hq as <-. destruct (i <? w32 (h + 1)) eqn:Hlt; cbn [pc_ok holds_lock].
        + split; [split; [discriminate|intros Hx; contradiction]|].
          split; [exact Hu|]. split; [lia|]. rewrite <- Hsum. unfold SupplyBetween.
          replace (Z.to_nat (w32 (h + 1) - i)) with (S (Z.to_nat (w32 (h + 1) - (i + 1)))) by lia.
          reflexivity.
        + split; [split; [discriminate|intros Hx; contradiction]|].
          split; [exact Hu|]. rewrite <- Hsum. unfold SupplyBetween.
          replace (Z.to_nat (w32 (h + 1) - i)) with O by lia. reflexivity.
      - intros t' Hlk'. destruct (Hl t' Hlk') as (q & Hq & Hh). exists q. split; [|exact Hh].
        rewrite set_thread_nth by exact Hlen.
        destruct (Nat.eqb_spec t' t) as [->|Hne]; [contradiction|exact Hq]. }
    exact Hm.
Qed.

Lemma machine_start_ok c heights :
  cache_ok c -> Forall u32 heights -> machine_ok (machine_start c heights).
Proof.
  intros Hc Hh. unfold machine_start, machine_ok. cbn. split; [exact Hc|]. split; [|discriminate].
  intros t p Hp. rewrite nth_error_map in Hp.
  destruct (nth_error heights t) as [h|] eqn:Hht; [|discriminate]. injection Hp as <-.
  cbn. split; [split; discriminate|]. eapply Forall_forall; [exact Hh|].
  eapply nth_error_In. exact Hht.
Qed.

Lemma run_schedule_ok schedule : forall m, machine_ok m -> machine_ok (run_schedule schedule m).
Proof.
  induction schedule as [|t sch IH]; intros m Hm; cbn; [exact Hm|].
  apply IH. destruct (machine_step t m) as [m'|] eqn:Hs; [|exact Hm].
  eapply machine_step_ok; eassumption.
Qed.

(** No deadlock: while some call is unfinished, some goroutine can move. *)
Definition finished (p : pc) : bool := match p with TDone _ _ => true | _ => false end.

Lemma machine_progress m t p :
  machine_ok m -> nth_error (m_threads m) t = Some p -> finished p = false ->
  exists t' m', machine_step t' m = Some m'.
Proof.
  intros (Hc & Ht & Hl) Hp Hf.
  destruct (m_lock m) as [o|] eqn:Hlk.
  - destruct (Hl o eq_refl) as (q & Hq & Hh).
    exists o. unfold machine_step. rewrite Hq.
    destruct q as [h|h|h i s|h i s|h r|h]; try discriminate.
    + eexists; reflexivity.
    + cbn. destruct (i <? h / SupplyCacheInterval); eexists; reflexivity.
  - exists t. unfold machine_step. rewrite Hp.
    destruct (Ht t p Hp) as (Hhl & Hpc).
    destruct p as [h|h|h i s|h i s|h r|h]; try discriminate; try contradiction.
    + rewrite Hlk. eexists; reflexivity.
    + eexists; reflexivity.
    + cbn. destruct (i <? h / SupplyCacheInterval); eexists; reflexivity.
    + eexists; reflexivity.
Qed.

(** Every step decreases a measure of one goroutine and leaves the others, so
    every call finishes after finitely many of its own steps. *)
Lemma threads_preserved schedule : forall m t,
  (nth_error (m_threads m) t = None <-> nth_error (m_threads (run_schedule schedule m)) t = None).
Proof.
  induction schedule as [|t0 sch IH]; intros m t; cbn; [tauto|].
  destruct (machine_step t0 m) as [m'|] eqn:Hs; [|apply IH].
  rewrite <- IH. unfold machine_step in Hs.
  destruct (nth_error (m_threads m) t0) as [p|] eqn:Hp; [|discriminate].
  assert (Hlen : (t0 < length (m_threads m))%nat).
  { apply nth_error_Some. rewrite Hp. discriminate. }
  assert (Hgen : forall q, nth_error (m_threads m) t = None <-> nth_error (set_thread (m_threads m) t0 q) t = None).
  { intros q. rewrite set_thread_nth by exact Hlen.
    destruct (Nat.eqb_spec t t0) as [->|]; [rewrite Hp; split; discriminate|tauto]. }
  destruct p as [h|h|h i s|h i s|h r|h]; try discriminate.
  - destruct (m_lock m); [discriminate|]. injection Hs as <-. apply Hgen.
  - injection Hs as <-. apply Hgen.
  - destruct (i <? _); injection Hs as <-; apply Hgen.
  - injection Hs as <-. apply Hgen.
Qed.

(** ** Termination: every step of the machine uses up one unit of a finite budget. *)
Definition pc_budget (p : pc) : Z :=
  match p with
  | TIdle h => h / 5000 + 5004
  | TLocked h => h / 5000 + 5003
  | TLoop h i _ => Z.max 0 (h / 5000 - i) + 5002
  | TTail h i _ => Z.max 0 (w32 (h + 1) - i) + 1
  | TDone _ _ | TPanicked _ => 0
  end.
Fixpoint sum_budget (l : list pc) : Z :=
  match l with [] => 0 | p :: l' => pc_budget p + sum_budget l' end.

Lemma sum_budget_app l1 l2 : sum_budget (l1 ++ l2) = sum_budget l1 + sum_budget l2.
Proof. induction l1 as [|p l1 IH]; cbn; [reflexivity|rewrite IH; lia]. Qed.

Lemma sum_budget_set l t p q :
  nth_error l t = Some p -> sum_budget (set_thread l t q) = sum_budget l - pc_budget p + pc_budget q.
Proof.
  intros Hp. apply nth_error_split in Hp as (l1 & l2 & -> & <-).
  unfold set_thread. rewrite firstn_app, firstn_all, Nat.sub_diag, firstn_O, app_nil_r.
  replace (skipn (S (length l1)) (l1 ++ p :: l2)) with l2.
  - rewrite !sum_budget_app. cbn. lia.
  - rewrite skipn_app. replace (S (length l1) - length l1)%nat with 1%nat by lia.
    rewrite skipn_all2 by lia. reflexivity.
Qed.

Lemma pc_budget_nonneg c p : pc_ok c p -> 0 <= pc_budget p.
Proof.
  destruct p as [h|h|h i s|h i s|h r|h]; cbn [pc_ok pc_budget]; intros H; try lia.
  - unfold u32 in H. pose proof (Z.div_pos h 5000). lia.
  - unfold u32 in H. pose proof (Z.div_pos h 5000). lia.
Qed.

Lemma sum_budget_nonneg m : machine_ok m -> 0 <= sum_budget (m_threads m).
Proof.
  intros (_ & Ht & _).
  assert (H : forall p, In p (m_threads m) -> 0 <= pc_budget p).
  { intros p Hp. apply In_nth_error in Hp as (t & Hp). destruct (Ht t p Hp) as (_ & Hpc).
    eapply pc_budget_nonneg, Hpc. }
  clear Ht. induction (m_threads m) as [|p l IH]; cbn; [lia|].
  pose proof (H p ltac:(left; reflexivity)). specialize (IH ltac:(intros; apply H; right; assumption)). lia.
Qed.

Lemma machine_step_budget t m m' :
  machine_ok m -> machine_step t m = Some m' ->
  sum_budget (m_threads m') <= sum_budget (m_threads m) - 1.
Proof.
  intros (Hc & Ht & Hl) Hs. unfold machine_step in Hs.
  destruct (nth_error (m_threads m) t) as [p|] eqn:Hp; [|discriminate].
  destruct (Ht t p Hp) as (_ & Hpc).
  destruct p as [h|h|h i s|h i s|h r|h]; try discriminate; cbn [pc_ok] in Hpc.
  - destruct (m_lock m); [discriminate|]. injection Hs as <-. cbn [m_threads].
    rewrite (sum_budget_set _ _ _ _ Hp). cbn [pc_budget]. lia.
  - injection Hs as <-. cbn [m_threads]. rewrite (sum_budget_set _ _ _ _ Hp).
    unfold u32 in Hpc. change (2^32) with two32 in Hpc.
    pose proof (start_index_ok (m_cache m) (h / 5000) Hc
      ltac:(split; [apply Z.div_pos; lia|apply Z.div_lt_upper_bound; lia])) as (Hr & _ & s & Hs & _).
    change (h / SupplyCacheInterval) with (h / 5000). unfold index. rewrite Hs.
    cbn [pc_budget]. lia.
  - change (h / SupplyCacheInterval) with (h / 5000) in Hs.
    destruct Hpc as (Hu & Hi & _). unfold u32 in Hu. change (2^32) with two32 in Hu.
    destruct (i <? h / 5000) eqn:Hlt; injection Hs as <-; cbn [m_threads];
      rewrite (sum_budget_set _ _ _ _ Hp); cbn [pc_budget]; [lia|].
    pose proof (Z.mul_div_le h 5000 ltac:(lia)).
    pose proof (Z.mul_succ_div_gt h 5000 ltac:(lia)).
    unfold w32, SupplyCacheInterval. rewrite (Z.mod_small (h / 5000 * 5000)) by lia.
    pose proof (Z.mod_le (h + 1) two32 ltac:(lia) ltac:(unfold two32; lia)). lia.
  - injection Hs as <-. cbn [m_threads]. rewrite (sum_budget_set _ _ _ _ Hp).
    destruct (i <? w32 (h + 1)) eqn:Hlt; cbn [pc_budget]; lia.
Qed.

(** Number of scheduler picks that actually execute something. *)
Fixpoint effective_steps (schedule : list nat) (m : machine) : Z :=
  match schedule with
  | [] => 0
  | t :: rest => match machine_step t m with
                 | Some m' => 1 + effective_steps rest m'
                 | None => effective_steps rest m
                 end
  end.

Lemma effective_steps_bound schedule : forall m,
  machine_ok m -> effective_steps schedule m <= sum_budget (m_threads m).
Proof.
  induction schedule as [|t sch IH]; intros m Hm; cbn [effective_steps].
  - apply sum_budget_nonneg, Hm.
  - destruct (machine_step t m) as [m'|] eqn:Hs; [|apply IH, Hm].
    pose proof (machine_step_budget t m m' Hm Hs).
    specialize (IH m' (machine_step_ok t m m' Hm Hs)). lia.
Qed.

(** Thread [t] keeps working on the height it was started with. *)
Definition pc_height (p : pc) : Z :=
  match p with TIdle h | TLocked h | TLoop h _ _ | TTail h _ _ | TDone h _ | TPanicked h => h end.

Lemma machine_step_heights t m m' :
  machine_step t m = Some m' -> map pc_height (m_threads m') = map pc_height (m_threads m).
Proof.
  intros Hs. unfold machine_step in Hs.
  destruct (nth_error (m_threads m) t) as [p|] eqn:Hp; [|discriminate].
  assert (Hgen : forall q, pc_height q = pc_height p ->
            map pc_height (set_thread (m_threads m) t q) = map pc_height (m_threads m)).
  { intros q Hq. apply nth_error_split in Hp as (l1 & l2 & E & <-). rewrite E.
    unfold set_thread. rewrite firstn_app, firstn_all, Nat.sub_diag, firstn_O, app_nil_r.
    replace (skipn (S (length l1)) (l1 ++ p :: l2)) with l2.
    - rewrite !map_app. cbn. rewrite Hq. reflexivity.
    - rewrite skipn_app. replace (S (length l1) - length l1)%nat with 1%nat by lia.
      rewrite skipn_all2 by lia. reflexivity. }
  destruct p as [h|h|h i s|h i s|h r|h]; try discriminate.
  - destruct (m_lock m); [discriminate|]. injection Hs as <-. apply Hgen. reflexivity.
  - injection Hs as <-. apply Hgen. destruct (index _ _); reflexivity.
  - destruct (i <? _); injection Hs as <-; apply Hgen; reflexivity.
  - injection Hs as <-. apply Hgen. destruct (_ <? _); reflexivity.
Qed.

Lemma run_schedule_heights schedule : forall m,
  map pc_height (m_threads (run_schedule schedule m)) = map pc_height (m_threads m).
Proof.
  induction schedule as [|t sch IH]; intros m; cbn; [reflexivity|].
  fold (run_schedule sch (match machine_step t m with Some m' => m' | None => m end)).
  rewrite IH. destruct (machine_step t m) as [m'|] eqn:Hs; [|reflexivity].
  apply (machine_step_heights t), Hs.
Qed.
