(** Property C120: compact targets are ordered like targets and stable. *)
From Coq Require Import ZArith List Lia Bool.
Import ListNotations.
From Verif.Model Require Import Base Target.
From Verif.Proofs Require Import TargetFacts.
Open Scope Z_scope.

(** The target a compact number stands for (the usual "n-bits" expansion). *)
Definition expand (c : Z) : Z := (c mod 2 ^ 24) * 256 ^ (c / 2 ^ 24 - 3).

Lemma split_unique m1 m2 e1 e2 t1 t2 :
  2 ^ 15 <= m1 < 2 ^ 23 -> 2 ^ 15 <= m2 < 2 ^ 23 -> 3 <= e1 -> 3 <= e2 -> t1 <= t2 ->
  m1 * 256 ^ (e1 - 3) <= t1 < m1 * 256 ^ (e1 - 3) + 256 ^ (e1 - 3) ->
  m2 * 256 ^ (e2 - 3) <= t2 < m2 * 256 ^ (e2 - 3) + 256 ^ (e2 - 3) ->
  e1 < e2 \/ e1 = e2 /\ m1 <= m2.
Proof.
  intros M1 M2 E1 E2 Ht B1 B2. destruct (Z.lt_trichotomy e1 e2) as [?|[->|Hgt]]; [left; lia| |exfalso].
  - right. split; [reflexivity|]. set (u := 256 ^ (e2 - 3)) in *. assert (0 < u) by (apply Z.pow_pos_nonneg; lia). nia.
  - set (u := 256 ^ (e2 - 3)) in *. assert (Hu : 0 < u) by (apply Z.pow_pos_nonneg; lia).
    assert (Hle : 256 * u <= 256 ^ (e1 - 3)).
    { unfold u. rewrite <- Z.pow_succ_r by lia. apply Z.pow_le_mono_r; lia. }
    set (v := 256 ^ (e1 - 3)) in *. nia.
Qed.

(** A larger target has no smaller compact number: n-bits can be compared as numbers. *)
Theorem C120_compact_monotone t1 t2 c1 c2 :
  2 ^ 16 <= t1 -> t1 <= t2 -> t2 < 2 ^ 2032 ->
  TargetToCompact t1 = Ok c1 -> TargetToCompact t2 = Ok c2 -> c1 <= c2.
Proof.
  intros H1 H12 H2 E1 E2.
  destruct (compact_value t1 ltac:(lia)) as (c1' & E1' & R1 & A1 & A1' & X1 & V1).
  destruct (compact_value t2 ltac:(lia)) as (c2' & E2' & R2 & A2 & A2' & X2 & V2).
  rewrite E1 in E1'. rewrite E2 in E2'. injection E1' as <-. injection E2' as <-. cbv zeta in *.
  pose proof (Z.div_mod c1 (2 ^ 24) ltac:(lia)). pose proof (Z.div_mod c2 (2 ^ 24) ltac:(lia)).
  destruct (split_unique _ _ _ _ t1 t2 (conj A1' A1) (conj A2' A2) X1 X2 H12 V1 V2) as [?|[? ?]]; lia.
Qed.
Print Assumptions C120_compact_monotone.

(** Expanding a compact number and compacting it again gives the same number:
    the loss of precision happens once.  So the compact form is canonical. *)
Theorem C120_compact_stable t c :
  2 ^ 16 <= t < 2 ^ 2032 -> TargetToCompact t = Ok c ->
  2 ^ 16 <= expand c <= t /\ TargetToCompact (expand c) = Ok c.
Proof.
  intros Ht E. destruct (compact_value t Ht) as (c' & E' & R & A & A' & X & V). rewrite E in E'. injection E' as <-. cbv zeta in V.
  fold (expand c) in V. assert (Hu : 1 <= 256 ^ (c / 2 ^ 24 - 3)) by (change 1 with (256 ^ 0); apply Z.pow_le_mono_r; lia).
  assert (H16 : 2 ^ 16 <= expand c).
  { destruct (Z.eq_dec (c / 2 ^ 24) 3) as [E3|N3]; [rewrite E3 in V; change (256 ^ (3 - 3)) with 1 in V; lia|].
    assert (256 <= 256 ^ (c / 2 ^ 24 - 3)) by (change 256 with (256 ^ 1) at 1; apply Z.pow_le_mono_r; lia). unfold expand; nia. }
  split; [lia|].
  destruct (compact_value (expand c) ltac:(lia)) as (d & Ed & Rd & B & B' & Y & W). rewrite Ed. f_equal. cbv zeta in W.
  assert (S1 : expand c <= expand c < expand c + 256 ^ (c / 2 ^ 24 - 3)) by lia.
  pose proof (Z.div_mod c (2 ^ 24) ltac:(lia)). pose proof (Z.div_mod d (2 ^ 24) ltac:(lia)).
  pose proof (split_unique _ _ _ _ (expand c) (expand c) (conj A' A) (conj B' B) X Y ltac:(lia) S1 W).
  pose proof (split_unique _ _ _ _ (expand c) (expand c) (conj B' B) (conj A' A) Y X ltac:(lia) W S1). lia.
Qed.
Print Assumptions C120_compact_stable.

(** A higher difficulty never has a larger n-bits value, over the range where DifficultyToCompact returns. *)
Theorem C120_difficulty_order d1 d2 :
  0 < d1 -> d1 <= d2 -> d2 <= 2 ^ 224 ->
  exists c1 c2, DifficultyToCompact d1 = Ok c1 /\ DifficultyToCompact d2 = Ok c2 /\ c2 <= c1.
Proof.
  intros H1 H12 H2. assert (TM : BlockTargetMax = 2 ^ 240) by (vm_compute; reflexivity).
  assert (T : forall d, 0 < d <= 2 ^ 224 -> DifficultyToTarget d = Ok (2 ^ 240 / d) /\ 2 ^ 16 <= 2 ^ 240 / d < 2 ^ 2032).
  { intros d Hd. unfold DifficultyToTarget. destruct (Z.eqb_spec d 0); [lia|]. destruct (Z.ltb_spec 0 d); [|lia]. rewrite TM. split; [reflexivity|].
    split; [apply Z.div_le_lower_bound; nia|]. apply Z.div_lt_upper_bound; [lia|].
    assert (2 ^ 240 < 2 ^ 2032) by (apply Z.pow_lt_mono_r; lia). nia. }
  destruct (T d1 ltac:(lia)) as [T1 B1]. destruct (T d2 ltac:(lia)) as [T2 B2].
  destruct (compact_value _ B1) as (c1 & E1 & _). destruct (compact_value _ B2) as (c2 & E2 & _).
  exists c1, c2. unfold DifficultyToCompact. rewrite T1, T2. cbn [bind]. split; [exact E1|]. split; [exact E2|].
  assert (L : 2 ^ 240 / d2 <= 2 ^ 240 / d1) by (apply Z.div_le_compat_l; lia).
  exact (C120_compact_monotone _ _ _ _ (proj1 B2) L (proj2 B1) E2 E1).
Qed.
Print Assumptions C120_difficulty_order.

(** Non-vacuous: neighbouring targets across the 0x80 boundary, where the length byte grows. *)
Example C120_nonvacuous :
  TargetToCompact 8388607 = Ok 58720255 /\ TargetToCompact 8388608 = Ok 67141632 /\
  expand 67141632 = 8388608 /\ TargetToCompact (expand 67141632) = Ok 67141632 /\
  DifficultyToCompact 1 = Ok 520159232 /\ DifficultyToCompact 2 = Ok 520126464.
Proof. vm_compute. repeat split; reflexivity. Qed.
