(** Properties C01-C05: the emission schedule (package policy).

    Specification: Spec/PolicySpec.v.  [supply_after_spec h] is the plain sum
    InitialSupply + reward(0) + ... + reward(h); no cache, no wrap-around.
    [u32 h] says that h is a value of Go's uint32. *)
From Coq Require Import ZArith List Lia Bool.
Import ListNotations.
From Verif.Model Require Import Base Policy.
From Verif.Spec Require Import PolicySpec.
From Verif.Proofs Require Import PolicyFacts.
Open Scope Z_scope.

(** C01.  Whatever calls were made before, SupplyAfter(h) is the sum of the schedule. *)
Theorem C01_supply_after_history_independent :
  forall (history : list policy_call) (h : Z),
    Forall (fun o => u32 (call_height o)) history -> u32 h ->
    snd (SupplyAfter (cache_after history) h) = Ok (supply_after_spec h).
Proof. intros hist h Hh Hu. apply SupplyAfter_ok; [apply cache_after_ok, Hh|exact Hu]. Qed.
Print Assumptions C01_supply_after_history_independent.

(** The memo table really is filled by a history, out of order heights included. *)
Example C01_nonvacuous :
  Forall (fun o => u32 (call_height o)) [CallSupplyAfter 7; CallBlockReward 3] /\
  snd (SupplyAfter (cache_after [CallSupplyAfter 7; CallBlockReward 3]) 5)
    = Ok (252000000000000 + 440597534 + 440597429 + 440597324 + 440597219 + 440597113).
Proof.
  split; [|vm_compute; reflexivity].
  apply Forall_cons; [unfold u32; cbn; lia|]. apply Forall_cons; [unfold u32; cbn; lia|]. apply Forall_nil.
Qed.

(** C02.  Any number of goroutines, any interleaving, starting from the memo
    table left by any earlier calls: (1) no two are in the critical section,
    (2) a finished call returned the right value for its height, (3) none has
    panicked, (4) while one is unfinished some goroutine can move (no deadlock),
    and (5) every schedule makes at most [B] effective moves (so all finish). *)
Theorem C02_supply_after_concurrent :
  forall (history : list policy_call) (heights : list Z),
    Forall (fun o => u32 (call_height o)) history -> Forall u32 heights ->
    exists B, forall (schedule : list nat),
      let start := machine_start (cache_after history) heights in
      let m := run_schedule schedule start in
      length (m_threads m) = length heights /\
      (forall t1 t2 p1 p2,
         nth_error (m_threads m) t1 = Some p1 -> nth_error (m_threads m) t2 = Some p2 ->
         holds_lock p1 = true -> holds_lock p2 = true -> t1 = t2) /\
      (forall t h, nth_error heights t = Some h ->
         exists p, nth_error (m_threads m) t = Some p /\ pc_height p = h /\
           (forall r, p = TDone h r -> r = supply_after_spec h) /\
           p <> TPanicked h /\
           (finished p = false -> exists t' m', machine_step t' m = Some m')) /\
      effective_steps schedule start <= B.
Proof.
  intros hist heights Hh Hu. set (st := machine_start (cache_after hist) heights).
  exists (sum_budget (m_threads st)). intros schedule. cbn zeta.
  assert (Hst : machine_ok st) by (apply machine_start_ok; [apply cache_after_ok, Hh|exact Hu]).
  pose proof (run_schedule_ok schedule st Hst) as Hm.
  pose proof (run_schedule_heights schedule st) as Hhs.
  set (m := run_schedule schedule st) in *. destruct Hm as (Hc & Ht & Hl).
  assert (Hhs' : map pc_height (m_threads m) = heights).
  { rewrite Hhs. cbn. rewrite map_map. cbn. apply map_id. }
  split; [|split; [|split]].
  - rewrite <- Hhs', map_length. reflexivity.
  - intros t1 t2 p1 p2 H1 H2 L1 L2.
    apply (Ht t1 p1 H1) in L1. apply (Ht t2 p2 H2) in L2. congruence.
  - intros t h Hth. rewrite <- Hhs' in Hth. rewrite nth_error_map in Hth.
    destruct (nth_error (m_threads m) t) as [p|] eqn:Hp; [|discriminate].
    injection Hth as Hph. exists p. destruct (Ht t p Hp) as (_ & Hpc).
    repeat split.
    + exact Hph.
    + intros r ->. cbn in Hpc. apply Hpc.
    + intros ->. exact Hpc.
    + intros Hf. apply (machine_progress m t p); [split; [exact Hc|split; assumption]|exact Hp|exact Hf].
  - apply effective_steps_bound, Hst.
Qed.
Print Assumptions C02_supply_after_concurrent.

(** Two callers: the first is preempted inside the critical section while the
    second tries to lock (its step is skipped); both finish with the right value. *)
Example C02_nonvacuous :
  m_threads (run_schedule [0;0;1;0;1;0;1;0;1;0;0;1;1;1;1]%nat (machine_start initial_cache [1; 2]))
    = [TDone 1 252000440597534; TDone 2 (252000440597534 + 440597429)].
Proof. vm_compute. reflexivity. Qed.

(** C03.  Bounds and monotonicity of the values returned. *)
Theorem C03_supply_bounds_monotone :
  forall history1 history2 h1 h2 s1 s2,
    Forall (fun o => u32 (call_height o)) history1 ->
    Forall (fun o => u32 (call_height o)) history2 ->
    u32 h1 -> u32 h2 -> h1 <= h2 ->
    snd (SupplyAfter (cache_after history1) h1) = Ok s1 ->
    snd (SupplyAfter (cache_after history2) h2) = Ok s2 ->
    252000000000000 <= s1 <= s2 /\ s2 <= 2100000000000000.
Proof.
  intros hi1 hi2 h1 h2 s1 s2 Hh1 Hh2 Hu1 Hu2 Hle E1 E2.
  rewrite (C01_supply_after_history_independent hi1 h1 Hh1 Hu1) in E1. injection E1 as <-.
  rewrite (C01_supply_after_history_independent hi2 h2 Hh2 Hu2) in E2. injection E2 as <-.
  unfold supply_after_spec, u32 in *.
  pose proof (supply_before_bounds (S (Z.to_nat h1))) as B1.
  pose proof (supply_before_bounds (S (Z.to_nat h2))) as B2.
  pose proof (supply_before_mono (S (Z.to_nat h1)) (S (Z.to_nat h2)) ltac:(lia)) as B3.
  unfold InitialSupply, TotalSupply in *. lia.
Qed.
Print Assumptions C03_supply_bounds_monotone.

Example C03_nonvacuous :
  snd (SupplyAfter (cache_after [CallSupplyAfter 9]) 1) = Ok 252000440597534 /\
  snd (SupplyAfter (cache_after []) 2) = Ok 252000881194963.
Proof. split; vm_compute; reflexivity. Qed.

(** C04.  Rewards and supply agree, for all heights and histories; BlockReward(0) panics. *)
Theorem C04_reward_supply_agree :
  forall history1 history2 history3 h,
    Forall (fun o => u32 (call_height o)) history1 ->
    Forall (fun o => u32 (call_height o)) history2 ->
    Forall (fun o => u32 (call_height o)) history3 ->
    u32 h -> 1 <= h ->
    exists before reward,
      snd (SupplyAfter (cache_after history1) (h - 1)) = Ok before /\
      snd (BlockReward (cache_after history2) h) = Ok reward /\
      snd (SupplyAfter (cache_after history3) h) = Ok (before + reward).
Proof.
  intros hi1 hi2 hi3 h H1 H2 H3 Hu Hh.
  exists (supply_after_spec (h - 1)), (block_reward_spec h).
  assert (Hu' : u32 (h - 1)) by (unfold u32 in *; lia).
  split; [apply C01_supply_after_history_independent; assumption|]. split.
  - pose proof (BlockReward_ok (cache_after hi2) h (cache_after_ok hi2 H2) Hu) as (_ & E).
    rewrite E. replace (h =? 0) with false by lia. reflexivity.
  - rewrite C01_supply_after_history_independent by assumption. f_equal.
    unfold supply_after_spec, u32 in *. rewrite supply_before_S_reward by lia.
    do 2 f_equal. lia.
Qed.
Print Assumptions C04_reward_supply_agree.

Theorem C04_reward_zero_panics :
  forall history, snd (BlockReward (cache_after history) 0) = Panic.
Proof. reflexivity. Qed.
Print Assumptions C04_reward_zero_panics.

Example C04_nonvacuous :
  snd (BlockReward (cache_after [CallSupplyAfter 20]) 1) = Ok 440597534 /\
  snd (BlockReward (cache_after [CallSupplyAfter 20]) 2) = Ok 440597429.
Proof. split; vm_compute; reflexivity. Qed.

(** C05.  Shape of the emission curve over all uint32 heights. *)
Theorem C05_rewards_never_increase :
  forall history1 history2 h1 h2 r1 r2,
    Forall (fun o => u32 (call_height o)) history1 ->
    Forall (fun o => u32 (call_height o)) history2 ->
    u32 h1 -> u32 h2 -> 1 <= h1 <= h2 ->
    snd (BlockReward (cache_after history1) h1) = Ok r1 ->
    snd (BlockReward (cache_after history2) h2) = Ok r2 ->
    r2 <= r1 <= 440597534.
Proof.
  intros hi1 hi2 h1 h2 r1 r2 H1 H2 Hu1 Hu2 Hle E1 E2.
  pose proof (BlockReward_ok _ h1 (cache_after_ok hi1 H1) Hu1) as (_ & F1).
  pose proof (BlockReward_ok _ h2 (cache_after_ok hi2 H2) Hu2) as (_ & F2).
  replace (h1 =? 0) with false in F1 by lia. replace (h2 =? 0) with false in F2 by lia.
  rewrite F1 in E1. rewrite F2 in E2. injection E1 as <-. injection E2 as <-.
  split; [apply reward_antimono; lia|].
  pose proof (reward_antimono 1 h1 ltac:(lia)) as Hm.
  replace (block_reward_spec 1) with 440597534 in Hm by (vm_compute; reflexivity). exact Hm.
Qed.
Print Assumptions C05_rewards_never_increase.

Theorem C05_emission_ends :
  forall history h r,
    Forall (fun o => u32 (call_height o)) history -> u32 h ->
    snd (BlockReward (cache_after history) h) = Ok r ->
    (h <= 52888000 -> 0 < r) /\ (52890000 <= h -> r = 0).
Proof.
  intros hi h r H Hu E.
  pose proof (BlockReward_ok _ h (cache_after_ok hi H) Hu) as (_ & F). rewrite F in E.
  destruct (h =? 0) eqn:H0; [discriminate|]. injection E as <-. unfold u32 in Hu.
  split; intros Hh; [apply reward_positive; lia|apply reward_zero; lia].
Qed.
Print Assumptions C05_emission_ends.

(** The hypothesis is met at both ends: BlockReward returns a value at every height >= 1. *)
Theorem C05_reward_defined :
  forall history h,
    Forall (fun o => u32 (call_height o)) history -> u32 h -> 1 <= h ->
    exists r, snd (BlockReward (cache_after history) h) = Ok r.
Proof.
  intros hi h H Hu Hh.
  pose proof (BlockReward_ok _ h (cache_after_ok hi H) Hu) as (_ & F). rewrite F.
  replace (h =? 0) with false by lia. eexists; reflexivity.
Qed.

(** Test vectors of policy/policy_test.go:10-18, run on the model (these are
    tests of the model, not proofs, and are not saved). *)
Goal map (fun h => snd (BlockReward initial_cache h)) [1; 2; 3; 1000; 4999; 5000; 5001; 5002; 100000]
  = map Ok [440597534; 440597429; 440597324; 440492605; 440072823; 440072718; 440072613; 440072508; 430217207].
Proof. vm_compute. reflexivity. Abort.
