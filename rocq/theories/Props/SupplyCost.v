(** Property C121: what SupplyAfter costs.  The cost of a call is the number of
    block rewards it computes (Model/PolicyCost.v: the functions of
    policy/policy.go with a counter); without a memo table that would be h + 1. *)
From Coq Require Import ZArith List Lia Bool.
Import ListNotations.
From Verif.Model Require Import Base Policy PolicyCost.
From Verif.Spec Require Import PolicySpec.
From Verif.Proofs Require Import PolicyFacts PolicyCostFacts.
Open Scope Z_scope.

(** The highest block whose supply the calls of a history need: SupplyAfter(h)
    needs block h, BlockReward(h) the block before h. *)
Fixpoint highest (history : list policy_call) : Z :=
  match history with
  | [] => 0
  | CallSupplyAfter h :: rest => Z.max h (highest rest)
  | CallBlockReward h :: rest => Z.max (h - 1) (highest rest)
  end.

(** The counter counts, and changes nothing else: table and result are those of the code. *)
Theorem C121_counter_is_faithful history c' t' :
  Forall (fun o => u32 (call_height o)) history ->
  counted_history initial_cache history 0 = (c', t') -> c' = cache_after history /\
  forall o t, u32 (call_height o) -> exists t'', counted_step c' o t = (fst (policy_step c' o), snd (policy_step c' o), t'').
Proof.
  intros Hall E. assert (Ec : c' = cache_after history).
  { revert c' t' E. induction history as [|o hist IH] using rev_ind; intros c' t' E; [injection E as <- _; reflexivity|].
    apply Forall_app in Hall as [H1 H2]. apply Forall_inv in H2. rewrite counted_history_snoc in E.
    destruct (counted_history initial_cache hist 0) as [c1 t1]. specialize (IH H1 _ _ eq_refl). subst c1.
    destruct (step_count (cache_after hist) o t1 (cache_after_ok _ H1) H2) as (k & Es & _). rewrite Es in E. injection E as <- _.
    symmetry. apply cache_after_snoc. }
  split; [exact Ec|]. intros o t Ho. subst c'. destruct (step_count (cache_after history) o t (cache_after_ok _ Hall) Ho) as (k & Es & _). eauto.
Qed.
Print Assumptions C121_counter_is_faithful.

(** The memo table has one entry per started stretch of 5000 blocks up to the
    highest block asked for, however often and in whatever order: at most 858,994 entries. *)
Theorem C121_table_size history :
  Forall (fun o => u32 (call_height o)) history ->
  zlen (cache_after history) = 1 + highest history / 5000 /\ zlen (cache_after history) <= 858994.
Proof.
  intros Hall. assert (E : zlen (cache_after history) = 1 + highest history / 5000 /\ 0 <= highest history < 2 ^ 32).
  { assert (Hs : forall h1 o, highest (h1 ++ [o]) = Z.max (highest h1) (needed o)).
    { induction h1 as [|x h1 IH]; intros o; cbn [highest app]; [destruct o; cbn [needed]; lia|]. rewrite IH. destruct x; lia. }
    induction history as [|o hist IH] using rev_ind.
    - cbn [highest]. split; [reflexivity|lia].
    - apply Forall_app in Hall as [H1 H2]. apply Forall_inv in H2. destruct (IH H1) as [IL IB].
      rewrite cache_after_snoc, Hs. destruct (step_count (cache_after hist) o 0 (cache_after_ok _ H1) H2) as (k & _ & _ & _ & EL).
      rewrite EL, IL. assert (Hn : 0 <= needed o < 2 ^ 32) by (destruct o; cbn [needed call_height] in *; unfold u32 in H2; lia).
      split; [|lia]. destruct (Z.max_spec (highest hist) (needed o)) as [[Hlt ->]|[Hle ->]].
      + assert (highest hist / 5000 <= needed o / 5000) by (apply Z.div_le_mono; lia). lia.
      + assert (needed o / 5000 <= highest hist / 5000) by (apply Z.div_le_mono; lia). lia. }
  destruct E as [E B]. split; [exact E|]. rewrite E.
  assert (highest history / 5000 < 858994) by (apply Z.div_lt_upper_bound; lia). lia.
Qed.
Print Assumptions C121_table_size.

(** A call asking for no higher a block than some earlier call computes at most
    5000 rewards (BlockReward: 5001), any other call at most 5000 more for each new stretch. *)
Theorem C121_call_cost history o t :
  Forall (fun o => u32 (call_height o)) history -> u32 (call_height o) ->
  exists cost, counted_step (cache_after history) o t = (fst (policy_step (cache_after history) o), snd (policy_step (cache_after history) o), t + cost) /\
    0 <= cost <= 5001 + 5000 * (highest (history ++ [o]) / 5000 - highest history / 5000) /\
    (highest [o] <= highest history -> cost <= match o with CallSupplyAfter _ => 5000 | CallBlockReward _ => 5001 end).
Proof.
  intros Hall Ho. destruct (step_count (cache_after history) o t (cache_after_ok _ Hall) Ho) as (k & Es & Hk & Hk2 & EL).
  destruct (C121_table_size history Hall) as [L0 _].
  destruct (C121_table_size (history ++ [o])) as [L1 _]; [apply Forall_app; split; [exact Hall|constructor; [exact Ho|constructor]]|].
  rewrite cache_after_snoc in L1. set (fresh := Z.max 0 (needed o / 5000 - (zlen (cache_after history) - 1))) in *.
  exists (5000 * fresh + k). split; [rewrite Es; f_equal; lia|]. split; [subst fresh; lia|].
  intros Hle. assert (Ef : fresh = 0).
  { assert (needed o <= highest history) by (destruct o; cbn [highest needed] in *; lia).
    assert (needed o / 5000 <= highest history / 5000) by (apply Z.div_le_mono; lia). subst fresh. lia. }
  rewrite Ef. destruct o; lia.
Qed.
Print Assumptions C121_call_cost.

(** Altogether: 5001 per call and 5000 per stretch of blocks, once. *)
Theorem C121_history_cost history :
  Forall (fun o => u32 (call_height o)) history ->
  0 <= snd (counted_history initial_cache history 0) <= 5001 * zlen history + 5000 * (highest history / 5000).
Proof.
  intros Hall. induction history as [|o hist IH] using rev_ind; [cbn; lia|].
  apply Forall_app in Hall as [H1 H2]. apply Forall_inv in H2. specialize (IH H1).
  rewrite counted_history_snoc. destruct (counted_history initial_cache hist 0) as [c1 t1] eqn:E1.
  destruct (C121_counter_is_faithful hist c1 t1 H1 E1) as [-> _]. cbn [snd] in IH.
  destruct (C121_call_cost hist o t1 H1 H2) as (cost & Es & Hb & _). rewrite Es. cbn [snd].
  unfold zlen in *. rewrite app_length. cbn [length]. lia.
Qed.
Print Assumptions C121_history_cost.

(** Non-vacuous, and tight: a second call computes exactly 5000 rewards for the
    last block of a stretch, 1 for the first. *)
Example C121_nonvacuous :
  let h := [CallSupplyAfter 12; CallBlockReward 5001; CallSupplyAfter 4999; CallSupplyAfter 5000] in
  Forall (fun o => u32 (call_height o)) h /\ highest h = 5000 /\ 1 + highest h / 5000 = 2.
Proof. repeat split; repeat constructor; unfold u32; cbn; lia. Qed.
(* Counting by evaluation; not kept as a proof term because the re-checker would redo it slowly. *)
Goal snd (counted_history initial_cache [CallSupplyAfter 12; CallBlockReward 5001; CallSupplyAfter 4999; CallSupplyAfter 5000] 0)
     = 13 + (5000 + 1 + 1) + 5000 + 1.
Proof. vm_compute. reflexivity. Abort.
