(** policy/policy.go again, every function with a counter of the block rewards
    it computes (calls of BlockRewardBySupply, i.e. iterations of the loop of
    SupplyBetween).  Proofs/PolicyCostFacts.v shows that forgetting the counter
    gives the functions of Model/Policy.v. *)
From Coq Require Import ZArith List Lia Bool.
Import ListNotations.
From Verif.Model Require Import Base Policy.
Open Scope Z_scope.

(** policy/policy.go:62-67 *)
Fixpoint counted_loop (n : nat) (supply i ticks : Z) : Z * Z :=
  match n with
  | O => (supply, ticks)
  | S n' => counted_loop n' (w64 (supply + BlockRewardBySupply supply i)) (i + 1) (ticks + 1)
  end.
(** policy/policy.go:62-67 *)
Definition counted_between (supply startHeight endHeight ticks : Z) : Z * Z :=
  counted_loop (Z.to_nat (endHeight - startHeight)) supply startHeight ticks.

(** policy/policy.go:51-56 *)
Fixpoint counted_fill (n : nat) (supply i : Z) (c : cache) (ticks : Z) : Z * cache * Z :=
  match n with
  | O => (supply, c, ticks)
  | S n' =>
      let startHeight := w32 (i * SupplyCacheInterval) in
      let endHeight := w32 (startHeight + SupplyCacheInterval) in
      let '(supply', ticks') := counted_between supply startHeight endHeight ticks in
      counted_fill n' supply' (i + 1) (c ++ [supply']) ticks'
  end.

(** policy/policy.go:38-60 *)
Definition counted_SupplyAfter (c : cache) (height ticks : Z) : cache * res Z * Z :=
  let endI := height / SupplyCacheInterval in
  let startI := start_index c endI in
  match index c (Z.to_nat startI) with
  | Ok supply =>
      let '(supply', c', ticks') := counted_fill (Z.to_nat (endI - startI)) supply startI c ticks in
      let '(r, ticks'') := counted_between supply' (w32 (endI * SupplyCacheInterval)) (w32 (height + 1)) ticks' in
      (c', Ok r, ticks'')
  | _ => (c, Panic, ticks)
  end.

(** policy/policy.go:25-31; the last reward is counted too *)
Definition counted_BlockReward (c : cache) (height ticks : Z) : cache * res Z * Z :=
  if height <? 1 then (c, Panic, ticks)
  else
    let '(c', r, ticks') := counted_SupplyAfter c (w32 (height - 1)) ticks in
    match r with
    | Ok supply => (c', Ok (BlockRewardBySupply supply height), ticks' + 1)
    | r => (c', r, ticks')
    end.

(** A call of policy/policy.go:25-31 or :38-60. *)
Definition counted_step (c : cache) (o : policy_call) (ticks : Z) : cache * res Z * Z :=
  match o with
  | CallSupplyAfter h => counted_SupplyAfter c h ticks
  | CallBlockReward h => counted_BlockReward c h ticks
  end.
(** The calls of a history, in sequence: rewards computed altogether. *)
Fixpoint counted_history (c : cache) (history : list policy_call) (ticks : Z) : cache * Z :=
  match history with
  | [] => (c, ticks)
  | o :: rest => let '(c', _, ticks') := counted_step c o ticks in counted_history c' rest ticks'
  end.
