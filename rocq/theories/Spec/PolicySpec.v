(** Specification of the emission schedule: plain integer recurrence, no
    cache, no wrap-around. *)
From Coq Require Import ZArith List Bool.
Open Scope Z_scope.

(** Reward of block [h] when [s] units exist before it: block 0 earns nothing;
    from block 48,692,960 on a constant 4000 while that much is left; otherwise the
    remaining supply (of 21e14) divided by 2^22, rounded down. *)
Definition reward_spec (s h : Z) : Z :=
  if h =? 0 then 0
  else if (48692960 <=? h) && (4000 <=? 2100000000000000 - s) then 4000
  else (2100000000000000 - s) / 2^22.

(** Supply after blocks 0 .. n-1. *)
Fixpoint supply_before (n : nat) : Z :=
  match n with
  | O => 252000000000000
  | S k => supply_before k + reward_spec (supply_before k) (Z.of_nat k)
  end.

(** Supply after block [h]. *)
Definition supply_after_spec (h : Z) : Z := supply_before (S (Z.to_nat h)).

(** Reward of block [h]. *)
Definition block_reward_spec (h : Z) : Z := reward_spec (supply_before (Z.to_nat h)) h.

(** Heights are uint32. *)
Definition u32 (h : Z) : Prop := 0 <= h < 2^32.
