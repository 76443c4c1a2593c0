(** Model of policy/policy.go (whole file except the init of BlockTargetMax,
    which is in Model/Target.v). *)
From Coq Require Import ZArith List Lia Bool.
Import ListNotations.
From Verif.Model Require Import Base.
Open Scope Z_scope.

(** policy/policy.go:33 *)
Definition SupplyCacheInterval : Z := 5000.
(** policy/policy.go:69 *)
Definition TotalSupply : Z := 2100000000000000.
(** policy/policy.go:71 *)
Definition InitialSupply : Z := 252000000000000.
(** policy/policy.go:73 *)
Definition EmissionTailStart : Z := 48692960.
(** policy/policy.go:75 *)
Definition EmissionTailReward : Z := 4000.
(** policy/policy.go:77 *)
Definition EmissionSpeed : Z := 4194304.

(** policy/policy.go:79-89.  uint64 subtraction wraps. *)
Definition BlockRewardBySupply (supply height : Z) : Z :=
  if height =? 0 then 0
  else
    let remaining := w64 (TotalSupply - supply) in
    if (EmissionTailStart <=? height) && (EmissionTailReward <=? remaining)
    then EmissionTailReward
    else
      let remainder := remaining mod EmissionSpeed in
      w64 (remaining - remainder) / EmissionSpeed.

(** policy/policy.go:62-67.  The loop [for i := start; i < end; i++] runs
    end-start times (i < end <= 2^32-1 so i++ cannot wrap); a recursion on the
    number of iterations.  [supply +=] wraps at 2^64. *)
Fixpoint supply_loop (n : nat) (supply i : Z) : Z :=
  match n with
  | O => supply
  | S n' => supply_loop n' (w64 (supply + BlockRewardBySupply supply i)) (i + 1)
  end.
Definition SupplyBetween (supply startHeight endHeight : Z) : Z :=
  supply_loop (Z.to_nat (endHeight - startHeight)) supply startHeight.

(** policy/policy.go:35: the package variable supplyCache, a slice of uint64. *)
Definition cache := list Z.
Definition initial_cache : cache := [InitialSupply].

(** policy/policy.go:42-49 *)
Definition start_index (c : cache) (endI : Z) : Z :=
  if zlen c =? 0 then 0
  else if w32 (zlen c - 1) <? endI then w32 (zlen c - 1)
  else endI.

(** policy/policy.go:51-56, one iteration: new supply, appended to the cache. *)
Definition fill_step (supply i : Z) : Z :=
  let startHeight := w32 (i * SupplyCacheInterval) in
  let endHeight := w32 (startHeight + SupplyCacheInterval) in
  SupplyBetween supply startHeight endHeight.

Fixpoint fill_loop (n : nat) (supply i : Z) (c : cache) : Z * cache :=
  match n with
  | O => (supply, c)
  | S n' => let supply' := fill_step supply i in
            fill_loop n' supply' (i + 1) (c ++ [supply'])
  end.

(** policy/policy.go:38-60, executed without interference.  Returns the new
    cache and the result; an out-of-range read of the cache is a panic. *)
Definition SupplyAfter (c : cache) (height : Z) : cache * res Z :=
  let endI := height / SupplyCacheInterval in
  let startI := start_index c endI in
  match index c (Z.to_nat startI) with
  | Ok supply =>
      let '(supply', c') := fill_loop (Z.to_nat (endI - startI)) supply startI c in
      (c', Ok (SupplyBetween supply' (w32 (endI * SupplyCacheInterval)) (w32 (height + 1))))
  | _ => (c, Panic)
  end.

(** policy/policy.go:25-31 *)
Definition BlockReward (c : cache) (height : Z) : cache * res Z :=
  if height <? 1 then (c, Panic)
  else
    let '(c', r) := SupplyAfter c (w32 (height - 1)) in
    (c', let? supply := r in Ok (BlockRewardBySupply supply height)).

(** A client's calls into the package, in sequence. *)
Inductive policy_call := CallSupplyAfter (height : Z) | CallBlockReward (height : Z).
Definition policy_step (c : cache) (o : policy_call) : cache * res Z :=
  match o with
  | CallSupplyAfter h => SupplyAfter c h
  | CallBlockReward h => BlockReward c h
  end.
Definition cache_after (history : list policy_call) : cache :=
  fold_left (fun c o => fst (policy_step c o)) history initial_cache.

(** ** Concurrent callers.
    Each goroutine executes one SupplyAfter(h); the machine interleaves them
    at the granularity of: Lock (41), the reads of lines 42-50, one iteration of the
    fill loop (52-55), Unlock (57), one iteration of the final loop (62-66).
    The cache is touched only between Lock and Unlock, so by the Go memory
    model (mutex happens-before) interleaving semantics is adequate. *)
Inductive pc :=
| TIdle (h : Z)                   (* about to Lock, line 41 *)
| TLocked (h : Z)                 (* holds the lock, at line 42 *)
| TLoop (h i supply : Z)          (* holds the lock, at the test of line 51 *)
| TTail (h i supply : Z)          (* lock released, at the test of line 63 *)
| TDone (h result : Z)            (* returned *)
| TPanicked (h : Z).
Record machine := { m_cache : cache; m_lock : option nat; m_threads : list pc }.

Definition set_thread (l : list pc) (t : nat) (p : pc) : list pc :=
  firstn t l ++ p :: skipn (S t) l.

(** One step of goroutine [t]; [None] when it cannot move (blocked on the
    lock, finished, or no such goroutine). *)
Definition machine_step (t : nat) (m : machine) : option machine :=
  match nth_error (m_threads m) t with
  | Some (TIdle h) =>
      match m_lock m with
      | None => Some {| m_cache := m_cache m; m_lock := Some t;
                        m_threads := set_thread (m_threads m) t (TLocked h) |}
      | Some _ => None
      end
  | Some (TLocked h) =>
      let endI := h / SupplyCacheInterval in
      let startI := start_index (m_cache m) endI in
      let p := match index (m_cache m) (Z.to_nat startI) with
               | Ok supply => TLoop h startI supply
               | _ => TPanicked h
               end in
      Some {| m_cache := m_cache m; m_lock := m_lock m;
              m_threads := set_thread (m_threads m) t p |}
  | Some (TLoop h i supply) =>
      let endI := h / SupplyCacheInterval in
      if i <? endI then
        let supply' := fill_step supply i in
        Some {| m_cache := m_cache m ++ [supply']; m_lock := m_lock m;
                m_threads := set_thread (m_threads m) t (TLoop h (i + 1) supply') |}
      else
        Some {| m_cache := m_cache m; m_lock := None;
                m_threads := set_thread (m_threads m) t
                               (TTail h (w32 (endI * SupplyCacheInterval)) supply) |}
  | Some (TTail h i supply) =>
      let p := if i <? w32 (h + 1)
               then TTail h (i + 1) (w64 (supply + BlockRewardBySupply supply i))
               else TDone h supply in
      Some {| m_cache := m_cache m; m_lock := m_lock m;
              m_threads := set_thread (m_threads m) t p |}
  | Some (TDone _ _) | Some (TPanicked _) | None => None
  end.

(** A schedule names the goroutine to run next; a goroutine that cannot move is skipped. *)
Definition run_schedule (schedule : list nat) (m : machine) : machine :=
  fold_left (fun m t => match machine_step t m with Some m' => m' | None => m end) schedule m.

Definition machine_start (c : cache) (heights : list Z) : machine :=
  {| m_cache := c; m_lock := None; m_threads := map TIdle heights |}.
