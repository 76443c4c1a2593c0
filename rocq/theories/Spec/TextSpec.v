(** Reading numbers in error texts; which errors mean the same. *)
From Coq Require Import ZArith List Bool.
Import ListNotations.
From Verif.Model Require Import Base.
Open Scope Z_scope.

(** The number that a text of decimal digits stands for. *)
Fixpoint decimal_value (s : list Z) (n : Z) : option Z :=
  match s with
  | [] => Some n
  | c :: s' => if (48 <=? c) && (c <=? 57) then decimal_value s' (10 * n + (c - 48)) else None
  end.
Definition read_decimal (s : list Z) : option Z := match s with [] => None | _ => decimal_value s 0 end.

(** The same fault; a list of wrongly pruned accounts is named by one of them. *)
Definition same_fault (e e' : error) : Prop :=
  e = e' \/ exists l l' a, e = EPruneEarly l /\ e' = EPruneEarly l' /\ In a l /\ In a l'.
