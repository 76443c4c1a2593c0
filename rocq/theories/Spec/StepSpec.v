(** Single changes of a tree, and sequences of them. *)
From Coq Require Import ZArith List.
From stdpp Require Import gmap list.
From Verif.Model Require Import Base Nibbles Tree.
From Verif.Spec Require Import TreeSpec TreeHistory.
Open Scope Z_scope.

(** One change: the children of one branch object are overwritten, or one PutNode or
    DelNode is done (new node objects may have been made before; no object that existed
    has changed). *)
Definition one_change (s u : state) : Prop :=
  (exists l p cs cs', heap s !! l = Some (Branch p cs) /\ u = State (<[l := Branch p cs']> (heap s)) (next s) (sto s)) \/
  (exists op, apply_op (sto s) op = Ok (sto u) /\ forall l n, heap s !! l = Some n -> heap u !! l = Some n).

(** [walk s l s']: going from [s] through the states of [l], the last of which is [s'], one
    change at a time. *)
Fixpoint walk (s : state) (l : list state) (s' : state) : Prop :=
  match l with
  | [] => s = s'
  | u :: l' => one_change s u /\ walk u l' s'
  end.

(** [s] holds [v] at [k], where the empty value stands for "no entry". *)
Definition holds_entry (s : state) (k v : list Z) : Prop :=
  exists o, GetEntry s k = Ok o /\ default [] o = v.
