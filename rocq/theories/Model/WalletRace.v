(** wallet/basic.go:48-54, GetAddress, called by several goroutines on one wallet.
    There is no lock around the memoised address.  The machine reads, compares and
    writes the 20-byte array word by word; how it divides it into words is left
    open (a list of byte strings whose concatenation is the address).  Accesses of
    different goroutines interleave at words (sequentially consistent; Go's memory
    model promises less for such a program). *)
From Coq Require Import ZArith List Bool.
From stdpp Require Import list.
From Verif.Model Require Import Base.
Open Scope Z_scope.

Definition zero_word (w : bytes) : bytes := map (fun _ => 0) w.
Definition is_zero_word (w : bytes) : bool := forallb (fun b => b =? 0) w.

Section Race.
  (** The address of the wallet's key (basic.go:50-51; reading the key changes nothing). *)
  Variable address : list bytes.

  (** Where a caller of GetAddress is. *)
  Inductive caller :=
  | Compare (i : nat)                       (* 49: b.address == [20]byte{}, the words before i are zero *)
  | Write (i : nat)                         (* 51: the words before i are written *)
  | Read (i : nat) (got : list bytes)       (* 53: the words before i are read *)
  | Returned (got : list bytes).
  (** The memoised address, and the callers. *)
  Record wmachine := WM { wm_words : list bytes; wm_callers : list caller }.

  (** basic.go:48-54: one access *)
  Definition caller_step (words : list bytes) (c : caller) : option (list bytes * caller) :=
    match c with
    | Compare i => match words !! i with
                   | None => Some (words, Write 0)
                   | Some w => Some (words, if is_zero_word w then Compare (S i) else Read 0 [])
                   end
    | Write i => match address !! i with
                 | None => Some (words, Read 0 [])
                 | Some w => Some (<[i := w]> words, Write (S i))
                 end
    | Read i got => match words !! i with
                    | None => Some (words, Returned got)
                    | Some w => Some (words, Read (S i) (got ++ [w]))
                    end
    | Returned _ => None
    end.
  (** The next access is made by caller [t]; callers that have returned do nothing. *)
  Definition wm_step (m : wmachine) (t : nat) : wmachine :=
    match wm_callers m !! t with
    | None => m
    | Some c => match caller_step (wm_words m) c with
                | None => m
                | Some (words, c') => WM words (<[t := c']> (wm_callers m))
                end
    end.
  Definition wm_run (schedule : list nat) (m : wmachine) : wmachine := foldl wm_step m schedule.
  (** [n] callers of a wallet whose memoised address is [words]. *)
  Definition wm_start (words : list bytes) (n : nat) : wmachine := WM words (repeat (Compare 0) n).
End Race.
