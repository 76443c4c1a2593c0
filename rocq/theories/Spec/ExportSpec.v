(** What an export should be. *)
From Coq Require Import ZArith List.
From stdpp Require Import list numbers list_numbers.
From Verif.Model Require Import Base BlockExport.
From Verif.Spec Require Import TreeSpec.
Open Scope Z_scope.

(** The files of the archive, and the numbers requested, in order. *)
Definition files (ev : list event) : list (Z * bytes) :=
  concat (map (fun e => match e with Added n b => [(n, b)] | Requested _ => [] end) ev).
Definition requests (ev : list event) : list (list Z) :=
  concat (map (fun e => match e with Requested ids => [ids] | Added _ _ => [] end) ev).

(** Lower-case hexadecimal. *)
Definition hex_text (b : bytes) : bytes := concat (map (fun x => [hexchar (x / 16); hexchar (x mod 16)]) b).
(** The right answer to the request for block [n] of a chain of serialised blocks. *)
Definition right_answer (chain : Z -> bytes) (n : Z) : Z * bytes := (n, hex_text (chain n)).

(** A server that always answers in the order of the request; one that may choose
    another order; one that answers in order
    but may fail, or garble an answer. *)
Definition answers_in_order (chain : Z -> bytes) (server : list Z -> option (list (Z * bytes))) : Prop :=
  forall ids, server ids = Some (map (right_answer chain) ids).
Definition answers (chain : Z -> bytes) (server : list Z -> option (list (Z * bytes))) : Prop :=
  forall ids, exists ids', ids' ≡ₚ ids /\ server ids = Some (map (right_answer chain) ids').
Definition garbled (text : bytes) : Prop := (* some character is neither a digit nor white space *)
  exists c, In c text /\ ~ (48 <= c <= 57 \/ 65 <= c <= 70 \/ 97 <= c <= 102 \/ 9 <= c <= 13 \/ c = 32).
Definition may_fail (chain : Z -> bytes) (server : list Z -> option (list (Z * bytes))) : Prop :=
  forall ids, server ids = None \/ server ids = Some (map (right_answer chain) ids) \/
    exists before i text after rest, ids = before ++ i :: after /\ garbled text /\
      server ids = Some (map (right_answer chain) before ++ (i, text) :: rest).
(** A server that answers nothing it was not asked for (but whatever it likes). *)
Definition only_asked (server : list Z -> option (list (Z * bytes))) : Prop :=
  forall ids body, server ids = Some body -> forall n r, In (n, r) body -> In n ids.

(** The blocks [from], [from + 1], ..., [from + n - 1] of the chain as files. *)
Definition blocks_from (chain : Z -> bytes) (from n : Z) : list (Z * bytes) := map (fun i => (i, chain i)) (seqZ from n).
