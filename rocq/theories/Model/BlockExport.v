(** scripts/export_blocks.py.  Not modelled: argument parsing, the HTTP request and
    JSON (a server is a function from the numbers of a batch to its answer), the
    bytes of the tar format, log output. *)
From Coq Require Import ZArith List.
From stdpp Require Import list numbers list_numbers.
From Verif.Model Require Import Base.
Open Scope Z_scope.

(** scripts/export_blocks.py:70: Python's bytearray.fromhex on ASCII text:
    pairs of digits of either case, whitespace allowed before each pair and at
    the end; [None] is the ValueError it raises otherwise. *)
Definition py_space (c : Z) : bool := (c =? 32) || ((9 <=? c) && (c <=? 13)).
Definition py_digit (c : Z) : option Z :=
  if (48 <=? c) && (c <=? 57) then Some (c - 48)
  else if (97 <=? c) && (c <=? 102) then Some (c - 87)
  else if (65 <=? c) && (c <=? 70) then Some (c - 55)
  else None.
Fixpoint fromhex (s : bytes) : option bytes :=
  match s with
  | [] => Some []
  | c :: s' =>
      if py_space c then fromhex s'
      else match py_digit c, s' with
           | Some hi, c' :: s'' =>
               match py_digit c' with
               | Some lo => match fromhex s'' with Some r => Some (hi * 16 + lo :: r) | None => None end
               | None => None
               end
           | _, _ => None
           end
  end.

(** What the program does that can be observed: a request for a batch of blocks
    (export_blocks.py:64), and a file added to the archive (export_blocks.py:34-41;
    its name is the number in decimal). *)
Inductive event := Requested (ids : list Z) | Added (number : Z) (contents : bytes).
(** It ends by itself or by an exception; [Unfinished] if the fuel did not suffice. *)
Inductive ending := Done | Raised | Unfinished.

(** export_blocks.py:69-71: the elements of the answer in the order received (the
    sorted copy of line 68 is dropped). *)
Fixpoint add_blocks (body : list (Z * bytes)) : list event * bool :=
  match body with
  | [] => ([], true)
  | (id, result) :: body' =>
      match fromhex result with
      | Some contents => let '(ev, ok) := add_blocks body' in (Added id contents :: ev, ok)
      | None => ([], false)
      end
  end.

(** export_blocks.py:49-71.  [server ids]: the answer, or [None] if the request
    raises (lines 64-66). *)
Fixpoint export_loop (fuel : nat) (server : list Z -> option (list (Z * bytes))) (batch to start : Z) : list event * ending :=
  match fuel with
  | O => ([], Unfinished)
  | S fuel' =>
      let stop := Z.min (start + batch) to in
      let ids := seqZ start (stop - start) in (* range(start, stop) *)
      match ids with
      | [] => ([], Done)
      | _ =>
          match server ids with
          | None => ([Requested ids], Raised)
          | Some body =>
              let '(ev, ok) := add_blocks body in
              if ok then
                let '(rest, e) := export_loop fuel' server batch to stop in
                (Requested ids :: ev ++ rest, e)
              else (Requested ids :: ev, Raised)
          end
      end
  end.
(** export_blocks.py:48-74 *)
Definition export (server : list Z -> option (list (Z * bytes))) (batch from to : Z) : list event * ending :=
  export_loop (S (Z.to_nat (to - from))) server batch to from.
