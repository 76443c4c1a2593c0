(** Reading hexadecimal text (lower case), independent of the model. *)
From Coq Require Import ZArith List Bool.
Import ListNotations.
Open Scope Z_scope.

(** The value of an ASCII character as a hexadecimal digit: '0'..'9', 'a'..'f'. *)
Definition hex_value (c : Z) : option Z :=
  if (48 <=? c) && (c <=? 57) then Some (c - 48)
  else if (97 <=? c) && (c <=? 102) then Some (c - 87)
  else None.
(** Text of an even number of digits as bytes, most significant digit first. *)
Fixpoint read_hex (s : list Z) : option (list Z) :=
  match s with
  | [] => Some []
  | a :: b :: s' =>
      match hex_value a, hex_value b, read_hex s' with
      | Some x, Some y, Some r => Some (16 * x + y :: r)
      | _, _, _ => None
      end
  | _ => None
  end.
