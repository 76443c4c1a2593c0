(** Specification of user-friendly addresses, independent of the code. *)
From Coq Require Import ZArith List Bool.
Import ListNotations.
Open Scope Z_scope.

Definition is_digit (c : Z) : bool := (48 <=? c) && (c <=? 57).      (* '0'..'9' *)
Definition is_upper (c : Z) : bool := (65 <=? c) && (c <=? 90).      (* 'A'..'Z' *)
Definition is_lower (c : Z) : bool := (97 <=? c) && (c <=? 122).     (* 'a'..'z' *)
Definition is_letter (c : Z) : bool := is_upper c || is_lower c.

(** ISO 7064 / IBAN value of a character: 0..9 for digits, 10..35 for letters. *)
Definition char_value (c : Z) : Z :=
  if is_digit c then c - 48 else if is_upper c then c - 55 else c - 87.

(** The number whose decimal expansion is the concatenation of the values. *)
Fixpoint iso_number (acc : Z) (s : list Z) : Z :=
  match s with
  | [] => acc
  | c :: r => iso_number (acc * (if is_digit c then 10 else 100) + char_value c) r
  end.

(** The checksum rule: move the first four characters to the end; 1 modulo 97. *)
Definition checksum_ok (s : list Z) : Prop :=
  iso_number 0 (skipn 4 s ++ firstn 4 s) mod 97 = 1.

(** The base-32 alphabet: digits and upper-case letters without I, O, W, Z. *)
Definition in_alphabet (c : Z) : bool :=
  is_digit c || (is_upper c && negb (c =? 73) && negb (c =? 79) && negb (c =? 87) && negb (c =? 90)).
(** Rank of a character in the alphabet. *)
Definition alphabet_rank (c : Z) : Z :=
  if is_digit c then c - 48
  else c - 55 - (if 73 <? c then 1 else 0) - (if 79 <? c then 1 else 0) - (if 87 <? c then 1 else 0).
Fixpoint base32_number (acc : Z) (s : list Z) : Z :=
  match s with
  | [] => acc
  | c :: r => base32_number (acc * 32 + alphabet_rank c) r
  end.
(** Big-endian value of a byte string. *)
Fixpoint base256_number (acc : Z) (s : list Z) : Z :=
  match s with
  | [] => acc
  | b :: r => base256_number (acc * 256 + b) r
  end.

(** Remove all spaces. *)
Definition strip (s : list Z) : list Z := filter (fun c => negb (c =? 32)) s.

(** An address is 20 bytes. *)
Definition addr20 (a : list Z) : Prop := length a = 20%nat /\ Forall (fun b => 0 <= b < 256) a.

(** Replace position [i]; exchange positions [i] and [i+1]. *)
Fixpoint replace_at (i : nat) (c : Z) (s : list Z) : list Z :=
  match s, i with
  | [], _ => []
  | _ :: r, O => c :: r
  | x :: r, S i' => x :: replace_at i' c r
  end.
Fixpoint swap_at (i : nat) (s : list Z) : list Z :=
  match s, i with
  | x :: y :: r, O => y :: x :: r
  | x :: r, S i' => x :: swap_at i' r
  | _, _ => s
  end.

(** Two nibbles per byte, high nibble first. *)
Fixpoint packed (l : list Z) : list Z :=
  match l with a :: b :: r => 16 * a + b :: packed r | [a] => [16 * a] | [] => [] end.
