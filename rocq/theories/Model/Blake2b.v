(** A concrete Blake2b-256 (RFC 7693, unkeyed, 32-byte output): the hash function the code
    imports from golang.org/x/crypto/blake2b (wire/hash.go:35-43, tree/node.go:55-60, 83-88).

    The theorems hold for every hash function (or every 32-byte one) and do not depend on
    this file.  It lets the model be run on the repository's own test vectors and genesis
    files (Props/TestVectors.v), which checks the transcription. *)
From Coq Require Import ZArith List.
Import ListNotations.
From Verif.Model Require Import Base.
Open Scope Z_scope.

Definition IV : list Z :=
  [0x6a09e667f3bcc908; 0xbb67ae8584caa73b; 0x3c6ef372fe94f82b; 0xa54ff53a5f1d36f1;
   0x510e527fade682d1; 0x9b05688c2b3e6c1f; 0x1f83d9abfb41bd6b; 0x5be0cd19137e2179].
Definition SIGMA : list (list nat) :=
  [ [ 0; 1; 2; 3; 4; 5; 6; 7; 8; 9;10;11;12;13;14;15];
    [14;10; 4; 8; 9;15;13; 6; 1;12; 0; 2;11; 7; 5; 3];
    [11; 8;12; 0; 5; 2;15;13;10;14; 3; 6; 7; 1; 9; 4];
    [ 7; 9; 3; 1;13;12;11;14; 2; 6; 5;10; 4; 0;15; 8];
    [ 9; 0; 5; 7; 2; 4;10;15;14; 1;11;12; 6; 8; 3;13];
    [ 2;12; 6;10; 0;11; 8; 3; 4;13; 7; 5;15;14; 1; 9];
    [12; 5; 1;15;14;13; 4;10; 0; 7; 6; 3; 9; 2; 8;11];
    [13;11; 7;14;12; 1; 3; 9; 5; 0;15; 4; 8; 6; 2;10];
    [ 6;15;14; 9;11; 3; 0; 8;12; 2;13; 7; 1; 4;10; 5];
    [10; 2; 8; 4; 7; 6; 1; 5;15;11; 9;14; 3;12;13; 0];
    [ 0; 1; 2; 3; 4; 5; 6; 7; 8; 9;10;11;12;13;14;15];
    [14;10; 4; 8; 9;15;13; 6; 1;12; 0; 2;11; 7; 5; 3] ]%nat.
Definition mask64 : Z := 0xffffffffffffffff.
Definition add64 (x y : Z) : Z := Z.land (x + y) mask64.
(** rotation to the right of a 64-bit word *)
Definition rotr (x n : Z) : Z := Z.lor (Z.shiftr x n) (Z.land (Z.shiftl x (64 - n)) mask64).
(** RFC 7693, 3.1 *)
Definition mix (a b c d x y : Z) : Z * Z * Z * Z :=
  let a := add64 (add64 a b) x in
  let d := rotr (Z.lxor d a) 32 in
  let c := add64 c d in
  let b := rotr (Z.lxor b c) 24 in
  let a := add64 (add64 a b) y in
  let d := rotr (Z.lxor d a) 16 in
  let c := add64 c d in
  let b := rotr (Z.lxor b c) 63 in
  (a, b, c, d).
Definition round (m : list Z) (v : list Z) (s : list nat) : list Z :=
  let w i := nth (nth i s 0%nat) m 0 in
  match v with
  | [v0;v1;v2;v3;v4;v5;v6;v7;v8;v9;v10;v11;v12;v13;v14;v15] =>
      let '(v0,v4,v8,v12) := mix v0 v4 v8 v12 (w 0%nat) (w 1%nat) in
      let '(v1,v5,v9,v13) := mix v1 v5 v9 v13 (w 2%nat) (w 3%nat) in
      let '(v2,v6,v10,v14) := mix v2 v6 v10 v14 (w 4%nat) (w 5%nat) in
      let '(v3,v7,v11,v15) := mix v3 v7 v11 v15 (w 6%nat) (w 7%nat) in
      let '(v0,v5,v10,v15) := mix v0 v5 v10 v15 (w 8%nat) (w 9%nat) in
      let '(v1,v6,v11,v12) := mix v1 v6 v11 v12 (w 10%nat) (w 11%nat) in
      let '(v2,v7,v8,v13) := mix v2 v7 v8 v13 (w 12%nat) (w 13%nat) in
      let '(v3,v4,v9,v14) := mix v3 v4 v9 v14 (w 14%nat) (w 15%nat) in
      [v0;v1;v2;v3;v4;v5;v6;v7;v8;v9;v10;v11;v12;v13;v14;v15]
  | v => v
  end.
Fixpoint xor3 (h a b : list Z) : list Z :=
  match h, a, b with
  | x :: h', y :: a', z :: b' => Z.lxor x (Z.lxor y z) :: xor3 h' a' b'
  | _, _, _ => []
  end.
(** RFC 7693, 3.2: state, 16 words, bytes so far, is this the last block *)
Definition compress (h m : list Z) (t : Z) (last : bool) : list Z :=
  let v := h ++ [nth 0 IV 0; nth 1 IV 0; nth 2 IV 0; nth 3 IV 0; Z.lxor (nth 4 IV 0) t; nth 5 IV 0;
                 if last then Z.lxor (nth 6 IV 0) mask64 else nth 6 IV 0; nth 7 IV 0] in
  let v := fold_left (round m) SIGMA v in
  xor3 h (firstn 8 v) (skipn 8 v).
(** the little-endian number *)
Fixpoint le_num (bs : list Z) : Z := match bs with [] => 0 | b :: bs' => b + 256 * le_num bs' end.
Fixpoint le_bytes (n : nat) (z : Z) : list Z := match n with O => [] | S n' => Z.land z 255 :: le_bytes n' (Z.shiftr z 8) end.
(** [n] words of 8 bytes, padded with zeros *)
Fixpoint words (n : nat) (bs : list Z) : list Z :=
  match n with O => [] | S n' => le_num (firstn 8 bs) :: words n' (skipn 8 bs) end.
(** the blocks of the message, from [t] bytes on *)
Fixpoint blocks (fuel : nat) (h : list Z) (t : Z) (msg : list Z) : list Z :=
  match fuel with
  | O => h
  | S f =>
      match skipn 128 msg with
      | [] => compress h (words 16 msg) (t + zlen msg) true
      | rest => blocks f (compress h (words 16 (firstn 128 msg)) (t + 128) false) (t + 128) rest
      end
  end.
Definition blake2b_256 (msg : bytes) : bytes :=
  let h := Z.lxor (nth 0 IV 0) 0x01010020 :: skipn 1 IV in
  firstn 32 (flat_map (le_bytes 8) (blocks (S (length msg)) h 0 msg)).

(** A long byte string written as 32-byte numbers, and a rest of [n] bytes: for the tests. *)
Definition unpack (l : list Z) (n : nat) (rest : Z) : bytes := flat_map (fun z => rev (le_bytes 32 z)) l ++ rev (le_bytes n rest).
