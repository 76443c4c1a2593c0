(** Model of wire/utils.go: compact targets.  math/big integers are Z. *)
From Coq Require Import ZArith List Bool.
Import ListNotations.
From Verif.Model Require Import Base.
Open Scope Z_scope.

(** big.Int.Bytes: the absolute value, big-endian, no leading zero byte. *)
Definition big_bytes (x : Z) : bytes :=
  let x := Z.abs x in
  if x =? 0 then [] else be_put (Z.to_nat (Z.log2 x / 8 + 1)) x.
(** policy/policy.go:10-22 *)
Definition BlockTargetMax : Z := be_get (1 :: repeat 0 30).
(** utils.go:10-27; uint32 shifts drop the high bits *)
Definition TargetToCompact (target : Z) : res Z :=
  let tgtBytes := big_bytes target in
  let? b0 := index tgtBytes 0 in
  if (128 <=? b0) && (3 <=? zlen tgtBytes) then
    let? b1 := index tgtBytes 1 in
    Ok (Z.lor (Z.lor (w32 (Z.shiftl (w32 (zlen tgtBytes + 1)) 24)) (w32 (Z.shiftl b0 8))) b1)
  else
    let? b1 := index tgtBytes 1 in
    let? b2 := index tgtBytes 2 in
    Ok (Z.lor (Z.lor (Z.lor (w32 (Z.shiftl (w32 (zlen tgtBytes)) 24)) (w32 (Z.shiftl b0 16))) (w32 (Z.shiftl b1 8))) b2).
(** utils.go:35-38; big.Int.Div is Euclidean and panics on 0 *)
Definition DifficultyToTarget (difficulty : Z) : res Z :=
  if difficulty =? 0 then Panic
  else if 0 <? difficulty then Ok (BlockTargetMax / difficulty)
  else Ok (- (BlockTargetMax / - difficulty)).
(** utils.go:30-32 *)
Definition DifficultyToCompact (difficulty : Z) : res Z :=
  let? t := DifficultyToTarget difficulty in TargetToCompact t.
