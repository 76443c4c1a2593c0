(** The hash function of the code meets the one assumption the theorems make about a hash
    function: Blake2b-256 always returns 32 bytes. *)
From Coq Require Import ZArith List Lia.
Import ListNotations.
From Verif.Model Require Import Base Blake2b.
From Verif.Spec Require Import WireSpec AccountSpec.
Open Scope Z_scope.

Lemma firstn_In' {A} n : forall (l : list A) x, In x (firstn n l) -> In x l.
Proof. induction n as [|n IH]; intros [|y l] x; cbn; firstorder. Qed.
Lemma le_bytes_length n : forall z, length (le_bytes n z) = n.
Proof. induction n as [|n IH]; intros z; cbn; [reflexivity|now rewrite IH]. Qed.
Lemma le_bytes_ok n : forall z, Forall (fun b => 0 <= b < 256) (le_bytes n z).
Proof.
  induction n as [|n IH]; intros z; cbn; constructor; auto.
  change 255 with (Z.ones 8). rewrite Z.land_ones by lia. apply Z.mod_pos_bound; lia.
Qed.
Lemma xor3_length h : forall a b, length a = length h -> length b = length h -> length (xor3 h a b) = length h.
Proof.
  induction h as [|x h IH]; intros [|y a] [|z b] Ha Hb; cbn in *; try discriminate; auto.
Qed.
Lemma round_length m v s : length (round m v s) = length v.
Proof.
  unfold round.
  do 17 (destruct v as [|? v]; [try reflexivity|]);
  repeat (match goal with |- context [mix ?a ?b ?c ?d ?x ?y] => destruct (mix a b c d x y) as [[[? ?] ?] ?] end); reflexivity.
Qed.
Lemma rounds_length m l : forall v, length (fold_left (round m) l v) = length v.
Proof. induction l as [|s l IH]; intros v; cbn [fold_left]; [reflexivity|]. now rewrite IH, round_length. Qed.
Lemma compress_length h m t last : length h = 8%nat -> length (compress h m t last) = 8%nat.
Proof.
  intros Hh. unfold compress. rewrite xor3_length; [assumption|..];
  rewrite ?firstn_length, ?skipn_length, rounds_length, app_length, Hh; reflexivity.
Qed.
Lemma blocks_length fuel : forall h t msg, length h = 8%nat -> length (blocks fuel h t msg) = 8%nat.
Proof.
  induction fuel as [|f IH]; intros h t msg Hh; cbn [blocks]; [assumption|].
  destruct (skipn 128 msg); [now apply compress_length|]. apply IH. now apply compress_length.
Qed.

(** C100 *)
Theorem blake2b_is_hash : hash_fn blake2b_256.
Proof.
  intros msg. unfold blake2b_256.
  set (h := blocks _ _ _ _).
  assert (Hl : length h = 8%nat) by (apply blocks_length; reflexivity).
  clearbody h.
  do 8 (destruct h as [|? h]; [discriminate Hl|]). destruct h; [|discriminate Hl].
  cbn [flat_map]. split.
  - rewrite firstn_length, ?app_length, ?le_bytes_length. reflexivity.
  - apply Forall_forall. intros x Hx. apply firstn_In' in Hx.
    repeat (apply in_app_or in Hx; destruct Hx as [Hx|Hx]; [exact (proj1 (Forall_forall _ _) (le_bytes_ok 8 _) x Hx)|]). destruct Hx.
Qed.
