(** Properties C12-C14: nibble paths (wire/nibbles.go). *)
From Coq Require Import ZArith List Lia Bool.
From Coq Require Import ZifyBool ZifyNat.
Import ListNotations.
From Verif.Model Require Import Base Nibbles.
From Verif.Spec Require Import AddressSpec.
From Verif.Proofs Require Import BaseFacts NibblesFacts.
Open Scope Z_scope.

(** C12.  Keys (20 bytes) and paths (40 nibbles) are in bijection. *)
Theorem C12_key_nibbles_bijection :
  (forall k, addr20 k ->
     length (KeyToNibbles k) = 40%nat /\ Forall (fun n => 0 <= n < 16) (KeyToNibbles k) /\
     ToKey (KeyToNibbles k) = Ok k) /\
  (forall n, length n = 40%nat -> Forall (fun x => 0 <= x < 16) n ->
     exists k, ToKey n = Ok k /\ addr20 k /\ KeyToNibbles k = n) /\
  (forall n, length n <> 40%nat -> ToKey n = Panic).
Proof.
  split; [|split].
  - intros k (Hl & Hok). split; [rewrite KeyToNibbles_length, Hl; reflexivity|].
    split; [apply KeyToNibbles_ok, Hok|apply ToKey_KeyToNibbles; assumption].
  - intros n Hl Hok. destruct (KeyToNibbles_ToKey_loop 20 n Hl Hok) as (H1 & H2 & H3).
    exists (ToKey_loop n). unfold ToKey. rewrite Hl. cbn [Nat.eqb negb].
    split; [reflexivity|]. split; [split; assumption|exact H1].
  - intros n Hn. unfold ToKey. destruct (Nat.eqb_spec (length n) 40); [contradiction|reflexivity].
Qed.
Print Assumptions C12_key_nibbles_bijection.
(** What the nibbles are: high nibble first. *)
Theorem C12_nibbles_are_high_then_low :
  forall b k, 0 <= b < 256 -> KeyToNibbles (b :: k) = b / 16 :: b mod 16 :: KeyToNibbles k.
Proof. intros b k Hb. cbn [KeyToNibbles]. destruct (nibble_split b Hb) as (-> & ->). reflexivity. Qed.
Example C12_nonvacuous : KeyToNibbles [0x21; 0xa9] = [2; 1; 0xa; 9] /\ addr20 (repeat 0xa9 20).
Proof. split; [reflexivity|]. split; [reflexivity|apply bytes_okb_spec; reflexivity]. Qed.

(** C13.  The prefix order. *)
Theorem C13_prefix_order :
  forall a b,
    (PrefixOf a b = true <-> exists r, b = a ++ r) /\
    (exists r1 r2, a = CommonPrefix a b ++ r1 /\ b = CommonPrefix a b ++ r2) /\
    (forall c r1 r2, a = c ++ r1 -> b = c ++ r2 -> exists r, CommonPrefix a b = c ++ r).
Proof.
  intros a b. split; [apply PrefixOf_spec|]. split.
  - destruct (CommonPrefix_prefix a b) as ((r1 & H1) & (r2 & H2)). exists r1, r2. auto.
  - intros c r1 r2. apply CommonPrefix_greatest.
Qed.
Print Assumptions C13_prefix_order.
Example C13_nonvacuous :
  PrefixOf [1; 2] [1; 2; 3] = true /\ PrefixOf [1; 2; 3] [1; 2] = false /\
  CommonPrefix [1; 2; 3; 4] [1; 2; 5] = [1; 2].
Proof. repeat split. Qed.

(** C14 is false of the code: Compress panics on every non-empty list. *)
Theorem C14_compress_refuted :
  forall nbs, nbs <> [] -> Compress nbs = Panic.
Proof. exact Compress_nonempty_panics. Qed.
Print Assumptions C14_compress_refuted.
Theorem C14_compress_empty_partial : Compress [] = Ok [].
Proof. reflexivity. Qed.
(** Only the size of the buffer is wrong: on a buffer of half the nibbles, rounded
    up, the loop packs them. *)
Theorem C14_loop_partial nbs buf : Forall (fun n => 0 <= n < 16) nbs -> length buf = ((length nbs + 1) / 2)%nat ->
  Compress_loop nbs 0 buf = Ok (packed nbs).
Proof.
  intros Hn Hl. pose proof (loop_packs nbs Hn [] buf []) as L. cbn [app length Nat.mul] in L. rewrite !app_nil_r in L. apply L.
  rewrite packed_length, Nat.div2_div, Hl. f_equal. lia.
Qed.
Print Assumptions C14_loop_partial.
Example C14_example : Compress_loop [1; 2; 15] 0 [7; 7] = Ok [18; 240] /\ packed [1; 2; 15] = [18; 240].
Proof. split; reflexivity. Qed.
