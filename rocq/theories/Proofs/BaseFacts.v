(** Facts about the base vocabulary. *)
From Coq Require Import ZArith List Lia Bool.
Import ListNotations.
From Verif.Model Require Import Base.
Open Scope Z_scope.

Lemma bytes_eqb_eq a b : bytes_eqb a b = true <-> a = b.
Proof. unfold bytes_eqb. destruct (list_eq_dec Z.eq_dec a b); split; congruence. Qed.

Lemma bytes_eqb_refl a : bytes_eqb a a = true.
Proof. apply bytes_eqb_eq; reflexivity. Qed.

Lemma bytes_eqb_neq a b : bytes_eqb a b = false <-> a <> b.
Proof. unfold bytes_eqb. destruct (list_eq_dec Z.eq_dec a b); split; congruence. Qed.

Lemma is_byteb_spec b : is_byteb b = true <-> is_byte b.
Proof. unfold is_byteb, is_byte. rewrite andb_true_iff, Z.leb_le, Z.ltb_lt. tauto. Qed.

Lemma bytes_okb_spec l : bytes_okb l = true <-> bytes_ok l.
Proof.
  unfold bytes_okb, bytes_ok. rewrite forallb_forall, Forall_forall.
  split; intros Hall x Hx; apply is_byteb_spec, Hall, Hx.
Qed.

Lemma bytes_ok_app a b : bytes_ok (a ++ b) <-> bytes_ok a /\ bytes_ok b.
Proof. apply Forall_app. Qed.

Lemma be_put_length n z : length (be_put n z) = n.
Proof. induction n as [|n IH]; cbn [be_put length]; congruence. Qed.

Lemma be_put_ok n z : bytes_ok (be_put n z).
Proof.
  induction n as [|n IH]; cbn [be_put]; constructor; [|exact IH].
  apply Z.mod_pos_bound; lia.
Qed.

Lemma be_get_acc_app a l1 l2 : be_get_acc a (l1 ++ l2) = be_get_acc (be_get_acc a l1) l2.
Proof. revert a; induction l1 as [|x l1 IH]; intros a; cbn [be_get_acc app]; [reflexivity|apply IH]. Qed.

Lemma be_get_acc_spec l : forall a, be_get_acc a l = a * 256 ^ Z.of_nat (length l) + be_get l.
Proof.
  induction l as [|x l IH]; intros a; unfold be_get; cbn [be_get_acc length].
  - rewrite Z.pow_0_r; lia.
  - rewrite IH. rewrite (IH (0 * 256 + x)).
    rewrite Nat2Z.inj_succ, Z.pow_succ_r by lia. ring.
Qed.

Lemma be_get_cons x l : be_get (x :: l) = x * 256 ^ Z.of_nat (length l) + be_get l.
Proof. unfold be_get at 1. cbn [be_get_acc]. rewrite be_get_acc_spec. ring. Qed.

Lemma be_get_bound l : bytes_ok l -> 0 <= be_get l < 256 ^ Z.of_nat (length l).
Proof.
  induction l as [|x l IH]; intros Hok.
  - cbn. lia.
  - inversion Hok as [|? ? Hx Hl]; subst. specialize (IH Hl).
    rewrite be_get_cons. cbn [length]. rewrite Nat2Z.inj_succ, Z.pow_succ_r by lia.
    unfold is_byte in Hx. nia.
Qed.

Lemma be_get_put n z : be_get (be_put n z) = z mod 256 ^ Z.of_nat n.
Proof.
  induction n as [|n IH].
  - cbn. rewrite Z.mod_1_r. reflexivity.
  - cbn [be_put]. rewrite be_get_cons, be_put_length, IH.
    rewrite Nat2Z.inj_succ, Z.pow_succ_r by lia.
    rewrite (Z.mul_comm 256).
    rewrite Z.rem_mul_r by (try apply Z.pow_nonzero; lia). ring.
Qed.

Lemma be_put_get l : bytes_ok l -> be_put (length l) (be_get l) = l.
Proof.
  induction l as [|x l IH]; intros Hok; [reflexivity|].
  inversion Hok as [|? ? Hx Hl]; subst.
  cbn [length be_put]. rewrite be_get_cons.
  pose proof (be_get_bound l Hl) as Hb.
  f_equal.
  - rewrite Z.div_add_l by lia. rewrite (Z.div_small (be_get l)) by lia.
    rewrite Z.add_0_r. apply Z.mod_small. exact Hx.
  - assert (Hgen : forall n m c, (n <= m)%nat -> be_put n (c * 256 ^ Z.of_nat m + be_get l) = be_put n (be_get l)).
    { induction n as [|n IHn]; intros m c Hle; [reflexivity|].
      cbn [be_put]. f_equal; [|apply IHn; lia].
      replace (Z.of_nat m) with (Z.of_nat n + 1 + (Z.of_nat m - Z.of_nat n - 1)) by lia.
      rewrite !Z.pow_add_r by lia.
      replace (c * (256 ^ Z.of_nat n * 256 ^ 1 * 256 ^ (Z.of_nat m - Z.of_nat n - 1)) + be_get l)
        with ((c * 256 ^ (Z.of_nat m - Z.of_nat n - 1) * 256) * 256 ^ Z.of_nat n + be_get l) by ring.
      rewrite Z.div_add_l by (apply Z.pow_nonzero; lia).
      rewrite Z.add_comm, Z.mod_add by lia. reflexivity. }
    etransitivity; [apply Hgen; lia|apply IH, Hl].
Qed.

Lemma be_put_inj n z1 z2 :
  0 <= z1 < 256 ^ Z.of_nat n -> 0 <= z2 < 256 ^ Z.of_nat n ->
  be_put n z1 = be_put n z2 -> z1 = z2.
Proof.
  intros H1 H2 Heq. apply (f_equal be_get) in Heq.
  rewrite !be_get_put, !Z.mod_small in Heq by lia. exact Heq.
Qed.

Lemma bind_ok {A B} (x : res A) (f : A -> res B) b :
  bind x f = Ok b <-> exists a, x = Ok a /\ f a = Ok b.
Proof.
  destruct x as [a|e| |]; cbn; split.
  - intros Hf; exists a; split; [reflexivity|exact Hf].
  - intros (a' & Ha & Hf); injection Ha as ->; exact Hf.
  - discriminate.
  - intros (a' & Ha & _); discriminate.
  - discriminate.
  - intros (a' & Ha & _); discriminate.
  - discriminate.
  - intros (a' & Ha & _); discriminate.
Qed.

Lemma skipn_skipn {A} x y (l : list A) : skipn x (skipn y l) = skipn (y + x) l.
Proof.
  revert l. induction y as [|y IH]; intros l; [reflexivity|].
  destruct l as [|a l]; [rewrite !skipn_nil; reflexivity|]. cbn. apply IH.
Qed.

Lemma bytes_ok_firstn n l : bytes_ok l -> bytes_ok (firstn n l).
Proof. unfold bytes_ok. intros Hl. rewrite <- (firstn_skipn n l) in Hl. apply Forall_app in Hl. tauto. Qed.
Lemma bytes_ok_skipn n l : bytes_ok l -> bytes_ok (skipn n l).
Proof. unfold bytes_ok. intros Hl. rewrite <- (firstn_skipn n l) in Hl. apply Forall_app in Hl. tauto. Qed.
