(** Lemmas about nibble paths. *)
From Coq Require Import ZArith List Lia Bool.
From Coq Require Import ZifyBool ZifyNat.
Import ListNotations.
From Verif.Model Require Import Base Address Nibbles.
From Verif.Spec Require Import AddressSpec.
From Verif.Proofs Require Import BaseFacts AddressFacts.
Open Scope Z_scope.

Definition is_nibble (n : Z) : Prop := 0 <= n < 16.

Lemma nibble_split b : is_byte b -> Z.shiftr b 4 = b / 16 /\ Z.land b 0xF = b mod 16.
Proof.
  intros _. split.
  - rewrite Z.shiftr_div_pow2 by lia. reflexivity.
  - change 0xF with (Z.ones 4). rewrite Z.land_ones by lia. reflexivity.
Qed.

Lemma land_shift4 a b : 0 <= b < 16 -> Z.land (a * 16) b = 0.
Proof.
  intros H. change 16 with (2^4). rewrite <- Z.shiftl_mul_pow2 by lia.
  apply Z.bits_inj'. intros n Hn. rewrite Z.land_spec, Z.bits_0.
  destruct (Z.ltb_spec n 4).
  - rewrite Z.shiftl_spec_low by lia. reflexivity.
  - rewrite (Z.bits_above_log2 b n); [apply Bool.andb_false_r|lia|].
    destruct (Z.eq_dec b 0) as [->|]; [cbn; lia|].
    apply Z.log2_lt_pow2; [lia|]. eapply Z.lt_le_trans; [apply H|].
    change 16 with (2^4). apply Z.pow_le_mono_r; lia.
Qed.

Lemma nibble_join a b : is_nibble a -> is_nibble b -> Z.lor (w8 (Z.shiftl a 4)) b = a * 16 + b.
Proof.
  unfold is_nibble. intros Ha Hb. rewrite Z.shiftl_mul_pow2 by lia. change (2 ^ 4) with 16.
  unfold w8. rewrite Z.mod_small by (unfold two8; lia).
  rewrite <- Z.lxor_lor by (apply land_shift4; exact Hb).
  rewrite <- Z.add_nocarry_lxor by (apply land_shift4; exact Hb). reflexivity.
Qed.

Lemma KeyToNibbles_length k : length (KeyToNibbles k) = (2 * length k)%nat.
Proof. induction k as [|b k IH]; cbn [KeyToNibbles length]; lia. Qed.

Lemma KeyToNibbles_ok k : bytes_ok k -> Forall is_nibble (KeyToNibbles k).
Proof.
  induction 1 as [|b k Hb Hk IH]; cbn [KeyToNibbles]; [constructor|].
  destruct (nibble_split b Hb) as (-> & ->). unfold is_byte in Hb.
  constructor; [|constructor; [|exact IH]]; unfold is_nibble.
  - split; [apply Z.div_pos; lia|apply Z.div_lt_upper_bound; lia].
  - apply Z.mod_pos_bound; lia.
Qed.

Lemma ToKey_KeyToNibbles_loop k : bytes_ok k -> ToKey_loop (KeyToNibbles k) = k.
Proof.
  induction 1 as [|b k Hb Hk IH]; cbn [KeyToNibbles ToKey_loop]; [reflexivity|]. rewrite IH. f_equal.
  pose proof (KeyToNibbles_ok [b] ltac:(constructor; [exact Hb|constructor])) as Hn. cbn in Hn.
  inversion Hn as [|? ? H1 Hn2]; subst. inversion Hn2 as [|? ? H2 _]; subst.
  rewrite nibble_join by assumption. destruct (nibble_split b Hb) as (-> & ->).
  pose proof (Z.div_mod b 16 ltac:(lia)). lia.
Qed.

Lemma ToKey_KeyToNibbles k : length k = 20%nat -> bytes_ok k -> ToKey (KeyToNibbles k) = Ok k.
Proof.
  intros Hl Hok. unfold ToKey. rewrite KeyToNibbles_length, Hl. cbn [Nat.mul Nat.add Nat.eqb negb].
  rewrite ToKey_KeyToNibbles_loop by exact Hok. reflexivity.
Qed.

Lemma KeyToNibbles_ToKey_loop n : forall l, length l = (2 * n)%nat -> Forall is_nibble l ->
  KeyToNibbles (ToKey_loop l) = l /\ length (ToKey_loop l) = n /\ bytes_ok (ToKey_loop l).
Proof.
  induction n as [|n IH]; intros l Hl Hok.
  - destruct l; [|cbn in Hl; lia]. repeat split. constructor.
  - destruct l as [|a [|b l]]; try (cbn in Hl; lia).
    inversion Hok as [|? ? Ha Hok1]; subst. inversion Hok1 as [|? ? Hb Hok2]; subst.
    destruct (IH l ltac:(cbn in Hl; lia) Hok2) as (H1 & H2 & H3).
    cbn [ToKey_loop KeyToNibbles length]. rewrite nibble_join by assumption.
    assert (Hby : is_byte (a * 16 + b)) by (unfold is_nibble, is_byte in *; lia).
    destruct (nibble_split _ Hby) as (-> & ->). unfold is_nibble in *.
    rewrite H1, H2. split; [|split; [reflexivity|constructor; assumption]].
    f_equal; [|f_equal].
    + rewrite Z.div_add_l by lia. rewrite Z.div_small by lia. lia.
    + rewrite Z.add_comm, Z.mod_add by lia. apply Z.mod_small. lia.
Qed.

Lemma PrefixOf_loop_spec a : forall b, PrefixOf_loop a b = true <-> exists r, b = a ++ r.
Proof.
  induction a as [|x a IH]; intros b; cbn [PrefixOf_loop].
  - split; [intros _; exists b; reflexivity|reflexivity].
  - destruct b as [|y b].
    + split; [discriminate|intros (r & H); discriminate].
    + destruct (Z.eqb_spec x y) as [->|Hne].
      * rewrite IH. split; intros (r & H); exists r; [cbn; congruence|injection H; auto].
      * split; [discriminate|intros (r & H); cbn in H; congruence].
Qed.

Lemma PrefixOf_spec a b : PrefixOf a b = true <-> exists r, b = a ++ r.
Proof.
  unfold PrefixOf. destruct (Nat.ltb_spec (length b) (length a)) as [H|H].
  - split; [discriminate|]. intros (r & ->). rewrite app_length in H. lia.
  - apply PrefixOf_loop_spec.
Qed.

Lemma CommonPrefix_prefix a : forall b,
  (exists r, a = CommonPrefix a b ++ r) /\ (exists r, b = CommonPrefix a b ++ r).
Proof.
  induction a as [|x a IH]; intros b; cbn [CommonPrefix].
  - split; [exists []; reflexivity|exists b; reflexivity].
  - destruct b as [|y b]; [split; [exists (x :: a); reflexivity|exists []; reflexivity]|].
    destruct (Z.eqb_spec x y) as [->|Hne].
    + destruct (IH b) as ((r1 & H1) & (r2 & H2)). split; [exists r1|exists r2]; cbn; congruence.
    + split; [exists (x :: a)|exists (y :: b)]; reflexivity.
Qed.

Lemma CommonPrefix_greatest a : forall b c r1 r2,
  a = c ++ r1 -> b = c ++ r2 -> exists r, CommonPrefix a b = c ++ r.
Proof.
  intros b c. revert a b. induction c as [|z c IH]; intros a b r1 r2 H1 H2.
  - exists (CommonPrefix a b). reflexivity.
  - subst a b. cbn. rewrite Z.eqb_refl. destruct (IH _ _ r1 r2 eq_refl eq_refl) as (r & Hr).
    exists r. congruence.
Qed.

Lemma Compress_loop_panics nbs : forall i buf,
  (length buf <= (i + length nbs - 1) / 2)%nat -> nbs <> [] -> Compress_loop nbs i buf = Panic.
Proof.
  induction nbs as [|n r IH]; intros i buf Hl Hne; [contradiction|].
  cbn [Compress_loop]. destruct (nth_error buf (i / 2)) as [old|] eqn:E; [|reflexivity].
  assert (Hlt : (i / 2 < length buf)%nat) by (apply nth_error_Some; congruence).
  apply IH.
  - rewrite app_length, firstn_length_le by lia. cbn [length]. rewrite skipn_length.
    cbn [length] in Hl. replace (S i + length r - 1)%nat with (i + S (length r) - 1)%nat by lia. lia.
  - intros ->. cbn [length] in Hl. replace (i + 1 - 1)%nat with i in Hl by lia. lia.
Qed.

Lemma Compress_nonempty_panics nbs : nbs <> [] -> Compress nbs = Panic.
Proof.
  intros Hne. unfold Compress. apply Compress_loop_panics; [|exact Hne].
  rewrite repeat_length.
  assert (Hp : (1 <= length nbs)%nat) by (destruct nbs; [contradiction|cbn; lia]).
  unfold zlen. rewrite Z.quot_div_nonneg by lia.
  apply Nat2Z.inj_le. rewrite Z2Nat.id by (apply Z.div_pos; lia).
  rewrite Nat2Z.inj_div. cbn [Nat.add]. apply Z.div_le_mono; lia.
Qed.

Lemma packed_length l : length (packed l) = Nat.div2 (S (length l)).
Proof.
  enough (G : forall n l, (length l <= n)%nat -> length (packed l) = Nat.div2 (S (length l))) by (apply (G (length l)); lia).
  clear l. induction n as [|n IH]; intros [|a [|b r]] H; cbn in H; try lia; try reflexivity. cbn [packed length]. rewrite IH by lia. reflexivity.
Qed.
Lemma lor_nibbles a b : is_nibble a -> is_nibble b -> Z.lor (w8 (Z.shiftl a 4)) (Z.land b 0xF) = 16 * a + b.
Proof.
  unfold is_nibble. intros Ha Hb. assert (Ea : exists k, a = Z.of_nat k /\ (k < 16)%nat) by (exists (Z.to_nat a); lia).
  assert (Eb : exists k, b = Z.of_nat k /\ (k < 16)%nat) by (exists (Z.to_nat b); lia). destruct Ea as (k & -> & Hk), Eb as (j & -> & Hj).
  do 16 (destruct k as [|k]; [do 16 (destruct j as [|j]; [reflexivity|]); lia|]). lia.
Qed.
Lemma shift_nibble a : is_nibble a -> w8 (Z.shiftl a 4) = 16 * a.
Proof.
  unfold is_nibble. intros Ha. assert (Ea : exists k, a = Z.of_nat k /\ (k < 16)%nat) by (exists (Z.to_nat a); lia). destruct Ea as (k & -> & Hk).
  do 16 (destruct k as [|k]; [reflexivity|]). lia.
Qed.
(** The loop over a large enough buffer packs the nibbles and leaves the rest. *)
Lemma loop_packs l : Forall is_nibble l -> forall done old rest, length old = length (packed l) ->
  Compress_loop l (2 * length done) (done ++ old ++ rest) = Ok (done ++ packed l ++ rest).
Proof.
  enough (G : forall n l, (length l <= n)%nat -> Forall is_nibble l -> forall done old rest, length old = length (packed l) ->
    Compress_loop l (2 * length done) (done ++ old ++ rest) = Ok (done ++ packed l ++ rest)) by (apply (G (length l)); lia).
  clear l. induction n as [|n IH]; intros [|a l] Hn Hl done old rest Ho; cbn [length] in Hn; try lia.
  - destruct old; [reflexivity|discriminate].
  - destruct old; [reflexivity|discriminate].
  - inversion Hl as [|? ? Ha Hl']; subst. destruct old as [|o old]; [destruct l; discriminate|].
    assert (D2 : forall k, (2 * k / 2 = k)%nat) by (intros; rewrite Nat.mul_comm, Nat.div_mul; lia).
    assert (D3 : forall k, (S (2 * k) / 2 = k)%nat) by (intros; pose proof (Nat.div_mod (S (2 * k)) 2 ltac:(lia)); pose proof (Nat.mod_upper_bound (S (2 * k)) 2 ltac:(lia)); lia).
    assert (N : forall x (r : list Z), nth_error (done ++ x :: r) (length done) = Some x) by (intros; rewrite nth_error_app2, Nat.sub_diag by lia; reflexivity).
    assert (U : forall x v (r : list Z), firstn (length done) (done ++ x :: r) ++ v :: skipn (S (length done)) (done ++ x :: r) = done ++ v :: r).
    { intros. rewrite firstn_app, Nat.sub_diag, firstn_all, firstn_O, app_nil_r. f_equal. f_equal.
      rewrite skipn_app, skipn_all2 by lia. replace (S (length done) - length done)%nat with 1%nat by lia. reflexivity. }
    cbn [Compress_loop]. cbn [app]. rewrite D2, N, U. replace (Nat.even (2 * length done)) with true by (symmetry; apply Nat.even_spec; eexists; reflexivity).
    destruct l as [|b l].
    + cbn [packed]. rewrite (shift_nibble a Ha). destruct old; [reflexivity|discriminate].
    + inversion Hl' as [|? ? Hb Hl2]; subst. cbn [Compress_loop]. rewrite D3, N, U.
      replace (Nat.even (S (2 * length done))) with false by (symmetry; rewrite Nat.even_succ; rewrite <- Nat.negb_even; replace (Nat.even (2 * length done)) with true; [reflexivity|symmetry; apply Nat.even_spec; eexists; reflexivity]).
      rewrite (lor_nibbles a b Ha Hb). cbn [packed]. 
      specialize (IH l ltac:(cbn in Hn; lia) Hl2 (done ++ [16 * a + b]) old rest ltac:(cbn in Ho; lia)).
      rewrite app_length in IH. cbn [length] in IH. replace (2 * (length done + 1))%nat with (S (S (2 * length done))) in IH by lia.
      rewrite <- !app_assoc in IH. exact IH.
Qed.

Lemma hexTable_nth n : is_nibble n -> index hexTable (Z.to_nat n) = Ok (if n <? 10 then 48 + n else 87 + n).
Proof.
  intros Hn. unfold is_nibble in Hn.
  assert (H : exists k, n = Z.of_nat k /\ (k < 16)%nat) by (exists (Z.to_nat n); lia).
  destruct H as (k & -> & Hk). rewrite Nat2Z.id.
  do 16 (destruct k as [|k]; [reflexivity|]). lia.
Qed.

Definition hex_digit (n : Z) : Z := if n <? 10 then 48 + n else 87 + n.

Lemma HexBytes_ok l : Forall is_nibble l -> HexBytes l = Ok (map hex_digit l).
Proof.
  induction 1 as [|n l Hn Hl IH]; [reflexivity|]. cbn [HexBytes map].
  rewrite (hexTable_nth n Hn), IH. reflexivity.
Qed.

Lemma hex_digit_inj a b : is_nibble a -> is_nibble b -> hex_digit a = hex_digit b -> a = b.
Proof. unfold is_nibble, hex_digit. destruct (a <? 10) eqn:E1, (b <? 10) eqn:E2; lia. Qed.

Lemma HexBytes_inj a b :
  Forall is_nibble a -> Forall is_nibble b -> map hex_digit a = map hex_digit b -> a = b.
Proof.
  intros Ha. revert b. induction Ha as [|x a Hx Ha IH]; intros b Hb E; destruct Hb as [|y b Hy Hb];
    try discriminate; [reflexivity|].
  cbn in E. injection E as E1 E2. f_equal; [apply hex_digit_inj; assumption|apply IH; assumption].
Qed.
