(** Lemmas about address encoding and decoding. *)
From Coq Require Import ZArith List Lia Bool Znumtheory Zpow_facts String Ascii.
From Coq Require Import ZifyBool ZifyNat.
Import ListNotations.
From Verif.Model Require Import Base Address.
From Verif.Spec Require Import AddressSpec.
From Verif.Proofs Require Import BaseFacts.
Open Scope list_scope.
Open Scope Z_scope.
Notation length := List.length.

(** *** Checking a statement for all 256 bytes by computation *)
Lemma all_bytes (P : Z -> bool) :
  forallb P (map Z.of_nat (seq 0 256)) = true -> forall c, is_byte c -> P c = true.
Proof.
  intros H c Hc. rewrite forallb_forall in H. apply H.
  apply in_map_iff. exists (Z.to_nat c). unfold is_byte in Hc. split; [lia|].
  apply in_seq. lia.
Qed.

Definition alnum (c : Z) : bool := is_digit c || is_letter c.
Definition digit_chars (l : bytes) : Prop := Forall (fun c => 48 <= c <= 57) l.

(** *** Decimal expansions *)
Lemma parse_uint_app a x y : parse_uint a (x ++ y) = parse_uint (parse_uint a x) y.
Proof. revert a; induction x as [|c x IH]; intros a; cbn; [reflexivity|apply IH]. Qed.

Lemma parse_uint_acc l : forall a, parse_uint a l = a * 10 ^ zlen l + parse_uint 0 l.
Proof.
  induction l as [|c l IH]; intros a; cbn [parse_uint].
  - unfold zlen. cbn. lia.
  - rewrite IH. rewrite (IH (0 * 10 + (c - 48))). unfold zlen. cbn [length].
    rewrite Nat2Z.inj_succ, Z.pow_succ_r by lia. ring.
Qed.

Lemma parse_uint_mod a b l : a mod 97 = b mod 97 -> parse_uint a l mod 97 = parse_uint b l mod 97.
Proof.
  intros H. rewrite (parse_uint_acc l a), (parse_uint_acc l b).
  rewrite (Z.add_mod (a * _)), (Z.add_mod (b * _)) by lia.
  rewrite (Z.mul_mod a), (Z.mul_mod b) by lia. rewrite H. reflexivity.
Qed.

Lemma format_small_parse n : 0 <= n < 100 -> parse_uint 0 (format_small n) = n.
Proof.
  intros Hn. unfold format_small. destruct (n <? 10) eqn:E; cbn [parse_uint]; [lia|].
  pose proof (Z.div_mod n 10 ltac:(lia)). lia.
Qed.

Lemma check_loop_ok sum : sum <> [] ->
  forall k fuel i tmp,
    let blockCount := ((length sum + 5) / 6)%nat in
    (i + k = blockCount)%nat -> (1 <= k)%nat -> (k <= fuel)%nat ->
    parse_uint 0 tmp mod 97 = parse_uint 0 (firstn (i * 6) sum) mod 97 ->
    check_loop fuel sum blockCount i tmp = Ok (parse_uint 0 sum mod 97).
Proof.
  intros Hne. induction k as [|k IH]; intros fuel i tmp blockCount Hk H1 Hf Htmp; [lia|].
  assert (Hbc1 : (6 * blockCount <= length sum + 5)%nat).
  { subst blockCount. apply Nat.mul_div_le. lia. }
  assert (Hbc2 : (length sum <= 6 * blockCount)%nat).
  { subst blockCount. pose proof (Nat.mul_succ_div_gt (length sum + 5) 6 ltac:(lia)). lia. }
  destruct fuel as [|fuel]; [lia|]. cbn [check_loop].
  set (stop := if Nat.leb (length sum) (i * 6 + 6) then length sum else (i * 6 + 6)%nat).
  assert (Hcat : parse_uint 0 (tmp ++ firstn (stop - i * 6) (skipn (i * 6) sum)) mod 97
                 = parse_uint 0 (firstn stop sum) mod 97).
  { rewrite parse_uint_app. rewrite (parse_uint_mod _ _ _ Htmp), <- parse_uint_app. do 2 f_equal.
    assert (Hle : (i * 6 <= stop)%nat).
    { subst stop. destruct (Nat.leb_spec (length sum) (i * 6 + 6)); lia. }
    rewrite firstn_skipn_comm.
    replace (i * 6 + (stop - i * 6))%nat with stop by lia.
    rewrite <- (firstn_skipn (i * 6) (firstn stop sum)) at 2.
    f_equal. rewrite firstn_firstn. f_equal. lia. }
  assert (Hb : 0 <= parse_uint 0 (tmp ++ firstn (stop - i * 6) (skipn (i * 6) sum)) mod 97 < 97)
    by (apply Z.mod_pos_bound; lia).
  destruct (Nat.ltb_spec (i + 1) blockCount) as [Hlt|Hge].
  - apply IH; [lia|lia|lia|].
    rewrite format_small_parse by lia. rewrite Z.mod_mod by lia. rewrite Hcat.
    replace stop with ((i + 1) * 6)%nat; [reflexivity|].
    subst stop. destruct (Nat.leb_spec (length sum) (i * 6 + 6)); lia.
  - rewrite Hcat in *. unfold w8. rewrite (Z.mod_small (_ mod 97)) by (unfold two8; lia).
    do 2 f_equal. f_equal. apply firstn_all2.
    subst stop. destruct (Nat.leb_spec (length sum) (i * 6 + 6)); lia.
Qed.

(** *** Characters *)
Lemma check_char_spec c :
  is_byte c ->
  if alnum c then
    exists d, check_char c = Ok d /\ d <> [] /\ (length d <= 2)%nat /\
      (is_digit c = true -> length d = 1%nat) /\
      forall a, parse_uint a d = a * (if is_digit c then 10 else 100) + char_value c
  else check_char c = Err EInvalidCharacter.
Proof.
  intros Hc. unfold is_byte in Hc. unfold alnum, is_letter, check_char, char_value, w8, two8.
  destruct (is_digit c) eqn:Hd; cbn [orb].
  - unfold is_digit in Hd.
    replace ((0x60 <? c) && (c <=? 0x7A)) with false by lia.
    replace ((0x40 <? c) && (c <=? 0x5A)) with false by lia.
    replace ((0x30 <=? c) && (c <=? 0x39)) with true by lia.
    exists [c]. cbn. repeat split; try lia; try discriminate.
  - unfold is_digit in Hd. unfold is_upper, is_lower.
    destruct ((97 <=? c) && (c <=? 122)) eqn:Hl.
    + replace ((0x60 <? c) && (c <=? 0x7A)) with true by lia.
      replace ((65 <=? c) && (c <=? 90)) with false by lia. cbn [orb].
      rewrite (Z.mod_small (c - 0x20)) by lia.
      rewrite (Z.mod_small (c - 0x20 - 0x37)) by lia.
      unfold format_small. replace (c - 0x20 - 0x37 <? 10) with false by lia.
      eexists. split; [reflexivity|]. cbn [length parse_uint].
      split; [discriminate|]. split; [lia|]. split; [discriminate|].
      intros a. pose proof (Z.div_mod (c - 0x20 - 0x37) 10 ltac:(lia)). lia.
    + replace ((0x60 <? c) && (c <=? 0x7A)) with false by lia.
      destruct ((65 <=? c) && (c <=? 90)) eqn:Hu; cbn [orb].
      * replace ((0x40 <? c) && (c <=? 0x5A)) with true by lia.
        rewrite (Z.mod_small (c - 0x37)) by lia.
        unfold format_small. replace (c - 0x37 <? 10) with false by lia.
        eexists. split; [reflexivity|]. cbn [length parse_uint].
        split; [discriminate|]. split; [lia|]. split; [discriminate|].
        intros a. pose proof (Z.div_mod (c - 0x37) 10 ltac:(lia)). lia.
      * replace ((0x40 <? c) && (c <=? 0x5A)) with false by lia.
        replace ((0x30 <=? c) && (c <=? 0x39)) with false by lia. reflexivity.
Qed.

Lemma nextChars_spec s :
  bytes_ok s ->
  if forallb alnum s then
    exists d, nextChars s = Ok d /\ (s <> [] -> d <> []) /\ forall a, parse_uint a d = iso_number a s
  else nextChars s = Err EInvalidCharacter.
Proof.
  induction s as [|c s IH]; intros Hok; cbn [forallb nextChars iso_number].
  - exists []. split; [reflexivity|]. split; [tauto|reflexivity].
  - inversion Hok as [|? ? Hc Hs]; subst. specialize (IH Hs).
    pose proof (check_char_spec c Hc) as Hcc.
    destruct (alnum c); cbn [andb].
    + destruct Hcc as (d & Hd & Hne & _ & _ & Hp). rewrite Hd. cbn [bind].
      destruct (forallb alnum s).
      * destruct IH as (d' & Hd' & _ & Hp'). rewrite Hd'. cbn [bind].
        exists (d ++ d'). split; [reflexivity|]. split; [destruct d; [contradiction|discriminate]|].
        intros a. rewrite parse_uint_app, Hp, Hp'. reflexivity.
      * rewrite IH. reflexivity.
    + rewrite Hcc. reflexivity.
Qed.

Lemma iso_number_app a x y : iso_number a (x ++ y) = iso_number (iso_number a x) y.
Proof. revert a; induction x as [|c x IH]; intros a; cbn; [reflexivity|apply IH]. Qed.

Lemma addressCheck_spec s :
  bytes_ok s -> length s = 36%nat ->
  addressCheck s = if forallb alnum s then Ok (iso_number 0 (skipn 4 s ++ firstn 4 s) mod 97)
                   else Err EInvalidCharacter.
Proof.
  intros Hok Hlen. unfold addressCheck.
  assert (Hall : forallb alnum s = forallb alnum (skipn 4 s) && forallb alnum (firstn 4 s)).
  { rewrite <- (firstn_skipn 4 s) at 1. rewrite forallb_app. apply andb_comm. }
  assert (Hok1 : bytes_ok (firstn 4 s) /\ bytes_ok (skipn 4 s)).
  { apply bytes_ok_app. rewrite firstn_skipn. exact Hok. }
  destruct Hok1 as (Hok1 & Hok2).
  pose proof (nextChars_spec (skipn 4 s) Hok2) as H2.
  pose proof (nextChars_spec (firstn 4 s) Hok1) as H1. rewrite Hall.
  destruct (forallb alnum (skipn 4 s)).
  - destruct H2 as (d2 & Hd2 & Hne2 & Hp2). rewrite Hd2. cbn [bind].
    destruct (forallb alnum (firstn 4 s)).
    + destruct H1 as (d1 & Hd1 & _ & Hp1). rewrite Hd1. cbn [bind andb].
      assert (Hne : d2 ++ d1 <> []).
      { assert (d2 <> []); [|destruct d2; [contradiction|discriminate]].
        apply Hne2. intros E. apply (f_equal (@length Z)) in E. rewrite skipn_length in E. cbn in E. lia. }
      set (sum := d2 ++ d1) in *.
      assert (Hl : (1 <= length sum)%nat) by (destruct sum; [contradiction|cbn; lia]).
      assert (Hbc : (1 <= (length sum + 5) / 6)%nat).
      { apply Nat.div_le_lower_bound; lia. }
      rewrite (check_loop_ok sum Hne ((length sum + 5) / 6)%nat); try lia; try reflexivity.
      subst sum. rewrite parse_uint_app, Hp2, Hp1, <- iso_number_app. reflexivity.
    + rewrite H1. reflexivity.
  - rewrite H2. reflexivity.
Qed.

(** *** Spaces *)
Lemma truncate_loop_spec rem : forall room acc,
  truncateWhitespace_loop rem room acc =
    if Nat.eqb (length (strip rem)) room && negb (last rem 0 =? 32)
    then Ok (acc ++ strip rem) else Err EInvalidLength.
Proof.
  induction rem as [|c rem IH]; intros room acc; cbn [truncateWhitespace_loop].
  - cbn. rewrite app_nil_r. destruct room; reflexivity.
  - destruct room as [|room].
    + destruct (Nat.eqb_spec (length (strip (c :: rem))) 0) as [E|E]; [|reflexivity].
      assert (Hall : forall l, length (strip l) = O -> l <> [] -> last l 0 = 32).
      { clear. induction l as [|x l IH]; [contradiction|]. intros Hl _.
        cbn [strip filter] in Hl. destruct (Z.eqb_spec x 32) as [->|]; cbn [negb] in Hl; [|discriminate].
        destruct l as [|y l]; [reflexivity|]. change (last (32 :: y :: l) 0) with (last (y :: l) 0).
        apply IH; [exact Hl|discriminate]. }
      rewrite (Hall _ E) by discriminate. reflexivity.
    + cbn [strip filter]. destruct (Z.eqb_spec c 32) as [->|Hc]; cbn [negb].
      * rewrite IH. fold (strip rem). destruct rem as [|y rem]; [reflexivity|].
        change (last (32 :: y :: rem) 0) with (last (y :: rem) 0). reflexivity.
      * rewrite IH. fold (strip rem). cbn [length Nat.eqb].
        rewrite <- app_assoc. cbn [app].
        destruct rem as [|y rem].
        { cbn. replace (c =? 32) with false by lia. destruct room; reflexivity. }
        change (last (c :: y :: rem) 0) with (last (y :: rem) 0). reflexivity.
Qed.

Lemma truncateWhitespace_spec s :
  truncateWhitespace s =
    if Nat.eqb (length (strip s)) 36 && negb (last s 0 =? 32) then Ok (strip s) else Err EInvalidLength.
Proof. apply truncate_loop_spec. Qed.

Lemma strip_idem s : strip (strip s) = strip s.
Proof.
  induction s as [|c s IH]; [reflexivity|]. cbn [strip filter].
  destruct (c =? 32) eqn:E; cbn [negb]; [exact IH|].
  cbn [strip filter]. rewrite E. cbn [negb]. f_equal. exact IH.
Qed.

Lemma strip_last s : last (strip s) 0 <> 32.
Proof.
  induction s as [|c s IH]; [cbn; lia|]. cbn [strip filter].
  destruct (Z.eqb_spec c 32) as [->|Hc]; cbn [negb]; [exact IH|]. fold (strip s).
  destruct (strip s) as [|y r] eqn:E; [exact Hc|]. change (last (c :: y :: r) 0) with (last (y :: r) 0).
  exact IH.
Qed.

Lemma strip_ok s : bytes_ok s -> bytes_ok (strip s).
Proof.
  intros H. unfold bytes_ok in *. rewrite Forall_forall in *. intros x Hx.
  apply filter_In in Hx. apply H, Hx.
Qed.

(** *** Base 32 *)
Lemma b32_index_spec c :
  is_byte c -> b32_index c = if in_alphabet c then Some (alphabet_rank c) else None.
Proof.
  intros Hc.
  pose proof (all_bytes (fun c => match b32_index c, (if in_alphabet c then Some (alphabet_rank c) else None) with
              | Some a, Some b => a =? b | None, None => true | _, _ => false end)
              ltac:(vm_compute; reflexivity) c Hc) as H.
  cbn beta in H. destruct (b32_index c), (in_alphabet c); try discriminate; [|reflexivity].
  apply Z.eqb_eq in H. congruence.
Qed.

Lemma in_alphabet_alnum c : in_alphabet c = true -> alnum c = true.
Proof. unfold in_alphabet, alnum, is_letter. destruct (is_digit c), (is_upper c); cbn; try reflexivity; discriminate. Qed.

Lemma alphabet_rank_bound c : in_alphabet c = true -> 0 <= alphabet_rank c < 32.
Proof.
  unfold in_alphabet, alphabet_rank, is_digit, is_upper. intros H.
  destruct ((48 <=? c) && (c <=? 57)) eqn:E; [lia|].
  destruct (73 <? c) eqn:E1, (79 <? c) eqn:E2, (87 <? c) eqn:E3; lia.
Qed.

Lemma b32_value_spec s : bytes_ok s -> forall a,
  b32_value a s = if forallb in_alphabet s then Some (base32_number a s) else None.
Proof.
  induction s as [|c s IH]; intros Hok a; cbn [b32_value forallb base32_number]; [reflexivity|].
  inversion Hok as [|? ? Hc Hs]; subst. rewrite b32_index_spec by exact Hc.
  destruct (in_alphabet c); cbn [andb]; [apply IH, Hs|reflexivity].
Qed.

Lemma base32_number_acc s : forall a, base32_number a s = a * 32 ^ zlen s + base32_number 0 s.
Proof.
  induction s as [|c s IH]; intros a; cbn [base32_number].
  - unfold zlen; cbn; lia.
  - rewrite IH. rewrite (IH (0 * 32 + _)). unfold zlen. cbn [length].
    rewrite Nat2Z.inj_succ, Z.pow_succ_r by lia. ring.
Qed.

Lemma base32_number_app a x y : base32_number a (x ++ y) = base32_number (base32_number a x) y.
Proof. revert a; induction x as [|c x IH]; intros a; cbn; [reflexivity|apply IH]. Qed.

Lemma base32_number_bound s : forallb in_alphabet s = true -> 0 <= base32_number 0 s < 32 ^ zlen s.
Proof.
  induction s as [|c s IH]; cbn [forallb base32_number]; intros H.
  - unfold zlen; cbn; lia.
  - apply andb_true_iff in H as (Hc & Hs). specialize (IH Hs).
    rewrite base32_number_acc. unfold zlen in *. cbn [length].
    rewrite Nat2Z.inj_succ, Z.pow_succ_r by lia.
    pose proof (alphabet_rank_bound c Hc).
    assert (0 < 32 ^ Z.of_nat (length s)) by (apply Z.pow_pos_nonneg; lia). nia.
Qed.

Lemma base256_be_get l : forall a, base256_number a l = be_get_acc a l.
Proof. induction l as [|b l IH]; intros a; cbn; [reflexivity|apply IH]. Qed.

Lemma base256_be_get0 l : base256_number 0 l = be_get l.
Proof. apply base256_be_get. Qed.

Lemma b32_decode_spec q : forall s,
  bytes_ok s -> length s = (8 * q)%nat ->
  if forallb in_alphabet s then
    exists a, b32_decode q s = Ok a /\ length a = (5 * q)%nat /\ bytes_ok a /\
              be_get a = base32_number 0 s
  else b32_decode q s = Err EBase32.
Proof.
  induction q as [|q IH]; intros s Hok Hlen; cbn [b32_decode].
  - destruct s; [|cbn in Hlen; lia]. cbn. exists []. repeat split; constructor.
  - assert (Hok' : bytes_ok (firstn 8 s) /\ bytes_ok (skipn 8 s)).
    { apply bytes_ok_app. rewrite firstn_skipn. exact Hok. }
    destruct Hok' as (Hok1 & Hok2).
    rewrite b32_value_spec by exact Hok1.
    assert (Hall : forallb in_alphabet s = forallb in_alphabet (firstn 8 s) && forallb in_alphabet (skipn 8 s)).
    { rewrite <- (firstn_skipn 8 s) at 1. apply forallb_app. }
    rewrite Hall. clear Hall.
    destruct (forallb in_alphabet (firstn 8 s)) eqn:H8; cbn [andb]; [|reflexivity].
    specialize (IH (skipn 8 s) Hok2 ltac:(rewrite skipn_length; lia)).
    destruct (forallb in_alphabet (skipn 8 s)) eqn:Hr.
    + destruct IH as (a & Ha & Hla & Hoka & Hga). rewrite Ha. cbn [bind].
      eexists. split; [reflexivity|]. split; [rewrite app_length, be_put_length; lia|].
      split; [apply bytes_ok_app; split; [apply be_put_ok|exact Hoka]|].
      assert (Hl8 : zlen (firstn 8 s) = 8) by (unfold zlen; rewrite firstn_length; lia).
      pose proof (base32_number_bound (firstn 8 s) H8) as Hb. rewrite Hl8 in Hb.
      unfold be_get at 1. rewrite be_get_acc_app. fold (be_get (be_put 5 (base32_number 0 (firstn 8 s)))).
      rewrite be_get_put. rewrite Z.mod_small by (change (256 ^ Z.of_nat 5) with (32 ^ 8); exact Hb).
      rewrite be_get_acc_spec, Hga, Hla.
      rewrite <- (firstn_skipn 8 s) at 3. rewrite base32_number_app.
      rewrite (base32_number_acc (skipn 8 s) (base32_number 0 (firstn 8 s))).
      do 2 f_equal. unfold zlen. rewrite skipn_length, Hlen.
      replace (8 * S q - 8)%nat with (8 * q)%nat by lia.
      change 256 with (2 ^ 8). change 32 with (2 ^ 5). rewrite <- !Z.pow_mul_r by lia. f_equal. lia.
    + rewrite IH. reflexivity.
Qed.

(** Encoding *)
Lemma b32_char_spec d : 0 <= d < 32 ->
  in_alphabet (b32_char d) = true /\ alphabet_rank (b32_char d) = d /\ is_byte (b32_char d).
Proof.
  intros Hd.
  pose proof (all_bytes (fun d => if (d <? 32) then in_alphabet (b32_char d) && (alphabet_rank (b32_char d) =? d)
                         && is_byteb (b32_char d) else true)
              ltac:(vm_compute; reflexivity) d ltac:(unfold is_byte; lia)) as H.
  cbn beta in H. replace (d <? 32) with true in H by lia.
  apply andb_true_iff in H as (H & H3). apply andb_true_iff in H as (H1 & H2).
  split; [exact H1|]. split; [lia|apply is_byteb_spec, H3].
Qed.

Lemma digits32_length n z : length (digits32 n z) = n.
Proof. induction n as [|n IH]; cbn; congruence. Qed.

Lemma digits32_bound n z : Forall (fun d => 0 <= d < 32) (digits32 n z).
Proof. induction n as [|n IH]; cbn [digits32]; constructor; [apply Z.mod_pos_bound; lia|exact IH]. Qed.

Lemma digits32_chars l : Forall (fun d => 0 <= d < 32) l ->
  forallb in_alphabet (map b32_char l) = true /\ bytes_ok (map b32_char l).
Proof.
  induction 1 as [|d l Hd Hl IH]; cbn [map forallb]; [split; [reflexivity|constructor]|].
  destruct (b32_char_spec d Hd) as (H1 & _ & H3). destruct IH as (IH1 & IH2).
  rewrite H1, IH1. split; [reflexivity|]. constructor; assumption.
Qed.

Lemma digits32_value n z : base32_number 0 (map b32_char (digits32 n z)) = z mod 32 ^ Z.of_nat n.
Proof.
  induction n as [|n IH].
  - cbn. rewrite Z.mod_1_r. reflexivity.
  - cbn [digits32 map base32_number]. rewrite base32_number_acc, IH.
    destruct (b32_char_spec ((z / 32 ^ Z.of_nat n) mod 32) ltac:(apply Z.mod_pos_bound; lia)) as (_ & Hr & _).
    rewrite Hr. unfold zlen. rewrite map_length, digits32_length.
    rewrite Nat2Z.inj_succ, Z.pow_succ_r by lia.
    rewrite Z.mul_comm with (n := 32).
    rewrite Z.rem_mul_r by (try apply Z.pow_nonzero; lia). ring.
Qed.

Lemma b32_encode_spec q : forall a,
  length a = (5 * q)%nat -> bytes_ok a ->
  length (b32_encode q a) = (8 * q)%nat /\ bytes_ok (b32_encode q a) /\
  forallb in_alphabet (b32_encode q a) = true /\ b32_decode q (b32_encode q a) = Ok a.
Proof.
  induction q as [|q IH]; intros a Hlen Hok; cbn [b32_encode b32_decode].
  - destruct a; [|cbn in Hlen; lia]. repeat split; constructor.
  - assert (Hok' : bytes_ok (firstn 5 a) /\ bytes_ok (skipn 5 a)).
    { apply bytes_ok_app. rewrite firstn_skipn. exact Hok. }
    destruct Hok' as (Hok1 & Hok2).
    assert (Hl5 : length (firstn 5 a) = 5%nat) by (rewrite firstn_length; lia).
    destruct (IH (skipn 5 a) ltac:(rewrite skipn_length; lia) Hok2) as (H1 & H2 & H3 & H4).
    set (z := be_get (firstn 5 a)).
    assert (Hz : 0 <= z < 32 ^ 8).
    { pose proof (be_get_bound (firstn 5 a) Hok1) as Hb. rewrite Hl5 in Hb.
      change (256 ^ Z.of_nat 5) with (32 ^ 8) in Hb. exact Hb. }
    destruct (digits32_chars (digits32 8 z) (digits32_bound 8 z)) as (Hc1 & Hc2).
    set (m := map b32_char (digits32 8 z)) in *.
    assert (Hlm : length m = 8%nat) by reflexivity.
    split; [rewrite app_length, H1, Hlm; lia|].
    split; [apply bytes_ok_app; split; assumption|].
    split; [rewrite forallb_app, Hc1; exact H3|].
    rewrite firstn_app, Hlm, firstn_all2 by lia. cbn [Nat.sub firstn]. rewrite app_nil_r.
    rewrite b32_value_spec by exact Hc2. rewrite Hc1. rewrite skipn_app, Hlm.
    rewrite skipn_all2 by lia. rewrite Nat.sub_diag. rewrite skipn_O, app_nil_l, H4. cbn [bind].
    subst m. rewrite digits32_value. rewrite Z.mod_small by exact Hz.
    subst z. rewrite <- Hl5 at 1. rewrite be_put_get by exact Hok1. rewrite firstn_skipn. reflexivity.
Qed.

(** *** Decode as a total function *)
Lemma Decode_spec s :
  bytes_ok s ->
  Decode s =
    let t := strip s in
    if negb (Nat.eqb (length t) 36 && negb (last s 0 =? 32)) then Err EInvalidLength
    else if negb (nth 0 t 0 =? 78) && negb (nth 1 t 0 =? 81) then Err EInvalidCountryCode
    else if negb (forallb alnum t) then Err EInvalidCharacter
    else if negb (iso_number 0 (skipn 4 t ++ firstn 4 t) mod 97 =? 1) then Err EChecksum
    else if forallb in_alphabet (skipn 4 t) then Ok (be_put 20 (base32_number 0 (skipn 4 t)))
    else Err EBase32.
Proof.
  intros Hok. unfold Decode. rewrite truncateWhitespace_spec. cbn zeta.
  destruct (Nat.eqb (length (strip s)) 36 && negb (last s 0 =? 32)) eqn:E; cbn [negb bind]; [|reflexivity].
  apply andb_true_iff in E as (Hl & _). apply Nat.eqb_eq in Hl.
  pose proof (strip_ok s Hok) as Hokt. set (t := strip s) in *.
  assert (Hi : forall i, (i < 36)%nat -> index t i = Ok (nth i t 0)).
  { intros i Hi. unfold index. rewrite (nth_error_nth' t 0) by lia. reflexivity. }
  rewrite !Hi by lia. cbn [bind].
  destruct (negb (nth 0 t 0 =? 78) && negb (nth 1 t 0 =? 81)); [reflexivity|].
  rewrite addressCheck_spec by assumption.
  destruct (forallb alnum t); cbn [bind negb]; [|reflexivity].
  destruct (negb (iso_number 0 (skipn 4 t ++ firstn 4 t) mod 97 =? 1)); [reflexivity|].
  assert (Hok2 : bytes_ok (skipn 4 t)).
  { rewrite <- (firstn_skipn 4 t) in Hokt. apply bytes_ok_app in Hokt. apply Hokt. }
  pose proof (b32_decode_spec 4 (skipn 4 t) Hok2 ltac:(rewrite skipn_length; lia)) as Hd.
  destruct (forallb in_alphabet (skipn 4 t)); [|exact Hd].
  destruct Hd as (a & Ha & Hla & Hoka & Hga). rewrite Ha. f_equal.
  rewrite <- Hga. symmetry. replace 20%nat with (length a). apply be_put_get, Hoka.
Qed.

Lemma Decode_ok s a :
  bytes_ok s ->
  Decode s = Ok a <->
  (let t := strip s in
   length t = 36%nat /\ last s 0 <> 32 /\
   (nth 0 t 0 = 78 \/ nth 1 t 0 = 81) /\
   forallb alnum t = true /\
   forallb in_alphabet (skipn 4 t) = true /\
   iso_number 0 (skipn 4 t ++ firstn 4 t) mod 97 = 1 /\
   a = be_put 20 (base32_number 0 (skipn 4 t))).
Proof.
  intros Hok. rewrite Decode_spec by exact Hok. cbn zeta. set (t := strip s).
  destruct (Nat.eqb_spec (length t) 36) as [Hl|Hl]; cbn [andb negb];
    [|split; [discriminate|tauto]].
  destruct (Z.eqb_spec (last s 0) 32) as [Hs|Hs]; cbn [negb]; [split; [discriminate|tauto]|].
  destruct (Z.eqb_spec (nth 0 t 0) 78) as [H0|H0]; cbn [negb andb].
  2: destruct (Z.eqb_spec (nth 1 t 0) 81) as [H1|H1]; cbn [negb andb]; [|split; [discriminate|tauto]].
  all: destruct (forallb alnum t); cbn [negb];
       [|split; [discriminate|intros (_ & _ & _ & ? & _); discriminate]].
  all: destruct (Z.eqb_spec (iso_number 0 (skipn 4 t ++ firstn 4 t) mod 97) 1) as [Hm|Hm]; cbn [negb];
       [|split; [discriminate|tauto]].
  all: destruct (forallb in_alphabet (skipn 4 t));
       [|split; [discriminate|intros (_ & _ & _ & _ & ? & _); discriminate]].
  all: split; [intros E; injection E as <-; tauto|intros (_ & _ & _ & _ & _ & _ & ->); reflexivity].
Qed.

(** *** Encode *)
Lemma in_alphabet_nospace c : in_alphabet c = true -> (c =? 32) = false.
Proof. unfold in_alphabet, is_digit, is_upper. lia. Qed.

Lemma strip_nospace l : forallb alnum l = true -> strip l = l.
Proof.
  induction l as [|c l IH]; cbn [forallb strip filter]; intros H; [reflexivity|].
  apply andb_true_iff in H as (Hc & Hl).
  replace (c =? 32) with false by (unfold alnum, is_letter, is_digit, is_upper, is_lower in Hc; lia).
  cbn [negb]. f_equal. apply IH, Hl.
Qed.

Lemma forallb_in_alphabet_alnum l : forallb in_alphabet l = true -> forallb alnum l = true.
Proof.
  rewrite !forallb_forall. intros H x Hx. apply in_alphabet_alnum, H, Hx.
Qed.

Lemma write_groups_strip n : forall l,
  length l = (4 * n)%nat -> forallb alnum l = true -> strip (write_groups n l) = l.
Proof.
  induction n as [|n IH]; intros l Hl Ha; cbn [write_groups].
  - destruct l; [reflexivity|cbn in Hl; lia].
  - rewrite <- (firstn_skipn 4 l) in Ha. rewrite forallb_app in Ha.
    apply andb_true_iff in Ha as (Ha1 & Ha2).
    unfold strip. cbn [filter]. change (32 =? 32) with true. cbn [negb].
    rewrite filter_app. fold (strip (firstn 4 l)). fold (strip (write_groups n (skipn 4 l))).
    rewrite strip_nospace by exact Ha1.
    rewrite IH by (try assumption; rewrite skipn_length; lia). apply firstn_skipn.
Qed.

Lemma write_groups_ok n : forall l, bytes_ok l -> bytes_ok (write_groups n l).
Proof.
  induction n as [|n IH]; intros l Hl; cbn [write_groups]; [constructor|].
  rewrite <- (firstn_skipn 4 l) in Hl. apply bytes_ok_app in Hl as (H1 & H2).
  constructor; [unfold is_byte; lia|]. apply bytes_ok_app. split; [exact H1|apply IH, H2].
Qed.

Lemma write_groups_last n : forall l,
  length l = (4 * S n)%nat -> forallb alnum l = true -> last (write_groups (S n) l) 0 <> 32.
Proof.
  intros l Hl Ha E.
  assert (Hsplit : forall m (k : list Z), length k = (4 * S m)%nat ->
            exists p, write_groups (S m) k = p ++ skipn (4 * m) k).
  { clear. induction m as [|m IH]; intros k Hk.
    - cbn [write_groups]. rewrite app_nil_r. exists [32]. cbn [Nat.mul skipn app].
      rewrite firstn_all2 by lia. reflexivity.
    - destruct (IH (skipn 4 k) ltac:(rewrite skipn_length; lia)) as (p & Hp).
      exists (32 :: firstn 4 k ++ p).
      change (write_groups (S (S m)) k) with (32 :: firstn 4 k ++ write_groups (S m) (skipn 4 k)).
      rewrite Hp. rewrite skipn_skipn. cbn [app]. f_equal. rewrite <- app_assoc. do 2 f_equal.
      f_equal. lia. }
  destruct (Hsplit n l Hl) as (p & Hp). rewrite Hp in E.
  assert (Hk : exists x, skipn (4 * n) l = x /\ length x = 4%nat /\ forallb alnum x = true).
  { eexists. split; [reflexivity|]. split; [rewrite skipn_length; lia|].
    rewrite <- (firstn_skipn (4 * n) l) in Ha. rewrite forallb_app in Ha.
    apply andb_true_iff in Ha. apply Ha. }
  destruct Hk as (x & Hx & Hlx & Hax). rewrite Hx in E.
  destruct x as [|a [|b [|c [|d [|]]]]]; try discriminate.
  replace (p ++ [a; b; c; d]) with ((p ++ [a; b; c]) ++ [d]) in E by (rewrite <- app_assoc; reflexivity).
  rewrite last_last in E. subst d. cbn [forallb] in Hax.
  rewrite !andb_true_iff in Hax. destruct Hax as (_ & _ & _ & Hd & _). discriminate.
Qed.

Lemma Encode_shape a :
  addr20 a ->
  exists check data,
    Encode a = str "NQ" ++ [48 + check / 10; 48 + check mod 10] ++ write_groups 8 data /\
    2 <= check <= 98 /\ length data = 32%nat /\ forallb in_alphabet data = true /\ bytes_ok data /\
    b32_decode 4 data = Ok a /\
    iso_number 0 (data ++ str "NQ" ++ [48 + check / 10; 48 + check mod 10]) mod 97 = 1.
Proof.
  intros (Hlen & Hok). unfold Encode.
  destruct (b32_encode_spec 4 a Hlen Hok) as (H1 & H2 & H3 & H4).
  set (data := b32_encode 4 a) in *. cbn [Nat.mul Nat.add] in H1.
  assert (Hnq : bytes_ok (str "NQ00" ++ data)).
  { apply bytes_ok_app. split; [|exact H2]. repeat constructor; unfold is_byte; cbn; lia. }
  rewrite addressCheck_spec; [|exact Hnq|rewrite app_length, H1; reflexivity].
  rewrite forallb_app. rewrite (forallb_in_alphabet_alnum data H3).
  replace (forallb alnum (str "NQ00")) with true by reflexivity. cbn [andb].
  change (skipn 4 (str "NQ00" ++ data)) with data.
  change (firstn 4 (str "NQ00" ++ data)) with (str "NQ00").
  set (V := iso_number 0 (data ++ str "NQ00")).
  pose proof (Z.mod_pos_bound V 97 ltac:(lia)) as HV.
  set (c := 98 - V mod 97).
  assert (Hc : 2 <= c <= 98) by lia.
  assert (Hw : w8 c = c) by (apply Z.mod_small; unfold two8; lia).
  rewrite Hw. exists c, data.
  rewrite (Z.mod_small c 100) by lia.
  split; [reflexivity|]. split; [lia|]. split; [exact H1|]. split; [exact H3|].
  split; [exact H2|]. split; [exact H4|].
  assert (Hv : iso_number 0 (data ++ str "NQ" ++ [48 + c / 10; 48 + c mod 10]) = V + c).
  { subst V. rewrite !iso_number_app. set (D := iso_number 0 data).
    cbn [str iso_number]. change (Z.of_nat (Ascii.nat_of_ascii "N"%char)) with 78.
    change (Z.of_nat (Ascii.nat_of_ascii "Q"%char)) with 81.
    change (Z.of_nat (Ascii.nat_of_ascii "0"%char)) with 48.
    pose proof (Z.div_mod c 10 ltac:(lia)) as Hdm.
    pose proof (Z.mod_pos_bound c 10 ltac:(lia)) as Hmb.
    assert (0 <= c / 10 <= 9) by (split; [apply Z.div_pos; lia|apply Z.lt_succ_r, Z.div_lt_upper_bound; lia]).
    set (q := c / 10) in *. set (r := c mod 10) in *.
    assert (Hq : is_digit (48 + q) = true) by (unfold is_digit; lia).
    assert (Hr : is_digit (48 + r) = true) by (unfold is_digit; lia).
    unfold char_value. rewrite Hq, Hr.
    change (is_digit 78) with false. change (is_digit 81) with false. change (is_digit 48) with true.
    change (is_upper 78) with true. change (is_upper 81) with true. cbv iota. lia. }
  rewrite Hv. subst c. replace (V + (98 - V mod 97)) with (1 + (V / 97 + 1) * 97).
  - rewrite Z.mod_add by lia. reflexivity.
  - pose proof (Z.div_mod V 97 ltac:(lia)). lia.
Qed.

Lemma Encode_strip a :
  addr20 a ->
  exists check data,
    2 <= check <= 98 /\ length data = 32%nat /\ forallb in_alphabet data = true /\
    strip (Encode a) = str "NQ" ++ [48 + check / 10; 48 + check mod 10] ++ data.
Proof.
  intros Ha. destruct (Encode_shape a Ha) as (c & data & HE & Hc & Hl & Hal & Hok & _).
  exists c, data. split; [exact Hc|]. split; [exact Hl|]. split; [exact Hal|].
  rewrite HE. unfold strip. rewrite !filter_app. f_equal. f_equal.
  - fold (strip [48 + c / 10; 48 + c mod 10]). apply strip_nospace.
    assert (0 <= c / 10 <= 9) by (split; [apply Z.div_pos; lia|apply Z.lt_succ_r, Z.div_lt_upper_bound; lia]).
    pose proof (Z.mod_pos_bound c 10 ltac:(lia)).
    cbn [forallb]. unfold alnum, is_digit. lia.
  - fold (strip (write_groups 8 data)). apply write_groups_strip; [lia|].
    apply forallb_in_alphabet_alnum, Hal.
Qed.

Lemma Decode_Encode a : addr20 a -> Decode (Encode a) = Ok a.
Proof.
  intros Ha. destruct (Encode_shape a Ha) as (c & data & HE & Hc & Hl & Hal & Hok & Hdec & Hchk).
  assert (H9 : 0 <= c / 10 <= 9) by (split; [apply Z.div_pos; lia|apply Z.lt_succ_r, Z.div_lt_upper_bound; lia]).
  pose proof (Z.mod_pos_bound c 10 ltac:(lia)) as Hm.
  assert (Hcd : forallb alnum [48 + c / 10; 48 + c mod 10] = true).
  { cbn [forallb]. unfold alnum, is_digit. lia. }
  assert (Hcb : bytes_ok [48 + c / 10; 48 + c mod 10]).
  { repeat constructor; unfold is_byte; lia. }
  pose proof (forallb_in_alphabet_alnum data Hal) as Haln.
  assert (HokE : bytes_ok (Encode a)).
  { rewrite HE. apply bytes_ok_app. split; [repeat constructor; unfold is_byte; cbn; lia|].
    apply bytes_ok_app. split; [exact Hcb|apply write_groups_ok, Hok]. }
  assert (Hst : strip (Encode a) = str "NQ" ++ [48 + c / 10; 48 + c mod 10] ++ data).
  { rewrite HE. unfold strip. rewrite !filter_app. f_equal. f_equal.
    - apply strip_nospace, Hcd.
    - apply write_groups_strip; [lia|exact Haln]. }
  apply Decode_ok; [exact HokE|]. cbn zeta. rewrite Hst.
  change (skipn 4 (str "NQ" ++ [48 + c / 10; 48 + c mod 10] ++ data)) with data.
  change (firstn 4 (str "NQ" ++ [48 + c / 10; 48 + c mod 10] ++ data))
    with (str "NQ" ++ [48 + c / 10; 48 + c mod 10]).
  split; [rewrite !app_length, Hl; reflexivity|].
  split.
  { rewrite HE. rewrite app_assoc. intros E.
    assert (Hlast : forall p q : list Z, q <> [] -> last (p ++ q) 0 = last q 0).
    { clear. intros p q Hq. destruct (exists_last Hq) as (q' & x & ->).
      rewrite app_assoc, !last_last. reflexivity. }
    rewrite Hlast in E by discriminate.
    exact (write_groups_last 7 data ltac:(lia) Haln E). }
  split; [left; reflexivity|].
  split; [rewrite !forallb_app, Hcd, Haln; reflexivity|].
  split; [exact Hal|]. split; [exact Hchk|].
  pose proof (b32_decode_spec 4 data Hok ltac:(lia)) as Hd. rewrite Hal in Hd.
  destruct Hd as (a' & Ha' & Hla' & Hoka' & Hga'). rewrite Hdec in Ha'. injection Ha' as <-.
  rewrite <- Hga'. symmetry. replace 20%nat with (length a). apply be_put_get, Hoka'.
Qed.

(** *** Typos *)
Definition weight (s : bytes) : Z := fold_right (fun c w => (if is_digit c then 10 else 100) * w) 1 s.

Lemma iso_number_acc s : forall a, iso_number a s = a * weight s + iso_number 0 s.
Proof.
  induction s as [|c s IH]; intros a; cbn [iso_number weight fold_right]; [lia|].
  rewrite IH. rewrite (IH (0 * _ + _)). fold (weight s). ring.
Qed.

Definition exponent (s : bytes) : nat := fold_right (fun c n => ((if is_digit c then 1 else 2) + n)%nat) 0%nat s.
Lemma weight_exponent s : weight s = 10 ^ Z.of_nat (exponent s).
Proof.
  induction s as [|c s IH]; [reflexivity|]. cbn [weight exponent fold_right].
  fold (weight s). fold (exponent s). rewrite IH.
  destruct (is_digit c); rewrite Nat2Z.inj_add, Z.pow_add_r by lia; reflexivity.
Qed.
Lemma exponent_bounds s : (length s <= exponent s <= 2 * length s)%nat.
Proof.
  induction s as [|c s IH]; [cbn; lia|]. cbn [exponent fold_right length]. fold (exponent s).
  destruct (is_digit c); lia.
Qed.

Lemma gcd_97_weight s : Z.gcd 97 (weight s) = 1.
Proof.
  rewrite weight_exponent. apply Zgcd_1_rel_prime. apply rel_prime_Zpower_r; [lia|].
  apply Zgcd_1_rel_prime. reflexivity.
Qed.

Lemma mod97_divide x y : x mod 97 = y mod 97 -> (97 | x - y).
Proof. intros H. apply Zmod_divide; [lia|]. rewrite Zminus_mod, H, Z.sub_diag. reflexivity. Qed.

Lemma small_divide d : (97 | d) -> -97 < d < 97 -> d = 0.
Proof. intros (k & ->) H. assert (k = 0) by lia. lia. Qed.

Definition rotate (s : bytes) : bytes := skipn 4 s ++ firstn 4 s.

Lemma rotate_split l1 l2 : exists p q, forall x, rotate (l1 ++ x :: l2) = p ++ x :: q.
Proof.
  unfold rotate. destruct (Nat.lt_ge_cases (length l1) 4) as [H|H].
  - exists (skipn (3 - length l1) l2 ++ l1), (firstn (3 - length l1) l2). intros x.
    rewrite skipn_app, firstn_app. rewrite skipn_all2 by lia. rewrite (firstn_all2 l1) by lia.
    replace (4 - length l1)%nat with (S (3 - length l1)) by lia. cbn [skipn firstn app].
    rewrite <- app_assoc. reflexivity.
  - exists (skipn 4 l1), (l2 ++ firstn 4 l1). intros x.
    rewrite skipn_app, firstn_app. replace (4 - length l1)%nat with O by lia. cbn [skipn firstn].
    rewrite app_nil_r, <- app_assoc. reflexivity.
Qed.

Lemma rotate_split2 l1 l2 : length l1 <> 3%nat ->
  exists p q, forall x y, rotate (l1 ++ x :: y :: l2) = p ++ x :: y :: q.
Proof.
  intros H3. unfold rotate. destruct (Nat.lt_ge_cases (length l1) 3) as [H|H].
  - exists (skipn (2 - length l1) l2 ++ l1), (firstn (2 - length l1) l2). intros x y.
    rewrite skipn_app, firstn_app. rewrite skipn_all2 by lia. rewrite (firstn_all2 l1) by lia.
    replace (4 - length l1)%nat with (S (S (2 - length l1))) by lia. cbn [skipn firstn app].
    rewrite <- app_assoc. reflexivity.
  - exists (skipn 4 l1), (l2 ++ firstn 4 l1). intros x y.
    rewrite skipn_app, firstn_app. replace (4 - length l1)%nat with O by lia. cbn [skipn firstn].
    rewrite app_nil_r, <- app_assoc. reflexivity.
Qed.

Lemma char_value_bound c : alnum c = true -> 0 <= char_value c < 36.
Proof. unfold alnum, is_letter, char_value, is_digit, is_upper, is_lower. intros H.
  destruct ((48 <=? c) && (c <=? 57)) eqn:E1; [lia|].
  destruct ((65 <=? c) && (c <=? 90)) eqn:E2; lia. Qed.

Lemma replace_at_split i c' : forall s c, nth_error s i = Some c ->
  exists l1 l2, s = l1 ++ c :: l2 /\ replace_at i c' s = l1 ++ c' :: l2 /\ length l1 = i.
Proof.
  induction i as [|i IH]; intros [|x s] c Hc; cbn in Hc; try discriminate.
  - injection Hc as ->. exists [], s. auto.
  - destruct (IH s c Hc) as (l1 & l2 & -> & Hr & Hl).
    exists (x :: l1), l2. cbn. rewrite Hr, Hl. auto.
Qed.

Lemma swap_at_split i : forall s x y, nth_error s i = Some x -> nth_error s (S i) = Some y ->
  exists l1 l2, s = l1 ++ x :: y :: l2 /\ swap_at i s = l1 ++ y :: x :: l2 /\ length l1 = i.
Proof.
  induction i as [|i IH]; intros [|a s] x y Hx Hy; try discriminate.
  - destruct s as [|b s]; [discriminate|]. cbn in Hx, Hy. injection Hx as ->. injection Hy as ->.
    exists [], s. auto.
  - destruct (IH s x y Hx Hy) as (l1 & l2 & -> & Hr & Hl).
    exists (a :: l1), l2. cbn [swap_at]. cbn [app length]. rewrite <- Hr, Hl.
    split; [reflexivity|]. split; [|reflexivity].
    destruct l1 as [|? [|? ?]]; reflexivity.
Qed.

(** A 36-byte accepted string satisfies the checksum as it stands. *)
Lemma Decode_checksum s a :
  bytes_ok s -> length s = 36%nat -> Decode s = Ok a ->
  iso_number 0 (rotate s) mod 97 = 1 /\ forallb alnum s = true.
Proof.
  intros Hok Hlen Hd. apply Decode_ok in Hd; [|exact Hok]. cbn zeta in Hd.
  destruct Hd as (Hl & _ & _ & Ha & _ & Hm & _).
  assert (Hs : strip s = s).
  { clear -Hl Hlen. assert (Hle : forall l, (length (strip l) <= length l)%nat).
    { induction l as [|c l IH]; cbn [strip filter]; [cbn; lia|]. fold (strip l).
      destruct (negb (c =? 32)); cbn [length]; lia. }
    rewrite <- Hlen in Hl. clear Hlen. induction s as [|c s IH]; [reflexivity|].
    cbn [strip filter] in *. fold (strip s) in *. destruct (negb (c =? 32)); cbn [length] in Hl.
    - f_equal. apply IH. lia.
    - pose proof (Hle s). lia. }
  rewrite Hs in *. split; assumption.
Qed.

Definition same_kind (c d : Z) : Prop :=
  (is_digit c = true /\ is_digit d = true) \/ (is_letter c = true /\ is_letter d = true).

Lemma same_kind_digit c d : same_kind c d -> is_digit c = is_digit d.
Proof.
  unfold same_kind, is_letter, is_digit, is_upper, is_lower.
  intros [(H1 & H2)|(H1 & H2)]; lia.
Qed.
Lemma same_kind_alnum c d : same_kind c d -> alnum c = true /\ alnum d = true.
Proof. unfold same_kind, alnum. intros [(-> & ->)|(-> & ->)]; rewrite ?orb_true_r; auto. Qed.

Lemma typo_substitution s a i c c' b :
  bytes_ok s -> length s = 36%nat -> Decode s = Ok a ->
  nth_error s i = Some c -> is_byte c' -> same_kind c c' -> char_value c <> char_value c' ->
  Decode (replace_at i c' s) <> Ok b.
Proof.
  intros Hok Hlen Hd Hc Hb' Hk Hv Hd'.
  destruct (replace_at_split i c' s c Hc) as (l1 & l2 & Hs & Hr & _).
  assert (Hok' : bytes_ok (replace_at i c' s)).
  { rewrite Hr. rewrite Hs in Hok. apply bytes_ok_app in Hok as (H1 & H2).
    apply bytes_ok_app. split; [exact H1|]. inversion H2; subst. constructor; assumption. }
  assert (Hlen' : length (replace_at i c' s) = 36%nat).
  { rewrite Hr. rewrite Hs in Hlen. rewrite app_length in *. cbn [length] in *. lia. }
  destruct (Decode_checksum s a Hok Hlen Hd) as (H1 & _).
  destruct (Decode_checksum _ b Hok' Hlen' Hd') as (H2 & _).
  destruct (rotate_split l1 l2) as (p & q & Hpq).
  rewrite Hs, Hpq in H1. rewrite Hr, Hpq in H2.
  rewrite iso_number_app in H1, H2. cbn [iso_number] in H1, H2.
  rewrite <- (same_kind_digit c c' Hk) in H2.
  rewrite iso_number_acc in H1, H2.
  set (B := (if is_digit c then 10 else 100)) in *. set (P := iso_number 0 p) in *.
  assert (Hdiv : (97 | weight q * (char_value c - char_value c'))).
  { replace (weight q * (char_value c - char_value c')) with
      (((P * B + char_value c) * weight q + iso_number 0 q) - ((P * B + char_value c') * weight q + iso_number 0 q))
      by ring.
    apply mod97_divide. congruence. }
  apply Z.gauss in Hdiv; [|apply gcd_97_weight].
  destruct (same_kind_alnum c c' Hk) as (Ha & Ha').
  pose proof (char_value_bound c Ha). pose proof (char_value_bound c' Ha').
  apply small_divide in Hdiv; lia.
Qed.

Lemma gcd_boundary k : (35 <= k <= 70)%nat -> Z.gcd 97 (10 ^ Z.of_nat k - 1) = 1.
Proof.
  intros Hk.
  assert (H : forallb (fun k => Z.gcd 97 (10 ^ Z.of_nat k - 1) =? 1) (seq 35 36) = true)
    by (vm_compute; reflexivity).
  rewrite forallb_forall in H. apply Z.eqb_eq, H, in_seq. lia.
Qed.

Lemma typo_swap s a i c d b :
  bytes_ok s -> length s = 36%nat -> Decode s = Ok a ->
  nth_error s i = Some c -> nth_error s (S i) = Some d ->
  same_kind c d -> char_value c <> char_value d ->
  Decode (swap_at i s) <> Ok b.
Proof.
  intros Hok Hlen Hd Hc Hdd Hk Hv Hd'.
  destruct (swap_at_split i s c d Hc Hdd) as (l1 & l2 & Hs & Hr & Hl1).
  assert (Hok' : bytes_ok (swap_at i s)).
  { rewrite Hr. rewrite Hs in Hok. apply bytes_ok_app in Hok as (H1 & H2).
    apply bytes_ok_app. split; [exact H1|]. inversion H2 as [|? ? Hx Hrest]; subst.
    inversion Hrest as [|? ? Hy Hrest2]; subst.
    constructor; [exact Hy|]. constructor; [exact Hx|exact Hrest2]. }
  assert (Hlen' : length (swap_at i s) = 36%nat).
  { rewrite Hr. rewrite Hs in Hlen. rewrite app_length in *. cbn [length] in *. lia. }
  destruct (Decode_checksum s a Hok Hlen Hd) as (H1 & _).
  destruct (Decode_checksum _ b Hok' Hlen' Hd') as (H2 & _).
  destruct (same_kind_alnum c d Hk) as (Ha & Ha').
  pose proof (char_value_bound c Ha) as Hbc. pose proof (char_value_bound d Ha') as Hbd.
  pose proof (same_kind_digit c d Hk) as Hdig.
  destruct (Nat.eq_dec (length l1) 3) as [H3|H3].
  - (* the boundary between check digits and data *)
    assert (Hrot : forall x y, rotate (l1 ++ x :: y :: l2) = y :: (l2 ++ l1) ++ [x]).
    { intros x y. unfold rotate. rewrite skipn_app, firstn_app, skipn_all2, (firstn_all2 l1) by lia.
      rewrite H3. cbn [Nat.sub skipn firstn app]. rewrite <- app_assoc. reflexivity. }
    rewrite Hs, Hrot in H1. rewrite Hr, Hrot in H2.
    cbn [iso_number] in H1, H2. rewrite !iso_number_app in H1, H2. cbn [iso_number] in H1, H2.
    rewrite (iso_number_acc l1), (iso_number_acc l2) in H1, H2.
    rewrite Hdig in H1.
    set (B := (if is_digit d then 10 else 100)) in *.
    set (W := weight l2 * weight l1 * B).
    assert (HW : Z.gcd 97 (W - 1) = 1).
    { assert (Hex : exists k, W = 10 ^ Z.of_nat k /\ (35 <= k <= 70)%nat).
      { exists (exponent l2 + exponent l1 + (if is_digit d then 1 else 2))%nat. split.
        - subst W B. rewrite !weight_exponent, !Nat2Z.inj_add, !Z.pow_add_r by lia.
          destruct (is_digit d); reflexivity.
        - pose proof (exponent_bounds l1). pose proof (exponent_bounds l2).
          rewrite Hs, app_length in Hlen. cbn [length] in Hlen. destruct (is_digit d); lia. }
      destruct Hex as (k & -> & Hkk). apply gcd_boundary, Hkk. }
    assert (Hdiv : (97 | (W - 1) * (char_value d - char_value c))).
    { match type of H1 with ?X mod 97 = 1 => match type of H2 with ?Y mod 97 = 1 =>
        replace ((W - 1) * (char_value d - char_value c)) with (X - Y) by (subst W; ring) end end.
      apply mod97_divide. congruence. }
    apply Z.gauss in Hdiv; [|exact HW]. apply small_divide in Hdiv; lia.
  - destruct (rotate_split2 l1 l2 H3) as (p & q & Hpq).
    rewrite Hs, Hpq in H1. rewrite Hr, Hpq in H2.
    rewrite iso_number_app in H1, H2. cbn [iso_number] in H1, H2.
    rewrite iso_number_acc in H1, H2. rewrite Hdig in H1, H2.
    set (B := (if is_digit d then 10 else 100)) in *. set (P := iso_number 0 p) in *.
    assert (Hdiv : (97 | weight q * ((B - 1) * (char_value c - char_value d)))).
    { match type of H1 with ?X mod 97 = 1 => match type of H2 with ?Y mod 97 = 1 =>
        replace (weight q * ((B - 1) * (char_value c - char_value d))) with (X - Y) by ring end end.
      apply mod97_divide. congruence. }
    apply Z.gauss in Hdiv; [|apply gcd_97_weight].
    apply Z.gauss in Hdiv; [|subst B; destruct (is_digit d); reflexivity].
    apply small_divide in Hdiv; lia.
Qed.
