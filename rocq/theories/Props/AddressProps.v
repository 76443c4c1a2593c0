(** Properties C06-C11: user-friendly addresses (package address).
    Specification: Spec/AddressSpec.v.  Go strings are byte lists; [bytes_ok s]
    says that every element of s is a byte (0..255). *)
From Coq Require Import ZArith List Lia Bool String.
From Coq Require Import ZifyBool ZifyNat.
Import ListNotations.
From Verif.Model Require Import Base Address.
From Verif.Spec Require Import AddressSpec.
From Verif.Proofs Require Import BaseFacts AddressFacts.
Open Scope list_scope.
Open Scope Z_scope.
Notation length := List.length.
Notation concat := List.concat.

(** The address of address_test.go:12-17. *)
Definition test_addr : bytes :=
  [0x21; 0xa9; 0x34; 0xfe; 0x3d; 0x6a; 0x68; 0xbd; 0xb6; 0x44;
   0x47; 0xc5; 0x71; 0xc8; 0x8c; 0x19; 0xe3; 0x9f; 0xb6; 0x85].
Example test_addr_20 : addr20 test_addr.
Proof. split; [reflexivity|]. apply bytes_okb_spec. reflexivity. Qed.

(** C06.  Decoding inverts encoding. *)
Theorem C06_decode_encode : forall a, addr20 a -> Decode (Encode a) = Ok a.
Proof. exact Decode_Encode. Qed.
Print Assumptions C06_decode_encode.
Example C06_nonvacuous :
  Encode test_addr = str "NQ19 46LK 9YHV D9LB TDJ4 8Y2P 3J4C 37HR YDL5" /\ addr20 test_addr.
Proof. split; [vm_compute; reflexivity|exact test_addr_20]. Qed.

(** C07.  Shape of encodings: "NQ", two decimal digits, then eight times a space
    and four characters of the alphabet.  Different addresses, different strings. *)
Definition well_formed (s : bytes) : Prop :=
  exists d1 d2 groups,
    s = str "NQ" ++ [d1; d2] ++ concat (map (fun g => 32 :: g) groups) /\
    is_digit d1 = true /\ is_digit d2 = true /\
    length groups = 8%nat /\
    Forall (fun g => length g = 4%nat /\ forallb in_alphabet g = true) groups.

Lemma write_groups_concat n : forall l,
  length l = (4 * n)%nat -> forallb in_alphabet l = true ->
  exists groups, write_groups n l = concat (map (fun g => 32 :: g) groups) /\ length groups = n /\
    Forall (fun g => length g = 4%nat /\ forallb in_alphabet g = true) groups.
Proof.
  induction n as [|n IH]; intros l Hl Ha.
  - exists []. repeat split. constructor.
  - rewrite <- (firstn_skipn 4 l) in Ha. rewrite forallb_app in Ha.
    apply andb_true_iff in Ha as (Ha1 & Ha2).
    destruct (IH (skipn 4 l) ltac:(rewrite skipn_length; lia) Ha2) as (gs & H1 & H2 & H3).
    exists (firstn 4 l :: gs). cbn [write_groups map concat length]. rewrite H1, H2.
    split; [reflexivity|]. split; [reflexivity|]. constructor; [|exact H3].
    split; [rewrite firstn_length; lia|exact Ha1].
Qed.

Theorem C07_encode_well_formed :
  forall a, addr20 a -> well_formed (Encode a) /\ length (Encode a) = 44%nat.
Proof.
  intros a Ha. destruct (Encode_shape a Ha) as (c & data & HE & Hc & Hl & Hal & _).
  destruct (write_groups_concat 8 data Hl Hal) as (gs & H1 & H2 & H3).
  assert (H9 : 0 <= c / 10 <= 9) by (split; [apply Z.div_pos; lia|apply Z.lt_succ_r, Z.div_lt_upper_bound; lia]).
  pose proof (Z.mod_pos_bound c 10 ltac:(lia)).
  split.
  - exists (48 + c / 10), (48 + c mod 10), gs. rewrite HE, H1.
    split; [reflexivity|]. unfold is_digit. split; [lia|]. split; [lia|]. split; assumption.
  - rewrite HE, H1, !app_length. cbn [str length].
    do 8 (destruct gs as [|? gs]; [discriminate|]). destruct gs; [|discriminate].
    repeat match goal with Hf : Forall _ (_ :: _) |- _ => inversion Hf as [|? ? (? & _) ?]; clear Hf; subst end.
    cbn [map concat app length]. rewrite !app_length. cbn [length].
    repeat (rewrite app_length; cbn [length]). lia.
Qed.
Print Assumptions C07_encode_well_formed.

Theorem C07_encode_injective :
  forall a b, addr20 a -> addr20 b -> Encode a = Encode b -> a = b.
Proof.
  intros a b Ha Hb E. pose proof (Decode_Encode a Ha) as H1. rewrite E, (Decode_Encode b Hb) in H1. congruence.
Qed.
Print Assumptions C07_encode_injective.
Example C07_nonvacuous : addr20 test_addr /\ addr20 (repeat 0 20) /\ Encode test_addr <> Encode (repeat 0 20).
Proof.
  split; [exact test_addr_20|]. split; [split; [reflexivity|apply bytes_okb_spec; reflexivity]|].
  vm_compute. discriminate.
Qed.

(** C08.  Exactly which strings are accepted, and as what. *)
Theorem C08_decode_exact :
  forall s a, bytes_ok s ->
    (Decode s = Ok a <->
     let t := strip s in
     length t = 36%nat /\
     last s 0 <> 32 /\                                   (* no trailing space *)
     (nth 0 t 0 = 78 \/ nth 1 t 0 = 81) /\               (* 'N' first or 'Q' second *)
     forallb (fun c => is_digit c || is_letter c) t = true /\
     forallb in_alphabet (skipn 4 t) = true /\
     checksum_ok t /\
     addr20 a /\ base256_number 0 a = base32_number 0 (skipn 4 t)).
Proof.
  intros s a Hok. rewrite (Decode_ok s a Hok). cbn zeta. unfold checksum_ok.
  assert (Hb : forall t, length t = 36%nat -> forallb in_alphabet (skipn 4 t) = true ->
             0 <= base32_number 0 (skipn 4 t) < 256 ^ 20).
  { intros t Ht Ha. pose proof (base32_number_bound _ Ha) as H. unfold zlen in H.
    rewrite skipn_length, Ht in H. exact H. }
  split.
  - intros (H1 & H2 & H3 & H4 & H5 & H6 & ->).
    repeat (split; [assumption|]). split.
    + split; [apply be_put_length|apply be_put_ok].
    + rewrite base256_be_get0, be_get_put. apply Z.mod_small. apply Hb; assumption.
  - intros (H1 & H2 & H3 & H4 & H5 & H6 & (Hl & Ho) & H7).
    repeat (split; [assumption|]). rewrite <- H7, base256_be_get0. rewrite <- Hl at 1. symmetry. apply be_put_get, Ho.
Qed.
Print Assumptions C08_decode_exact.

(** Decode never panics and reports one of the five documented causes. *)
Theorem C08_decode_total :
  forall s, bytes_ok s ->
    (exists a, Decode s = Ok a) \/
    exists e, Decode s = Err e /\
      In e [EInvalidLength; EInvalidCountryCode; EInvalidCharacter; EChecksum; EBase32].
Proof.
  intros s Hok. rewrite (Decode_spec s Hok). cbn zeta.
  repeat match goal with |- context [if ?b then _ else _] => destruct b end;
    (left; eexists; reflexivity) || (right; eexists; split; [reflexivity|cbn; tauto]).
Qed.
Print Assumptions C08_decode_total.

(** Test vectors of address_test.go:18-56. *)
Example C08_nonvacuous :
  Decode (str "NQ1946LK9YHVD9LBTDJ48Y2P3J4C37HRYDL5") = Ok test_addr /\
  Decode (str "NQ19 46LK 9YHV D9LB TDJ4 8Y2P 3J4C 37HR YDL5") = Ok test_addr /\
  Decode (str "NQ20 46LK 9YHV D9LB TDJ4 8Y2P 3J4C 37HR YDL5") = Err EChecksum /\
  Decode (str "LD20 46LK 9YHV D9LB TDJ4 8Y2P 3J4C 37HR YDL5") = Err EInvalidCountryCode /\
  Decode (str "NQ20 46LK 9YHV D9LB .... 8Y2P 3J4C 37HR YDL5") = Err EInvalidCharacter /\
  Decode (str "NQ20 46LK 9YHV D9LB IIII 8Y2P 3J4C 37HR YDL") = Err EInvalidLength /\
  Decode (str "NQ20 46LK 9YHV D9LB IIII 8Y2P 3J4C 37HR YDL5 A") = Err EInvalidLength.
Proof. vm_compute. repeat split. Qed.

(** C09 is false of the code: the test uses && where || is meant. *)
Theorem C09_country_code_refuted :
  exists s a, bytes_ok s /\ Decode s = Ok a /\ firstn 2 (strip s) <> str "NQ".
Proof.
  exists (str "NA55 0000 0000 0000 0000 0000 0000 0000 0000"), (repeat 0 20).
  split; [apply bytes_okb_spec; reflexivity|]. split; [vm_compute; reflexivity|]. vm_compute. discriminate.
Qed.
Print Assumptions C09_country_code_refuted.

(** In general: every address can be written with every code of which one letter is right; the check digits can be
    computed for it. *)
Lemma iso_app s t : forall acc, iso_number acc (s ++ t) = iso_number (iso_number acc s) t.
Proof. induction s as [|c s IH]; intros acc; cbn; [reflexivity|apply IH]. Qed.
Theorem C09_any_code_refuted a c1 c2 :
  addr20 a -> is_digit c1 || is_letter c1 = true -> is_digit c2 || is_letter c2 = true -> c1 = 78 \/ c2 = 81 ->
  exists d1 d2 body, is_digit d1 = true /\ is_digit d2 = true /\ Decode (c1 :: c2 :: d1 :: d2 :: body) = Ok a.
Proof.
  intros Ha H1 H2 Hc.
  assert (He : bytes_ok (Encode a)).
  { destruct (Encode_shape a Ha) as (c & data & HE & Hc' & Hl & Hal & Hok & _).
    assert (0 <= c / 10 <= 9) by (split; [apply Z.div_pos; lia|apply Z.lt_succ_r, Z.div_lt_upper_bound; lia]).
    pose proof (Z.mod_pos_bound c 10 ltac:(lia)). rewrite HE. apply bytes_ok_app. split; [apply bytes_okb_spec; reflexivity|].
    apply bytes_ok_app. split; [repeat constructor; unfold is_byte; lia|apply write_groups_ok, Hok]. }
  pose proof (proj1 (C08_decode_exact (Encode a) a He) (Decode_Encode a Ha)) as (L & _ & _ & Hal & Hab & _ & _ & Hn). cbv zeta in *.
  set (body := skipn 4 (strip (Encode a))) in *.
  assert (Lb : length body = 32%nat) by (unfold body; rewrite skipn_length, L; reflexivity).
  assert (Hbody : forallb (fun c => is_digit c || is_letter c) body = true).
  { apply forallb_forall. intros c Hin. apply (proj1 (forallb_forall _ _) Hal). unfold body in Hin. rewrite <- (firstn_skipn 4 (strip (Encode a))). apply in_or_app. now right. }
  clearbody body. clear Hal L He.
  set (n := iso_number 0 (body ++ [c1; c2])).
  set (k := 98 - (n * 100) mod 97).
  pose proof (Z.mod_pos_bound (n * 100) 97 ltac:(lia)) as Hm.
  assert (Hk : 0 <= k / 10 < 10) by (split; [apply Z.div_pos; lia|apply Z.div_lt_upper_bound; unfold k; lia]).
  pose proof (Z.mod_pos_bound k 10 ltac:(lia)) as Hk2. pose proof (Z.div_mod k 10 ltac:(lia)) as Hdm.
  assert (D1 : is_digit (48 + k / 10) = true) by (unfold is_digit; lia). assert (D2 : is_digit (48 + k mod 10) = true) by (unfold is_digit; lia).
  exists (48 + k / 10), (48 + k mod 10), body. split; [exact D1|]. split; [exact D2|].
  set (s := c1 :: c2 :: 48 + k / 10 :: 48 + k mod 10 :: body).
  assert (Hs : forallb (fun c => is_digit c || is_letter c) s = true).
  { unfold s. cbn [forallb]. rewrite H1, H2, D1, D2, Hbody. reflexivity. }
  assert (Hin : forall c, In c s -> 48 <= c < 123).
  { intros c Hin. apply (proj1 (forallb_forall _ _) Hs) in Hin. unfold is_digit, is_letter, is_upper, is_lower in Hin. lia. }
  assert (Hst : strip s = s).
  { assert (G : forall l, (forall c, In c l -> 48 <= c < 123) -> strip l = l).
    { induction l as [|c l IH]; intros Hl; [reflexivity|]. unfold strip in *. cbn [filter]. pose proof (Hl c (or_introl eq_refl)).
      rewrite (proj2 (Z.eqb_neq c 32)) by lia. cbn [negb]. rewrite IH; [reflexivity|]. intros x Hx. apply Hl. now right. }
    apply G, Hin. }
  apply C08_decode_exact.
  { apply Forall_forall. intros c Hc'. specialize (Hin c Hc'). unfold is_byte. lia. }
  cbv zeta. rewrite Hst. split; [unfold s; cbn [length]; rewrite Lb; reflexivity|]. split.
  { assert (X : In (last s 0) s) by (destruct (exists_last (l := s) ltac:(discriminate)) as (q & x & ->); rewrite last_last; apply in_or_app; right; now left). specialize (Hin _ X). lia. }
  split; [exact Hc|]. split; [exact Hs|]. split; [exact Hab|]. split; [|split; [exact Ha|exact Hn]].
  unfold checksum_ok. change (skipn 4 s) with body. change (firstn 4 s) with ([c1; c2] ++ [48 + k / 10; 48 + k mod 10]).
  rewrite app_assoc, iso_app. fold n. cbn [iso_number]. rewrite D1, D2. unfold char_value. rewrite D1, D2.
  replace ((n * 10 + (48 + k / 10 - 48)) * 10 + (48 + k mod 10 - 48)) with (n * 100 + k) by lia.
  unfold k. pose proof (Z.div_mod (n * 100) 97 ltac:(lia)) as Hd.
  replace (n * 100 + (98 - n * 100 mod 97)) with (1 + (n * 100 / 97 + 1) * 97) by lia. rewrite Z_mod_plus_full. reflexivity.
Qed.
Print Assumptions C09_any_code_refuted.

(** What remains of C09: one of the two letters is right. *)
Theorem C09_country_code_partial :
  forall s a, bytes_ok s -> Decode s = Ok a ->
    exists c1 c2 r, strip s = c1 :: c2 :: r /\ (c1 = 78 \/ c2 = 81).
Proof.
  intros s a Hok H. apply (C08_decode_exact s a Hok) in H. cbn zeta in H.
  destruct H as (Hl & _ & Hc & _). destruct (strip s) as [|c1 [|c2 r]]; try discriminate.
  exists c1, c2, r. split; [reflexivity|exact Hc].
Qed.
Print Assumptions C09_country_code_partial.
Example C09_nonvacuous : Decode (str "AQ27 0000 0000 0000 0000 0000 0000 0000 0000") = Ok (repeat 0 20).
Proof. vm_compute. reflexivity. Qed.

(** C10 is false of the code: a trailing space is an error. *)
Theorem C10_spaces_ignored_refuted :
  exists s s', strip s = strip s' /\ (exists a, Decode s = Ok a) /\ Decode s' = Err EInvalidLength.
Proof.
  exists (str "NQ07 0000 0000 0000 0000 0000 0000 0000 0000"),
         (str "NQ07 0000 0000 0000 0000 0000 0000 0000 0000 ").
  split; [apply bytes_eqb_eq; vm_compute; reflexivity|]. split; [exists (repeat 0 20); vm_compute; reflexivity|vm_compute; reflexivity].
Qed.
Print Assumptions C10_spaces_ignored_refuted.

(** What remains of C10: all spaces but trailing ones are ignored (the result,
    error or address, is that of the string without spaces). *)
Theorem C10_spaces_ignored_partial :
  forall s, bytes_ok s -> last s 0 <> 32 -> Decode s = Decode (strip s).
Proof.
  intros s Hok Hl. rewrite (Decode_spec s Hok), (Decode_spec (strip s) (strip_ok s Hok)).
  cbn zeta. rewrite strip_idem.
  replace (last s 0 =? 32) with false by lia.
  pose proof (strip_last s). replace (last (strip s) 0 =? 32) with false by lia. reflexivity.
Qed.
Print Assumptions C10_spaces_ignored_partial.

(** And exactly what a trailing space does. *)
Theorem C10_trailing_space_rejected :
  forall s, bytes_ok s -> last s 0 = 32 -> Decode s = Err EInvalidLength.
Proof.
  intros s Hok Hl. rewrite (Decode_spec s Hok). cbn zeta. rewrite Hl.
  rewrite andb_false_r. reflexivity.
Qed.
Print Assumptions C10_trailing_space_rejected.
Example C10_nonvacuous :
  last (str "  NQ1 9 46LK9YHVD 9LBTDJ48Y2P  3J4C37HRYD L5") 0 <> 32 /\
  Decode (str "  NQ1 9 46LK9YHVD 9LBTDJ48Y2P  3J4C37HRYD L5") = Ok test_addr.
Proof. split; [vm_compute; discriminate|vm_compute; reflexivity]. Qed.

(** C11.  Typo detection within a character class. *)
Theorem C11_typo_substitution_detected :
  forall s a i c c' b,
    bytes_ok s -> length s = 36%nat -> Decode s = Ok a ->
    nth_error s i = Some c -> is_byte c' ->
    (is_digit c = true /\ is_digit c' = true) \/ (is_letter c = true /\ is_letter c' = true) ->
    char_value c <> char_value c' ->
    Decode (replace_at i c' s) <> Ok b.
Proof. exact typo_substitution. Qed.
Print Assumptions C11_typo_substitution_detected.

Theorem C11_typo_swap_detected :
  forall s a i c d b,
    bytes_ok s -> length s = 36%nat -> Decode s = Ok a ->
    nth_error s i = Some c -> nth_error s (S i) = Some d ->
    (is_digit c = true /\ is_digit d = true) \/ (is_letter c = true /\ is_letter d = true) ->
    char_value c <> char_value d ->
    Decode (swap_at i s) <> Ok b.
Proof. exact typo_swap. Qed.
Print Assumptions C11_typo_swap_detected.

Example C11_nonvacuous :
  let s := str "NQ1946LK9YHVD9LBTDJ48Y2P3J4C37HRYDL5" in
  Decode s = Ok test_addr /\ length s = 36%nat /\ nth_error s 3 = Some 57 /\ nth_error s 4 = Some 52 /\
  Decode (swap_at 3 s) = Err EChecksum /\ Decode (replace_at 6 77 s) = Err EChecksum.
Proof. vm_compute. repeat split. Qed.

(** Across character classes the checksum of this format misses typos: a swap of
    a digit and a letter, and a digit in place of a letter. *)
Theorem C11_mixed_typos_undetected :
  (exists s a b, length s = 36%nat /\ Decode s = Ok a /\ swap_at 4 s <> s /\ Decode (swap_at 4 s) = Ok b /\ a <> b) /\
  (exists s a b c, length s = 36%nat /\ Decode s = Ok a /\ is_digit c = true /\
      Decode (replace_at 17 c s) = Ok b /\ a <> b).
Proof.
  split.
  - exists (str "NQ521B84G7YUXQD6Y1QT0UHE6L1110QDT1EU"). do 2 eexists.
    split; [reflexivity|]. split; [vm_compute; reflexivity|]. split; [vm_compute; discriminate|].
    split; [vm_compute; reflexivity|]. discriminate.
  - exists (str "NQ35YENEEVJ1S6BJ7MTCKJYR2XFRSBPP5U6A"). do 2 eexists. exists 50.
    split; [reflexivity|]. split; [vm_compute; reflexivity|]. split; [reflexivity|].
    split; [vm_compute; reflexivity|]. discriminate.
Qed.
Print Assumptions C11_mixed_typos_undetected.
