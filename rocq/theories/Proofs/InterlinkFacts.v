(** Lemmas about bits, merkle roots, interlinks, network addresses, blocks. *)
From Coq Require Import ZArith List Lia Bool String.
Import ListNotations.
From Verif.Model Require Import Base Address Beserial Wire.
From Verif.Spec Require Import BeserialSpec WireSpec.
From Verif.Proofs Require Import BaseFacts BeserialFacts WireFacts.
From Verif.Props Require Import BeserialProps.
Open Scope Z_scope.

(** ** Bits *)
Lemma land_pow2 x m : 0 <= m -> negb (Z.land x (2 ^ m) =? 0) = Z.testbit x m.
Proof.
  intros Hm. destruct (Z.testbit x m) eqn:E.
  - destruct (Z.eqb_spec (Z.land x (2 ^ m)) 0) as [H|]; [|reflexivity].
    assert (T : Z.testbit (Z.land x (2 ^ m)) m = true) by (rewrite Z.land_spec, E, Z.pow2_bits_true by lia; reflexivity).
    rewrite H, Z.bits_0 in T. discriminate.
  - replace (Z.land x (2 ^ m)) with 0; [reflexivity|]. symmetry. apply Z.bits_inj'. intros k Hk. rewrite Z.land_spec, Z.bits_0.
    destruct (Z.eq_dec k m) as [->|Hne]; [rewrite E; reflexivity|]. rewrite Z.pow2_bits_false by lia. apply andb_false_r.
Qed.
Lemma shiftr128 k : 0 <= k < 8 -> Z.shiftr 128 k = 2 ^ (7 - k).
Proof.
  intros H. assert (k = 0 \/ k = 1 \/ k = 2 \/ k = 3 \/ k = 4 \/ k = 5 \/ k = 6 \/ k = 7) as E by lia.
  destruct E as [->|[->|[->|[->|[->|[->|[->| ->]]]]]]]; reflexivity.
Qed.
Lemma bit_ok bs i : (i / 8 < List.length (Bits bs))%nat -> bit bs (Z.of_nat i) = Ok (bit_at (Bits bs) i).
Proof.
  intros Hl. unfold bit. replace (Z.to_nat (Z.of_nat i / 8)) with (i / 8)%nat.
  2: { change 8 with (Z.of_nat 8). rewrite <- Nat2Z.inj_div, Nat2Z.id. reflexivity. }
  unfold index. rewrite (nth_error_nth' _ 0) by exact Hl. cbn [bind]. f_equal.
  replace (Z.of_nat i mod 8) with (Z.of_nat (i mod 8)) by (rewrite Nat2Z.inj_mod; reflexivity).
  pose proof (Nat.mod_upper_bound i 8 ltac:(lia)). rewrite shiftr128 by lia. rewrite land_pow2 by lia. reflexivity.
Qed.
Lemma bit_panic bs i : 0 <= i -> zlen (Bits bs) <= i / 8 -> bit bs i = Panic.
Proof.
  intros Hi Hl. unfold bit, index. destruct (nth_error (Bits bs) (Z.to_nat (i / 8))) eqn:E; [|reflexivity].
  assert (nth_error (Bits bs) (Z.to_nat (i / 8)) <> None) as H by congruence. apply nth_error_Some in H. unfold zlen in Hl.
  assert (0 <= i / 8) by (apply Z.div_pos; lia). lia.
Qed.
Lemma first_bits_S n bits : first_bits (S n) bits = bit_at bits 0 :: map (bit_at bits) (seq 1 n).
Proof. reflexivity. Qed.
Lemma zeros_app a b : zeros (a ++ b) = zeros a + zeros b.
Proof. unfold zeros. rewrite filter_app, zlen_app. reflexivity. Qed.
Lemma zeros_nonneg a : 0 <= zeros a.
Proof. apply zlen_nonneg. Qed.
Lemma zeros_cons x a : zeros (x :: a) = (if x then 0 else 1) + zeros a.
Proof. unfold zeros. destruct x; cbn [filter negb]; [|rewrite zlen_cons]; lia. Qed.
Lemma zeros_le l : zeros l <= zlen l.
Proof. induction l as [|x l IH]; [reflexivity|]. rewrite zeros_cons, zlen_cons. destruct x; lia. Qed.
Lemma bit_at_cons x bits i : bit_at (x :: bits) (8 + i) = bit_at bits i.
Proof.
  unfold bit_at. replace ((8 + i) / 8)%nat with (S (i / 8)).
  2: { replace (8 + i)%nat with (i + 1 * 8)%nat by lia. rewrite Nat.div_add by lia. lia. }
  replace ((8 + i) mod 8)%nat with (i mod 8)%nat; [reflexivity|].
  replace (8 + i)%nat with (i + 1 * 8)%nat by lia. rewrite Nat.mod_add by lia. reflexivity.
Qed.
Lemma shift_seq m n : forall k, seq (m + k) n = map (Nat.add m) (seq k n).
Proof. induction n as [|n IH]; intros k; [reflexivity|]. cbn [seq map]. f_equal. rewrite <- IH. f_equal. lia. Qed.
Lemma first_bits_byte x bits n : first_bits (8 + n) (x :: bits) = first_bits 8 [x] ++ first_bits n bits.
Proof.
  unfold first_bits. rewrite seq_app, map_app. f_equal.
  change (0 + 8)%nat with 8%nat. replace (seq 8 n) with (map (Nat.add 8) (seq 0 n)).
  2: { exact (eq_sym (shift_seq 8 n 0)). }
  rewrite map_map. apply map_ext. intros i. apply bit_at_cons.
Qed.
Lemma first_bits_app n m bits : first_bits (n + m) bits = first_bits n bits ++ map (bit_at bits) (seq n m).
Proof. unfold first_bits. rewrite seq_app, map_app. reflexivity. Qed.
Lemma byte_zeros x : 8 - ones8 x = zeros (first_bits 8 [x]).
Proof.
  unfold ones8, first_bits, bit_at. cbn [seq map fold_right nth Nat.div Nat.modulo fst snd Nat.divmod Nat.sub Z.of_nat Pos.of_succ_nat Pos.succ].
  rewrite !zeros_cons. change (zeros []) with 0. change (7 - 0) with 7. change (7 - 1) with 6. change (7 - 2) with 5. change (7 - 3) with 4.
  change (7 - 4) with 3. change (7 - 5) with 2. change (7 - 6) with 1. change (7 - 7) with 0.
  destruct (Z.testbit x 0), (Z.testbit x 1), (Z.testbit x 2), (Z.testbit x 3), (Z.testbit x 4), (Z.testbit x 5), (Z.testbit x 6), (Z.testbit x 7); reflexivity.
Qed.
Lemma count_zeros bits : compressed_count bits = zeros (first_bits (8 * List.length bits) bits).
Proof.
  induction bits as [|x bits IH]; [reflexivity|]. cbn [List.length]. replace (8 * S (List.length bits))%nat with (8 + 8 * List.length bits)%nat by lia.
  rewrite first_bits_byte, zeros_app, <- IH, <- byte_zeros. reflexivity.
Qed.
Lemma zeros_fit n bits : (n <= 8 * List.length bits)%nat -> zeros (first_bits n bits) <= compressed_count bits.
Proof.
  intros H. rewrite count_zeros. replace (8 * List.length bits)%nat with (n + (8 * List.length bits - n))%nat by lia.
  rewrite first_bits_app, zeros_app. pose proof (zeros_nonneg (map (bit_at bits) (seq n (8 * List.length bits - n)))). lia.
Qed.

(** ** Merkle roots *)
Lemma compute_from_ok H bs : zlen (Bits bs) <= 32 -> forall hs i root, (i + List.length hs <= 8 * List.length (Bits bs))%nat ->
  exists r, compute_from H bs (Z.of_nat i) hs root = Ok r.
Proof.
  intros Hz. induction hs as [|h hs IH]; intros i root Hl; cbn [compute_from List.length] in *; [eauto|].
  unfold zlen in Hz. replace (w8 (Z.of_nat i)) with (Z.of_nat i) by (symmetry; apply Z.mod_small; unfold two8; lia). rewrite bit_ok.
  2: { apply Nat.div_lt_upper_bound; lia. }
  cbn [bind]. replace (Z.of_nat i + 1) with (Z.of_nat (S i)) by lia. apply IH. lia.
Qed.
Lemma compute_from_dirs H bs : zlen (Bits bs) <= 32 -> forall hs i root, (i + List.length hs <= 8 * List.length (Bits bs))%nat ->
  compute_from H bs (Z.of_nat i) hs root =
  Ok (fold_left (fun r (x : bool * bytes) => if fst x then H (snd x ++ r) else H (r ++ snd x)) (combine (map (bit_at (Bits bs)) (seq i (List.length hs))) hs) root).
Proof.
  intros Hz. induction hs as [|h hs IH]; intros i root Hl; cbn [compute_from List.length] in *; [reflexivity|].
  unfold zlen in Hz. replace (w8 (Z.of_nat i)) with (Z.of_nat i) by (symmetry; apply Z.mod_small; unfold two8; lia). rewrite bit_ok.
  2: { apply Nat.div_lt_upper_bound; lia. }
  cbn [bind]. replace (Z.of_nat i + 1) with (Z.of_nat (S i)) by lia. rewrite IH by lia. reflexivity.
Qed.

(** ** Interlinks *)
Fixpoint late (n : nat) (b : bytes) : list bytes :=
  match n with O => [] | S n' => copy32 (skipn 32 b) :: late n' (skipn 32 b) end.
Lemma late_length n : forall b, List.length (late n b) = n.
Proof. induction n as [|n IH]; intros b; cbn; [reflexivity|]. rewrite IH. reflexivity. Qed.
Lemma firstn_repeat {A} (x : A) m n : firstn m (repeat x n) = repeat x (Nat.min m n).
Proof. revert n. induction m as [|m IH]; intros [|n]; cbn; try reflexivity. rewrite IH. reflexivity. Qed.
Lemma skipn_skipn {A} m n (l : list A) : skipn m (skipn n l) = skipn (n + m) l.
Proof. revert l. induction n as [|n IH]; intros l; [reflexivity|]. destruct l; [rewrite !skipn_nil; reflexivity|]. apply IH. Qed.
Lemma copy32_padded b i : copy32 (skipn i b) = padded32 b i.
Proof.
  unfold copy32, padded32, zero32. cbv zeta. rewrite firstn_app. f_equal. rewrite firstn_length.
  rewrite firstn_repeat. f_equal. lia.
Qed.
Lemma late_nth n : forall b k d, (k < n)%nat -> nth k (late n b) d = padded32 b (32 * (k + 1)).
Proof.
  induction n as [|n IH]; intros b k d Hk; [lia|]. cbn [late]. destruct k as [|k]; cbn [nth].
  - apply copy32_padded.
  - rewrite IH by lia. rewrite <- !copy32_padded. rewrite skipn_skipn. do 2 f_equal. lia.
Qed.
Lemma copy32_array b : bytes_ok b -> array 32 (copy32 b).
Proof.
  intros Hb. unfold copy32. split.
  - rewrite firstn_length, app_length. change (List.length zero32) with 32%nat. lia.
  - apply bytes_ok_firstn. apply Forall_app. split; [exact Hb|]. apply Forall_forall. intros x Hx. apply repeat_spec in Hx. subst. unfold is_byte; lia.
Qed.
Lemma late_arrays n : forall b, bytes_ok b -> Forall (array 32) (late n b).
Proof.
  induction n as [|n IH]; intros b Hb; cbn [late]; constructor; [apply copy32_array|apply IH]; apply bytes_ok_skipn; exact Hb.
Qed.
Lemma expand_length l : forall us prev, zeros l <= zlen us -> List.length (expand l us prev) = List.length l.
Proof.
  induction l as [|[] l IH]; intros us prev H; [reflexivity|..]; rewrite zeros_cons in H; cbn [expand List.length].
  - rewrite IH; [reflexivity|lia].
  - destruct us as [|u us]; [pose proof (zeros_nonneg l); change (zlen (@nil bytes)) with 0 in H; lia|]. rewrite zlen_cons in H.
    cbn [List.length]. rewrite IH; [reflexivity|lia].
Qed.

Lemma interlink_loop_spec bs n : forall i b hash slots,
  (i + n <= 8 * List.length (Bits bs))%nat -> zeros (map (bit_at (Bits bs)) (seq i n)) <= Z.of_nat slots ->
  let l := map (bit_at (Bits bs)) (seq i n) in let z := Z.to_nat (zeros l) in
  interlink_loop bs n (Z.of_nat i) b hash slots =
  if zlen b <? 32 * zeros l then Err EUnexpectedEOF
  else Ok (expand l (late z b) hash, late z b ++ repeat zero32 (slots - z), skipn (32 * z) b).
Proof.
  induction n as [|n IH]; intros i b hash slots Hi Hs; cbv zeta.
  - cbn [seq map interlink_loop]. change (zeros []) with 0. change (32 * 0) with 0. pose proof (zlen_nonneg b).
    destruct (Z.ltb_spec (zlen b) 0); [lia|]. cbn [Z.to_nat late expand app Nat.mul skipn]. rewrite Nat.sub_0_r. reflexivity.
  - cbn [seq map interlink_loop] in *. rewrite bit_ok by (apply Nat.div_lt_upper_bound; lia). cbn [bind].
    replace (Z.of_nat i + 1) with (Z.of_nat (S i)) by lia. rewrite zeros_cons in *. set (l := map (bit_at (Bits bs)) (seq (S i) n)) in *.
    pose proof (zeros_nonneg l) as Hz. specialize (IH (S i)). fold l in IH. cbv zeta in IH.
    destruct (bit_at (Bits bs) i).
    + rewrite IH by lia. rewrite Z.add_0_l. destruct (zlen b <? 32 * zeros l); [reflexivity|]. reflexivity.
    + destruct slots as [|slots]; [lia|]. destruct (Z.ltb_spec (zlen b) 32) as [Hlt|Hge].
      * destruct (Z.ltb_spec (zlen b) (32 * (1 + zeros l))); [reflexivity|lia].
      * rewrite IH by lia. assert (El : zlen (skipn 32 b) = zlen b - 32) by (unfold zlen in *; rewrite skipn_length; lia).
        rewrite El. replace (Z.to_nat (1 + zeros l)) with (S (Z.to_nat (zeros l))) by lia.
        destruct (Z.ltb_spec (zlen b - 32) (32 * zeros l)), (Z.ltb_spec (zlen b) (32 * (1 + zeros l))); try lia; cbn [bind]; [reflexivity|].
        cbn [late expand]. rewrite skipn_skipn. replace (32 * S (Z.to_nat (zeros l)))%nat with (32 + 32 * Z.to_nat (zeros l))%nat by lia. reflexivity.
Qed.

Lemma bitset_fit bs : u8 (Len bs) -> Len bs <= 248 -> zlen (Bits bs) = w8 (Len bs + 7) / 8 ->
  zlen (Bits bs) = (Len bs + 7) / 8 /\ (Z.to_nat (Len bs) <= 8 * List.length (Bits bs))%nat.
Proof.
  unfold u8. intros Hu Hl Hz. rewrite ceil_small in Hz by lia. split; [exact Hz|]. unfold zlen in Hz.
  pose proof (Z.div_mod (Len bs + 7) 8 ltac:(lia)). pose proof (Z.mod_pos_bound (Len bs + 7) 8 ltac:(lia)). lia.
Qed.
Lemma interlink_unm il d : bytes_ok d ->
  match Interlink_Unmarshal il d with
  | Ok (r, n) =>
      exists bs m, BitSet_Unmarshal (il_repeats il) d = Ok (bs, m) /\ bitset_ok bs /\ u8 (Len bs) /\
      let l := first_bits (Z.to_nat (Len bs)) (Bits bs) in
      let us := late (Z.to_nat (zeros l)) (skipn (Z.to_nat m) d) in
      r = MkInterlink bs (expand l us (il_prev il)) (il_prev il) (us ++ repeat zero32 (Z.to_nat (compressed_count (Bits bs)) - Z.to_nat (zeros l))) /\
      n = m + 32 * zeros l /\ 1 <= n <= zlen d /\ m = 1 + (Len bs + 7) / 8
  | Err e => e = EUnexpectedEOF
  | Panic => exists x d', d = x :: d' /\ 249 <= x
  | OutOfFuel => False
  end /\ (forall x d', d = x :: d' -> 249 <= x -> Interlink_Unmarshal il d = Panic).
Proof.
  intros Hd. assert (P : forall x d', d = x :: d' -> 249 <= x -> Interlink_Unmarshal il d = Panic).
  { intros x d' -> Hx. apply Forall_inv in Hd. unfold is_byte in Hd. unfold Interlink_Unmarshal. cbn [BitSet_Unmarshal]. cbv zeta.
    replace (w8 (x + 7) / 8) with 0.
    2: { unfold w8, two8. replace (x + 7) with (x - 249 + 1 * 256) by lia. rewrite Z.mod_add, Z.mod_small by lia. rewrite Z.div_small by lia. reflexivity. }
    destruct (Z.ltb_spec (zlen d') 0) as [Hl|_]; [pose proof (zlen_nonneg d'); lia|]. cbn [bind Len Bits firstn Z.to_nat].
    destruct (Z.to_nat x) as [|n] eqn:En; [lia|]. cbn [interlink_loop]. rewrite bit_panic; [reflexivity|lia|]. cbn. lia. }
  split; [|exact P].
  unfold Interlink_Unmarshal in *. destruct (BitSet_Unmarshal (il_repeats il) d) as [(bs & m)|e| |] eqn:E.
  2-4: destruct (bitset_unm_total (il_repeats il) d) as [(? & ? & E')|E']; rewrite E' in E; [discriminate E|]; first [discriminate E | injection E as <-; reflexivity].
  cbn [bind] in *. pose proof E as E0. apply bitset_unm_ok in E as (Hm & Hn & Hu & Hb & Hz & Hf); [|exact Hd].
  destruct (Z.leb_spec (Len bs) 248) as [Hl|Hl].
  - destruct (bitset_fit bs Hu Hl Hz) as (Hz' & Hfit). pose proof (zeros_fit _ _ Hfit) as Hc.
    set (l := first_bits (Z.to_nat (Len bs)) (Bits bs)) in *. pose proof (zeros_nonneg l) as Hz0.
    rewrite (interlink_loop_spec bs (Z.to_nat (Len bs)) 0) by (try exact Hfit; fold (first_bits (Z.to_nat (Len bs)) (Bits bs)); fold l; lia).
    fold (first_bits (Z.to_nat (Len bs)) (Bits bs)). fold l. cbv zeta. rewrite ceil_small in Hm by (unfold u8 in Hu; lia).
    assert (Hm1 : 1 <= m) by (rewrite Hz' in *; pose proof (zlen_nonneg (Bits bs)); lia).
    destruct (Z.ltb_spec (zlen (skipn (Z.to_nat m) d)) (32 * zeros l)) as [Hlt|Hge]; cbn [bind]; [reflexivity|].
    assert (Hs : zlen (skipn (Z.to_nat m) d) = zlen d - m) by (unfold zlen in *; rewrite skipn_length; lia).
    exists bs, m. split; [reflexivity|]. split; [split; [unfold u8 in Hu; lia|split; assumption]|]. split; [exact Hu|]. cbv zeta. fold l.
    split; [reflexivity|].
    assert (En : zlen d - zlen (skipn (32 * Z.to_nat (zeros l)) (skipn (Z.to_nat m) d)) = m + 32 * zeros l).
    { unfold zlen in *. rewrite skipn_length. lia. }
    split; [exact En|]. split; [rewrite En; lia|exact Hm].
  - assert (exists x d', d = x :: d' /\ 249 <= x) as (x & d' & Ed & Hx).
    { destruct d as [|x d']; [cbn in Hn; unfold zlen in Hn; cbn in Hn; pose proof (zlen_nonneg (Bits bs)); lia|].
      exists x, d'. split; [reflexivity|]. assert (1 <= m) by (pose proof (zlen_nonneg (Bits bs)); lia).
      replace (Z.to_nat m) with (S (Z.to_nat (m - 1))) in Hf by lia. cbn [firstn] in Hf. injection Hf as E1 _. lia. }
    rewrite (P x d' Ed Hx). eauto.
Qed.
