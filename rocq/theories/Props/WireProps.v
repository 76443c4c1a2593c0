(** Properties C36-C41, C49, C50, C75: accounts, transactions, signature proofs. *)
From Coq Require Import ZArith List Lia Bool String.
Import ListNotations.
From Verif.Model Require Import Base Address Beserial Wire.
From Verif.Spec Require Import BeserialSpec WireSpec.
From Verif.Proofs Require Import BaseFacts BeserialFacts WireFacts InterlinkFacts BlockFacts LayoutFacts.
From Verif.Props Require Import BeserialProps.
Open Scope Z_scope.

Lemma custom_ok c t dst d v n : bytes_ok d -> Unmarshal d (APtr (TCustom c t) dst) = (Ok (Some v), n) ->
  cd_unmarshal c dst d = Ok (v, n).
Proof.
  intros Hd. unfold Unmarshal. cbn [value]. unfold call_unmarshal. cbn [data].
  destruct (cd_unmarshal c dst d) as [(w & m)|e| |]; try discriminate.
  destruct (Z.ltb_spec m 0); [discriminate|]. destruct (Z.ltb_spec (zlen d) m); [discriminate|]. cbn [bind data]. intros E.
  assert (w = v /\ zlen d - zlen (skipn (Z.to_nat m) d) = n) as (-> & <-) by (split; congruence).
  f_equal. f_equal. unfold zlen in *. rewrite skipn_length. lia.
Qed.

(** ** C36 *)
(** Accounts have the layout of the specification; decoding, from any input that
    begins with it, gives the account back. *)
Theorem C36_account_round_trip a :
  account_ok a ->
  (forall b, encode_account b a = Ok (b ++ account_bytes a, None)) /\
  (forall rest, decode_account (account_bytes a ++ rest) = Ok (a, zlen (account_bytes a))).
Proof.
  intros Ha. pose proof (wrap_account_layout a Ha) as He.
  destruct (enc_marshal ty_wrap_account (v_wrap_account (Some a)) (account_bytes a)) as (Hm & Hu); [apply enc_custom; exact He|].
  split; [exact Hm|]. intros rest. unfold decode_account. rewrite Hu. cbn [bind]. rewrite wrap_account_of_v. reflexivity.
Qed.
Print Assumptions C36_account_round_trip.
(** Every byte string is rejected with an error or decodes to a well-formed
    account whose encoding is exactly the bytes consumed. *)
Theorem C36_account_canonical d :
  bytes_ok d ->
  (exists e, decode_account d = Err e) \/
  (exists a n, decode_account d = Ok (a, n) /\ account_ok a /\ 0 <= n <= zlen d /\ account_bytes a = firstn (Z.to_nat n) d).
Proof.
  intros Hd. pose proof wrap_account_safe as Hs.
  destruct (C28_unmarshal_total ty_wrap_account (zero ty_wrap_account) d) as (r & n & E & Hn & Hr & _); [exact Hs|exact Hd|].
  unfold decode_account. rewrite E. destruct Hr as [(v & ->)|(e & ->)]; cbn [bind]; [|left; eauto]. right.
  pose proof (custom_ok _ _ _ _ _ _ Hd E) as Ec. destruct (wrap_account_decodes _ _ _ _ Hd Ec) as (a & -> & Ha).
  rewrite wrap_account_of_v. exists a, n. repeat split; try assumption; try lia.
  pose proof (C30_canonical ty_wrap_account _ _ _ _ wrap_account_canonical Hd E []) as Hc.
  destruct (C36_account_round_trip a Ha) as (Hm & _). specialize (Hm []). unfold encode_account in Hm. cbn [app] in *. congruence.
Qed.
Print Assumptions C36_account_canonical.
Example C36_example :
  let a := AHTLC (MkHTLC 5 (repeat 1 20) (repeat 2 20) (MkHash 3 (repeat 7 32)) 4 99 1000) in
  account_ok a /\ zlen (account_bytes a) = 95 /\
  decode_account (account_bytes a ++ [1; 2]) = Ok (a, 95) /\ decode_account [3; 0] = Err EBadAccountType.
Proof.
  split; [|split; [reflexivity|split; [reflexivity|reflexivity]]].
  cbn [account_ok]. unfold u64, u32, u8, hash_ok, array, u8. cbn. repeat split; try lia; repeat constructor; unfold is_byte; lia.
Qed.

(** ** C37 *)
Theorem C37_tx_round_trip t :
  tx_ok t ->
  (forall b, encode_tx b t = Ok (b ++ tx_bytes t, None)) /\
  (forall rest, decode_tx (tx_bytes t ++ rest) = Ok (t, zlen (tx_bytes t))).
Proof.
  intros Ha. pose proof (wrap_tx_layout t Ha) as He.
  destruct (enc_marshal ty_wrap_tx (v_wrap_tx (Some t)) (tx_bytes t)) as (Hm & Hu); [apply enc_custom; exact He|].
  split; [exact Hm|]. intros rest. unfold decode_tx. rewrite Hu. cbn [bind]. rewrite wrap_tx_of_v. reflexivity.
Qed.
Print Assumptions C37_tx_round_trip.
Theorem C37_tx_not_malleable d :
  bytes_ok d ->
  (exists e, decode_tx d = Err e) \/
  (exists t n, decode_tx d = Ok (t, n) /\ tx_ok t /\ 0 <= n <= zlen d /\ tx_bytes t = firstn (Z.to_nat n) d).
Proof.
  intros Hd. pose proof wrap_tx_safe as Hs.
  destruct (C28_unmarshal_total ty_wrap_tx (zero ty_wrap_tx) d) as (r & n & E & Hn & Hr & _); [exact Hs|exact Hd|].
  unfold decode_tx. rewrite E. destruct Hr as [(v & ->)|(e & ->)]; cbn [bind]; [|left; eauto]. right.
  pose proof (custom_ok _ _ _ _ _ _ Hd E) as Ec. destruct (wrap_tx_decodes _ _ _ _ Hd Ec) as (a & -> & Ha).
  rewrite wrap_tx_of_v. exists a, n. repeat split; try assumption; try lia.
  pose proof (C30_canonical ty_wrap_tx _ _ _ _ wrap_tx_canonical Hd E []) as Hc.
  destruct (C37_tx_round_trip a Ha) as (Hm & _). specialize (Hm []). unfold encode_tx in Hm. cbn [app] in *. congruence.
Qed.
Print Assumptions C37_tx_not_malleable.
Example C37_example :
  let t := TExtended (MkExtendedTx [1; 2; 3] (repeat 1 20) 0 (repeat 2 20) 1 5 6 7 42 1 [9]) in
  tx_ok t /\ decode_tx (tx_bytes t ++ [1; 2]) = Ok (t, 73) /\ decode_tx [2; 0] = Err EBadTxType.
Proof.
  split; [|split; reflexivity].
  cbn [tx_ok]. unfold u64, u32, u8, array, u8. cbn. repeat split; try lia; repeat constructor; unfold is_byte; lia.
Qed.

(** ** C38 *)
(** A bit set with 249 to 255 bits is accepted but its bits cannot be read: the
    byte count [Len + 7] overflows uint8. *)
Theorem C38_bit_panics_refuted x d :
  249 <= x < 256 ->
  exists bs n, BitSet_Unmarshal (MkBitSet 0 []) (x :: d) = Ok (bs, n) /\ Len bs = x /\
    forall i, 0 <= i < Len bs -> bit bs i = Panic.
Proof.
  intros Hx. unfold BitSet_Unmarshal. assert (E : w8 (x + 7) / 8 = 0).
  { unfold w8. replace (x + 7) with (x - 249 + 1 * two8) by (unfold two8; lia). rewrite Z.mod_add by discriminate. rewrite Z.mod_small by (unfold two8; lia). apply Z.div_small. lia. }
  rewrite E. destruct (Z.ltb_spec (zlen d) 0); [unfold zlen in *; lia|]. cbn [Z.to_nat firstn].
  eexists _, _. split; [reflexivity|]. split; [reflexivity|]. intros i Hi. apply bit_panic; [lia|]. cbn [Bits]. unfold zlen. cbn [List.length]. apply Z.div_pos; lia.
Qed.
Print Assumptions C38_bit_panics_refuted.
(** Up to 248 bits every bit can be read, and is the bit of the encoding. *)
Theorem C38_bits_readable_partial bs0 d bs n :
  bytes_ok d -> BitSet_Unmarshal bs0 d = Ok (bs, n) -> Len bs <= 248 ->
  forall i, 0 <= i < Len bs -> bit bs i = Ok (bit_at (skipn 1 d) (Z.to_nat i)).
Proof.
  intros Hd E Hl i Hi. destruct (bitset_unm_ok _ _ _ _ Hd E) as (Hn & Hle & Hu & Hb & Hz & Hf).
  destruct (bitset_fit bs Hu Hl Hz) as (Hz2 & Hfit).
  assert (Hidx : (Z.to_nat i / 8 < List.length (Bits bs))%nat). { apply Nat.div_lt_upper_bound; lia. }
  rewrite <- (Z2Nat.id i) at 1 by lia. rewrite bit_ok by exact Hidx. f_equal.
  destruct d as [|x d]; [cbn in E; discriminate|]. cbn [skipn]. unfold bit_at. f_equal.
  assert (Z.to_nat n = S (List.length (Bits bs))) as En.
  { assert (zlen (Bits bs) = n - 1) by lia. unfold zlen in *. lia. }
  rewrite En in Hf. cbn [firstn] in Hf. assert (Hf' : Bits bs = firstn (List.length (Bits bs)) d) by congruence.
  rewrite <- (firstn_skipn (List.length (Bits bs)) d), <- Hf'. rewrite app_nth1 by exact Hidx. reflexivity.
Qed.
Print Assumptions C38_bits_readable_partial.
Example C38_example : BitSet_Unmarshal (MkBitSet 0 []) [9; 160; 128; 7] = Ok (MkBitSet 9 [160; 128], 3) /\
  map (bit (MkBitSet 9 [160; 128])) [0; 1; 2; 8] = [Ok true; Ok false; Ok true; Ok true].
Proof. split; reflexivity. Qed.

(** ** C39 *)
Lemma declared_proof (P : codec -> Prop) : P path_codec -> well_declared P ty_proof.
Proof. intros H. cbn [well_declared ty_proof field bytesN ty_path]. declare. Qed.
Theorem C39_proof_round_trip p :
  proof_ok p ->
  (forall b, encode_proof b p = Ok (b ++ proof_bytes p, None)) /\
  (forall rest, decode_proof (proof_bytes p ++ rest) = Ok (p, zlen (proof_bytes p))).
Proof.
  intros Hp. destruct (enc_marshal _ _ _ (proof_layout p Hp)) as (Hm & Hu). split; [exact Hm|].
  intros rest. unfold decode_proof. rewrite Hu. cbn [bind]. unfold proof_of, v_proof. cbn [fld nth]. rewrite !bytes_of_vbytes, path_of_v. destruct p; reflexivity.
Qed.
Print Assumptions C39_proof_round_trip.
Lemma proof_value dst d v n : bytes_ok d -> Unmarshal d (APtr ty_proof dst) = (Ok (Some v), n) ->
  v = v_proof (proof_of v) /\ array 32 (PublicKey (proof_of v)) /\ array 64 (Signature (proof_of v)) /\
  exists a d' m, bytes_ok d' /\ MerklePath_Unmarshal a d' = Ok (Path (proof_of v), m).
Proof.
  intros Hd E.
  set (Q := fun (c : codec) (w : val) => c = path_codec -> exists p, w = v_path p /\ exists a d' m, bytes_ok d' /\ MerklePath_Unmarshal a d' = Ok (p, m)).
  assert (HQ : codec_decodes Q path_codec).
  { intros dst0 d0 v0 n0 Hb0 E0 _. unfold path_codec, typed_codec in E0. cbn [cd_unmarshal] in E0.
    destruct (MerklePath_Unmarshal (path_of dst0) d0) as [(p & m)|e| |] eqn:Ep; cbn [bind] in E0; try discriminate.
    exists p. split; [congruence|]. exists (path_of dst0), d0, m. split; assumption. }
  unfold Unmarshal in E. destruct (value ty_proof no_tags dst (DState d [])) as (r & s) eqn:Ev. destruct r as [w|e| |]; try discriminate.
  assert (w = v) as -> by (cbn [bind] in E; congruence).
  pose proof (value_decoded Q ty_proof (declared_proof _ HQ)) as Hdec.
  assert (Ho : slices_occupy ty_proof) by (cbn [slices_occupy ty_proof field bytesN ty_path]; repeat split).
  assert (Ht : tags_unsigned no_tags) by (intros k Hk; discriminate Hk).
  specialize (Hdec Ho no_tags dst (DState d []) v s Ht Hd Ev).
  destruct v as [| | | | |vs| |]; try contradiction. change (all_dec Q [field (bytesN 32); field ty_path; field (bytesN 64)] vs) in Hdec.
  destruct vs as [|v1 [|v2 [|v3 [|? ?]]]]; cbn [all_dec field] in Hdec; try (now intuition).
  destruct Hdec as ((t1 & _ & H1) & (t2 & _ & H2) & (t3 & _ & H3) & _).
  destruct (decoded_bytesN _ _ _ _ H1) as (E1 & A1). destruct (decoded_bytesN _ _ _ _ H3) as (E3 & A3).
  destruct (H2 eq_refl) as (p & E2 & a & d' & m & Hb' & Em).
  unfold proof_of, v_proof. cbn [fld nth PublicKey Path Signature]. rewrite E2, path_of_v. rewrite <- E1, <- E3.
  split; [reflexivity|]. split; [exact A1|]. split; [exact A3|]. exists a, d', m. split; assumption.
Qed.
Theorem C39_proof_canonical d :
  bytes_ok d ->
  (exists e, decode_proof d = Err e) \/
  (exists p n, decode_proof d = Ok (p, n) /\ 0 <= n <= zlen d /\ array 32 (PublicKey p) /\ array 64 (Signature p) /\
     zlen (Hashes (Path p)) = Len (Branches (Path p)) /\ (Len (Branches (Path p)) <= 248 -> proof_ok p) /\
     proof_bytes p = firstn (Z.to_nat n) d /\
     forall b, encode_proof b p = Ok (b ++ firstn (Z.to_nat n) d, None)).
Proof.
  intros Hd. destruct (C28_unmarshal_total ty_proof (zero ty_proof) d) as (r & n & E & Hn & Hr & _); [apply declared_proof; exact path_safe|exact Hd|].
  unfold decode_proof. rewrite E. destruct Hr as [(v & ->)|(e & ->)]; cbn [bind]; [|left; eauto]. right.
  pose proof (C30_canonical ty_proof _ _ _ _ (declared_proof _ path_canonical) Hd E) as Hc.
  destruct (proof_value _ _ _ _ Hd E) as (Ev & A1 & A2 & a & d' & m & Hb' & Ep).
  destruct (path_unm_ok _ _ _ _ Hb' Ep) as (_ & Hu & Hb & Hz & Hl & Hh & _).
  exists (proof_of v), n. split; [reflexivity|]. split; [lia|]. split; [exact A1|]. split; [exact A2|]. split; [exact Hl|].
  rewrite Ev in Hc. split; [|split].
  - intros H248. split; [exact A1|]. split; [|exact A2]. split; [|split; assumption]. unfold u8 in Hu. destruct (bitset_fit _ Hu H248 Hz) as (Hz2 & _). repeat split; try assumption; lia.
  - specialize (Hc []). cbn [app] in Hc.
    assert (Hm : Marshal [] (APtr ty_proof (v_proof (proof_of v))) = Ok (proof_bytes (proof_of v), None)).
    { clear -A1 A2. generalize (proof_of v) A1 A2. intros p A1' A2'. unfold Marshal, proof_bytes.
      pose proof (proj1 (enc_marshal _ _ _ (enc_bytesN 32 no_tags _ A1'))) as M1.
      pose proof (proj1 (enc_marshal _ _ _ (enc_bytesN 64 no_tags _ A2'))) as M2.
      unfold Marshal in M1, M2. unfold v_proof, ty_proof. rewrite marshal_struct. cbn [marshal_fields field field_tags bind]. rewrite M1. cbn [m_then bind marshal_fields field_tags].
      assert (M3 : forall b, marshal ty_path (v_path (Path p)) b no_tags = Ok (b ++ bitset_bytes (Branches (Path p)) ++ List.concat (Hashes (Path p)), None)).
      { intros b. cbn [marshal ty_path]. unfold path_codec, typed_codec. cbn [cd_marshal]. rewrite path_of_v. unfold MerklePath_Marshal, BitSet_Marshal. cbn [bind]. unfold bitset_bytes. rewrite <- !app_assoc. reflexivity. }
      rewrite M3. cbn [m_then bind marshal_fields field_tags]. rewrite M2. cbn [m_then bind marshal_fields m_ok app]. rewrite <- !app_assoc. reflexivity. }
    congruence.
  - exact Hc.
Qed.
Print Assumptions C39_proof_canonical.
Example C39_example :
  let p := MkProof (repeat 1 32) (MkMerklePath (MkBitSet 2 [64]) [repeat 2 32; repeat 3 32]) (repeat 4 64) in
  proof_ok p /\ decode_proof (proof_bytes p ++ [5]) = Ok (p, 162).
Proof.
  split; [|reflexivity]. unfold proof_ok, path_ok, bitset_ok, array. cbn. repeat split; try lia; repeat constructor; unfold is_byte; cbn; try lia; repeat constructor; lia.
Qed.

(** ** C40 *)
Lemma long_proof_enc x pub nodes sig :
  249 <= x < 256 -> array 32 pub -> Forall (array 32) nodes -> zlen nodes = x -> array 64 sig ->
  let p := MkProof pub (MkMerklePath (MkBitSet x []) nodes) sig in
  enc ty_proof no_tags (v_proof p) (proof_bytes p) /\ forall H, SignerAddress H p = Panic.
Proof.
  intros Hx Hp Hn Hl Hs p. split.
  - apply enc_struct. unfold proof_bytes. enc_fields_tac; first [apply enc_bytesN; assumption | idtac].
      apply enc_custom. apply typed_codec_encodes.
      + exact path_of_v.
      + intros b. unfold MerklePath_Marshal, BitSet_Marshal, p, bitset_bytes. cbn [bind Path Branches Hashes Len Bits]. rewrite <- !app_assoc. reflexivity.
      + intros dst rest. unfold MerklePath_Unmarshal, BitSet_Unmarshal, p, bitset_bytes. cbn [Path Branches Hashes Len Bits app].
        assert (E : w8 (x + 7) / 8 = 0).
        { unfold w8. replace (x + 7) with (x - 249 + 1 * two8) by (unfold two8; lia). rewrite Z.mod_add by discriminate. rewrite Z.mod_small by (unfold two8; lia). apply Z.div_small. lia. }
        rewrite E. destruct (Z.ltb_spec (zlen (List.concat nodes ++ rest)) 0); [unfold zlen in *; lia|]. cbn [bind Z.to_nat firstn]. cbn [Len].
        change (skipn (Z.to_nat (1 + 0)) (x :: List.concat nodes ++ rest)) with (List.concat nodes ++ rest).
        replace (Z.to_nat x) with (List.length nodes) by (unfold zlen in Hl; lia). rewrite read_nodes_enc by exact Hn. cbn [bind]. do 2 f_equal. rewrite !zlen_cons, !zlen_app. lia.
  - intros H. unfold SignerAddress, ComputeRoot, p. cbn [Path Branches Hashes PublicKey].
    destruct nodes as [|h nodes]; [unfold zlen in Hl; cbn in Hl; lia|]. cbn [compute_from]. rewrite bit_panic; [reflexivity|unfold w8; cbn; lia|cbn; lia].
Qed.
(** A proof that claims 249 to 255 merkle path nodes is accepted, and computing
    the signer's address panics, whatever its contents and the hash function. *)
Theorem C40_signer_panics_refuted x pub nodes sig :
  249 <= x < 256 -> array 32 pub -> Forall (array 32) nodes -> zlen nodes = x -> array 64 sig ->
  exists p n, decode_proof (pub ++ x :: List.concat nodes ++ sig) = Ok (p, n) /\
    forall H, SignerAddress H p = Panic.
Proof.
  intros Hx Hp Hn Hl Hs.
  assert (Eb : BitSet_Unmarshal (MkBitSet 0 []) (x :: List.concat nodes ++ sig) = Ok (MkBitSet x [], 1)).
  { unfold BitSet_Unmarshal. assert (E : w8 (x + 7) / 8 = 0).
    { unfold w8. replace (x + 7) with (x - 249 + 1 * two8) by (unfold two8; lia). rewrite Z.mod_add by discriminate. rewrite Z.mod_small by (unfold two8; lia). apply Z.div_small. lia. }
    rewrite E. destruct (Z.ltb_spec (zlen (List.concat nodes ++ sig)) 0); [unfold zlen in *; lia|]. reflexivity. }
  assert (Hd : bytes_ok (pub ++ x :: List.concat nodes ++ sig)).
  { apply bytes_ok_app. split; [apply Hp|]. constructor; [unfold is_byte; lia|]. apply bytes_ok_app. split; [|apply Hs].
    clear -Hn. induction Hn as [|h l (_ & Hh) _ IH]; cbn [List.concat]; [constructor|]. apply bytes_ok_app. split; assumption. }
  set (p := MkProof pub (MkMerklePath (MkBitSet x []) nodes) sig).
  exists p, (zlen pub + 1 + zlen (List.concat nodes) + zlen sig). split.
  - destruct (long_proof_enc x pub nodes sig Hx Hp Hn Hl Hs) as (He & _). fold p in He.
    destruct (enc_marshal _ _ _ He) as (_ & Hu). unfold decode_proof.
    specialize (Hu (zero ty_proof) []). rewrite app_nil_r in Hu.
    assert (E : pub ++ x :: List.concat nodes ++ sig = proof_bytes p).
    { unfold proof_bytes, p, bitset_bytes. cbn [PublicKey Path Signature Branches Hashes Len Bits app]. reflexivity. }
    rewrite E, Hu. cbn [bind]. do 2 f_equal.
    + unfold proof_of, v_proof. cbn [fld nth]. rewrite !bytes_of_vbytes, path_of_v. reflexivity.
    + rewrite <- E. rewrite !zlen_app, zlen_cons, zlen_app. lia.
  - intros H. unfold SignerAddress, ComputeRoot, p. cbn [Path Branches Hashes PublicKey].
    destruct nodes as [|h nodes]; [unfold zlen in Hl; cbn in Hl; lia|]. cbn [compute_from]. rewrite bit_panic; [reflexivity|unfold w8; cbn; lia|cbn; lia].
Qed.
Print Assumptions C40_signer_panics_refuted.
(** With at most 248 nodes the address is computed: hash the key, then combine
    with the path nodes, on the side given by the bits. *)
Theorem C40_signer_address_partial H d p n :
  bytes_ok d -> decode_proof d = Ok (p, n) -> Len (Branches (Path p)) <= 248 ->
  SignerAddress H p =
    Ok (firstn 20 (merkle_root_of H (directions (Path p)) (Hashes (Path p)) (PublicKey p))).
Proof.
  intros Hd E Hl. destruct (C39_proof_canonical d Hd) as [(e & E')|(p' & n' & E' & _ & _ & _ & Hz & Hok & _)]; [congruence|].
  assert (p' = p) as -> by congruence. destruct (Hok Hl) as (_ & (Hb & Hh & _) & _).
  unfold SignerAddress, ComputeRoot. destruct Hb as (Hb1 & Hb2 & Hb3).
  assert (Hfit : (0 + List.length (Hashes (Path p)) <= 8 * List.length (Bits (Branches (Path p))))%nat).
  { unfold zlen in *. pose proof (Z.div_mod (Len (Branches (Path p)) + 7) 8) as Hdm. pose proof (Z.mod_pos_bound (Len (Branches (Path p)) + 7) 8) as Hmb. lia. }
  change 0 with (Z.of_nat 0). rewrite compute_from_dirs; [reflexivity| |exact Hfit].
  rewrite Hb3. assert ((Len (Branches (Path p)) + 7) / 8 < 32) by (apply Z.div_lt_upper_bound; lia). lia.
Qed.
Print Assumptions C40_signer_address_partial.

(** ** C41 *)
Definition merkle_fold (H : bytes -> bytes) (dirs : list bool) (nodes : list bytes) (r : bytes) : bytes :=
  fold_left (fun r (x : bool * bytes) => if fst x then H (snd x ++ r) else H (r ++ snd x)) (combine dirs nodes) r.
Lemma collision_or H (a b : bytes) xs ys : H a = H b -> In a xs -> In b ys -> a = b \/ collision_in H xs ys.
Proof. intros E Ha Hb. destruct (list_eq_dec Z.eq_dec a b); [left; assumption|right; exists a, b; auto]. Qed.
Lemma hashed_along_head H dirs nodes c : In c (hashed_along H dirs nodes c).
Proof. destruct dirs, nodes; cbn; auto. Qed.
Lemma app_inj_len {A} (a b c d : list A) : List.length a = List.length c -> a ++ b = c ++ d -> a = c /\ b = d.
Proof. revert c. induction a as [|x a IH]; intros [|y c] Hl E; cbn in *; try discriminate; [auto|]. injection E as -> E. destruct (IH c) as (-> & ->); auto. Qed.
Lemma app_inj_len_r {A} (a b c d : list A) : List.length b = List.length d -> a ++ b = c ++ d -> a = c /\ b = d.
Proof. intros Hl E. apply app_inj_len; [|exact E]. apply (f_equal (@List.length A)) in E. rewrite !app_length in E. lia. Qed.
Lemma merkle_fold_binds H dirs : (forall x, List.length (H x) = 32%nat) ->
  forall n1 n2 c1 c2, List.length n1 = List.length dirs -> List.length n2 = List.length dirs -> Forall (array 32) n1 -> Forall (array 32) n2 ->
  merkle_fold H dirs n1 (H c1) = merkle_fold H dirs n2 (H c2) ->
  (c1 = c2 /\ n1 = n2) \/ collision_in H (hashed_along H dirs n1 c1) (hashed_along H dirs n2 c2).
Proof.
  intros HH. induction dirs as [|d dirs IH]; intros n1 n2 c1 c2 L1 L2 A1 A2 E.
  - destruct n1; [|discriminate]. destruct n2; [|discriminate]. cbn in E.
    destruct (collision_or H c1 c2 [c1] [c2] E) as [->|C]; [left; reflexivity|left; reflexivity|left; auto|right; exact C].
  - destruct n1 as [|h1 n1]; [discriminate|]. destruct n2 as [|h2 n2]; [discriminate|]. cbn [List.length] in *.
    inversion A1 as [|? ? (B1 & _) A1']; subst. inversion A2 as [|? ? (B2 & _) A2']; subst.
    unfold merkle_fold in E. cbn [combine fold_left fst snd] in E. cbn [hashed_along].
    set (x1 := if d then h1 ++ H c1 else H c1 ++ h1). set (x2 := if d then h2 ++ H c2 else H c2 ++ h2).
    assert (E' : merkle_fold H dirs n1 (H x1) = merkle_fold H dirs n2 (H x2)) by (unfold merkle_fold, x1, x2; destruct d; exact E).
    destruct (IH n1 n2 x1 x2 ltac:(lia) ltac:(lia) A1' A2' E') as [(Ex & ->)|(a & b & Ia & Ib & C)].
    + assert (h1 = h2 /\ H c1 = H c2) as (-> & Ec).
      { unfold x1, x2 in Ex. destruct d; apply app_inj_len in Ex; rewrite ?HH; try lia; tauto. }
      destruct (collision_or H c1 c2 (c1 :: hashed_along H dirs n2 x1) (c2 :: hashed_along H dirs n2 x2) Ec) as [->|C]; [left; reflexivity|left; reflexivity|left; auto|right; exact C].
    + right. exists a, b. repeat split; try tauto; right; assumption.
Qed.
Lemma compute_root_ok H p leaf : path_ok p -> ComputeRoot H p leaf = Ok (merkle_fold H (directions p) (Hashes p) (H leaf)).
Proof.
  intros ((Hb1 & Hb2 & Hb3) & Hh & _). unfold ComputeRoot.
  assert (Hfit : (0 + List.length (Hashes p) <= 8 * List.length (Bits (Branches p)))%nat).
  { unfold zlen in *. pose proof (Z.div_mod (Len (Branches p) + 7) 8) as Hdm. pose proof (Z.mod_pos_bound (Len (Branches p) + 7) 8) as Hmb. lia. }
  change 0 with (Z.of_nat 0). rewrite compute_from_dirs; [reflexivity| |exact Hfit].
  rewrite Hb3. assert ((Len (Branches p) + 7) / 8 < 32) by (apply Z.div_lt_upper_bound; lia). lia.
Qed.
(** Two paths with the same directions that lead to the same root have the same
    leaf and nodes, or two of the strings hashed on the way collide. *)
Theorem C41_merkle_path_binds H p1 p2 leaf1 leaf2 root :
  (forall x, List.length (H x) = 32%nat) -> path_ok p1 -> path_ok p2 -> directions p1 = directions p2 ->
  ComputeRoot H p1 leaf1 = Ok root -> ComputeRoot H p2 leaf2 = Ok root ->
  (leaf1 = leaf2 /\ Hashes p1 = Hashes p2) \/ collision_in H (path_hashed H p1 leaf1) (path_hashed H p2 leaf2).
Proof.
  intros HH P1 P2 Ed E1 E2. rewrite compute_root_ok in E1 by exact P1. rewrite compute_root_ok in E2 by exact P2.
  unfold path_hashed. rewrite <- Ed.
  assert (L1 : List.length (Hashes p1) = List.length (directions p1)). { unfold directions, first_bits. rewrite map_length, seq_length. reflexivity. }
  assert (L2 : List.length (Hashes p2) = List.length (directions p1)). { rewrite Ed. unfold directions, first_bits. rewrite map_length, seq_length. reflexivity. }
  apply merkle_fold_binds; try assumption; try apply P1; try apply P2. rewrite <- Ed in E2. congruence.
Qed.
Print Assumptions C41_merkle_path_binds.
(** The hypotheses are met, and with a bad hash a collision does occur. *)
Example C41_example :
  let H := fun _ => repeat 7 32 in
  let p := MkMerklePath (MkBitSet 2 [64]) [repeat 2 32; repeat 3 32] in
  path_ok p /\ directions p = [false; true] /\ ComputeRoot H p [1] = Ok (repeat 7 32) /\ ComputeRoot H p [2] = Ok (repeat 7 32) /\
  path_hashed H p [1] = [[1]; repeat 7 32 ++ repeat 2 32; repeat 3 32 ++ repeat 7 32].
Proof.
  split; [|repeat split]. unfold path_ok, bitset_ok, array. cbn. repeat split; try lia; repeat constructor; unfold is_byte; cbn; try lia; repeat constructor; lia.
Qed.

(** ** C49 *)
(** What GetSender, GetRecipient and Amount say, what AsTxContent says, and what
    AsTxContent of AsExtendedTx says are the same. *)
Theorem C49_views_agree H t :
  let c := AsTxContent H t in
  AsTxContent H (TExtended (AsExtendedTx H t)) = c /\
  (c_sender c, c_sender_type c) = GetSender H t /\ (c_recipient c, c_recipient_type c) = GetRecipient t /\
  (c_value c, c_fee c) = Amount t /\ Amount (TExtended (AsExtendedTx H t)) = Amount t /\
  GetSender H (TExtended (AsExtendedTx H t)) = GetSender H t /\ GetRecipient (TExtended (AsExtendedTx H t)) = GetRecipient t /\
  AsExtendedTx H (TExtended (AsExtendedTx H t)) = AsExtendedTx H t.
Proof. destruct t; cbn; repeat split. Qed.
Print Assumptions C49_views_agree.
(** For a basic transaction the sender is the (first 20 bytes of the) hash of the
    key, both account types are basic (0), and there are no data and no flags. *)
Theorem C49_basic_view H b :
  AsTxContent H (TBasic b) =
    MkTxContent [] (firstn 20 (H (b_pubkey b))) 0 (b_recipient b) 0 (b_value b) (b_fee b) (b_height b) (b_network b) 0.
Proof. reflexivity. Qed.
Print Assumptions C49_basic_view.

(** ** C50 *)
(** The "proof" of the extended form is the bare 64-byte signature; a signature
    proof takes at least 97 bytes, so it never decodes. *)
Lemma proof_length p : array 32 (PublicKey p) -> array 64 (Signature p) -> 97 <= zlen (proof_bytes p).
Proof.
  intros (H1 & _) (H2 & _). unfold proof_bytes, bitset_bytes. rewrite !zlen_app, zlen_cons. unfold zlen. rewrite H1, H2. lia.
Qed.
Theorem C50_extended_proof_refuted H b :
  tx_ok (TBasic b) -> exists e, decode_proof (x_proof (AsExtendedTx H (TBasic b))) = Err e.
Proof.
  intros (_ & _ & _ & _ & _ & _ & Hl & Hb). cbn [AsExtendedTx x_proof].
  destruct (C39_proof_canonical (b_signature b) Hb) as [E|(p & n & _ & Hn & A1 & A2 & _ & _ & Ep & _)]; [exact E|exfalso].
  pose proof (proof_length p A1 A2) as H97. rewrite Ep in H97. unfold zlen in *. rewrite firstn_length, Hl in *. lia.
Qed.
Print Assumptions C50_extended_proof_refuted.
(** What is carried is the signature, unchanged. *)
Theorem C50_extended_signature_partial H b : x_proof (AsExtendedTx H (TBasic b)) = b_signature b.
Proof. reflexivity. Qed.
Print Assumptions C50_extended_signature_partial.

(** ** C75 *)
Lemma zlen_be n z : zlen (be n z) = Z.of_nat n.
Proof. unfold be, zlen. f_equal. induction n; cbn; congruence. Qed.
Lemma zlen_array n b : array n b -> zlen b = Z.of_nat n.
Proof. intros (H & _). unfold zlen. congruence. Qed.
Lemma zlen_concat32 l : Forall (array 32) l -> zlen (List.concat l) = zlen l * 32.
Proof. induction 1 as [|h l Hh _ IH]; cbn [List.concat]; [reflexivity|]. rewrite zlen_app, zlen_cons, (zlen_array 32 h Hh), IH. lia. Qed.
(** SizeBESerial is the number of bytes that MarshalBESerial appends. *)
Theorem C75_size_methods_exact :
  (forall h b, hash_ok h -> exists e, Hash_Marshal h b = Ok (b ++ e, None) /\ zlen e = Hash_Size h) /\
  (forall bs b, exists e, BitSet_Marshal bs b = Ok (b ++ e, None) /\ zlen e = BitSet_Size bs) /\
  (forall p b, Forall (array 32) (Hashes p) -> exists e, MerklePath_Marshal p b = Ok (b ++ e, None) /\ zlen e = MerklePath_Size p) /\
  (forall il b, Forall (array 32) (il_compressed il) -> exists e, Interlink_Marshal il b = Ok (b ++ e, None) /\ zlen e = Interlink_Size il) /\
  (forall na b, exists e, NetAddress_Marshal na b = Ok (b ++ e, None) /\ zlen e = NetAddress_Size na) /\
  (forall a b, account_ok a -> exists e, WrapAccount_Marshal (Some a) b = Ok (b ++ e, None) /\ WrapAccount_Size a = Ok (zlen e)) /\
  (forall t b, tx_ok t -> exists e, WrapTx_Marshal (Some t) b = Ok (b ++ e, None) /\ WrapTx_Size t = Ok (zlen e)).
Proof.
  split; [|split; [|split; [|split; [|split; [|split]]]]].
  - intros h b _. eexists. split; [unfold Hash_Marshal; rewrite <- app_assoc; reflexivity|]. unfold Hash_Size. cbn [app]. apply zlen_cons.
  - intros bs b. eexists. split; [unfold BitSet_Marshal; rewrite <- app_assoc; reflexivity|]. unfold BitSet_Size. cbn [app]. apply zlen_cons.
  - intros p b Hp. eexists. split; [unfold MerklePath_Marshal, BitSet_Marshal; cbn [bind]; rewrite <- !app_assoc; reflexivity|].
    unfold MerklePath_Size, BitSet_Size. cbn [app]. rewrite zlen_cons, zlen_app, zlen_concat32 by exact Hp. lia.
  - intros p b Hp. eexists. split; [unfold Interlink_Marshal, BitSet_Marshal; cbn [bind]; rewrite <- !app_assoc; reflexivity|].
    unfold Interlink_Size, BitSet_Size. cbn [app]. rewrite zlen_cons, zlen_app, zlen_concat32 by exact Hp. lia.
  - intros na b. eexists. split; [unfold NetAddress_Marshal; rewrite <- app_assoc; reflexivity|]. unfold NetAddress_Size. cbn [app]. apply zlen_cons.
  - intros a b Ha. destruct (wrap_account_layout a Ha) as (Hm & _). specialize (Hm b). unfold wrap_account_codec, typed_codec in Hm. cbn [cd_marshal] in Hm.
    rewrite wrap_account_of_v in Hm. exists (account_bytes a). split; [exact Hm|].
    destruct a as [v|c|h]; cbn [account_ok] in Ha; unfold WrapAccount_Size; cbn [account_bytes]; rewrite zlen_cons, ?zlen_app, ?zlen_be; [reflexivity| |].
    + destruct Ha as (_ & H1 & _). rewrite (zlen_array _ _ H1). reflexivity.
    + destruct Ha as (_ & H1 & H2 & (_ & H3) & _). rewrite (zlen_array _ _ H1), (zlen_array _ _ H2), zlen_cons, (zlen_array _ _ H3). reflexivity.
  - intros t b Ht. destruct (wrap_tx_layout t Ht) as (Hm & _). specialize (Hm b). unfold wrap_tx_codec, typed_codec in Hm. cbn [cd_marshal] in Hm.
    rewrite wrap_tx_of_v in Hm. exists (tx_bytes t). split; [exact Hm|].
    destruct t as [x|x]; cbn [tx_ok] in Ht; unfold WrapTx_Size; cbn [tx_bytes]; rewrite zlen_cons, ?zlen_app, ?zlen_be.
    + destruct Ht as (H1 & H2 & _ & _ & _ & _ & H3). rewrite (zlen_array _ _ H1), (zlen_array _ _ H2), (zlen_array _ _ H3). reflexivity.
    + destruct Ht as (_ & _ & H1 & _ & H2 & _). rewrite (zlen_array _ _ H1), (zlen_array _ _ H2).
      assert (E : valueSize ty_extended_tx (v_extended_tx x) no_tags = Ok (2 + zlen (x_data x) * 1 + (20 + (1 + (20 + (1 + (8 + (8 + (4 + (1 + (1 + (2 + zlen (x_proof x) * 1 + 0)))))))))))).
      { unfold zlen. rewrite <- (map_length VNum (x_data x)), <- (map_length VNum (x_proof x)). reflexivity. }
      unfold Size. cbn [TxType]. change (ty_tx 1) with ty_extended_tx. cbn [v_tx]. rewrite E. cbn [bind]. f_equal. lia.
Qed.
Print Assumptions C75_size_methods_exact.
