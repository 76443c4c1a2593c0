(** Properties C42, C43, C77: interlinks and blocks. *)
From Coq Require Import ZArith List Lia Bool String.
Import ListNotations.
From Verif.Model Require Import Base Address Beserial Wire.
From Verif.Spec Require Import BeserialSpec WireSpec.
From Verif.Proofs Require Import BaseFacts BeserialFacts WireFacts InterlinkFacts BlockFacts LayoutFacts.
From Verif.Props Require Import BeserialProps WireProps.
Open Scope Z_scope.

(** A fresh interlink, as in a zero Block. *)
Definition fresh_interlink : BlockInterlink := MkInterlink (MkBitSet 0 []) [] zero32 [].

(** ** C42 *)
(** A one-entry interlink with hash [h] is decoded as the zero hash, whatever [h]
    is, and re-encodes to 258 bytes of zeros after the bit set. *)
Theorem C42_interlink_refuted h prev :
  array 32 h -> array 32 prev ->
  interlink_fits (MkBitSet 1 [0]) [h] /\
  exists il, Interlink_Unmarshal (MkInterlink (MkBitSet 0 []) [] prev []) (interlink_bytes (MkBitSet 1 [0]) [h]) = Ok (il, 34) /\
    il_hashes il = [zero32] /\ Interlink_Marshal il [] = Ok ([1; 0] ++ repeat 0 256, None).
Proof.
  intros (Hl & Hb) _. split.
  - split; [|split]; [|constructor; [split; assumption|constructor]|reflexivity].
    unfold bitset_ok. cbn. repeat split; try lia. constructor; [unfold is_byte; lia|constructor].
  - unfold interlink_bytes, bitset_bytes. cbn [Len Bits List.concat]. rewrite app_nil_r.
    unfold Interlink_Unmarshal. cbn [il_repeats il_prev]. cbn [app BitSet_Unmarshal].
    change (w8 (1 + 7) / 8) with 1. rewrite zlen_cons. destruct (Z.ltb_spec (1 + zlen h) 1); [unfold zlen in *; lia|].
    change (Z.to_nat 1) with 1%nat. change (Z.to_nat (1 + 1)) with 2%nat. cbn [bind firstn skipn Len Bits]. change (Z.to_nat 1) with 1%nat.
    change (compressed_count [0]) with 8. change (Z.to_nat 8) with 8%nat. cbn [interlink_loop].
    change (bit (MkBitSet 1 [0]) 0) with (Ok false). cbn [bind]. change (skipn (Z.to_nat (1 + 1)) (1 :: 0 :: h)) with h.
    assert (Ez : zlen h = 32) by (unfold zlen; rewrite Hl; reflexivity). rewrite Ez. change (32 <? 32) with false. cbv iota.
    assert (Es : skipn 32 h = []) by (apply skipn_all2; lia). rewrite Es. cbn [bind].
    eexists. split; [f_equal; f_equal; rewrite !zlen_cons, Ez; reflexivity|]. split; reflexivity.
Qed.
Print Assumptions C42_interlink_refuted.

(** What is decoded: the structure is right (a 0 bit takes a new hash, a 1 bit
    repeats the previous one, the first being PrevHash) but the k-th distinct
    hash is the (k+1)-st 32 bytes after the bit set, padded with zeros at the end
    of the input. *)
Lemma late_map n b : late n b = map (fun k => padded32 b (32 * (k + 1))) (seq 0 n).
Proof.
  apply (nth_ext _ _ [] []); [rewrite late_length, map_length, seq_length; reflexivity|]. rewrite late_length. intros k Hk.
  rewrite late_nth by exact Hk. symmetry.
  rewrite (nth_indep _ [] ((fun k => padded32 b (32 * (k + 1))) O)) by (rewrite map_length, seq_length; exact Hk).
  rewrite (map_nth (fun k => padded32 b (32 * (k + 1)))). rewrite seq_nth by exact Hk. reflexivity.
Qed.
Theorem C42_interlink_structure_partial il0 d il n :
  bytes_ok d -> Interlink_Unmarshal il0 d = Ok (il, n) ->
  let bs := il_repeats il in
  let dirs := first_bits (Z.to_nat (Len bs)) (Bits bs) in
  let hashes := skipn (List.length (bitset_bytes bs)) d in
  bitset_ok bs /\ firstn (List.length (bitset_bytes bs)) d = bitset_bytes bs /\
  il_hashes il = expand dirs (map (fun k => padded32 hashes (32 * (k + 1))) (seq 0 (Z.to_nat (zeros dirs)))) (il_prev il0).
Proof.
  intros Hd E. destruct (interlink_unm il0 d Hd) as (H & _). rewrite E in H. cbv zeta in H.
  destruct H as (bs & m & Eb & Hok & Hu & -> & _ & _ & Hm). cbv zeta. cbn [il_repeats il_hashes].
  destruct (bitset_unm_ok _ _ _ _ Hd Eb) as (_ & Hn & _ & _ & _ & Hf).
  assert (El : List.length (bitset_bytes bs) = Z.to_nat m).
  { destruct Hok as (_ & _ & Hz). unfold bitset_bytes, zlen in *. cbn [List.length]. lia. }
  rewrite El. split; [exact Hok|]. split; [symmetry; exact Hf|]. rewrite late_map. reflexivity.
Qed.
Print Assumptions C42_interlink_structure_partial.

(** ** C43 *)
(** Accepted interlinks have at most 248 entries; the bytes consumed are those
    of the bit set and of one hash for each 0 bit. *)
Theorem C43_interlink_length il0 d il n :
  bytes_ok d -> Interlink_Unmarshal il0 d = Ok (il, n) ->
  let bs := il_repeats il in
  let dirs := first_bits (Z.to_nat (Len bs)) (Bits bs) in
  0 <= Len bs <= 248 /\ n = 1 + (Len bs + 7) / 8 + 32 * zeros dirs /\ n <= zlen d /\ zlen (il_hashes il) = Len bs.
Proof.
  intros Hd E. destruct (interlink_unm il0 d Hd) as (H & _). rewrite E in H. cbv zeta in H.
  destruct H as (bs & m & Eb & Hok & Hu & -> & -> & Hn & Hm). cbv zeta. cbn [il_repeats il_hashes].
  destruct Hok as (Hl & _). split; [exact Hl|]. split; [lia|]. split; [lia|].
  unfold zlen. rewrite expand_length.
  - unfold first_bits. rewrite map_length, seq_length. lia.
  - unfold zlen. rewrite late_length. pose proof (zeros_nonneg (first_bits (Z.to_nat (Len bs)) (Bits bs))). lia.
Qed.
Print Assumptions C43_interlink_length.
(** Conversely every complete interlink with at most 248 entries is accepted
    (whatever follows it), and consumed exactly. *)
Lemma interlink_accepts il0 bs distinct rest :
  bytes_ok rest -> interlink_fits bs distinct ->
  exists il, Interlink_Unmarshal il0 (interlink_bytes bs distinct ++ rest) = Ok (il, zlen (interlink_bytes bs distinct)) /\
    il_repeats il = bs /\ il_prev il = il_prev il0.
Proof.
  intros Hr (Hb & Hds & Hz). pose proof Hb as (Hl & Hbits & Hlen).
  assert (Hcat : bytes_ok (List.concat distinct)).
  { clear -Hds. induction Hds as [|h l (_ & Hh) _ IH]; cbn [List.concat]; [constructor|]. apply bytes_ok_app. split; assumption. }
  assert (Hd : bytes_ok (interlink_bytes bs distinct ++ rest)).
  { unfold interlink_bytes, bitset_bytes. apply bytes_ok_app. split; [|exact Hr]. apply bytes_ok_app. split; [constructor; [unfold is_byte; lia|exact Hbits]|exact Hcat]. }
  set (d := interlink_bytes bs distinct ++ rest) in *.
  assert (Eb : BitSet_Unmarshal (il_repeats il0) d = Ok (bs, 1 + zlen (Bits bs))).
  { unfold d, interlink_bytes, bitset_bytes. rewrite <- app_assoc. apply bitset_unm_enc. exact Hb. }
  unfold Interlink_Unmarshal. rewrite Eb. cbn [bind].
  assert (Hu : u8 (Len bs)) by (unfold u8; lia).
  destruct (bitset_fit bs Hu (proj2 Hl)) as (_ & Hfit); [rewrite ceil_small by lia; exact Hlen|].
  pose proof (zeros_fit _ _ Hfit) as Hc. set (l := first_bits (Z.to_nat (Len bs)) (Bits bs)) in *. pose proof (zeros_nonneg l) as Hz0.
  rewrite (interlink_loop_spec bs (Z.to_nat (Len bs)) 0) by (try exact Hfit; fold (first_bits (Z.to_nat (Len bs)) (Bits bs)); fold l; lia).
  fold (first_bits (Z.to_nat (Len bs)) (Bits bs)). fold l. cbv zeta.
  assert (Es : skipn (Z.to_nat (1 + zlen (Bits bs))) d = List.concat distinct ++ rest).
  { unfold d, interlink_bytes, bitset_bytes. rewrite <- app_assoc. apply skipn_app_len. cbn [List.length]. unfold zlen. lia. }
  rewrite Es. assert (Ecat : zlen (List.concat distinct) = 32 * zeros l) by (rewrite zlen_concat32 by exact Hds; lia).
  rewrite zlen_app. pose proof (zlen_nonneg rest) as Hr0. destruct (Z.ltb_spec (zlen (List.concat distinct) + zlen rest) (32 * zeros l)); [lia|]. cbn [bind].
  eexists (MkInterlink bs _ (il_prev il0) _). split; [|split; reflexivity]. f_equal. f_equal.
  rewrite skipn_app_len by (unfold zlen in *; lia). unfold d. rewrite zlen_app. lia.
Qed.
Theorem C43_interlink_accepted il0 bs distinct rest :
  bytes_ok rest -> interlink_fits bs distinct ->
  exists il, Interlink_Unmarshal il0 (interlink_bytes bs distinct ++ rest) = Ok (il, zlen (interlink_bytes bs distinct)) /\
    il_repeats il = bs /\ zlen (il_hashes il) = Len bs.
Proof.
  intros Hr Hf. destruct (interlink_accepts il0 bs distinct rest Hr Hf) as (il & E & Eb & _). exists il. split; [exact E|]. split; [exact Eb|].
  assert (Hd : bytes_ok (interlink_bytes bs distinct ++ rest)).
  { destruct Hf as ((Hl & Hbits & _) & Hds & _). unfold interlink_bytes, bitset_bytes. apply bytes_ok_app. split; [|exact Hr]. apply bytes_ok_app. split; [constructor; [unfold is_byte; lia|exact Hbits]|].
    clear -Hds. induction Hds as [|h l (_ & Hh) _ IH]; cbn [List.concat]; [constructor|]. apply bytes_ok_app. split; assumption. }
  destruct (C43_interlink_length _ _ _ _ Hd E) as (_ & _ & _ & H). congruence.
Qed.
Print Assumptions C43_interlink_accepted.
Example C43_example :
  let bs := MkBitSet 3 [64] in
  interlink_fits bs [repeat 1 32; repeat 2 32] /\
  Interlink_Unmarshal fresh_interlink (interlink_bytes bs [repeat 1 32; repeat 2 32] ++ repeat 9 40) =
    Ok (MkInterlink bs [repeat 2 32; repeat 2 32; repeat 9 32] zero32 ([repeat 2 32; repeat 9 32] ++ repeat zero32 5), 66).
Proof.
  split; [|reflexivity]. split; [|split; [|reflexivity]].
  - unfold bitset_ok. cbn. repeat split; try lia. constructor; [unfold is_byte; lia|constructor].
  - repeat constructor; unfold is_byte; lia.
Qed.
(** An interlink that claims more entries makes the decoder panic. *)
Theorem C43_long_interlink_panics il0 x d : bytes_ok (x :: d) -> 249 <= x -> Interlink_Unmarshal il0 (x :: d) = Panic.
Proof. intros Hd Hx. destruct (interlink_unm il0 (x :: d) Hd) as (_ & H). exact (H x d eq_refl Hx). Qed.
Print Assumptions C43_long_interlink_panics.

(** ** C77 *)
Lemma opt_body_layout b : (forall x, b = Some x -> body_ok x) -> enc (TPtr ty_body) (Tags None true) (v_opt_body b) (opt_body_bytes b).
Proof.
  intros Hb. destruct b as [b|]; cbn [v_opt_body opt_body_bytes].
  - apply enc_opt_some; [reflexivity|reflexivity|]. apply enc_struct. pose proof (body_layout b (Hb b eq_refl)) as H. inversion H; subst. assumption.
  - apply enc_opt_none; reflexivity.
Qed.
Lemma block_of_v b : block_of (v_block b) = b.
Proof.
  destruct b as [h il b]. unfold block_of, v_block. cbn [fld nth bl_header bl_interlink bl_body]. rewrite header_of_v, interlink_of_v.
  destruct b as [b|]; [rewrite body_of_v|]; reflexivity.
Qed.
Lemma be_ok n z : bytes_ok (be n z).
Proof. unfold be. induction n; cbn [big_endian]; constructor; [apply Z.mod_pos_bound; lia|assumption]. Qed.
Lemma account_bytes_ok a : account_ok a -> bytes_ok (account_bytes a).
Proof.
  destruct a as [v|c|h]; cbn [account_ok account_bytes].
  - intros _. constructor; [unfold is_byte; lia|apply be_ok].
  - intros (_ & (_ & H1) & _). constructor; [unfold is_byte; lia|]. rewrite !bytes_ok_app. repeat split; auto using be_ok.
  - intros (_ & (_ & H1) & (_ & H2) & (H3 & _ & H4) & _). constructor; [unfold is_byte; lia|]. rewrite !bytes_ok_app. repeat split; auto using be_ok.
    constructor; [exact H3|exact H4].
Qed.
Lemma tx_bytes_ok t : tx_ok t -> bytes_ok (tx_bytes t).
Proof.
  destruct t as [b|x]; cbn [tx_ok tx_bytes].
  - intros ((_ & H1) & (_ & H2) & _ & _ & _ & _ & (_ & H3)). constructor; [unfold is_byte; lia|]. rewrite !bytes_ok_app. repeat split; auto using be_ok.
  - intros (H0 & _ & (_ & H1) & _ & (_ & H2) & _ & _ & _ & _ & _ & _ & H3 & _). constructor; [unfold is_byte; lia|]. rewrite !bytes_ok_app. repeat split; auto using be_ok.
Qed.
Lemma concat_ok {A} (f : A -> bytes) l : Forall (fun x => bytes_ok (f x)) l -> bytes_ok (List.concat (map f l)).
Proof. induction 1; cbn [map List.concat]; [constructor|]. apply bytes_ok_app. split; assumption. Qed.
Lemma opt_body_bytes_ok b : (forall x, b = Some x -> body_ok x) -> bytes_ok (opt_body_bytes b).
Proof.
  intros Hb. destruct b as [b|]; cbn [opt_body_bytes]; (constructor; [unfold is_byte; lia|]); [|constructor].
  destruct (Hb b eq_refl) as ((_ & H1) & H2 & _ & _ & H3 & _ & H4). unfold body_bytes. rewrite !bytes_ok_app. repeat split; auto using be_ok.
  - apply concat_ok. eapply Forall_impl; [|exact H3]. intros t (x & -> & Hx). apply tx_bytes_ok. exact Hx.
  - apply concat_ok. eapply Forall_impl; [|exact H4]. intros p ((_ & Ha) & a & E & Hacc). unfold pruned_bytes. rewrite E. apply bytes_ok_app. split; [exact Ha|apply account_bytes_ok; exact Hacc].
Qed.
(** A block as the network sends it - header, interlink, body flag, body - is
    decoded to its header and its body, and exactly consumed. *)
Theorem C77_network_block_decodes h bs distinct body rest :
  header_ok h -> interlink_fits bs distinct -> (forall b, body = Some b -> body_ok b) -> bytes_ok rest ->
  exists blk, decode_block (block_bytes h bs distinct body ++ rest) = Ok (blk, zlen (block_bytes h bs distinct body)) /\
    bl_header blk = h /\ bl_body blk = body /\ il_repeats (bl_interlink blk) = bs /\ zlen (il_hashes (bl_interlink blk)) = Len bs.
Proof.
  intros Hh Hi Hb Hr. pose proof (opt_body_bytes_ok body Hb) as Hbb.
  destruct (proj1 enc_round_trip _ _ _ _ (header_layout h Hh)) as (_ & Hdh).
  destruct (proj1 enc_round_trip _ _ _ _ (opt_body_layout body Hb)) as (_ & Hdb).
  assert (Hrest : bytes_ok (opt_body_bytes body ++ rest)) by (apply bytes_ok_app; split; assumption).
  set (d := block_bytes h bs distinct body ++ rest).
  assert (Ed : d = header_bytes h ++ interlink_bytes bs distinct ++ opt_body_bytes body ++ rest).
  { unfold d, block_bytes. rewrite <- !app_assoc. reflexivity. }
  unfold decode_block, Unmarshal. rewrite value_block. set (dst := zero ty_block).
  unfold mbind at 1. destruct (Hdh (hd_val (elems_of dst)) (interlink_bytes bs distinct ++ opt_body_bytes body ++ rest) []) as (al & Eh).
  rewrite Ed, Eh. unfold mbind at 1. unfold call_unmarshal. cbn [data].
  set (il0 := interlink_of (hd_val (List.tl (elems_of dst)))).
  change (cd_unmarshal interlink_codec (hd_val (List.tl (elems_of dst))) (interlink_bytes bs distinct ++ opt_body_bytes body ++ rest))
    with (bind (Interlink_Unmarshal il0 (interlink_bytes bs distinct ++ opt_body_bytes body ++ rest)) (fun '(a, n) => Ok (v_interlink a, n))).
  destruct (C43_interlink_accepted il0 bs distinct _ Hrest Hi) as (il & Ei & Eb & Eh').
  rewrite Ei. cbn [bind]. pose proof (zlen_nonneg (interlink_bytes bs distinct)). pose proof (zlen_nonneg (opt_body_bytes body ++ rest)).
  destruct (Z.ltb_spec (zlen (interlink_bytes bs distinct)) 0); [lia|]. rewrite (zlen_app (interlink_bytes bs distinct)).
  destruct (Z.ltb_spec (zlen (interlink_bytes bs distinct) + zlen (opt_body_bytes body ++ rest)) (zlen (interlink_bytes bs distinct))); [lia|].
  rewrite skipn_app_len by (unfold zlen; lia). cbn [allocs].
  unfold mbind at 1. destruct (Hdb (hd_val (List.tl (List.tl (elems_of dst)))) rest al) as (al2 & Eb2). rewrite Eb2. unfold ret. cbn [bind data].
  exists (MkBlock h il body). change (VStruct [v_header h; v_interlink il; v_opt_body body]) with (v_block (MkBlock h il body)). rewrite block_of_v.
  cbn [bl_header bl_body bl_interlink]. repeat split; try assumption. f_equal. f_equal. unfold block_bytes. rewrite !zlen_app. lia.
Qed.
Print Assumptions C77_network_block_decodes.
(** Conversely whatever is accepted as a block is the network encoding of a
    well-formed header and body (and of some interlink); the only input that is
    neither accepted nor rejected with an error is one whose interlink claims 249
    or more entries: it panics. *)
Theorem C77_accepted_blocks d :
  bytes_ok d ->
  (exists e, decode_block d = Err e) \/
  (decode_block d = Panic /\ exists x, nth_error d 146 = Some x /\ 249 <= x) \/
  (exists blk n bs distinct, decode_block d = Ok (blk, n) /\ header_ok (bl_header blk) /\ interlink_fits bs distinct /\
     (forall b, bl_body blk = Some b -> body_ok b) /\ il_repeats (bl_interlink blk) = bs /\
     block_bytes (bl_header blk) bs distinct (bl_body blk) = firstn (Z.to_nat n) d /\ 0 <= n <= zlen d).
Proof.
  intros Hd. pose proof (block_unm (zero ty_block) d Hd) as H. unfold decode_block.
  destruct (Unmarshal d (APtr ty_block (zero ty_block))) as (r & n). destruct H as (H & _).
  destruct r as [o|e| |]; cbn [bind]; [|left; eauto|right; left; split; [reflexivity|exact H]|contradiction].
  destruct H as (blk & -> & m & Hm & Hn & Hh & Hb & Mh & (il0 & _ & Ei) & Mb). right; right. rewrite block_of_v.
  assert (Hd' : bytes_ok (skipn 146 d)) by (apply bytes_ok_skipn; exact Hd).
  destruct (interlink_unm il0 (skipn 146 d) Hd') as (Hi & _). rewrite Ei in Hi. cbv zeta in Hi.
  destruct Hi as (bs & k & Ebs & Hok & Hu & Eil & Em & Hmz & Hk).
  destruct (bitset_unm_ok _ _ _ _ Hd' Ebs) as (_ & Hk2 & _ & _ & _ & Hf).
  set (l := first_bits (Z.to_nat (Len bs)) (Bits bs)) in *. pose proof (zeros_nonneg l) as Hz.
  set (distinct := chunks (Z.to_nat (zeros l)) (skipn (Z.to_nat k) (skipn 146 d))).
  assert (A : forall a b (x : bytes), firstn a x ++ firstn b (skipn a x) = firstn (a + b) x).
  { clear. induction a as [|a IH]; intros b [|y x]; cbn; rewrite ?firstn_nil; try reflexivity. f_equal. apply IH. }
  assert (Hch : forall j b, bytes_ok b -> 32 * Z.of_nat j <= zlen b -> Forall (array 32) (chunks j b) /\ List.length (chunks j b) = j /\ List.concat (chunks j b) = firstn (32 * j) b).
  { clear -A. induction j as [|j IH]; intros b Hb Hl; [cbn; repeat split; constructor|]. cbn [chunks].
    assert (Hl' : 32 * Z.of_nat j <= zlen (skipn 32 b)) by (unfold zlen in *; rewrite skipn_length; lia).
    destruct (IH (skipn 32 b) (bytes_ok_skipn 32 b Hb) Hl') as (I1 & I2 & I3). split; [|split].
    - constructor; [|exact I1]. split; [rewrite firstn_length; unfold zlen in Hl; lia|apply bytes_ok_firstn; exact Hb].
    - cbn [List.length]. congruence.
    - cbn [List.concat]. rewrite I3. replace (32 * S j)%nat with (32 + 32 * j)%nat by lia.
      apply A. }
  assert (Hlen : zlen (skipn (Z.to_nat k) (skipn 146 d)) = zlen d - 146 - k).
  { assert (0 <= (Len bs + 7) / 8) by (apply Z.div_pos; destruct Hok; lia). unfold zlen in *. rewrite !skipn_length. rewrite skipn_length in Hk2. lia. }
  destruct (Hch (Z.to_nat (zeros l)) (skipn (Z.to_nat k) (skipn 146 d))) as (C1 & C2 & C3); [apply bytes_ok_skipn; exact Hd'|lia|]. fold distinct in C1, C2, C3.
  exists blk, n, bs, distinct. split; [reflexivity|]. split; [exact Hh|].
  split; [split; [exact Hok|split; [exact C1|fold l; unfold zlen at 1; rewrite C2; apply Z2Nat.id; exact Hz]]|]. split; [exact Hb|]. split; [rewrite Eil; reflexivity|]. split; [|lia].
  assert (Eh : header_bytes (bl_header blk) = firstn 146 d).
  { pose proof (proj1 (enc_marshal _ _ _ (header_layout _ Hh)) []) as M. rewrite (Mh []) in M. cbn [app] in M. congruence. }
  assert (Eb : opt_body_bytes (bl_body blk) = firstn (Z.to_nat (n - (146 + m))) (skipn (Z.to_nat (146 + m)) d)).
  { pose proof (proj1 (proj1 enc_round_trip _ _ _ _ (opt_body_layout (bl_body blk) Hb)) []) as M. rewrite (Mb []) in M. cbn [app] in M. unfold m_ok in M. congruence. }
  unfold block_bytes. rewrite Eh, Eb. unfold interlink_bytes. fold (bitset_bytes bs) in Hf. rewrite Hf, C3.
  rewrite A. replace (skipn (Z.to_nat (146 + m)) d) with (skipn (Z.to_nat k + 32 * Z.to_nat (zeros l)) (skipn 146 d)).
  2: { rewrite skipn_skipn. f_equal. assert (0 <= (Len bs + 7) / 8) by (apply Z.div_pos; destruct Hok; lia). lia. }
  assert (0 <= (Len bs + 7) / 8) by (apply Z.div_pos; destruct Hok; lia). rewrite !A. f_equal. lia.
Qed.
Print Assumptions C77_accepted_blocks.
Example C77_example :
  let h := MkHeader 1 (repeat 1 32) (repeat 2 32) (repeat 3 32) (repeat 4 32) 5 6 7 8 in
  let b := MkBody (repeat 9 20) [1; 2] [Some (TBasic (MkBasicTx (repeat 1 32) (repeat 2 20) 3 4 5 42 (repeat 7 64)))]
             [MkPruned (repeat 5 20) (Some (ABasic 0))] in
  header_ok h /\ body_ok b /\ interlink_fits (MkBitSet 3 [64]) [repeat 1 32; repeat 2 32] /\
  match decode_block (block_bytes h (MkBitSet 3 [64]) [repeat 1 32; repeat 2 32] (Some b)) with
  | Ok (blk, n) => bl_header blk = h /\ bl_body blk = Some b /\ n = 407
  | _ => False
  end.
Proof.
  cbv zeta. split; [|split; [|split; [exact (proj1 C43_example)|vm_compute; repeat split]]].
  - unfold header_ok, array, u16, u32. cbn. repeat split; try lia; repeat constructor; unfold is_byte; lia.
  - unfold body_ok, array. cbn [bb_miner bb_extra bb_txs bb_pruned]. repeat split; try (cbn; lia).
    + repeat constructor; unfold is_byte; lia.
    + repeat constructor; unfold is_byte; lia.
    + constructor; [|constructor]. eexists. split; [reflexivity|]. unfold tx_ok, array, u64, u32, u8. cbn. repeat split; try lia; repeat constructor; unfold is_byte; lia.
    + constructor; [|constructor]. unfold pruned_ok, array. cbn [p_address p_account]. repeat split; [repeat constructor; unfold is_byte; lia|]. eexists. split; [reflexivity|]. cbn. unfold u64. lia.
Qed.
