(** C130: blocks written and relayed. *)
From Coq Require Import ZArith List Lia Bool.
Import ListNotations.
From Verif.Model Require Import Base Beserial Wire.
From Verif.Spec Require Import BeserialSpec WireSpec.
From Verif.Proofs Require Import BaseFacts BeserialFacts LayoutFacts WireFacts BlockFacts InterlinkFacts.
From Verif.Props Require Import BlockProps MessageProps.
Open Scope Z_scope.

(** A block is written as header, bit set, all the hashes of Compressed one after the other, and body:
    whatever else is in the interlink (Hashes, PrevHash). *)
Lemma written h il body b :
  header_ok h -> (forall x, body = Some x -> body_ok x) ->
  encode_block b (MkBlock h il body) = Ok (b ++ block_bytes h (il_repeats il) (il_compressed il) body, None).
Proof.
  intros Hh Hb. destruct (proj1 enc_round_trip _ _ _ _ (header_layout h Hh)) as (Mh & _). destruct (proj1 enc_round_trip _ _ _ _ (opt_body_layout body Hb)) as (Mb & _).
  unfold encode_block. cbn [Marshal]. unfold ty_block, v_block. rewrite marshal_struct. cbn [bl_header bl_interlink bl_body].
  assert (Ef : forall t v vs tg ts fs b0, field_tags tg = Ok ts -> marshal_fields ((tg, t) :: fs) (v :: vs) b0 = m_then (marshal t v b0 ts) (marshal_fields fs vs)) by (intros t v vs tg ts fs b0 E; cbn [marshal_fields]; rewrite E; reflexivity).
  unfold field, tagged. rewrite (Ef _ _ _ _ no_tags) by reflexivity. rewrite Mh. unfold m_then at 1, m_ok at 1. cbn [bind].
  rewrite (Ef _ _ _ _ no_tags) by reflexivity. change (marshal ty_interlink (v_interlink il) (b ++ header_bytes h) no_tags) with (Interlink_Marshal (interlink_of (v_interlink il)) (b ++ header_bytes h)).
  rewrite interlink_of_v. unfold Interlink_Marshal, BitSet_Marshal. cbn [bind]. unfold m_then at 1. cbn [bind].
  rewrite (Ef _ _ _ _ (Tags None true)) by reflexivity. change (VPtr match body with Some x => Some (v_body x) | None => None end) with (v_opt_body body) || idtac.
  replace (VPtr match body with Some x => Some (v_body x) | None => None end) with (v_opt_body body) by (destruct body; reflexivity).
  rewrite Mb. unfold m_then, m_ok. cbn [bind marshal_fields]. unfold m_ok. unfold block_bytes, interlink_bytes, bitset_bytes. cbn [app]. rewrite <- !app_assoc. reflexivity.
Qed.
(** What is written is the network's format, and the receiver gets the header and the body. *)
Theorem C130_written : forall h il body,
  header_ok h -> interlink_fits (il_repeats il) (il_compressed il) -> (forall x, body = Some x -> body_ok x) ->
  let e := block_bytes h (il_repeats il) (il_compressed il) body in
  (forall b, encode_block b (MkBlock h il body) = Ok (b ++ e, None)) /\
  forall rest, bytes_ok rest -> exists blk, decode_block (e ++ rest) = Ok (blk, zlen e) /\
    bl_header blk = h /\ bl_body blk = body /\ il_repeats (bl_interlink blk) = il_repeats il.
Proof.
  intros h il body Hh Hi Hb e. split; [intros b; apply written; assumption|]. intros rest Hr.
  destruct (C77_network_block_decodes h (il_repeats il) (il_compressed il) body rest Hh Hi Hb Hr) as (blk & E & E1 & E2 & E3 & _). eauto.
Qed.
Print Assumptions C130_written.

(** Relaying: what a block is written as after it was decoded from [d].  The result is too long by 32
    bytes for each 0 bit behind the last bit of the interlink's bit set; it is what was read if the
    bit set has no 0 bit at all. *)
Definition padding_zeros (bs : BitSet) : Z :=
  zeros (first_bits (8 * List.length (Bits bs)) (Bits bs)) - zeros (first_bits (Z.to_nat (Len bs)) (Bits bs)).
Theorem C130_relay_partial : forall d blk n,
  bytes_ok d -> decode_block d = Ok (blk, n) ->
  exists e, (forall b, encode_block b blk = Ok (b ++ e, None)) /\
    zlen e = n + 32 * padding_zeros (il_repeats (bl_interlink blk)) /\
    (zeros (first_bits (8 * List.length (Bits (il_repeats (bl_interlink blk)))) (Bits (il_repeats (bl_interlink blk)))) = 0 -> e = firstn (Z.to_nat n) d).
Proof.
  intros d blk n Hd E. destruct (C77_accepted_blocks d Hd) as [(x & E')|[(E' & _)|(blk' & n' & bs & distinct & E' & Hh & (Hok & Hd32 & Hl) & Hb & Er & Ee & Hn)]]; rewrite E in E'; try discriminate E'.
  injection E' as <- <-. rewrite Er.
  assert (Ec : exists us, il_compressed (bl_interlink blk) = us /\ Forall (array 32) us /\ zlen us = compressed_count (Bits bs)).
  { pose proof (block_unm (zero ty_block) d Hd) as H. unfold decode_block in E. destruct (Unmarshal d (APtr ty_block (zero ty_block))) as (r & m). destruct H as (H & _).
    destruct r as [o|x| |]; cbn [bind] in E; try discriminate E. destruct H as (blk2 & -> & m2 & Hm & Hn2 & _ & _ & _ & (il0 & _ & Ei) & _). rewrite block_of_v in E. injection E as -> ->.
    assert (Hd' : bytes_ok (skipn 146 d)) by (apply bytes_ok_skipn; exact Hd). destruct (interlink_unm il0 (skipn 146 d) Hd') as (Hi & _). rewrite Ei in Hi. cbv zeta in Hi.
    destruct Hi as (bs' & k & _ & Hok' & _ & Eil & _). rewrite Eil in Er |- *. cbn [il_repeats il_compressed] in Er |- *. subst bs'. eexists. split; [reflexivity|].
    split; [apply Forall_app; split; [apply late_arrays, bytes_ok_skipn, Hd'|apply Forall_forall; intros x Hx; apply repeat_spec in Hx as ->; split; [reflexivity|apply Forall_forall; intros y Hy; apply repeat_spec in Hy as ->; unfold is_byte; lia]]|].
    assert (Hfit : (Z.to_nat (Len bs) <= 8 * List.length (Bits bs))%nat).
    { destruct Hok as (H1 & _ & H3). unfold zlen in H3. assert (0 <= (Len bs + 7) / 8) by (apply Z.div_pos; lia). pose proof (Z.div_mod (Len bs + 7) 8 ltac:(lia)). pose proof (Z.mod_pos_bound (Len bs + 7) 8 ltac:(lia)). lia. }
    pose proof (zeros_fit _ _ Hfit) as Hz. pose proof (zeros_nonneg (first_bits (Z.to_nat (Len bs)) (Bits bs))). unfold zlen. rewrite app_length, late_length, repeat_length. lia. }
  destruct Ec as (us & Eu & Hus & Hlu). destruct blk as [h il body]. cbn [bl_header bl_interlink bl_body] in *.
  exists (block_bytes h (il_repeats il) (il_compressed il) body). split; [intros b; apply written; assumption|]. rewrite Er, Eu.
  assert (Hfirst : zlen (firstn (Z.to_nat n) d) = n) by (unfold zlen in *; rewrite firstn_length; lia).
  assert (Hc : forall l, Forall (array 32) l -> zlen (List.concat l) = 32 * zlen l).
  { clear. induction 1 as [|x l (Hx & _) _ IH]; [reflexivity|]. cbn [List.concat]. rewrite zlen_app, zlen_cons, IH. unfold zlen at 1. rewrite Hx. lia. }
  split.
  - rewrite <- Ee in Hfirst. revert Hfirst. unfold padding_zeros, block_bytes, interlink_bytes. rewrite !zlen_app, (Hc us Hus), (Hc distinct Hd32), Hlu, Hl, count_zeros. lia.
  - intros Hz0. rewrite <- count_zeros in Hz0. rewrite Hz0 in Hlu. rewrite <- Ee.
    assert (us = []) as -> by (destruct us; [reflexivity|rewrite zlen_cons in Hlu; pose proof (zlen_nonneg us); lia]).
    assert (distinct = []) as ->; [|reflexivity].
    assert (Hfit : (Z.to_nat (Len bs) <= 8 * List.length (Bits bs))%nat).
    { destruct Hok as (H1 & _ & H3). unfold zlen in H3. assert (0 <= (Len bs + 7) / 8) by (apply Z.div_pos; lia). pose proof (Z.div_mod (Len bs + 7) 8 ltac:(lia)). pose proof (Z.mod_pos_bound (Len bs + 7) 8 ltac:(lia)). lia. }
    pose proof (zeros_fit _ _ Hfit) as Hz. destruct distinct as [|x distinct]; [reflexivity|]. rewrite zlen_cons in Hl. pose proof (zlen_nonneg distinct). lia.
Qed.
Print Assumptions C130_relay_partial.
(** False: a decoded block is written as it was read.  Any block whose interlink has a 0 bit in its padding (so
    unless its length is a multiple of 8, as the network writes it) is relayed as more bytes than were received. *)
Theorem C130_relay_refuted : forall h bs distinct body,
  header_ok h -> interlink_fits bs distinct -> (forall x, body = Some x -> body_ok x) -> 0 < padding_zeros bs ->
  let d := block_bytes h bs distinct body in
  exists blk e, decode_block d = Ok (blk, zlen d) /\ encode_block [] blk = Ok (e, None) /\ zlen d < zlen e.
Proof.
  intros h bs distinct body Hh Hi Hb Hp d.
  destruct (C77_network_block_decodes h bs distinct body [] Hh Hi Hb ltac:(constructor)) as (blk & E & _ & _ & Er & _). rewrite app_nil_r in E.
  assert (Hd : bytes_ok d).
  { unfold d, block_bytes, interlink_bytes. destruct Hi as (Hok & Hdi & _). apply bytes_ok_app. split; [|apply bytes_ok_app; split; [apply bytes_ok_app; split|apply opt_body_bytes_ok, Hb]].
    - apply header_bytes_ok, Hh.
    - destruct Hok as (Hu & Hbits & _). constructor; [unfold is_byte; lia|exact Hbits].
    - clear -Hdi. induction Hdi as [|x l (_ & Hx) _ IH]; [constructor|]. cbn [List.concat]. apply bytes_ok_app. split; assumption. }
  destruct (C130_relay_partial d blk _ Hd E) as (e & He & Hl & _). exists blk, e. split; [exact E|]. split; [exact (He [])|]. rewrite Er in Hl. fold d in Hl. lia.
Qed.
Print Assumptions C130_relay_refuted.
(** E.g. three hashes, the second a repetition: five bits of padding. *)
Example C130_case :
  let h := MkHeader 1 (repeat 1 32) (repeat 2 32) (repeat 3 32) (repeat 4 32) 5 6 7 8 in
  let bs := MkBitSet 3 [64] in let d := block_bytes h bs [repeat 1 32; repeat 2 32] None in
  header_ok h /\ interlink_fits bs [repeat 1 32; repeat 2 32] /\ padding_zeros bs = 5 /\
  match decode_block d with
  | Ok (blk, n) => match encode_block [] blk with Ok (e, None) => zlen e = zlen d + 160 | _ => False end
  | _ => False
  end.
Proof.
  cbv zeta. split; [|split; [|split]].
  - unfold header_ok, u16, u32. cbn. repeat split; try lia; repeat (constructor; [unfold is_byte; lia|]); constructor.
  - split; [|split; [|reflexivity]].
    + unfold bitset_ok. cbn. repeat split; try lia. constructor; [unfold is_byte; lia|constructor].
    + repeat constructor; unfold is_byte; lia.
  - reflexivity.
  - vm_compute. reflexivity.
Qed.
