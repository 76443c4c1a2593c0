(** Properties C90, C91: cut-off input, and input with something behind it. *)
From Coq Require Import ZArith List Lia Bool String.
Import ListNotations.
From Verif.Model Require Import Base Address Beserial Wire.
From Verif.Spec Require Import BeserialSpec WireSpec CutSpec.
From Verif.Proofs Require Import BaseFacts BeserialFacts WireFacts InterlinkFacts BlockFacts LayoutFacts CutFacts.
From Verif.Props Require Import BeserialProps WireProps BlockProps MessageProps.
Open Scope Z_scope.

Lemma arrays_bytes hs : Forall (array 32) hs -> bytes_ok (List.concat hs).
Proof. intros H. induction H as [|h hs (_ & Hh) _ IH]; [constructor|]. cbn [List.concat]. apply bytes_ok_app. split; assumption. Qed.

(** ** C90 *)
(** If anything is missing at the end of an encoding, Unmarshal returns one of
    the two errors for missing input; without slices of elements, it is
    io.ErrUnexpectedEOF. *)
Theorem C90_truncated t v e p :
  well_declared codec_short t -> encodable t no_tags v -> Marshal [] (APtr t v) = Ok (e, None) -> bytes_ok e -> cut_off p e ->
  forall dst, exists er n, Unmarshal p (APtr t dst) = (Err er, n) /\ cut_error er /\
    (well_declared no_codec t -> byte_slices t -> er = EUnexpectedEOF).
Proof.
  intros Hw Hv Em Hb (x & Hx & Ex) dst. destruct (C27_decode_inverts_encode t v Hv) as (e' & He & Hm & _). rewrite Hm in Em. cbn [app] in Em.
  assert (e' = e) as -> by congruence. destruct (unmarshal_cut t v e p x dst Hw Hb He Ex Hx) as (er & n & E & Her). exists er, n.
  split; [exact E|]. split; [exact Her|]. intros Hn Hs. destruct Her as [->| ->]; [reflexivity|].
  exfalso. refine (unmarshal_roomy t p dst n _ Hs E). refine (declared_weaken _ _ t _ Hn). intros c Hc. destruct Hc.
Qed.
Print Assumptions C90_truncated.
Example C90_hypotheses : well_declared codec_short t_rec /\ encodable t_rec no_tags v_rec /\ Marshal [] (APtr t_rec v_rec) = Ok (e_rec, None) /\
  cut_off (firstn 30 e_rec) e_rec.
Proof.
  split; [|split; [exact v_rec_encodable|split; [reflexivity|exists [251]; split; [discriminate|reflexivity]]]].
  cbn [well_declared t_rec]. repeat match goal with
      | |- _ /\ _ => split
      | |- exists ts, _ = Ok ts => eexists; reflexivity
      | |- elem_ok _ => intros _; reflexivity
      | _ => first [exact I|reflexivity] end.
Qed.
(** Both errors occur. *)
Example C90_example :
  Unmarshal (firstn 15 e_rec) (APtr t_rec (zero t_rec)) = (Err EUnexpectedEOF, 15) /\
  Unmarshal (firstn 16 e_rec) (APtr t_rec (zero t_rec)) = (Err ECannotAlloc, 16).
Proof. split; reflexivity. Qed.

(** Every cut-off account, transaction, signature proof or block header is
    reported as io.ErrUnexpectedEOF. *)
Theorem C90_objects p dst :
  (forall a, account_ok a -> cut_off p (account_bytes a) -> exists n, Unmarshal p (APtr ty_wrap_account dst) = (Err EUnexpectedEOF, n)) /\
  (forall t, tx_ok t -> cut_off p (tx_bytes t) -> exists n, Unmarshal p (APtr ty_wrap_tx dst) = (Err EUnexpectedEOF, n)) /\
  (forall s, proof_ok s -> cut_off p (proof_bytes s) -> exists n, Unmarshal p (APtr ty_proof dst) = (Err EUnexpectedEOF, n)) /\
  (forall h, header_ok h -> cut_off p (header_bytes h) -> exists n, Unmarshal p (APtr ty_header dst) = (Err EUnexpectedEOF, n)).
Proof.
  assert (HG : forall t v e, well_declared codec_short t -> well_declared roomy t -> byte_slices t -> bytes_ok e -> enc t no_tags v e -> cut_off p e ->
            exists n, Unmarshal p (APtr t dst) = (Err EUnexpectedEOF, n)).
  { intros t v e Hw Hr Hs Hb He (x & Hx & Ex). destruct (unmarshal_cut t v e p x dst Hw Hb He Ex Hx) as (er & n & E & [->| ->]); [eauto|].
    exfalso. exact (unmarshal_roomy t p dst n Hr Hs E). }
  repeat split.
  - intros a Ha Hp. apply (HG _ (v_wrap_account (Some a)) (account_bytes a)); try exact Hp; [exact wrap_account_short|exact wrap_account_roomy|exact I|apply account_bytes_ok; exact Ha|].
    apply enc_custom. apply wrap_account_layout. exact Ha.
  - intros t Ht Hp. apply (HG _ (v_wrap_tx (Some t)) (tx_bytes t)); try exact Hp; [exact wrap_tx_short|exact wrap_tx_roomy|exact I|apply tx_bytes_ok; exact Ht|].
    apply enc_custom. apply wrap_tx_layout. exact Ht.
  - intros s Hs Hp. pose proof path_short as Hps. pose proof path_roomy as Hpr.
    apply (HG _ (v_proof s) (proof_bytes s)); try exact Hp; [cbn; declare|cbn; declare|cbn; tauto| |apply proof_layout; exact Hs].
    destruct Hs as ((_ & H1) & ((Hl & Hb & _) & _ & Hh) & (_ & H2)). unfold proof_bytes, bitset_bytes. apply bytes_ok_app. split; [exact H1|].
    apply bytes_ok_app. split; [|exact H2]. apply bytes_ok_app. split; [constructor; [unfold is_byte; lia|exact Hb]|apply arrays_bytes; exact Hh].
  - intros h Hh Hp. apply (HG _ (v_header h) (header_bytes h)); try exact Hp; [apply declared_header|apply declared_header|cbn; tauto|apply header_bytes_ok; exact Hh|apply header_layout; exact Hh].
Qed.
Print Assumptions C90_objects.
Example C90_objects_example :
  account_ok (ABasic 5) /\ cut_off [0; 0; 0] (account_bytes (ABasic 5)) /\
  Unmarshal [0; 0; 0] (APtr ty_wrap_account (zero ty_wrap_account)) = (Err EUnexpectedEOF, 0).
Proof. split; [split; [discriminate|reflexivity]|]. split; [exists [0; 0; 0; 0; 0; 5]; split; [discriminate|reflexivity]|reflexivity]. Qed.

(** Every cut-off block is rejected with one of the two errors. *)
Theorem C90_blocks h bs distinct body p dst :
  header_ok h -> interlink_fits bs distinct -> (forall b, body = Some b -> body_ok b) -> cut_off p (block_bytes h bs distinct body) ->
  exists er n, Unmarshal p (APtr ty_block dst) = (Err er, n) /\ cut_error er.
Proof.
  intros Hh Hi Hb (x & Hx & Ex). pose proof (opt_body_bytes_ok body Hb) as Hbb.
  assert (HG : cut_in (value ty_block no_tags dst (DState p []))).
  2: { destruct HG as (er & s & E & Her). exists er. unfold Unmarshal. rewrite E. cbn [bind]. eexists. split; [reflexivity|exact Her]. }
  rewrite value_block. unfold block_bytes in Ex. destruct (app_cut _ _ _ _ Ex Hx) as [(y & Hy & Ey)|(q & -> & Eq)].
  { apply cut_bind. exact (proj1 enc_cut _ _ _ _ (header_layout h Hh) (declared_header _) (header_bytes_ok h Hh) p y _ [] Ey Hy). }
  destruct (proj1 enc_round_trip _ _ _ _ (header_layout h Hh)) as (_ & Hdh).
  unfold mbind at 1. destruct (Hdh (hd_val (elems_of dst)) q []) as (al & ->).
  assert (Hib : bytes_ok (interlink_bytes bs distinct)).
  { destruct Hi as ((Hl & Hbs & _) & Hd & _). unfold interlink_bytes, bitset_bytes. apply bytes_ok_app. split; [constructor; [unfold is_byte; lia|exact Hbs]|apply arrays_bytes; exact Hd]. }
  destruct (app_cut _ _ _ _ Eq Hx) as [(y & Hy & Ey)|(q' & -> & Eq')].
  { apply cut_bind. unfold call_unmarshal. cbn [data]. unfold interlink_codec, typed_codec. cbn [cd_unmarshal].
    rewrite (interlink_cut _ bs distinct q y Hi Hib Ey Hy). cbn [bind]. apply cut_eof. }
  assert (Hq' : bytes_ok q') by (rewrite Eq' in Hbb; apply bytes_ok_app in Hbb as (Hbb & _); exact Hbb).
  unfold mbind at 1. unfold call_unmarshal. cbn [data].
  set (il0 := interlink_of (hd_val (List.tl (elems_of dst)))).
  change (cd_unmarshal interlink_codec (hd_val (List.tl (elems_of dst))) (interlink_bytes bs distinct ++ q'))
    with (bind (Interlink_Unmarshal il0 (interlink_bytes bs distinct ++ q')) (fun '(a, n) => Ok (v_interlink a, n))).
  destruct (C43_interlink_accepted il0 bs distinct _ Hq' Hi) as (il & -> & _). cbn [bind].
  pose proof (zlen_nonneg (interlink_bytes bs distinct)). pose proof (zlen_nonneg q').
  destruct (Z.ltb_spec (zlen (interlink_bytes bs distinct)) 0); [lia|]. rewrite (zlen_app (interlink_bytes bs distinct)).
  destruct (Z.ltb_spec (zlen (interlink_bytes bs distinct) + zlen q') (zlen (interlink_bytes bs distinct))); [lia|].
  rewrite skipn_app_len by (unfold zlen; lia). cbn [allocs]. apply cut_bind.
  refine (proj1 enc_cut _ _ _ _ (opt_body_layout body Hb) _ Hbb q' x _ al Eq' Hx).
  apply opt_body_declared; [exact wrap_tx_short|exact wrap_account_short].
Qed.
Print Assumptions C90_blocks.

(** ** C91 *)
(** What Unmarshal returns depends on the bytes it has read alone: put anything
    else behind them, or nothing, over any other destination, and the result is
    the same. *)
Theorem C91_local t d v n :
  well_declared (fun c => codec_full c /\ codec_canonical c) t -> slices_occupy t -> bytes_ok d ->
  forall dst, Unmarshal d (APtr t dst) = (Ok (Some v), n) ->
  forall rest dst', Unmarshal (firstn (Z.to_nat n) d ++ rest) (APtr t dst') = (Ok (Some v), n).
Proof.
  intros Hw Ho Hb dst E rest dst'.
  assert (Hf : well_declared codec_full t) by (refine (declared_weaken _ _ t _ Hw); intros c (H & _); exact H).
  assert (Hc : well_declared codec_canonical t) by (refine (declared_weaken _ _ t _ Hw); intros c (_ & H); exact H).
  destruct (unmarshal_encodable t d _ _ Hf Ho Hb dst E) as (w & Ew & He). assert (w = v) as -> by congruence.
  destruct (C27_decode_inverts_encode t v He) as (e & _ & Hm & Hu & _). pose proof (C30_canonical t dst d v n Hc Hb E []) as Hm'.
  rewrite Hm in Hm'. cbn [app] in Hm'. assert (Ee : e = firstn (Z.to_nat n) d) by congruence. rewrite <- Ee, Hu. f_equal.
  unfold Unmarshal in E. destruct (value t no_tags dst (DState d [])) as (r & s) eqn:Ev.
  pose proof (adv_value t no_tags dst _ _ _ Ev) as ((e0 & He0) & _). cbn [data] in He0.
  assert (n = zlen d - zlen (data s)) as -> by congruence. rewrite Ee. rewrite He0. unfold zlen. rewrite app_length, firstn_length, app_length. lia.
Qed.
Print Assumptions C91_local.
(** The wire objects (blocks excepted) meet the hypotheses. *)
Lemma wrap_account_full : codec_full wrap_account_codec.
Proof.
  intros dst d v n Hb E. destruct (wrap_account_decodes dst d v n Hb E) as (a & -> & Ha). exists (account_bytes a).
  split; [apply wrap_account_layout; exact Ha|]. destruct a; discriminate.
Qed.
Lemma wrap_tx_full : codec_full wrap_tx_codec.
Proof.
  intros dst d v n Hb E. destruct (wrap_tx_decodes dst d v n Hb E) as (a & -> & Ha). exists (tx_bytes a).
  split; [apply wrap_tx_layout; exact Ha|]. destruct a; discriminate.
Qed.
Theorem C91_objects t :
  In t [ty_wrap_account; ty_wrap_tx; ty_header; ty_body] ->
  well_declared (fun c => codec_full c /\ codec_canonical c) t /\ slices_occupy t.
Proof.
  intros H. cbn [In] in H. destruct H as [<-|[<-|[<-|[<-|[]]]]].
  - split; [split; [exact wrap_account_full|exact wrap_account_canonical]|exact I].
  - split; [split; [exact wrap_tx_full|exact wrap_tx_canonical]|exact I].
  - split; [apply declared_header|cbn; tauto].
  - split; [apply declared_body; [split; [exact wrap_tx_full|exact wrap_tx_canonical]|split; [exact wrap_account_full|exact wrap_account_canonical]]|cbn; tauto].
Qed.
Print Assumptions C91_objects.
Lemma one_hash il0 h r : array 32 h -> array 31 r ->
  exists il, Interlink_Unmarshal il0 (interlink_bytes (MkBitSet 1 [0]) [h] ++ 0 :: r) = Ok (il, 34) /\ il_hashes il = [0 :: r].
Proof.
  intros (Hl & _) (Hr & _). unfold interlink_bytes, bitset_bytes. cbn [Len Bits List.concat]. rewrite app_nil_r.
  unfold Interlink_Unmarshal. cbn [app BitSet_Unmarshal].
  change (w8 (1 + 7) / 8) with 1. rewrite zlen_cons, zlen_app, zlen_cons. pose proof (zlen_nonneg r).
  assert (Ez : zlen h = 32) by (unfold zlen; rewrite Hl; reflexivity). rewrite Ez. destruct (Z.ltb_spec (1 + (32 + (1 + zlen r))) 1); [lia|].
  change (Z.to_nat 1) with 1%nat. cbn [bind firstn Len Bits]. change (Z.to_nat 1) with 1%nat. change (Z.to_nat (1 + 1)) with 2%nat.
  change (compressed_count [0]) with 8. change (Z.to_nat 8) with 8%nat. change (skipn 2 (1 :: 0 :: h ++ 0 :: r)) with (h ++ 0 :: r). cbn [interlink_loop].
  change (bit (MkBitSet 1 [0]) 0) with (Ok false). cbn [bind]. rewrite zlen_app, Ez, zlen_cons. destruct (Z.ltb_spec (32 + (1 + zlen r)) 32); [lia|].
  rewrite skipn_app_len by exact Hl. cbn [bind]. eexists. split; [f_equal; f_equal; rewrite !zlen_cons, zlen_app, Ez, zlen_cons; lia|].
  cbn [il_hashes]. f_equal. unfold copy32. apply firstn_app_len. cbn [List.length]. lia.
Qed.
(** Not so blocks: the interlink hashes are taken from the wrong place (see C42),
    up to 32 bytes behind the end of the interlink.  A block with a one-entry
    interlink and no body, the same bytes, followed by different ones: *)
Theorem C91_block_refuted h hash r1 r2 :
  header_ok h -> array 32 hash -> array 31 r1 -> array 31 r2 -> r1 <> r2 ->
  let e := block_bytes h (MkBitSet 1 [0]) [hash] None in
  exists b1 b2, decode_block (e ++ r1) = Ok (b1, zlen e) /\ decode_block (e ++ r2) = Ok (b2, zlen e) /\ b1 <> b2.
Proof.
  intros Hh Ha H1 H2 Hr. cbv zeta.
  assert (HG : forall r, array 31 r -> exists b, decode_block (block_bytes h (MkBitSet 1 [0]) [hash] None ++ r) = Ok (b, zlen (block_bytes h (MkBitSet 1 [0]) [hash] None)) /\
            il_hashes (bl_interlink b) = [0 :: r]).
  { intros r Hr'. destruct (proj1 enc_round_trip _ _ _ _ (header_layout h Hh)) as (_ & Hdh).
    destruct (proj1 enc_round_trip _ _ _ _ (opt_body_layout None ltac:(discriminate))) as (_ & Hdb).
    assert (Ed : block_bytes h (MkBitSet 1 [0]) [hash] None ++ r = header_bytes h ++ interlink_bytes (MkBitSet 1 [0]) [hash] ++ 0 :: r).
    { unfold block_bytes. rewrite <- !app_assoc. reflexivity. }
    assert (Ez : zlen (interlink_bytes (MkBitSet 1 [0]) [hash]) = 34).
    { unfold interlink_bytes, bitset_bytes. cbn [Len Bits List.concat]. rewrite app_nil_r, zlen_app. unfold zlen. destruct Ha as (-> & _). reflexivity. }
    assert (Ez2 : zlen (block_bytes h (MkBitSet 1 [0]) [hash] None) = zlen (header_bytes h) + (34 + 1)).
    { unfold block_bytes. rewrite !zlen_app, Ez. reflexivity. }
    unfold decode_block, Unmarshal. rewrite value_block. set (dst := zero ty_block). rewrite Ed. unfold mbind at 1.
    destruct (Hdh (hd_val (elems_of dst)) (interlink_bytes (MkBitSet 1 [0]) [hash] ++ 0 :: r) []) as (al & ->).
    unfold mbind at 1. unfold call_unmarshal. cbn [data]. set (il0 := interlink_of (hd_val (List.tl (elems_of dst)))).
    change (cd_unmarshal interlink_codec (hd_val (List.tl (elems_of dst))) (interlink_bytes (MkBitSet 1 [0]) [hash] ++ 0 :: r))
      with (bind (Interlink_Unmarshal il0 (interlink_bytes (MkBitSet 1 [0]) [hash] ++ 0 :: r)) (fun '(a, n) => Ok (v_interlink a, n))).
    destruct (one_hash il0 hash r Ha Hr') as (il & -> & Eil). cbn [bind]. change (34 <? 0) with false. cbv iota.
    rewrite zlen_app, Ez. destruct (Z.ltb_spec (34 + zlen (0 :: r)) 34) as [Hlt|_]; [pose proof (zlen_nonneg (0 :: r)); lia|].
    rewrite skipn_app_len by (unfold zlen in Ez; lia). cbn [allocs]. unfold mbind at 1.
    destruct (Hdb (hd_val (List.tl (List.tl (elems_of dst)))) r al) as (al2 & E2). cbn [opt_body_bytes app] in E2. rewrite E2. unfold ret. cbn [bind data].
    exists (MkBlock h il None). change (VStruct [v_header h; v_interlink il; v_opt_body None]) with (v_block (MkBlock h il None)). rewrite block_of_v.
    cbn [bl_interlink]. split; [|exact Eil]. f_equal. f_equal. rewrite !zlen_app, Ez, Ez2, zlen_cons. lia. }
  destruct (HG r1 H1) as (b1 & E1 & I1). destruct (HG r2 H2) as (b2 & E2 & I2). exists b1, b2. split; [exact E1|]. split; [exact E2|]. congruence.
Qed.
Print Assumptions C91_block_refuted.
