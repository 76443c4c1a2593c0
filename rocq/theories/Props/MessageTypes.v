(** Properties C86-C88: exactly which messages can be received and sent. *)
From Coq Require Import ZArith List Lia Bool String.
Import ListNotations.
From Verif.Model Require Import Base Address Beserial Wire Messages.
From Verif.Spec Require Import BeserialSpec WireSpec MessageSpec.
From Verif.Proofs Require Import BaseFacts BeserialFacts WireFacts InterlinkFacts BlockFacts LayoutFacts MessageFacts.
From Verif.Props Require Import BeserialProps WireProps BlockProps MessageProps.
Open Scope Z_scope.

(** ** Layouts *)
Lemma get_blocks_layout l m d : get_blocks_ok l m d ->
  enc (ty_message KGetBlocks) no_tags (VStruct [VList (map vbytes l); VNum m; VNum d]) (get_blocks_bytes l m d).
Proof.
  intros (H1 & H2 & H3 & H4). unfold get_blocks_bytes. rewrite (app_assoc (be 2 (zlen l))). cbn [ty_message]. apply enc_struct. enc_fields_tac.
  - assert (E : List.concat l = List.concat (map (fun x : bytes => x) l)) by (rewrite map_id; reflexivity). rewrite E.
    apply (enc_slice_of (bytesN 32) vbytes (fun x => x) U16); try reflexivity; cbn [width]; try lia.
    + intros H. discriminate H.
    + eapply Forall_impl; [|exact H1]. intros x Hx. split; [destruct x; [destruct Hx as (Hx & _); discriminate Hx|discriminate]|apply enc_bytesN; exact Hx].
  - apply (enc_int U16). exact H3.
  - apply (enc_int U8). exact H4.
Qed.
Lemma get_addresses_layout p s r : u8 p -> u32 s -> u16 r ->
  enc (ty_message KGetAddr) no_tags (VStruct [VNum p; VNum s; VNum r]) (be 1 p ++ be 4 s ++ be 2 r).
Proof. intros. cbn [ty_message]. apply enc_struct. enc_fields_tac; [apply (enc_int U8)|apply (enc_int U32)|apply (enc_int U16)]; assumption. Qed.
Lemma verack_layout key sig : array 32 key -> array 64 sig ->
  enc (ty_message KVerAck) no_tags (VStruct [vbytes key; vbytes sig]) (key ++ sig).
Proof. intros. cbn [ty_message]. apply enc_struct. enc_fields_tac; apply enc_bytesN; assumption. Qed.
Lemma receipts_layout a o : array 20 a -> u32 o ->
  enc (ty_message KGetTxReceipts) no_tags (VStruct [vbytes a; VNum o]) (a ++ be 4 o).
Proof. intros. cbn [ty_message]. apply enc_struct. enc_fields_tac; [apply enc_bytesN|apply (enc_int U32)]; assumption. Qed.
Lemma no_addresses_layout : enc (ty_message KAddr) no_tags (VStruct [VList []]) [0; 0].
Proof.
  cbn [ty_message]. apply enc_struct. eapply enc_last; [reflexivity|].
  apply (enc_slice_of (A := unit) ty_peer (fun _ => VNum 0) (fun _ => []) U16 []); try reflexivity; [|constructor].
  intros H. discriminate H.
Qed.
Lemma tx_msg_layout t : tx_ok t -> enc (ty_message KTx) no_tags (VStruct [v_wrap_tx (Some t)]) (tx_bytes t).
Proof. intros Ht. apply wrapped_enc. apply enc_custom. apply wrap_tx_layout. exact Ht. Qed.
Lemma header_msg_layout k h : k = KHeader \/ k = KHead -> header_ok h -> enc (ty_message k) no_tags (VStruct [v_header h]) (header_bytes h).
Proof. intros [-> | ->] Hh; apply wrapped_enc; apply header_layout; exact Hh. Qed.

(** ** Decoding *)
Definition msg_decodes (c : codec) (v : val) : Prop :=
  (c = wrap_tx_codec -> exists x, v = v_wrap_tx (Some x) /\ tx_ok x) /\ c <> peer_codec.
Lemma peer_never d v w n : bytes_ok d -> cd_unmarshal peer_codec v d <> Ok (w, n).
Proof.
  intros Hd E. unfold peer_codec, typed_codec in E. cbn [cd_unmarshal] in E. destruct (peer_unm_err (peer_of v) d Hd) as (e & Ee). rewrite Ee in E. discriminate E.
Qed.
Lemma msg_decodes_tx : codec_decodes msg_decodes wrap_tx_codec.
Proof.
  intros dst d v n Hd E. split; [intros _; exact (wrap_tx_decodes _ _ _ _ Hd E)|]. intros Hc. rewrite Hc in E. exact (peer_never _ _ _ _ Hd E).
Qed.
Lemma msg_decodes_peer : codec_decodes msg_decodes peer_codec.
Proof. intros dst d v n Hd E. destruct (peer_never _ _ _ _ Hd E). Qed.
Lemma peer_canonical : codec_canonical peer_codec.
Proof. intros dst d v n Hd E. destruct (peer_never _ _ _ _ Hd E). Qed.
Lemma message_declares (P : codec -> Prop) k : P wrap_tx_codec -> P peer_codec -> k <> KBlock -> k <> KPing -> well_declared P (ty_message k).
Proof.
  intros H1 H2 H3 H4. destruct k; try congruence; cbn [well_declared ty_message field tagged ty_peer ty_header bytesN ty_inv_vector ty_wrap_tx]; declare.
Qed.
Lemma message_occupies k : k <> KBlock -> k <> KPing -> slices_occupy (ty_message k).
Proof. intros H1 H2. destruct k; try congruence; cbn [slices_occupy ty_message field tagged ty_peer ty_header bytesN ty_inv_vector ty_wrap_tx]; repeat split. Qed.
Lemma decoded_typed Q t : well_declared no_codec t -> forall ts v, decoded Q t ts v -> typed t v.
Proof.
  induction t as [|k| |t IH|m t IH|t IH|fs IH| |c t IH] using ty_ind'; intros Hw ts v Hv; try (destruct v; try contradiction; exact Hv || exact I).
  - destruct v as [| | |[v|]| | | |]; try contradiction; [|exact I]. destruct Hv as (_ & Hv). exact (IH (proj2 Hw) _ _ Hv).
  - destruct v; try contradiction. destruct Hv as (_ & Hl & Hv). split; [exact Hl|]. eapply Forall_impl; [|exact Hv]. intros x Hx. exact (IH (proj2 Hw) _ _ Hx).
  - destruct v; try contradiction. destruct Hv as (_ & _ & _ & Hv). eapply Forall_impl; [|exact Hv]. intros x Hx. exact (IH (proj2 Hw) _ _ Hx).
  - destruct v as [| | | | |vs| |]; try contradiction. change (all_typed fs vs). change (all_dec Q fs vs) in Hv. change (all_declared no_codec fs) in Hw.
    revert vs Hv. induction IH as [|(tag & t) fs Ht Hfs IHfs]; intros [|v vs] Hv; try contradiction; [exact I|].
    destruct Hw as (_ & Hw1 & Hw2). destruct Hv as ((ts0 & _ & H1) & H2). split; [exact (Ht Hw1 _ _ H1)|exact (IHfs Hw2 _ H2)].
Qed.
Lemma decoded_fields Q fs v : decoded Q (TStruct fs) no_tags v -> exists vs, v = VStruct vs /\ all_dec Q fs vs.
Proof. destruct v as [| | | | |vs| |]; try contradiction. intros H. exists vs. split; [reflexivity|exact H]. Qed.
Definition message_shape (k : mkind) (v : val) : Prop :=
  match k with
  | KGetBlocks => exists l m d, get_blocks_ok l m d /\ v = VStruct [VList (map vbytes l); VNum m; VNum d]
  | KHeader | KHead => exists h, header_ok h /\ v = VStruct [v_header h]
  | KTx => exists t, tx_ok t /\ v = VStruct [v_wrap_tx (Some t)]
  | KAddr => v = VStruct [VList []]
  | KGetAddr => exists p s r, (u8 p /\ u32 s /\ u16 r) /\ v = VStruct [VNum p; VNum s; VNum r]
  | KVerAck => exists key sig, (array 32 key /\ array 64 sig) /\ v = VStruct [vbytes key; vbytes sig]
  | KGetTxReceipts => exists a o, (array 20 a /\ u32 o) /\ v = VStruct [vbytes a; VNum o]
  | KVersion | KInv | KGetTxProof => False
  | KBlock | KPing => True
  end.
Lemma decoded_message k v : decoded msg_decodes (ty_message k) no_tags v -> message_shape k v.
Proof.
  assert (HN : forall t w, ~ decoded msg_decodes (TSlice t) no_tags w).
  { intros t w H. destruct w; try contradiction. destruct H as (_ & _ & (x & Hx & _) & _). discriminate Hx. }
  assert (HH : forall w, decoded msg_decodes (TStruct [field ty_header]) no_tags w -> exists h, header_ok h /\ w = VStruct [v_header h]).
  { intros w Hw. apply decoded_fields in Hw as (vs & -> & Hw). destruct vs as [|a [|]]; cbn [all_dec field] in Hw; try tauto.
    destruct Hw as ((ts & _ & Ha) & _). apply decoded_typed in Ha; [|apply declared_header]. apply typed_header in Ha as (Ea & Oa). exists (header_of a). split; [exact Oa|congruence]. }
  intros Hv. destruct k; cbn [ty_message message_shape] in *; try exact I; try (apply HH; exact Hv); apply decoded_fields in Hv as (vs & -> & Hv).
  - destruct vs as [|a [|b vs]]; cbn [all_dec field] in Hv; try tauto. destruct Hv as (_ & (ts & _ & Hb) & _). destruct Hb as (_ & Hb). congruence.
  - destruct vs as [|a [|b vs]]; cbn [all_dec field] in Hv; try tauto. destruct Hv as (_ & (ts & Ets & Hb) & _). injection Ets as <-. exact (HN _ _ Hb).
  - destruct vs as [|a [|b [|c [|]]]]; cbn [all_dec field tagged] in Hv; try tauto. destruct Hv as ((t1 & E1 & Ha) & (t2 & _ & Hb) & (t3 & _ & Hc) & _).
    change (field_tags (Some (str "len_tag=uint16"))) with (Ok (Tags (Some U16) false)) in E1. injection E1 as <-.
    destruct (decoded_slice msg_decodes U16 (bytesN 32) vbytes bytes_of (array 32) a) as (Ea & Oa & La); [intros x Hx; exact (decoded_bytesN _ _ _ _ Hx)|exact Ha|].
    destruct (decoded_num _ _ _ _ Hb) as (Eb & Ob). destruct (decoded_num _ _ _ _ Hc) as (Ec & Oc).
    exists (map bytes_of (list_of a)), (num_of b), (num_of c). split; [|congruence]. repeat split; try assumption; apply Ob || apply Oc.
  - destruct vs as [|a [|]]; cbn [all_dec field] in Hv; try tauto. destruct Hv as ((ts & _ & Ha) & _). destruct Ha as (Ha & _). destruct (Ha eq_refl) as (x & -> & Hx). eauto.
  - destruct vs as [|a [|]]; cbn [all_dec field tagged] in Hv; try tauto. destruct Hv as ((ts & _ & Ha) & _). destruct a as [| | | |l| | |]; try contradiction.
    destruct Ha as (_ & _ & _ & Ha). destruct l as [|x l]; [reflexivity|]. inversion Ha as [|? ? Hx _]; subst. destruct Hx as (_ & Hx). congruence.
  - destruct vs as [|a [|b [|c [|]]]]; cbn [all_dec field tagged] in Hv; try tauto. destruct Hv as ((t1 & E1 & Ha) & (t2 & _ & Hb) & (t3 & _ & Hc) & _).
    destruct (decoded_num _ _ _ _ Ha) as (Ea & Oa). destruct (decoded_num _ _ _ _ Hb) as (Eb & Ob). destruct (decoded_num _ _ _ _ Hc) as (Ec & Oc).
    exists (num_of a), (num_of b), (num_of c). split; [repeat split; apply Oa || apply Ob || apply Oc|congruence].
  - destruct vs as [|a [|b [|]]]; cbn [all_dec field tagged] in Hv; try tauto. destruct Hv as ((t1 & E1 & Ha) & (t2 & _ & Hb) & _).
    destruct (decoded_bytesN _ _ _ _ Ha) as (Ea & Oa). destruct (decoded_bytesN _ _ _ _ Hb) as (Eb & Ob). exists (bytes_of a), (bytes_of b). split; [split; assumption|congruence].
  - destruct vs as [|a [|b vs]]; cbn [all_dec field] in Hv; try tauto. destruct Hv as (_ & (ts & Ets & Hb) & _). injection Ets as <-. exact (HN _ _ Hb).
  - destruct vs as [|a [|b [|]]]; cbn [all_dec field tagged] in Hv; try tauto. destruct Hv as ((t1 & E1 & Ha) & (t2 & _ & Hb) & _).
    destruct (decoded_bytesN _ _ _ _ Ha) as (Ea & Oa). destruct (decoded_num _ _ _ _ Hb) as (Eb & Ob). exists (bytes_of a), (num_of b). split; [split; assumption|congruence].
Qed.
Lemma decoded_exactly k v0 buf v n : k <> KBlock -> k <> KPing -> bytes_ok buf -> Unmarshal buf (APtr (ty_message k) v0) = (Ok (Some v), n) ->
  message_shape k v /\ forall e, enc (ty_message k) no_tags v e -> e = firstn (Z.to_nat n) buf.
Proof.
  intros H1 H2 Hb E. split.
  - unfold Unmarshal in E. destruct (value (ty_message k) no_tags v0 (DState buf [])) as (r & s) eqn:Ev. destruct r as [w|e| |]; try discriminate.
    assert (w = v) as -> by (cbn [bind] in E; congruence). apply decoded_message.
    refine (value_decoded _ (ty_message k) _ (message_occupies k H1 H2) no_tags v0 (DState buf []) v s _ Hb Ev).
    + apply message_declares; [apply msg_decodes_tx|apply msg_decodes_peer|assumption|assumption].
    + intros ? ?; discriminate.
  - intros e He. pose proof (C30_canonical _ _ _ _ _ (message_declares codec_canonical k wrap_tx_canonical peer_canonical H1 H2) Hb E []) as Hc.
    pose proof (proj1 (enc_marshal _ _ _ He) []) as Hm. cbn [app] in *. congruence.
Qed.
Lemma known_messages typ :
  match new_message typ with
  | Some (MPtr k v) => known typ /\ (
      (typ = 0 /\ k = KVersion) \/ ((typ = 1 \/ typ = 2 \/ typ = 3 \/ typ = 4) /\ k = KInv) \/ (typ = 5 /\ k = KGetBlocks) \/
      (typ = 6 /\ k = KBlock /\ v = zero (ty_message KBlock)) \/ (typ = 7 /\ k = KHeader) \/ (typ = 8 /\ k = KTx) \/ (typ = 20 /\ k = KAddr) \/
      (typ = 21 /\ k = KGetAddr) \/ (typ = 22 /\ k = KPing) \/ (typ = 23 /\ k = KPing) \/ (typ = 61 /\ k = KHead) \/ (typ = 90 /\ k = KVerAck))
  | Some (MEmpty n) => n = typ /\ (typ = 9 \/ typ = 40 \/ typ = 60)
  | None => ~ known typ
  end.
Proof.
  unfold new_message, known. cbv zeta.
  repeat match goal with |- context [if ?t =? ?c then _ else _] => let E := fresh in destruct (Z.eqb_spec t c) as [E|E]; [subst typ; cbv iota; intuition lia|] end.
  cbv iota. lia.
Qed.
Lemma accepted_by typ k v0 buf v : new_message typ = Some (MPtr k v0) ->
  (UnmarshalMessage typ buf = Ok v <-> exists w, Unmarshal buf (APtr (ty_message k) v0) = (Ok (Some w), zlen buf) /\ v = MPtr k w).
Proof.
  intros En. unfold UnmarshalMessage. rewrite En. cbn [message_arg]. destruct (Unmarshal buf (APtr (ty_message k) v0)) as (r & n) eqn:Eu.
  assert (Hs : forall o, r = Ok o -> exists w, o = Some w).
  { intros o ->. unfold Unmarshal in Eu. destruct (value (ty_message k) no_tags v0 (DState buf [])) as ([w|e| |] & s); cbn [bind] in Eu; try discriminate. exists w. congruence. }
  destruct r as [o|e| |]; cbn [bind]; try (split; [discriminate|intros (w & H & _); discriminate]).
  destruct (Hs o eq_refl) as (w & ->). destruct (Z.eqb_spec n (zlen buf)) as [->|Hn].
  - split; [intros [= <-]; eauto|intros (w' & [= ->] & ->); reflexivity].
  - split; [discriminate|intros (w' & [= _ H] & _); congruence].
Qed.

(** ** C86 *)
(** Exactly which payloads are accepted, and as what. *)
Theorem C86_accepts typ buf m :
  bytes_ok buf -> typ <> 6 -> (UnmarshalMessage typ buf = Ok m <-> payload typ m buf).
Proof.
  intros Hb H6. split.
  - intros E. pose proof (known_messages typ) as HK. destruct (new_message typ) as [[k v0|n]|] eqn:En.
    + destruct HK as (_ & HK).
      assert (HP : typ = 22 \/ typ = 23 \/ k <> KBlock /\ k <> KPing) by (clear -HK H6; destruct k; intuition (try discriminate; try lia)).
      destruct HP as [-> |[-> |(N1 & N2)]].
      * destruct (C45_ping_decode false buf m Hb) as ((H & _) & _). destruct (H E) as (Hl & ->).
        assert (Eb : buf = be 4 (be_get buf)). { symmetry. replace 4%nat with (List.length buf) by (unfold zlen in Hl; lia). exact (be_put_get buf Hb). }
        rewrite Eb at 2. apply pl_ping. pose proof (be_get_bound buf Hb) as R. unfold zlen in Hl. rewrite Hl in R. exact R.
      * destruct (C45_ping_decode true buf m Hb) as ((H & _) & _). destruct (H E) as (Hl & ->).
        assert (Eb : buf = be 4 (be_get buf)). { symmetry. replace 4%nat with (List.length buf) by (unfold zlen in Hl; lia). exact (be_put_get buf Hb). }
        rewrite Eb at 2. apply pl_pong. pose proof (be_get_bound buf Hb) as R. unfold zlen in Hl. rewrite Hl in R. exact R.
      * destruct (proj1 (accepted_by typ k v0 buf m En) E) as (w & Eu & Em). rewrite Em. clear Em. destruct (decoded_exactly k v0 buf w _ N1 N2 Hb Eu) as (Hs & He).
        assert (Eall : firstn (Z.to_nat (zlen buf)) buf = buf) by (unfold zlen; rewrite Nat2Z.id; apply firstn_all). rewrite Eall in He. clear Eu Eall.
        repeat (destruct HK as [(Ht & Ek)|HK]); [| | | | | | | | | | |destruct HK as (Ht & Ek)]; try (destruct Ek as (Ek & _)); subst k; cbn [message_shape] in Hs; try subst typ; try contradiction.
        -- destruct Hs as (l & mx & d & Hok & ->). rewrite <- (He _ (get_blocks_layout l mx d Hok)). apply pl_get_blocks. exact Hok.
        -- destruct Hs as (h & Hok & ->). rewrite <- (He _ (header_msg_layout KHeader h (or_introl eq_refl) Hok)). apply pl_header. exact Hok.
        -- destruct Hs as (t & Hok & ->). rewrite <- (He _ (tx_msg_layout t Hok)). apply pl_tx. exact Hok.
        -- subst w. rewrite <- (He _ no_addresses_layout). apply pl_addresses.
        -- destruct Hs as (p & s & r & (O1 & O2 & O3) & ->). rewrite <- (He _ (get_addresses_layout p s r O1 O2 O3)). apply pl_get_addresses; assumption.
        -- destruct Hs as (h & Hok & ->). rewrite <- (He _ (header_msg_layout KHead h (or_intror eq_refl) Hok)). apply pl_head. exact Hok.
        -- destruct Hs as (key & sig & (O1 & O2) & ->). rewrite <- (He _ (verack_layout key sig O1 O2)). apply pl_verack; assumption.
    + destruct HK as (_ & HK). unfold UnmarshalMessage in E. rewrite En in E. discriminate E.
    + unfold UnmarshalMessage in E. rewrite En in E. discriminate E.
  - assert (HA : forall k w e, new_message typ = Some (MPtr k (zero (ty_message k))) -> enc (ty_message k) no_tags w e -> UnmarshalMessage typ e = Ok (MPtr k w)).
    { intros k w e En He. apply (accepted_by _ _ _ _ _ En). exists w. split; [|reflexivity]. rewrite <- (app_nil_r e) at 1. apply (proj2 (enc_marshal _ _ _ He)). }
    intros HP. destruct HP.
    + apply HA; [reflexivity|apply get_blocks_layout; assumption].
    + apply HA; [reflexivity|apply header_msg_layout; auto].
    + apply HA; [reflexivity|apply tx_msg_layout; assumption].
    + apply HA; [reflexivity|apply no_addresses_layout].
    + apply HA; [reflexivity|apply get_addresses_layout; assumption].
    + apply (C45_ping_round_trip n false H).
    + apply (C45_ping_round_trip n true H).
    + apply HA; [reflexivity|apply header_msg_layout; auto].
    + apply HA; [reflexivity|apply verack_layout; assumption].
Qed.
Print Assumptions C86_accepts.
Example C86_example :
  payload 21 (get_addresses 1 2 500) [1; 0; 0; 0; 2; 1; 244] /\ UnmarshalMessage 21 [1; 0; 0; 0; 2; 1; 244] = Ok (get_addresses 1 2 500) /\
  UnmarshalMessage 21 [1; 0; 0; 0; 2; 1] = Err EUnexpectedEOF /\ UnmarshalMessage 20 [0; 0] = Ok no_addresses.
Proof. split; [apply (pl_get_addresses 1 2 500); unfold u8, u32, u16; lia|repeat split]. Qed.
(** Blocks: the payload is the network form of the header, of some interlink and of the body. *)
Theorem C86_accepts_blocks buf m :
  bytes_ok buf -> UnmarshalMessage 6 buf = Ok m ->
  exists blk distinct, m = block_msg blk /\ header_ok (bl_header blk) /\ (forall b, bl_body blk = Some b -> body_ok b) /\
    interlink_fits (il_repeats (bl_interlink blk)) distinct /\
    buf = block_bytes (bl_header blk) (il_repeats (bl_interlink blk)) distinct (bl_body blk).
Proof.
  intros Hb E. unfold UnmarshalMessage in E. change (new_message 6) with (Some (MPtr KBlock (zero (ty_message KBlock)))) in E. cbv iota in E. cbn [message_arg] in E.
  rewrite unmarshal_block_message in E. pose proof (C77_accepted_blocks buf Hb) as HC. pose proof (block_unm (zero ty_block) buf Hb) as HU. unfold decode_block in HC.
  destruct (Unmarshal buf (APtr ty_block (zero ty_block))) as (r & n). destruct r as [o|e| |]; cbn [bind] in *; try discriminate.
  destruct HU as ((blk0 & -> & _) & _). rewrite block_of_v in HC.
  destruct HC as [(e & H)|[(H & _)|(blk & n' & bs & distinct & H & Hh & Hi & Hbd & Hr & Eb & Hn)]]; try discriminate.
  injection H as <- <-. destruct (Z.eqb_spec n (zlen buf)) as [->|]; [|discriminate]. injection E as <-. exists blk0, distinct.
  split; [reflexivity|]. split; [exact Hh|]. split; [exact Hbd|]. rewrite Hr. split; [exact Hi|]. rewrite Eb. unfold zlen. rewrite Nat2Z.id, firstn_all. reflexivity.
Qed.
Print Assumptions C86_accepts_blocks.
Theorem C86_blocks_accepted h bs distinct body :
  header_ok h -> interlink_fits bs distinct -> (forall b, body = Some b -> body_ok b) ->
  exists blk, UnmarshalMessage 6 (block_bytes h bs distinct body) = Ok (block_msg blk) /\ bl_header blk = h /\ bl_body blk = body.
Proof.
  intros Hh Hi Hb. destruct (C77_network_block_decodes h bs distinct body [] Hh Hi Hb ltac:(constructor)) as (blk & E & E1 & E2 & _). rewrite app_nil_r in E.
  assert (Hbb : bytes_ok (block_bytes h bs distinct body)).
  { unfold block_bytes. rewrite !bytes_ok_app. split; [apply header_bytes_ok; exact Hh|]. split; [|apply opt_body_bytes_ok; exact Hb].
    destruct Hi as ((H1 & H2 & H3) & H4 & _). unfold interlink_bytes, bitset_bytes. rewrite bytes_ok_app. split; [constructor; [unfold is_byte; lia|exact H2]|].
    rewrite <- (map_id distinct). apply concat_ok. eapply Forall_impl; [|exact H4]. intros x (_ & Hx). exact Hx. }
  exists blk. split; [|split; assumption]. unfold UnmarshalMessage. change (new_message 6) with (Some (MPtr KBlock (zero (ty_message KBlock)))). cbv iota. cbn [message_arg].
  rewrite unmarshal_block_message. pose proof (block_unm (zero ty_block) _ Hbb) as HU. unfold decode_block in E.
  destruct (Unmarshal (block_bytes h bs distinct body) (APtr ty_block (zero ty_block))) as (r & n). destruct r as [o|e| |]; cbn [bind] in *; try discriminate.
  destruct HU as ((blk0 & -> & _) & _). rewrite block_of_v in E. injection E as -> ->. rewrite Z.eqb_refl. reflexivity.
Qed.
Print Assumptions C86_blocks_accepted.

(** ** C87 *)
(** A number without a decoder is reported as an unknown message, and nothing
    else is. *)
Section Quiet.
Context (n0 : Z).
Definition quiet (c : codec) : Prop := forall dst d, cd_unmarshal c dst d <> Err (EUnknownMessage n0).
Lemma mbind_quiet {A B} (x : M A) (f : A -> M B) s :
  (forall s, fst (x s) <> Err (EUnknownMessage n0)) -> (forall a s, fst (f a s) <> Err (EUnknownMessage n0)) -> fst (mbind x f s) <> Err (EUnknownMessage n0).
Proof.
  intros Hx Hf. unfold mbind. specialize (Hx s). destruct (x s) as ([a|e| |] & s'); cbn [fst] in *; [apply Hf|congruence|discriminate|discriminate].
Qed.
Lemma pop_quiet n s : fst (pop n s) <> Err (EUnknownMessage n0).
Proof. unfold pop. destruct (zlen (data s) <? n); [discriminate|]. destruct (n <? 0); discriminate. Qed.
Lemma number_quiet k s : fst (number k s) <> Err (EUnknownMessage n0).
Proof. unfold number. apply mbind_quiet; [apply pop_quiet|]. intros; discriminate. Qed.
Lemma read_len_quiet ts s : fst (read_len ts s) <> Err (EUnknownMessage n0).
Proof.
  unfold read_len. destruct (lenTag ts); [|discriminate]. apply mbind_quiet; [apply number_quiet|]. intros a s'.
  destruct (signed k && (a <? 0)); [discriminate|]. destruct (maxInt <? a); discriminate.
Qed.
Lemma call_quiet c dst s : quiet c -> fst (call_unmarshal c dst s) <> Err (EUnknownMessage n0).
Proof.
  intros Hc. unfold call_unmarshal. specialize (Hc dst (data s)). destruct (cd_unmarshal c dst (data s)) as [(v & n)|e| |]; cbn [fst]; try discriminate; [|congruence].
  destruct (n <? 0); [discriminate|]. destruct (zlen (data s) <? n); discriminate.
Qed.
Lemma dec_n_quiet f n : (forall d s, fst (f d s) <> Err (EUnknownMessage n0)) -> forall dsts s, fst (dec_n f n dsts s) <> Err (EUnknownMessage n0).
Proof.
  intros Hf. induction n as [|n IH]; intros dsts s; cbn [dec_n]; [discriminate|]. apply mbind_quiet; [apply Hf|]. intros v s1.
  apply mbind_quiet; [apply IH|]. intros; discriminate.
Qed.
Lemma value_quiet t : well_declared quiet t -> forall ts dst s, fst (value t ts dst s) <> Err (EUnknownMessage n0).
Proof.
  induction t as [|k| |t IH|m t IH|t IH|fs IH| |c t IH] using ty_ind'; intros Hw ts dst s.
  - cbn [value]. apply mbind_quiet; [apply pop_quiet|]. intros b s'. repeat (destruct b as [|[|[| |]|] b]; try discriminate).
  - cbn [value]. apply mbind_quiet; [apply number_quiet|]. intros; discriminate.
  - cbn [value]. apply mbind_quiet; [apply read_len_quiet|]. intros u s'. apply mbind_quiet; [apply pop_quiet|]. intros; discriminate.
  - destruct Hw as (Hc & Hw). rewrite value_ptr by exact Hc. cbv zeta.
    assert (HG : forall s, fst (mbind (value t ts (zero t)) (fun v => ret (VPtr (Some v))) s) <> Err (EUnknownMessage n0)) by (intros s0; apply mbind_quiet; [intros; apply (IH Hw)|intros; discriminate]).
    destruct (optional ts); [|apply HG]. apply mbind_quiet; [apply pop_quiet|]. intros b s'.
    destruct b as [|[|[| |]|] [|]]; try discriminate; apply HG.
  - destruct Hw as (Hc & Hw). cbn [value]. destruct (is_u8 t).
    + destruct (is_custom t); (apply mbind_quiet; [apply pop_quiet|]; intros; discriminate).
    + apply mbind_quiet; [apply dec_n_quiet; intros; apply (IH Hw)|]. intros; discriminate.
  - destruct Hw as (Hc & Hw). cbn [value]. apply mbind_quiet; [apply read_len_quiet|]. intros u s'. destruct (is_u8 t).
    + apply mbind_quiet; [apply pop_quiet|]. intros; discriminate.
    + destruct (zlen (data s') <? u); [discriminate|]. apply mbind_quiet; [discriminate|]. intros _ s2.
      apply mbind_quiet; [apply dec_n_quiet; intros; apply (IH Hw)|]. intros; discriminate.
  - rewrite value_struct. apply mbind_quiet; [|intros; discriminate]. clear s. change (all_declared quiet fs) in Hw.
    generalize (elems_of dst). induction IH as [|(tag & t) fs Ht Hfs IHfs]; intros dsts s; cbn [value_fields]; [discriminate|].
    destruct Hw as ((ts0 & Et) & Hw1 & Hw2). apply mbind_quiet; [rewrite Et; discriminate|]. intros ts1 s1. apply mbind_quiet; [intros; apply (Ht Hw1)|]. intros v s2.
    apply mbind_quiet; [intros; apply (IHfs Hw2)|]. intros; discriminate.
  - discriminate.
  - apply call_quiet. exact Hw.
Qed.
Lemma unmarshal_quiet t d v : well_declared quiet t -> fst (Unmarshal d (APtr t v)) <> Err (EUnknownMessage n0).
Proof.
  intros Hw. unfold Unmarshal. pose proof (value_quiet t Hw no_tags v (DState d [])) as H. destruct (value t no_tags v (DState d [])) as ([w|e| |] & s); cbn [fst bind] in *; congruence.
Qed.
Lemma wrap_tx_quiet : quiet wrap_tx_codec.
Proof.
  intros dst d. unfold wrap_tx_codec, typed_codec. cbn [cd_unmarshal]. unfold WrapTx_Unmarshal. destruct d as [|typ d]; [discriminate|].
  destruct ((typ =? 0) || (typ =? 1)); [|discriminate].
  pose proof (unmarshal_quiet (ty_tx typ) d (zero (ty_tx typ)) (declared_tx _ typ)) as H. destruct (Unmarshal d (APtr (ty_tx typ) (zero (ty_tx typ)))) as ([o|e| |] & n); cbn [fst bind] in *; try discriminate; congruence.
Qed.
Lemma netaddr_quiet : quiet netaddr_codec.
Proof.
  intros dst d. unfold netaddr_codec, typed_codec. cbn [cd_unmarshal]. unfold NetAddress_Unmarshal.
  pose proof (unmarshal_quiet (TNum U8) d (VNum 0) I) as H. destruct (Unmarshal d (APtr (TNum U8) (VNum 0))) as ([o|e| |] & n); cbn [fst bind] in *; try discriminate; [|congruence].
  destruct o as [[]|]; cbn; repeat match goal with |- context [if ?c then _ else _] => destruct c end; discriminate.
Qed.
Lemma peer_quiet : quiet peer_codec.
Proof.
  intros dst d. unfold peer_codec, typed_codec. cbn [cd_unmarshal]. unfold PeerAddress_Unmarshal.
  assert (Hw : well_declared quiet ty_peer_header) by (pose proof netaddr_quiet; cbn; declare).
  match goal with |- context [Unmarshal d (APtr ty_peer_header ?v)] => pose proof (unmarshal_quiet ty_peer_header d v Hw) as H; destruct (Unmarshal d (APtr ty_peer_header v)) as ([o|e| |] & n) end;
    cbn [fst bind] in *; try discriminate; try congruence.
  repeat match goal with |- context [if ?c then _ else _] => destruct c; cbn [bind] end; discriminate.
Qed.
Lemma ping_quiet : quiet ping_codec.
Proof. intros dst d. unfold ping_codec, typed_codec. cbn [cd_unmarshal]. unfold Ping_Unmarshal. destruct (zlen d <? 4); discriminate. Qed.
Lemma bitset_quiet : quiet bitset_codec.
Proof. intros dst d. unfold bitset_codec, typed_codec. cbn [cd_unmarshal]. destruct (bitset_unm_total (bitset_of dst) d) as [(bs & n & ->)| ->]; discriminate. Qed.
Lemma wrap_account_quiet : quiet wrap_account_codec.
Proof.
  intros dst d. unfold wrap_account_codec, typed_codec. cbn [cd_unmarshal]. unfold WrapAccount_Unmarshal. destruct d as [|typ d]; [discriminate|].
  destruct ((typ =? 0) || (typ =? 1) || (typ =? 2)); [|discriminate].
  assert (Hq : quiet hash_codec).
  { intros dst0 d0. unfold hash_codec, typed_codec. cbn [cd_unmarshal]. unfold Hash_Unmarshal. destruct d0 as [|x0 d0]; [discriminate|]. repeat match goal with |- context [if ?c then _ else _] => destruct c end; discriminate. }
  pose proof (unmarshal_quiet (ty_account typ) d (zero (ty_account typ)) (declared_account _ typ Hq)) as H.
  destruct (Unmarshal d (APtr (ty_account typ) (zero (ty_account typ)))) as ([o|e| |] & n); cbn [fst bind] in *; try discriminate; congruence.
Qed.
Lemma interlink_quiet : quiet interlink_codec.
Proof.
  intros dst d. unfold interlink_codec, typed_codec. cbn [cd_unmarshal]. unfold Interlink_Unmarshal.
  destruct (bitset_unm_total (il_repeats (interlink_of dst)) d) as [(bs & n & ->)| ->]; cbn [bind]; [|discriminate].
  assert (HL : forall k i b p sl, interlink_loop bs k i b p sl <> Err (EUnknownMessage n0)).
  { induction k as [|k IH]; intros i b p sl; cbn [interlink_loop]; [discriminate|].
    destruct (bit bs i) as [x|e| |] eqn:Eb; cbn [bind]; try discriminate.
    2: { unfold bit, index in Eb. destruct (nth_error (Bits bs) (Z.to_nat (i / 8))); discriminate Eb. }
    destruct x.
    - match goal with |- context [interlink_loop bs k ?a ?b ?c ?d] => pose proof (IH a b c d) as H; destruct (interlink_loop bs k a b c d) as [((? & ?) & ?)|?| |] end; cbn [bind]; try discriminate; congruence.
    - destruct sl; try discriminate. destruct (zlen b <? 32); [discriminate|]. cbv zeta.
      match goal with |- context [interlink_loop bs k ?a ?b ?c ?d] => pose proof (IH a b c d) as H; destruct (interlink_loop bs k a b c d) as [((? & ?) & ?)|?| |] end; cbn [bind]; try discriminate; congruence. }
  match goal with |- context [interlink_loop bs ?k ?a ?b ?c ?d] => pose proof (HL k a b c d) as H; destruct (interlink_loop bs k a b c d) as [((? & ?) & ?)|?| |] end; cbn [bind]; try discriminate; congruence.
Qed.
Lemma message_quiet k : well_declared quiet (ty_message k).
Proof.
  pose proof wrap_tx_quiet as H1. pose proof peer_quiet as H2. pose proof ping_quiet as H3. pose proof interlink_quiet as H4. pose proof wrap_account_quiet as H5.
  destruct k; cbn [well_declared ty_message field tagged ty_peer ty_header bytesN ty_inv_vector ty_wrap_tx ty_block ty_interlink ty_body ty_pruned ty_wrap_account]; declare.
Qed.
End Quiet.
Theorem C87_unknown typ buf : (exists n, UnmarshalMessage typ buf = Err (EUnknownMessage n)) <-> ~ known typ.
Proof.
  unfold UnmarshalMessage. pose proof (known_messages typ) as HK. destruct (new_message typ) as [[k v|n]|].
  - destruct HK as (HK & _). split; [|tauto]. intros (n0 & E). revert E. cbn [message_arg]. pose proof (unmarshal_quiet n0 _ buf v (message_quiet n0 k)) as H.
    destruct (Unmarshal buf (APtr (ty_message k) v)) as ([o|e| |] & n); cbn [fst bind] in *; try discriminate; [|congruence]. destruct (n =? zlen buf); discriminate.
  - destruct HK as (_ & HK). split; [intros (n0 & E); cbn in E; destruct (0 =? zlen buf); discriminate E|]. intros H. destruct H. unfold known. lia.
  - split; [intros _; exact HK|eauto].
Qed.
Print Assumptions C87_unknown.
(** The error carries the number, as the signed number of the same 64 bits. *)
Theorem C87_number typ buf n :
  0 <= typ < 2 ^ 64 -> UnmarshalMessage typ buf = Err (EUnknownMessage n) -> - 2 ^ 63 <= n < 2 ^ 63 /\ n mod 2 ^ 64 = typ.
Proof.
  intros Ht E. pose proof (proj1 (C87_unknown typ buf) (ex_intro _ n E)) as HK. revert E. unfold UnmarshalMessage.
  pose proof (known_messages typ) as HM. destruct (new_message typ) as [[k v|n0]|]; [destruct HM as (HM & _); tauto|destruct HM as (_ & HM); destruct HK; unfold known; lia|].
  intros [= <-]. unfold to_int64. change (2 ^ 63) with 9223372036854775808 in *. change (2 ^ 64) with 18446744073709551616 in *. destruct (Z.ltb_spec typ 9223372036854775808); (split; [lia|]).
  - apply Z.mod_small. lia.
  - rewrite <- (Z.mod_small typ 18446744073709551616 Ht) at 2. rewrite <- (Z.mod_add (typ - 18446744073709551616) 1) by lia. f_equal. lia.
Qed.
Print Assumptions C87_number.
Example C87_example : UnmarshalMessage 47 [] = Err (EUnknownMessage 47) /\ UnmarshalMessage (2 ^ 64 - 3) [] = Err (EUnknownMessage (-3)) /\ UnmarshalMessage 90 [] = Err EUnexpectedEOF.
Proof. repeat split; reflexivity. Qed.

(** ** C88 *)
(** A received message says the number it came with, except header messages,
    which say 6. *)
Theorem C88_type_partial typ buf m :
  bytes_ok buf -> typ <> 7 -> UnmarshalMessage typ buf = Ok m -> Message_Type m = typ.
Proof.
  intros Hb H7 E. destruct (Z.eq_dec typ 6) as [->|H6].
  - destruct (C86_accepts_blocks buf m Hb E) as (blk & d & -> & _). reflexivity.
  - apply C86_accepts in E; [|assumption|assumption]. destruct E; try reflexivity. congruence.
Qed.
Print Assumptions C88_type_partial.
Theorem C88_header_type_refuted h :
  header_ok h -> UnmarshalMessage 7 (header_bytes h) = Ok (header_msg h) /\ Message_Type (header_msg h) = 6.
Proof.
  intros Hh. split; [|reflexivity]. apply C86_accepts; [apply header_bytes_ok; exact Hh|lia|]. apply pl_header. exact Hh.
Qed.
Print Assumptions C88_header_type_refuted.

(** The number every message says, by its Go type. *)
Theorem C88_numbers :
  (forall n, Message_Type (MEmpty n) = n) /\
  (forall k v n, In (k, n) [(KVersion, 0); (KGetBlocks, 5); (KBlock, 6); (KTx, 8); (KAddr, 20); (KGetAddr, 21); (KHead, 61); (KVerAck, 90);
      (KGetTxProof, 47); (KGetTxReceipts, 49)] -> Message_Type (MPtr k v) = n) /\
  (forall n vs, Message_Type (MPtr KInv (VStruct [VNum n; VList vs])) = n) /\
  (forall n, Message_Type (ping_msg n false) = 22 /\ Message_Type (ping_msg n true) = 23).
Proof.
  split; [reflexivity|]. split; [|split; [reflexivity|split; reflexivity]].
  intros k v n H. cbn [In] in H. repeat (destruct H as [H|H]; [inversion H; subst; reflexivity|]). destruct H.
Qed.
Print Assumptions C88_numbers.

(** ** C89 *)
(** Exactly which messages can be sent, and as what bytes. *)
Lemma sent_marshal m typ e : sent m typ e -> MarshalMessage m = Ok (be 8 typ ++ e).
Proof.
  intros H. destruct H as [l mx d H|h H| |p s r H1 H2 H3|a o H1 H2|h H|key sig H1 H2].
  - assert (exists n, Size (APtr (ty_message KGetBlocks) (VStruct [VList (map vbytes l); VNum mx; VNum d])) = Ok n) as (n & Hn).
    { eexists. change (Size (APtr (ty_message KGetBlocks) (VStruct [VList (map vbytes l); VNum mx; VNum d]))) with
        (let? n := (let? m := size_n (fun v => valueSize (bytesN 32) v no_tags) (map vbytes l) in Ok (2 + m)) in let? m := Ok 3 in Ok (n + m)).
      rewrite size_arrays; [reflexivity|]. destruct H as (H & _). apply Forall_map. eapply Forall_impl; [|exact H]. intros x Hx. apply encodable_array. exact Hx. }
    exact (marshal_message KGetBlocks _ _ n Hn (get_blocks_layout l mx d H)).
  - exact (marshal_message KHeader _ _ 146 (header_size h) (header_msg_layout KHeader h (or_introl eq_refl) H)).
  - exact (marshal_message KAddr (VStruct [VList []]) _ 2 eq_refl no_addresses_layout).
  - exact (marshal_message KGetAddr (VStruct [VNum p; VNum s; VNum r]) _ 7 eq_refl (get_addresses_layout p s r H1 H2 H3)).
  - exact (marshal_message KGetTxReceipts (VStruct [vbytes a; VNum o]) _ 24 eq_refl (receipts_layout a o H1 H2)).
  - exact (marshal_message KHead _ _ 146 (header_size h) (header_msg_layout KHead h (or_intror eq_refl) H)).
  - exact (marshal_message KVerAck (VStruct [vbytes key; vbytes sig]) _ 96 eq_refl (verack_layout key sig H1 H2)).
Qed.
Lemma typed_hdr v : typed (TStruct [field ty_header]) v -> exists h, header_ok h /\ v = VStruct [v_header h].
Proof.
  intros Hv. apply typed_struct in Hv as (vs & -> & Hv). destruct vs as [|a [|]]; cbn [all_typed field] in Hv; try tauto.
  destruct Hv as (Ha & _). apply typed_header in Ha as (Ea & Oa). exists (header_of a). split; [exact Oa|congruence].
Qed.
Theorem C89_sends m b :
  message_ok m -> (MarshalMessage m = Ok b <-> exists typ e, sent m typ e /\ b = be 8 typ ++ e).
Proof.
  intros Hm. split; [|intros (typ & e & Hs & ->); apply sent_marshal; exact Hs].
  intros E. assert (HG : forall typ e, sent m typ e -> exists typ e, sent m typ e /\ b = be 8 typ ++ e).
  { intros typ e Hs. exists typ, e. split; [exact Hs|]. rewrite (sent_marshal _ _ _ Hs) in E. congruence. }
  destruct m as [k v|n]; [|discriminate E]. destruct Hm as (Hv & Hk).
  assert (HU : In k [KPing; KInv; KTx; KVersion; KBlock; KGetTxProof] \/ ~ In k [KPing; KInv; KTx; KVersion; KBlock; KGetTxProof]).
  { destruct k; cbn; intuition congruence. }
  destruct HU as [HU|HU]; [destruct (C46_unsendable_refuted k v HU Hv) as (e & Ee); rewrite Ee in E; discriminate E|].
  destruct k; try (destruct HU; cbn; tauto); clear HU.
  - apply typed_struct in Hv as (vs & -> & Hv). destruct vs as [|a [|c [|d [|]]]]; cbn [all_typed field tagged] in Hv; try tauto.
    destruct Hv as (Ha & Hc & Hd & _). destruct a as [| | | |l| | |]; try contradiction. apply typed_num in Hc as (Ec & Oc). apply typed_num in Hd as (Ed & Od).
    specialize (Hk eq_refl). cbn [fld nth list_of] in Hk.
    assert (HL : l = map vbytes (map bytes_of l) /\ Forall (array 32) (map bytes_of l)).
    { clear -Ha. induction l as [|x l IH]; [repeat constructor|]. inversion Ha as [|? ? Hx Hl]; subst. destruct (IH Hl) as (I1 & I2). apply typed_bytesN in Hx as (Ex & Ox).
      cbn [map]. split; [congruence|constructor; assumption]. }
    destruct HL as (El & Ol). rewrite El, Ec, Ed. rewrite El, Ec, Ed in HG. eapply HG. apply (se_get_blocks (map bytes_of l) (num_of c) (num_of d)).
    split; [exact Ol|]. split; [unfold zlen in *; rewrite map_length; exact Hk|]. split; assumption.
  - destruct (typed_hdr v Hv) as (h & Oh & ->). eapply HG. apply se_header. exact Oh.
  - assert (Hs := Hv). apply typed_struct in Hs as (vs & -> & Hs). destruct vs as [|a [|]]; cbn [all_typed field tagged] in Hs; try tauto.
    destruct Hs as (Ha & _). destruct a as [| | | |l| | |]; try contradiction. destruct l as [|x l]; [eapply HG; apply se_addresses|].
    destruct (C46_addresses_refuted x l Hv) as (e & Ee). rewrite Ee in E. discriminate E.
  - apply typed_struct in Hv as (vs & -> & Hv). destruct vs as [|a [|c [|d [|]]]]; cbn [all_typed field tagged] in Hv; try tauto.
    destruct Hv as (Ha & Hc & Hd & _). apply typed_num in Ha as (Ea & Oa). apply typed_num in Hc as (Ec & Oc). apply typed_num in Hd as (Ed & Od).
    rewrite Ea, Ec, Ed. rewrite Ea, Ec, Ed in HG. eapply HG. apply se_get_addresses; assumption.
  - destruct (typed_hdr v Hv) as (h & Oh & ->). eapply HG. apply se_head. exact Oh.
  - apply typed_struct in Hv as (vs & -> & Hv). destruct vs as [|a [|c [|]]]; cbn [all_typed field tagged] in Hv; try tauto.
    destruct Hv as (Ha & Hc & _). apply typed_bytesN in Ha as (Ea & Oa). apply typed_bytesN in Hc as (Ec & Oc).
    rewrite Ea, Ec. rewrite Ea, Ec in HG. eapply HG. apply se_verack; assumption.
  - apply typed_struct in Hv as (vs & -> & Hv). destruct vs as [|a [|c [|]]]; cbn [all_typed field tagged] in Hv; try tauto.
    destruct Hv as (Ha & Hc & _). apply typed_bytesN in Ha as (Ea & Oa). apply typed_num in Hc as (Ec & Oc).
    rewrite Ea, Ec. rewrite Ea, Ec in HG. eapply HG. apply se_get_receipts; assumption.
Qed.
Print Assumptions C89_sends.
Example C89_example :
  message_ok (get_addresses 1 2 500) /\ MarshalMessage (get_addresses 1 2 500) = Ok [0; 0; 0; 0; 0; 0; 0; 21; 1; 0; 0; 0; 2; 1; 244].
Proof. split; [|reflexivity]. split; [cbn; lia|discriminate]. Qed.
