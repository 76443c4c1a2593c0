(** Properties C44-C48, C51, C76, C78: network addresses, messages, targets. *)
From Coq Require Import ZArith List Lia Bool String.
Import ListNotations.
From Verif.Model Require Import Base Address Beserial Wire Messages Target.
From Verif.Spec Require Import BeserialSpec WireSpec.
From Verif.Proofs Require Import BaseFacts BeserialFacts WireFacts InterlinkFacts BlockFacts LayoutFacts MessageFacts TargetFacts.
From Verif.Props Require Import BeserialProps WireProps BlockProps.
Open Scope Z_scope.

(** ** C44 *)
Definition fresh_netaddr : NetAddress := MkNetAddress 0 [].
(** An IPv6 address decodes to an object that says IPv4; sent on, it is read as a
    4-byte address with 12 bytes left over. *)
Theorem C44_ipv6_refuted ip :
  array 16 ip ->
  let na := MkNetAddress 1 ip in
  let na' := MkNetAddress 0 ip in
  netaddr_ok na /\ (forall b, NetAddress_Marshal na b = Ok (b ++ 1 :: ip, None)) /\
  NetAddress_Unmarshal fresh_netaddr (1 :: ip) = Ok (na', 17) /\ ~ netaddr_ok na' /\
  NetAddress_Marshal na' [] = Ok (0 :: ip, None) /\
  NetAddress_Unmarshal fresh_netaddr (0 :: ip) = Ok (MkNetAddress 0 (firstn 4 ip), 5).
Proof.
  intros (Hl & Hb). cbv zeta. split; [right; split; [reflexivity|split; assumption]|].
  split; [intros b; unfold NetAddress_Marshal; cbn [na_type na_ip]; rewrite <- app_assoc; reflexivity|].
  assert (B1 : bytes_ok (1 :: ip)) by (constructor; [unfold is_byte; lia|exact Hb]).
  assert (B0 : bytes_ok (0 :: ip)) by (constructor; [unfold is_byte; lia|exact Hb]).
  assert (Hz : zlen ip = 16) by (unfold zlen; rewrite Hl; reflexivity).
  rewrite !netaddr_unm by assumption. rewrite Hz. cbn [Z.eqb Z.ltb Z.compare Pos.compare Pos.compare_cont]. cbn [na_type fresh_netaddr].
  rewrite (firstn_all2 (n := 16)) by lia. split; [reflexivity|]. split; [|split; reflexivity].
  intros [(_ & (H & _))|(H & _)]; [cbn [na_ip] in H; lia|cbn [na_type] in H; lia].
Qed.
Print Assumptions C44_ipv6_refuted.
(** IPv4 addresses round trip; of any accepted address the IP bytes and the
    length are right, and the Type is whatever it was before. *)
Theorem C44_ipv4_partial ip rest :
  array 4 ip -> bytes_ok rest ->
  NetAddress_Marshal (MkNetAddress 0 ip) [] = Ok (0 :: ip, None) /\
  NetAddress_Unmarshal fresh_netaddr ((0 :: ip) ++ rest) = Ok (MkNetAddress 0 ip, 5).
Proof.
  intros (Hl & Hb) Hr. split; [reflexivity|].
  assert (B : bytes_ok ((0 :: ip) ++ rest)) by (apply bytes_ok_app; split; [constructor; [unfold is_byte; lia|exact Hb]|exact Hr]).
  rewrite netaddr_unm by exact B. cbn [app]. rewrite zlen_app. assert (Hz : zlen ip = 4) by (unfold zlen; rewrite Hl; reflexivity).
  pose proof (zlen_nonneg rest). change (0 =? 0) with true. cbv iota. destruct (Z.ltb_spec (zlen ip + zlen rest) 4); [lia|]. rewrite firstn_app_len by exact Hl. reflexivity.
Qed.
Print Assumptions C44_ipv4_partial.
Theorem C44_ip_bytes_partial na d na' n :
  bytes_ok d -> NetAddress_Unmarshal na d = Ok (na', n) ->
  (exists rest, d = (0 :: na_ip na') ++ rest /\ array 4 (na_ip na') /\ n = 5 \/ d = (1 :: na_ip na') ++ rest /\ array 16 (na_ip na') /\ n = 17) /\
  na_type na' = na_type na.
Proof.
  intros Hd. rewrite netaddr_unm by exact Hd. destruct d as [|t d]; [discriminate|]. inversion Hd as [|? ? _ Hd']; subst.
  destruct (Z.eqb_spec t 0) as [->|]; [|destruct (Z.eqb_spec t 1) as [->|]; [|discriminate]].
  - destruct (Z.ltb_spec (zlen d) 4); [discriminate|]. intros E. assert (na' = MkNetAddress (na_type na) (firstn 4 d) /\ n = 5) as (-> & ->) by (split; congruence).
    cbn [na_ip na_type]. split; [|reflexivity]. exists (skipn 4 d). left. split; [|split; [|reflexivity]].
    + cbn [app]. rewrite (firstn_skipn 4 d). reflexivity.
    + split; [rewrite firstn_length; unfold zlen in *; lia|apply bytes_ok_firstn; exact Hd'].
  - destruct (Z.ltb_spec (zlen d) 16); [discriminate|]. intros E. assert (na' = MkNetAddress (na_type na) (firstn 16 d) /\ n = 17) as (-> & ->) by (split; congruence).
    cbn [na_ip na_type]. split; [|reflexivity]. exists (skipn 16 d). right. split; [|split; [|reflexivity]].
    + cbn [app]. rewrite (firstn_skipn 16 d). reflexivity.
    + split; [rewrite firstn_length; unfold zlen in *; lia|apply bytes_ok_firstn; exact Hd'].
Qed.
Print Assumptions C44_ip_bytes_partial.

(** ** C45 *)
Definition ping_type (pong : bool) : Z := if pong then 23 else 22.
Definition ping_message (nonce : Z) (pong : bool) : Message := MPtr KPing (v_ping (MkPing nonce pong)).
Lemma ping_value p d : bytes_ok d -> Unmarshal d (APtr (ty_message KPing) (v_ping p)) =
  if zlen d <? 4 then (Err EUnexpectedEOF, 0) else (Ok (Some (v_ping (MkPing (be_get (firstn 4 d)) (pi_pong p)))), 4).
Proof.
  intros Hd. unfold Unmarshal. cbn [ty_message value]. unfold call_unmarshal. cbn [data]. unfold ping_codec, typed_codec. cbn [cd_unmarshal]. rewrite ping_of_v.
  unfold Ping_Unmarshal. destruct (Z.ltb_spec (zlen d) 4) as [Hl|Hl]; cbn [bind].
  - cbn [data]. rewrite Z.sub_diag. reflexivity.
  - change (4 <? 0) with false. cbv iota. destruct (Z.ltb_spec (zlen d) 4); [lia|]. cbn [bind data]. f_equal. unfold zlen in *. rewrite skipn_length. lia.
Qed.
(** UnmarshalMessage accepts exactly the 4-byte payloads, and reads the nonce. *)
Theorem C45_ping_decode pong buf m :
  bytes_ok buf ->
  (UnmarshalMessage (ping_type pong) buf = Ok m <-> zlen buf = 4 /\ m = ping_message (be_get buf) pong) /\
  (zlen buf <> 4 -> exists e, UnmarshalMessage (ping_type pong) buf = Err e).
Proof.
  intros Hd.
  assert (E : UnmarshalMessage (ping_type pong) buf =
    if zlen buf <? 4 then Err EUnexpectedEOF else if 4 =? zlen buf then Ok (ping_message (be_get (firstn 4 buf)) pong) else Err (EJunk (zlen buf - 4))).
  { destruct pong; unfold UnmarshalMessage; cbn [ping_type];
      [change (new_message 23) with (Some (MPtr KPing (v_ping (MkPing 0 true)))) | change (new_message 22) with (Some (MPtr KPing (v_ping (MkPing 0 false))))];
      cbv iota; cbn [message_arg]; rewrite ping_value by exact Hd; destruct (zlen buf <? 4); reflexivity. }
  rewrite E. destruct (Z.ltb_spec (zlen buf) 4) as [Hl|Hl]; [|destruct (Z.eqb_spec 4 (zlen buf)) as [H4|H4]].
  - split; [split; [discriminate|intros (H & _); lia]|eauto].
  - rewrite firstn_all2 by (unfold zlen in H4; lia). split; [split|lia]; [|intros (_ & ->); reflexivity].
    intros Em. split; [lia|congruence].
  - split; [split; [discriminate|intros (H & _); lia]|eauto].
Qed.
Print Assumptions C45_ping_decode.
Theorem C45_ping_round_trip nonce pong :
  u32 nonce ->
  Ping_Marshal (MkPing nonce pong) [] = Ok (be 4 nonce, None) /\
  UnmarshalMessage (ping_type pong) (be 4 nonce) = Ok (ping_message nonce pong) /\
  Message_Type (ping_message nonce pong) = ping_type pong.
Proof.
  intros Hn. assert (Eb : be 4 nonce = be_put 4 nonce) by reflexivity. split; [reflexivity|]. split; [|destruct pong; reflexivity].
  destruct (C45_ping_decode pong (be 4 nonce) (ping_message nonce pong)) as ((_ & H) & _); [rewrite Eb; apply be_put_ok|].
  apply H. split; [rewrite zlen_be; reflexivity|]. rewrite Eb, be_get_put. unfold u32 in Hn. rewrite Z.mod_small by (cbn; lia). reflexivity.
Qed.
Print Assumptions C45_ping_round_trip.

(** ** C46 *)
(** These messages can never be sent: MarshalMessage returns an error for every
    value of them. *)
Theorem C46_unsendable_refuted k v :
  In k [KPing; KInv; KTx; KVersion; KBlock; KGetTxProof] -> typed (ty_message k) v ->
  exists e, MarshalMessage (MPtr k v) = Err e.
Proof.
  intros Hk Hv. assert (Hn : never_sized (ty_message k) no_tags = true).
  { repeat destruct Hk as [<-|Hk]; try reflexivity. contradiction. }
  destruct (size_fails (ty_message k) v no_tags (message_tags_parse k) Hn Hv) as (e & E).
  exists e. unfold MarshalMessage. cbn [message_arg]. unfold Size. rewrite E. reflexivity.
Qed.
Print Assumptions C46_unsendable_refuted.
Example C46_unsendable_example :
  typed (ty_message KPing) (v_ping (MkPing 7 false)) /\
  typed (ty_message KInv) (VStruct [VNum 1; VList [VStruct [VNum 2; vbytes (repeat 3 32)]]]).
Proof. split; cbn; repeat split; try lia; repeat constructor; cbn; repeat split; try lia; repeat constructor; cbn; lia. Qed.
(** EmptyMessages (mempool, get head, ...) cannot be passed at all. *)
Theorem C46_empty_refuted n : MarshalMessage (MEmpty n) = Panic.
Proof. reflexivity. Qed.
Print Assumptions C46_empty_refuted.
(** A header message is sent with the type number of a block message, and what
    was sent cannot be read as one. *)
Definition header_message (h : BlockHeader) : Message := MPtr KHeader (VStruct [v_header h]).
Lemma wrapped_enc t v e : enc t no_tags v e -> enc (TStruct [field t]) no_tags (VStruct [v]) e.
Proof. intros H. apply enc_struct. eapply enc_last; [reflexivity|exact H]. Qed.
Lemma marshal_message k v e n : Size (APtr (ty_message k) v) = Ok n -> enc (ty_message k) no_tags v e ->
  MarshalMessage (MPtr k v) = Ok (be 8 (Message_Type (MPtr k v)) ++ e).
Proof.
  intros Hs He. unfold MarshalMessage. cbn [message_arg]. rewrite Hs. cbn [bind]. rewrite (proj1 (enc_marshal _ _ _ He)). cbn [bind]. reflexivity.
Qed.
Lemma header_size h : Size (APtr (TStruct [field ty_header]) (VStruct [v_header h])) = Ok 146.
Proof. reflexivity. Qed.
Lemma header_bytes_length h : header_ok h -> zlen (header_bytes h) = 146.
Proof.
  intros (_ & H1 & H2 & H3 & H4 & _). unfold header_bytes. rewrite !zlen_app, !zlen_be, (zlen_array _ _ H1), (zlen_array _ _ H2), (zlen_array _ _ H3), (zlen_array _ _ H4). reflexivity.
Qed.
Lemma header_bytes_ok h : header_ok h -> bytes_ok (header_bytes h).
Proof. intros (_ & (_ & H1) & (_ & H2) & (_ & H3) & (_ & H4) & _). unfold header_bytes. rewrite !bytes_ok_app. repeat split; auto using be_ok. Qed.
Theorem C46_header_refuted h :
  header_ok h ->
  MarshalMessage (header_message h) = Ok (be 8 6 ++ header_bytes h) /\
  exists e, UnmarshalMessage 6 (header_bytes h) = Err e.
Proof.
  intros Hh. split.
  - apply (marshal_message KHeader _ _ 146); [apply header_size|]. apply wrapped_enc. apply header_layout. exact Hh.
  - unfold UnmarshalMessage. change (new_message 6) with (Some (MPtr KBlock (zero (ty_message KBlock)))). cbv iota. cbn [message_arg].
    rewrite unmarshal_block_message.
    pose proof (header_bytes_ok h Hh) as Hb. pose proof (header_bytes_length h Hh) as Hl.
    pose proof (C77_accepted_blocks (header_bytes h) Hb) as HC. unfold decode_block in HC.
    destruct (Unmarshal (header_bytes h) (APtr ty_block (zero ty_block))) as (r & n). destruct r as [o|e| |]; cbn [bind] in *.
    + exfalso. destruct HC as [(e & E)|[(_ & x & Hx & _)|(blk & n' & bs & distinct & _ & Hh' & Hi & _ & _ & E & Hn)]].
      * destruct o; discriminate.
      * assert (nth_error (header_bytes h) 146 <> None) as N by congruence. apply nth_error_Some in N. unfold zlen in Hl. lia.
      * apply (f_equal (@zlen Z)) in E. unfold block_bytes, interlink_bytes, bitset_bytes in E. rewrite !zlen_app, (header_bytes_length _ Hh'), zlen_cons in E.
        assert (zlen (firstn (Z.to_nat n') (header_bytes h)) <= 146) by (unfold zlen in *; rewrite firstn_length; lia).
        pose proof (zlen_nonneg (Bits bs)). pose proof (zlen_nonneg (List.concat distinct)). pose proof (zlen_nonneg (opt_body_bytes (bl_body blk))). lia.
    + eauto.
    + exfalso. destruct HC as [(e & E)|[(_ & x & Hx & _)|(blk & n' & bs & distinct & E & _)]]; try discriminate.
      assert (nth_error (header_bytes h) 146 <> None) as N by congruence. apply nth_error_Some in N. unfold zlen in Hl. lia.
    + exfalso. destruct HC as [(e & E)|[(E & _)|(blk & n' & bs & distinct & E & _)]]; discriminate.
Qed.
Print Assumptions C46_header_refuted.
(** A get-transaction-receipts message is sent but its type number is not known
    to the receiver; and an address message with any addresses cannot be sent. *)
Theorem C46_receipts_refuted addr offset :
  array 20 addr -> u32 offset ->
  MarshalMessage (MPtr KGetTxReceipts (VStruct [vbytes addr; VNum offset])) = Ok (be 8 49 ++ addr ++ be 4 offset) /\
  forall buf, UnmarshalMessage 49 buf = Err (EUnknownMessage 49).
Proof.
  intros Ha Ho. split; [|reflexivity]. apply (marshal_message KGetTxReceipts _ _ 24); [reflexivity|].
  apply enc_struct. enc_fields_tac; [apply enc_bytesN; exact Ha|apply (enc_int U32); exact Ho].
Qed.
Print Assumptions C46_receipts_refuted.
Theorem C46_addresses_refuted p ps :
  typed (ty_message KAddr) (VStruct [VList (p :: ps)]) -> exists e, MarshalMessage (MPtr KAddr (VStruct [VList (p :: ps)])) = Err e.
Proof.
  intros Hv. assert (Hp : exists e, valueSize ty_peer p no_tags = Err e).
  { apply size_fails; [cbn [tags_parse ty_peer ty_peer_header ty_netaddr field bytesN]; repeat split; eexists; reflexivity|reflexivity|].
    cbn [ty_message tagged] in Hv. apply typed_struct in Hv as (vs & E & Hv). injection E as <-. destruct Hv as (Hv & _). inversion Hv; assumption. }
  destruct Hp as (e & E). exists e. unfold MarshalMessage. cbn [message_arg]. unfold Size.
  assert (E2 : valueSize (ty_message KAddr) (VStruct [VList (p :: ps)]) no_tags = Err e); [|rewrite E2; reflexivity].
  change (valueSize (ty_message KAddr) (VStruct [VList (p :: ps)]) no_tags) with
    (let? n := (let? m := (let? n := valueSize ty_peer p no_tags in let? m := size_n (fun v => valueSize ty_peer v no_tags) ps in Ok (n + m)) in Ok (2 + m)) in
     let? m := Ok 0 in Ok (n + m)).
  rewrite E. reflexivity.
Qed.
Print Assumptions C46_addresses_refuted.
(** These do survive: get-blocks, head, get-addresses, version-acknowledge, and
    the empty address list. *)
Lemma size_arrays m l : Forall (encodable (bytesN m) no_tags) l -> size_n (fun v => valueSize (bytesN m) v no_tags) l = Ok (zlen l * Z.of_nat m).
Proof.
  induction 1 as [|v l Hv _ IH]; [reflexivity|]. cbn [size_n]. destruct v; try contradiction.
  assert (E : valueSize (bytesN m) (VList l0) no_tags = Ok (Z.of_nat m * 1)) by reflexivity.
  rewrite E. cbn [bind]. rewrite IH. cbn [bind]. rewrite zlen_cons. f_equal. lia.
Qed.
Lemma sized k v : In k [KGetBlocks; KHead; KGetAddr; KVerAck] -> encodable (ty_message k) no_tags v -> exists n, Size (APtr (ty_message k) v) = Ok n.
Proof.
  assert (HS : forall fs w, encodable (TStruct fs) no_tags w -> exists vs, w = VStruct vs /\ all_enc fs vs).
  { intros fs w H. destruct w; try contradiction. eexists. split; [reflexivity|]. exact H. }
  intros Hk Hv. repeat destruct Hk as [<-|Hk]; [| | | |contradiction]; cbn [ty_message] in *; apply HS in Hv as (vs & -> & Hv).
  - destruct vs as [|v1 [|v2 [|v3 [|? ?]]]]; cbn [all_enc tagged field] in Hv; try (now intuition).
    destruct Hv as ((t1 & Et1 & H1) & _). destruct v1; try contradiction. injection Et1 as <-. destruct H1 as (_ & _ & _ & H1).
    unfold Size. eexists.
    change (valueSize (TStruct [tagged "len_tag=uint16" (TSlice (bytesN 32)); field (TNum U16); field (TNum U8)]) (VStruct [VList l; v2; v3]) no_tags) with
      (let? n := (let? m := size_n (fun v => valueSize (bytesN 32) v no_tags) l in Ok (2 + m)) in let? m := Ok 3 in Ok (n + m)).
    rewrite (size_arrays 32 l H1). reflexivity.
  - destruct vs as [|v1 [|? ?]]; cbn [all_enc tagged field] in Hv; try (now intuition).
    destruct Hv as ((t1 & Et1 & H1) & _). apply HS in H1 as (ws & -> & Hw). unfold ty_header in Hw.
    destruct ws as [|w1 [|w2 [|w3 [|w4 [|w5 [|w6 [|w7 [|w8 [|w9 [|? ?]]]]]]]]]]; cbn [all_enc field] in Hw; try (now intuition).
    destruct Hw as (_ & (t2 & _ & H2) & (t3 & _ & H3) & (t4 & _ & H4) & (t5 & _ & H5) & _).
    destruct w2, w3, w4, w5; try contradiction. eexists. reflexivity.
  - destruct vs as [|v1 [|v2 [|v3 [|? ?]]]]; cbn [all_enc tagged field] in Hv; try (now intuition). eexists. reflexivity.
  - destruct vs as [|v1 [|v2 [|? ?]]]; cbn [all_enc tagged field] in Hv; try (now intuition).
    destruct Hv as ((t1 & _ & H1) & (t2 & _ & H2) & _). destruct v1, v2; try contradiction. eexists. reflexivity.
Qed.
Theorem C46_round_trip_partial k v :
  (In k [KGetBlocks; KHead; KGetAddr; KVerAck] \/ k = KAddr /\ v = VStruct [VList []]) -> encodable (ty_message k) no_tags v ->
  let m := MPtr k v in
  exists payload, MarshalMessage m = Ok (be 8 (Message_Type m) ++ payload) /\ UnmarshalMessage (Message_Type m) payload = Ok m.
Proof.
  intros Hk Hv. destruct (C27_decode_inverts_encode _ _ Hv) as (e & He & _ & Hu & _). cbv zeta. exists e. split.
  - assert (exists n, Size (APtr (ty_message k) v) = Ok n) as (n & Hn).
    { destruct Hk as [Hk|(-> & ->)]; [apply sized; assumption|eexists; reflexivity]. }
    exact (marshal_message k v e n Hn He).
  - assert (Hnew : new_message (Message_Type (MPtr k v)) = Some (MPtr k (zero (ty_message k)))).
    { destruct Hk as [Hk|(-> & ->)]; [|reflexivity]. repeat destruct Hk as [<-|Hk]; try reflexivity. contradiction. }
    unfold UnmarshalMessage. rewrite Hnew. cbn [message_arg]. specialize (Hu (zero (ty_message k)) []). rewrite app_nil_r in Hu. rewrite Hu. cbn [bind].
    rewrite Z.eqb_refl. reflexivity.
Qed.
Print Assumptions C46_round_trip_partial.
Example C46_example :
  let v := VStruct [VList [vbytes (repeat 1 32); vbytes (repeat 2 32)]; VNum 500; VNum 1] in
  encodable (ty_message KGetBlocks) no_tags v /\
  UnmarshalMessage 5 ([0; 2] ++ repeat 1 32 ++ repeat 2 32 ++ [1; 244; 1]) = Ok (MPtr KGetBlocks v).
Proof.
  cbv zeta. split; [|reflexivity]. cbn [ty_message]. apply encodable_struct. eapply all_enc_tag; [reflexivity| |].
  - apply encodable_slice; try reflexivity; [intros H; discriminate H|]. apply Forall_cons; [|apply Forall_cons; [|apply Forall_nil]]; apply encodable_array; (split; [reflexivity|]); repeat constructor; unfold is_byte; lia.
  - repeat (apply all_enc_cons; [apply encodable_num; cbn; lia|]). exact I.
Qed.

(** ** C47 *)
(** A get-mempool, reject-or-the-like message type makes UnmarshalMessage panic,
    whatever the payload; so does a block whose interlink has 249 or more bits. *)
Theorem C47_empty_panics_refuted typ buf : In typ [9; 40; 60] -> UnmarshalMessage typ buf = Panic.
Proof. intros H. repeat destruct H as [<-|H]; try reflexivity. contradiction. Qed.
Print Assumptions C47_empty_panics_refuted.
Theorem C47_block_panics_refuted buf x :
  bytes_ok buf -> nth_error buf 146 = Some x -> 249 <= x -> UnmarshalMessage 6 buf = Panic.
Proof.
  intros Hb Hx Hge. unfold UnmarshalMessage. change (new_message 6) with (Some (MPtr KBlock (zero (ty_message KBlock)))). cbv iota. cbn [message_arg].
  rewrite unmarshal_block_message. pose proof (block_unm (zero ty_block) buf Hb) as H.
  destruct (Unmarshal buf (APtr ty_block (zero ty_block))) as (r & n). destruct H as (_ & H). rewrite (H x Hx Hge). reflexivity.
Qed.
Print Assumptions C47_block_panics_refuted.
(** On all other inputs it returns. *)
Theorem C47_returns_partial typ buf :
  bytes_ok buf -> ~ In typ [9; 40; 60] -> (forall x, typ = 6 -> nth_error buf 146 = Some x -> x <= 248) ->
  (exists m, UnmarshalMessage typ buf = Ok m) \/ (exists e, UnmarshalMessage typ buf = Err e).
Proof.
  intros Hb Ht H6. unfold UnmarshalMessage. destruct (new_message typ) as [m|] eqn:En; [|right; eauto].
  destruct (new_message_kinds typ m En) as [(-> & ->)|[(_ & Hc)|(_ & _ & _ & _ & k & v & -> & Hk)]].
  - cbn [message_arg]. rewrite unmarshal_block_message. pose proof (block_unm (zero ty_block) buf Hb) as H.
    destruct (Unmarshal buf (APtr ty_block (zero ty_block))) as (r & n). destruct H as (H & _). destruct r as [o|e| |]; cbn [bind].
    + destruct (n =? zlen buf); [left|right]; eauto.
    + right; eauto.
    + destruct H as (x & Hx & Hge). specialize (H6 x eq_refl Hx). lia.
    + contradiction.
  - exfalso. apply Ht. cbn. lia.
  - cbn [message_arg]. destruct (unmarshal_message_returns k v buf Hb Hk) as [(m & E)|(e & E)];
      destruct (Unmarshal buf (APtr (ty_message k) v)) as (r & n); destruct r as [o|er| |]; cbn [bind] in *; try discriminate;
      destruct (n =? zlen buf); try discriminate; first [left; eexists; reflexivity | right; eexists; reflexivity].
Qed.
Print Assumptions C47_returns_partial.
Example C47_example : UnmarshalMessage 90 (repeat 5 96) = Ok (MPtr KVerAck (VStruct [vbytes (repeat 5 32); vbytes (repeat 5 64)])) /\
  UnmarshalMessage 90 (repeat 5 97) = Err (EJunk 1) /\ UnmarshalMessage 90 (repeat 5 95) = Err EUnexpectedEOF.
Proof. repeat split. Qed.

(** ** C48 *)
(** No peer address can be sent or received. *)
Theorem C48_peer_addresses_refuted :
  (forall pa d, bytes_ok d -> exists e, PeerAddress_Unmarshal pa d = Err e) /\
  (forall pa b, typed ty_peer_header (v_peer_header (pa_header pa)) -> exists r e, PeerAddress_Marshal pa b = Ok (r, Some e)).
Proof.
  split; [exact peer_unm_err|]. intros pa b Ht.
  assert (Hn : forall v, exists e, forall b, cd_marshal netaddr_codec v b = Ok (b ++ e, None)).
  { intros v. unfold netaddr_codec, typed_codec. cbn [cd_marshal]. unfold NetAddress_Marshal. eexists. intros b'. rewrite <- app_assoc. reflexivity. }
  assert (Hd : well_declared codec_total ty_peer_header).
  { assert (codec_total netaddr_codec) by (intros v; left; apply Hn). cbn [well_declared ty_peer_header field bytesN ty_netaddr]. declare. }
  destruct (C32_marshal_appends_partial _ _ Hd Ht) as (H & _).
  destruct H as (e & He).
  { unfold ty_peer_header, v_peer_header. cbn [parts_ok field bytesN ty_netaddr vbytes].
    repeat match goal with
    | |- _ /\ _ => split
    | |- exists ts, field_tags _ = Ok ts /\ _ => eexists; split; [reflexivity|]
    | |- True => exact I
    | |- Forall _ _ => apply Forall_forall; intros ? _; exact I
    end. apply Hn. }
  unfold PeerAddress_Marshal. rewrite He. cbn [m_then bind]. do 2 eexists. reflexivity.
Qed.
Print Assumptions C48_peer_addresses_refuted.
Example C48_example :
  let pa := MkPeerAddress (MkPeerHeader 1 5 1000 (MkNetAddress 0 [127; 0; 0; 1]) (repeat 1 32) 0 (repeat 2 64)) None in
  typed ty_peer_header (v_peer_header (pa_header pa)) /\ PeerAddress_Marshal pa [] = Ok ([], Some ECannotMarshal).
Proof. split; [|reflexivity]. cbn. repeat split; try lia; repeat constructor; lia. Qed.

(** ** C51 *)
(** The compact form: an exponent byte and a 23-bit mantissa with a value that
    is at most the target and less than one unit of the last kept byte below it;
    the mantissa has at least 16 significant bits. *)
Theorem C51_compact_target t :
  2 ^ 16 <= t < 2 ^ 2032 ->
  exists c, TargetToCompact t = Ok c /\ 0 <= c < 2 ^ 32 /\
    let mantissa := c mod 2 ^ 24 in
    let unit := 256 ^ (c / 2 ^ 24 - 3) in
    2 ^ 15 <= mantissa < 2 ^ 23 /\ 3 <= c / 2 ^ 24 /\
    mantissa * unit <= t < mantissa * unit + unit /\ (t - mantissa * unit) * 2 ^ 15 < t.
Proof.
  intros Ht. destruct (compact_value t Ht) as (c & E & Hc & Hm & Hm2 & He & Hv). cbv zeta in *. exists c.
  split; [exact E|]. split; [exact Hc|]. split; [lia|]. split; [exact He|]. split; [exact Hv|].
  set (m := c mod 2 ^ 24) in *. set (u := 256 ^ (c / 2 ^ 24 - 3)) in *. assert (0 < u) by (apply Z.pow_pos_nonneg; lia). nia.
Qed.
Print Assumptions C51_compact_target.
(** With less than three bytes it panics. *)
Theorem C51_small_target_panics t : 0 <= t < 2 ^ 16 -> TargetToCompact t = Panic.
Proof.
  intros Ht. unfold TargetToCompact, big_bytes. rewrite Z.abs_eq by lia. destruct (Z.eqb_spec t 0) as [->|Hz]; [reflexivity|].
  assert (Hl : Z.log2 t < 16) by (apply Z.log2_lt_pow2; lia). assert (H0 : 0 <= Z.log2 t) by apply Z.log2_nonneg.
  assert (Hd : 0 <= Z.log2 t / 8 < 2) by (split; [apply Z.div_pos; lia|apply Z.div_lt_upper_bound; lia]).
  assert (Z.log2 t / 8 = 0 \/ Z.log2 t / 8 = 1) as [-> | ->] by lia.
  - change (Z.to_nat (0 + 1)) with 1%nat. cbn [be_put]. unfold zlen. cbn [List.length]. cbn [index nth_error bind].
    change (3 <=? Z.of_nat 1) with false. rewrite andb_false_r. reflexivity.
  - change (Z.to_nat (1 + 1)) with 2%nat. cbn [be_put]. unfold zlen. cbn [List.length]. cbn [index nth_error bind].
    change (3 <=? Z.of_nat 2) with false. rewrite andb_false_r. reflexivity.
Qed.
Print Assumptions C51_small_target_panics.
(** DifficultyToTarget is floor(2^240 / d). *)
Theorem C51_difficulty d :
  (0 < d -> exists t, DifficultyToTarget d = Ok t /\ d * t <= 2 ^ 240 < d * (t + 1)) /\ DifficultyToTarget 0 = Panic /\
  (0 < d <= 2 ^ 224 -> exists c t, DifficultyToCompact d = Ok c /\ DifficultyToTarget d = Ok t /\ TargetToCompact t = Ok c).
Proof.
  split; [|split; [reflexivity|]].
  - intros Hd. unfold DifficultyToTarget. destruct (Z.eqb_spec d 0); [lia|]. destruct (Z.ltb_spec 0 d); [|lia]. rewrite target_max.
    eexists. split; [reflexivity|]. pose proof (Z.div_mod (2 ^ 240) d ltac:(lia)). pose proof (Z.mod_pos_bound (2 ^ 240) d Hd). nia.
  - intros Hd. unfold DifficultyToCompact, DifficultyToTarget. destruct (Z.eqb_spec d 0); [lia|]. destruct (Z.ltb_spec 0 d); [|lia]. rewrite target_max. cbn [bind].
    destruct (C51_compact_target (2 ^ 240 / d)) as (c & E & _).
    + split; [apply Z.div_le_lower_bound; nia|]. apply Z.div_lt_upper_bound; [lia|].
      assert (2 ^ 240 < 2 ^ 2032) by (apply Z.pow_lt_mono_r; lia). nia.
    + exists c, (2 ^ 240 / d). repeat split; assumption.
Qed.
Print Assumptions C51_difficulty.
Example C51_example : DifficultyToCompact 1 = Ok 0x1f010000 /\ DifficultyToCompact 250 = Ok 0x1e010624.
Proof. split; reflexivity. Qed.

(** ** C76 *)
(** An accounts-tree chunk that holds any node, or any proof node, cannot be
    encoded; and only the empty chunk (four zero bytes) can be decoded. *)
Definition v_chunk (nodes proof : list bytes) : val := VStruct [VList (map vbytes nodes); VStruct [VList (map vbytes proof)]].
Theorem C76_chunk_refuted nodes proof b :
  nodes <> [] \/ proof <> [] -> exists r e, Marshal b (APtr ty_chunk (v_chunk nodes proof)) = Ok (r, Some e).
Proof.
  intros H. destruct nodes as [|n ns].
  - destruct proof as [|p ps]; [destruct H; congruence|]. exists [], ENoLenTag. reflexivity.
  - exists [], ENoLenTag. reflexivity.
Qed.
Print Assumptions C76_chunk_refuted.
Theorem C76_chunk_decode_refuted dst d v n :
  bytes_ok d -> Unmarshal d (APtr ty_chunk dst) = (Ok (Some v), n) -> v = v_chunk [] [] /\ n = 4 /\ firstn 4 d = [0; 0; 0; 0].
Proof.
  intros Hd E.
  assert (Hw : forall P, well_declared P ty_chunk) by (intros P; cbn [well_declared ty_chunk ty_accounts_proof tagged field]; declare).
  assert (Ev : v = v_chunk [] []).
  { unfold Unmarshal in E. destruct (value ty_chunk no_tags dst (DState d [])) as (r & s) eqn:Ev. destruct r as [w|e| |]; try discriminate.
    assert (w = v) as -> by (cbn [bind] in E; congruence).
    assert (Ho : slices_occupy ty_chunk) by (cbn [slices_occupy ty_chunk ty_accounts_proof tagged field]; repeat split).
    pose proof (value_decoded (fun _ _ => True) ty_chunk (Hw _) Ho no_tags dst (DState d []) v s ltac:(intros ? ?; discriminate) Hd Ev) as H.
    assert (HN : forall vs, Forall (decoded (fun _ _ => True) (TSlice (TNum U8)) no_tags) vs -> vs = []).
    { intros [|x vs] HF; [reflexivity|]. inversion HF as [|? ? Hx _]; subst. destruct x; try contradiction. destruct Hx as (_ & _ & (k & Hk & _) & _). discriminate Hk. }
    destruct v as [| | | | |vs| |]; try contradiction. change (all_dec (fun _ _ => True) [tagged "len_tag=uint16" (TSlice (TSlice (TNum U8))); field ty_accounts_proof] vs) in H.
    destruct vs as [|v1 [|v2 [|? ?]]]; cbn [all_dec field tagged] in H; try (now intuition). destruct H as ((t1 & _ & H1) & (t2 & _ & H2) & _).
    destruct v1; try contradiction. destruct H1 as (_ & _ & _ & H1). apply HN in H1 as ->.
    destruct v2 as [| | | | |ws| |]; try contradiction. change (all_dec (fun _ _ => True) [tagged "len_tag=uint16" (TSlice (TSlice (TNum U8)))] ws) in H2.
    destruct ws as [|w1 [|? ?]]; cbn [all_dec tagged] in H2; try (now intuition). destruct H2 as ((t3 & _ & H3) & _).
    destruct w1; try contradiction. destruct H3 as (_ & _ & _ & H3). apply HN in H3 as ->. reflexivity. }
  split; [exact Ev|]. pose proof (C30_canonical ty_chunk dst d v n (Hw _) Hd E []) as Hc. rewrite Ev in Hc.
  assert (Hm : Marshal [] (APtr ty_chunk (v_chunk [] [])) = Ok ([0; 0; 0; 0], None)) by reflexivity. rewrite Hm in Hc. cbn [app] in Hc.
  assert (Ef : firstn (Z.to_nat n) d = [0; 0; 0; 0]) by congruence.
  destruct (C28_unmarshal_total ty_chunk dst d (Hw _) Hd) as (r & n' & E' & Hn & _). rewrite E in E'. assert (n' = n) as -> by congruence.
  assert (En : n = 4). { apply (f_equal (@List.length Z)) in Ef. rewrite firstn_length in Ef. cbn [List.length] in Ef. unfold zlen in Hn. lia. }
  subst n. split; [reflexivity|exact Ef].
Qed.
Print Assumptions C76_chunk_decode_refuted.
(** All that works. *)
Theorem C76_empty_chunk_partial rest :
  Marshal [] (APtr ty_chunk (v_chunk [] [])) = Ok ([0; 0; 0; 0], None) /\
  Unmarshal ([0; 0; 0; 0] ++ rest) (APtr ty_chunk (zero ty_chunk)) = (Ok (Some (v_chunk [] [])), 4).
Proof.
  split; [reflexivity|].
  assert (He : encodable ty_chunk no_tags (v_chunk [] [])).
  { assert (encodable (TSlice (TSlice (TNum U8))) (Tags (Some U16) false) (VList [])) as Hs.
    { apply encodable_slice; try reflexivity; [intros H; discriminate H|constructor]. }
    apply encodable_struct. eapply all_enc_tag; [reflexivity|exact Hs|]. apply all_enc_cons; [|exact I].
    apply encodable_struct. eapply all_enc_tag; [reflexivity|exact Hs|exact I]. }
  destruct (C27_decode_inverts_encode _ _ He) as (e & _ & Hm & Hu & _).
  assert (e = [0; 0; 0; 0]) as ->. { specialize (Hm []). change (Marshal [] (APtr ty_chunk (v_chunk [] []))) with (Ok ([0; 0; 0; 0], @None error)) in Hm. cbn [app] in Hm. congruence. }
  apply Hu.
Qed.
Print Assumptions C76_empty_chunk_partial.

(** ** C78 *)
Theorem C78_staking_round_trip x rest :
  staking_ok x ->
  (forall b, Marshal b (APtr ty_staking (v_staking x)) = Ok (b ++ staking_bytes x, None)) /\
  Unmarshal (staking_bytes x ++ rest) (APtr ty_staking (zero ty_staking)) = (Ok (Some (v_staking x)), zlen (staking_bytes x)).
Proof.
  intros (H1 & H2 & H3).
  assert (He : enc ty_staking no_tags (v_staking x) (staking_bytes x)).
  { apply enc_struct. unfold staking_bytes. enc_fields_tac; [apply enc_bytesN; exact H1| |apply enc_bytesN; exact H3].
    destruct (sk_reward x) as [a|]; [apply enc_opt_some; [reflexivity|reflexivity|apply enc_bytesN; auto]|apply enc_opt_none; reflexivity]. }
  destruct (enc_marshal _ _ _ He) as (Hm & Hu). split; [exact Hm|apply Hu].
Qed.
Print Assumptions C78_staking_round_trip.
Example C78_example : staking_ok (MkStaking (repeat 1 96) (Some (repeat 2 20)) (repeat 3 48)).
Proof. repeat split; cbn [sk_key sk_reward sk_proof]; try (repeat constructor; unfold is_byte; lia); injection H as <-; try reflexivity; repeat constructor; unfold is_byte; lia. Qed.

(** C75, for pings and peer addresses: SizeBESerial of a ping is what
    MarshalBESerial appends; a peer address has no size, as it cannot be encoded. *)
Theorem C75_pings_and_peers :
  (forall p b, exists e, Ping_Marshal p b = Ok (b ++ e, None) /\ zlen e = Ping_Size p) /\
  (forall pa, exists e, PeerAddress_Size pa = Err e).
Proof.
  split.
  - intros p b. eexists. split; [reflexivity|]. reflexivity.
  - intros pa. unfold PeerAddress_Size. destruct pa as [[a b c d e f g] dt]. cbn. eexists. reflexivity.
Qed.
Print Assumptions C75_pings_and_peers.
