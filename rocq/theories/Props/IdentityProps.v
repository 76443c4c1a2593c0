(** Properties C96-C99: wallets and any transaction, peer identities, protocol schemes, hexadecimal paths;
    and C70 for transactions of any size. *)
From Coq Require Import ZArith List Lia Bool String.
Import ListNotations.
From Verif.Model Require Import Base Address Nibbles Beserial Wire Wallet Strings.
From Verif.Spec Require Import BeserialSpec WireSpec AddressSpec AccountSpec WalletSpec PeerSpec HexSpec.
From Verif.Proofs Require Import BaseFacts NibblesFacts BeserialFacts WireFacts LayoutFacts AccountFacts.
From Verif.Props Require Import BeserialProps WireProps WalletProps PeerProps.
Open Scope Z_scope.

(** ** C70 without the size limit *)
Lemma marshal_data d fs vs b :
  marshal_fields (tagged "len_tag=uint16" (TSlice (TNum U8)) :: fs) (vbytes d :: vs) b = marshal_fields fs vs (b ++ be 2 (zlen d) ++ d).
Proof.
  cbn [marshal_fields tagged].
  cbn [bind marshal lenTag m_then]. unfold marshalInt. cbn [signed bind]. unfold vbytes. cbn [is_u8 num_kind].
  rewrite raw_bytes_map. unfold zlen. rewrite map_length. change (field_tags (Some (str "len_tag=uint16"))) with (@Ok tags (Tags (Some U16) false)).
  cbn [bind lenTag signed m_then width]. rewrite <- app_assoc. reflexivity.
Qed.
Lemma tx_parts H t : hash_fn H -> memory_tx t ->
  List.length (tx_sender H t) = 20%nat /\ array 20 (tx_sender H t) /\ array 20 (tx_recipient t) /\ u8 (tx_sender_type t) /\ u8 (tx_recipient_type t) /\
  u64 (tx_value t) /\ u64 (tx_fee t) /\ u32 (tx_start t) /\ u8 (tx_network t) /\ u8 (tx_flags t).
Proof.
  intros HH Ht. assert (Z0 : u8 0) by (unfold u8; lia). destruct t as [b|x]; cbn [memory_tx tx_ok] in Ht.
  - destruct Ht as (X1 & X2 & X3 & X4 & X5 & X6 & _). cbn [tx_data tx_sender tx_recipient tx_sender_type tx_recipient_type tx_value tx_fee tx_start tx_network tx_flags].
    assert (A : array 20 (firstn 20 (H (b_pubkey b)))).
    { destruct (HH (b_pubkey b)) as (L & B). split; [rewrite firstn_length, L; reflexivity|]. apply bytes_ok_firstn, B. }
    split; [apply A|]. auto 12.
  - destruct Ht as (X1 & X3 & X4 & X5 & X6 & X7 & X8 & X9 & X10 & X11 & _). cbn [tx_data tx_sender tx_recipient tx_sender_type tx_recipient_type tx_value tx_fee tx_start tx_network tx_flags].
    split; [apply X3|]. auto 12.
Qed.
Theorem C70_payload_any_size H t : hash_fn H -> memory_tx t ->
  Marshal [] (APtr ty_content (v_content (AsTxContent H t))) = Ok (signed_bytes H t, None).
Proof.
  intros HH Ht. destruct (tx_parts H t HH Ht) as (_ & P1 & P2 & P3 & P4 & P5 & P6 & P7 & P8 & P9).
  replace (AsTxContent H t) with (MkTxContent (tx_data t) (tx_sender H t) (tx_sender_type t) (tx_recipient t) (tx_recipient_type t) (tx_value t) (tx_fee t) (tx_start t) (tx_network t) (tx_flags t)) by (destruct t; reflexivity).
  unfold Marshal, ty_content, v_content, ty_content_fields, v_content_fields. rewrite marshal_struct.
  cbn [c_data c_sender c_sender_type c_recipient c_recipient_type c_value c_fee c_height c_network c_flags].
  rewrite marshal_data.
  rewrite (marshal_step _ _ _ _ _ _ (enc_bytesN 20 _ _ P1)), (marshal_step _ _ _ _ _ _ (enc_int U8 _ _ P3)), (marshal_step _ _ _ _ _ _ (enc_bytesN 20 _ _ P2)),
    (marshal_step _ _ _ _ _ _ (enc_int U8 _ _ P4)), (marshal_step _ _ _ _ _ _ (enc_int U64 _ _ P5)), (marshal_step _ _ _ _ _ _ (enc_int U64 _ _ P6)),
    (marshal_step _ _ _ _ _ _ (enc_int U32 _ _ P7)), (marshal_step _ _ _ _ _ _ (enc_int U8 _ _ P8)), (marshal_step _ _ _ _ _ _ (enc_int U8 _ _ P9)).
  cbn [marshal_fields]. unfold m_ok, signed_bytes. cbn [width app]. rewrite <- !app_assoc. reflexivity.
Qed.
Print Assumptions C70_payload_any_size.

(** Even the contents of transactions whose data does not fit its length prefix are told apart
    by what is signed (the prefix is then the length modulo 2^16, but the whole message is longer). *)
Theorem C70_any_size_determines_content H t t' :
  hash_fn H -> memory_tx t -> memory_tx t' -> signed_bytes H t = signed_bytes H t' ->
  tx_data t = tx_data t' /\ tx_sender H t = tx_sender H t' /\ tx_sender_type t = tx_sender_type t' /\
  tx_recipient t = tx_recipient t' /\ tx_recipient_type t = tx_recipient_type t' /\ tx_value t = tx_value t' /\
  tx_fee t = tx_fee t' /\ tx_start t = tx_start t' /\ tx_network t = tx_network t' /\ tx_flags t = tx_flags t'.
Proof.
  intros HH Ht Ht' E.
  destruct (tx_parts H t HH Ht) as (A1 & _ & (A2 & _) & A4 & A5 & A6 & A7 & A8 & A9 & A10).
  destruct (tx_parts H t' HH Ht') as (B1 & _ & (B2 & _) & B4 & B5 & B6 & B7 & B8 & B9 & B10).
  assert (L : List.length (tx_data t) = List.length (tx_data t')).
  { apply (f_equal (@List.length Z)) in E. unfold signed_bytes in E. rewrite !app_length, !be_len, A1, A2, B1, B2 in E. lia. }
  unfold u8, u32, u64 in *. unfold signed_bytes in E.
  apply bytes_split in E as (E1 & E); [|rewrite !be_len; reflexivity].
  apply bytes_split in E as (E2 & E); [|exact L].
  apply bytes_split in E as (E3 & E); [|congruence].
  apply bytes_split in E as (E4 & E); [|rewrite !be_len; reflexivity]. apply be_injective in E4; [|cbn; lia|cbn; lia].
  apply bytes_split in E as (E5 & E); [|congruence].
  apply bytes_split in E as (E6 & E); [|rewrite !be_len; reflexivity]. apply be_injective in E6; [|cbn; lia|cbn; lia].
  apply bytes_split in E as (E7 & E); [|rewrite !be_len; reflexivity]. apply be_injective in E7; [|cbn; lia|cbn; lia].
  apply bytes_split in E as (E8 & E); [|rewrite !be_len; reflexivity]. apply be_injective in E8; [|cbn; lia|cbn; lia].
  apply bytes_split in E as (E9 & E); [|rewrite !be_len; reflexivity]. apply be_injective in E9; [|cbn; lia|cbn; lia].
  apply bytes_split in E as (E10 & E); [|rewrite !be_len; reflexivity]. apply be_injective in E10; [|cbn; lia|cbn; lia].
  apply be_injective in E; [|cbn; lia|cbn; lia]. auto 20.
Qed.
Print Assumptions C70_any_size_determines_content.

(** ** C96 *)
(** Keys that can sign: a 64-byte private key and a public key of at least 32 bytes. *)
Definition can_sign (w : Basic) : Prop := exists k p, w_private w = Some k /\ w_public w = Some p /\ zlen k = 64 /\ 32 <= zlen p.
Definition has_public (w : Basic) : Prop := exists p, w_public w = Some p /\ 32 <= zlen p.
Lemma copy_first32 (p : bytes) : 32 <= zlen p -> copy_to (repeat 0 32) (firstn 32 p) = firstn 32 p.
Proof. intros L. apply copy_all. rewrite repeat_length, firstn_length. unfold zlen in L. lia. Qed.

(** Deriving a wallet panics exactly for seeds of the wrong length. *)
Theorem C96_derive ed_public seed :
  (zlen seed = 32 -> exists w, DeriveBasic ed_public seed = Ok w) /\ (zlen seed <> 32 -> DeriveBasic ed_public seed = Panic).
Proof.
  unfold DeriveBasic. destruct (Z.eqb_spec (zlen seed) 32); split; intros X; try contradiction; [eauto|reflexivity].
Qed.
Print Assumptions C96_derive.
(** Reading the key: any wallet value, whatever its fields hold. *)
Theorem C96_public_key w :
  (forall p, w_public w = Some p -> 32 <= zlen p -> GetPublicKey w = Ok (firstn 32 p)) /\ (~ has_public w -> GetPublicKey w = Panic).
Proof.
  unfold GetPublicKey. split.
  - intros p -> L. destruct (Z.ltb_spec (zlen p) 32); [lia|]. rewrite copy_first32 by exact L. reflexivity.
  - intros N. destruct (w_public w) as [p|] eqn:E; [|reflexivity]. destruct (Z.ltb_spec (zlen p) 32); [reflexivity|].
    exfalso. apply N. exists p. auto.
Qed.
Print Assumptions C96_public_key.
(** Signing an extended transaction of any size: with usable keys the result is the transaction
    with the 97-byte proof (key, empty path, signature of the message); otherwise it panics. *)
Theorem C96_sign_extended H ed_sign w x :
  hash_fn H -> (forall key m, array 64 (ed_sign key m)) -> memory_tx (TExtended x) ->
  (forall k p, w_private w = Some k -> w_public w = Some p -> zlen k = 64 -> 32 <= zlen p -> bytes_ok p ->
     SignExtendedTx H ed_sign w x =
       Ok (with_proof x (firstn 32 p ++ [0] ++ ed_sign k (signed_bytes H (TExtended x))), None)) /\
  (~ can_sign w -> SignExtendedTx H ed_sign w x = Panic).
Proof.
  intros HH Hs Hx. unfold SignExtendedTx, signTx. rewrite (C70_payload_any_size H _ HH Hx). cbn [bind]. split.
  - intros k p Ek Ep Lk Lp Bp. rewrite Ep, Ek. unfold private_Sign. rewrite Lk. cbn [Z.eqb Pos.eqb bind].
    destruct (Z.ltb_spec (zlen p) 32); [lia|].
    set (m := signed_bytes H (TExtended x)). destruct (Hs k m) as (Ls & Bs). unfold zlen at 1. rewrite Ls. cbn [Z.ltb Z.of_nat Pos.of_succ_nat Z.compare Pos.compare Pos.compare_cont Pos.succ].
    rewrite copy_first32 by exact Lp. rewrite (firstn_exact 64 (ed_sign k m)), copy_all by (rewrite ?repeat_length; lia).
    assert (E : Marshal [] (APtr ty_proof (v_proof (MkProof (firstn 32 p) (MkMerklePath (MkBitSet 0 []) []) (ed_sign k m)))) = Ok (firstn 32 p ++ [0] ++ ed_sign k m, None)).
    { assert (Hp : proof_ok (MkProof (firstn 32 p) (MkMerklePath (MkBitSet 0 []) []) (ed_sign k m))).
      { split; [split; [cbn [PublicKey]; rewrite firstn_length; unfold zlen in Lp; lia|apply bytes_ok_firstn, Bp]|]. split; [|exact (conj Ls Bs)].
        repeat split; cbn; try lia; constructor. }
      exact (proj1 (C39_proof_round_trip _ Hp) []). }
    rewrite E. reflexivity.
  - intros N. destruct (w_public w) as [p|] eqn:Ep; [|reflexivity]. unfold private_Sign. destruct (w_private w) as [k|] eqn:Ek; [|reflexivity].
    destruct (Z.eqb_spec (zlen k) 64) as [Lk|]; [|reflexivity]. cbn [bind]. destruct (Z.ltb_spec (zlen p) 32); [reflexivity|].
    exfalso. apply N. exists k, p. auto.
Qed.
Print Assumptions C96_sign_extended.

(** Signing a basic transaction: a wallet whose key is not the sender's refuses; one whose key is
    signs if its private key has 64 bytes and panics otherwise. *)
Theorem C96_sign_basic H ed_sign w b :
  hash_fn H -> (forall key m, array 64 (ed_sign key m)) -> tx_ok (TBasic b) ->
  (w_public w <> Some (b_pubkey b) -> SignBasicTx H ed_sign w b = Ok (b, Some EWrongSender)) /\
  (w_public w = Some (b_pubkey b) ->
    (forall k, w_private w = Some k -> zlen k = 64 ->
       SignBasicTx H ed_sign w b = Ok (with_signature b (ed_sign k (signed_bytes H (TBasic b))), None)) /\
    ((forall k, w_private w = Some k -> zlen k <> 64) -> SignBasicTx H ed_sign w b = Panic)).
Proof.
  intros HH Hs Hb. pose proof Hb as (X1 & _ & _ & _ & _ & _ & X7). unfold SignBasicTx. split.
  - intros N. assert (E : bytes_eqb (match w_public w with Some p => p | None => [] end) (b_pubkey b) = false).
    { apply bytes_eqb_neq. destruct (w_public w) as [p|]; [congruence|]. intros E. rewrite <- E in X1. destruct X1 as (X1 & _). discriminate. }
    rewrite E. reflexivity.
  - intros E. rewrite E, bytes_eqb_refl. cbn [negb]. unfold signTx. rewrite E, (C70_payload_any_size H (TBasic b) HH Hb). cbn [bind]. unfold private_Sign. split.
    + intros k Ek Lk. rewrite Ek, Lk. cbn [Z.eqb Pos.eqb bind]. unfold with_signature. destruct (Hs k (signed_bytes H (TBasic b))) as (Ls & _).
      rewrite copy_all by (rewrite Ls; apply X7). reflexivity.
    + intros N. destruct (w_private w) as [k|] eqn:Ek; [|reflexivity]. destruct (Z.eqb_spec (zlen k) 64) as [Lk|]; [|reflexivity].
      exfalso. exact (N k eq_refl Lk).
Qed.
Print Assumptions C96_sign_basic.
(** So wallets made from a 32-byte seed, and used in any way, never panic. *)
Theorem C96_made_wallets_never_panic H ed_public ed_sign ed_verify seed w :
  hash_fn H -> scheme_ok ed_public ed_sign ed_verify -> array 32 seed -> wallet_for H ed_public seed w ->
  GetPublicKey w <> Panic /\ GetAddress H w <> Panic /\
  (forall x, memory_tx (TExtended x) -> SignExtendedTx H ed_sign w x <> Panic) /\
  (forall b, tx_ok (TBasic b) -> SignBasicTx H ed_sign w b <> Panic).
Proof.
  intros HH Hsch Hs Hw. destruct (wallet_keys _ _ _ _ _ _ HH Hsch Hs Hw) as (E1 & E2 & _).
  destruct (C68_wallet_address _ _ _ _ _ _ HH Hsch Hs Hw) as (G1 & w' & G2 & _).
  destruct (proj1 Hsch _ Hs) as (Lp & Bp).
  assert (Lk : zlen (seed ++ ed_public seed) = 64) by (unfold zlen; rewrite app_length, (proj1 Hs), Lp; reflexivity).
  split; [rewrite G1; discriminate|]. split; [rewrite G2; discriminate|]. split.
  - intros x Hx. destruct (C96_sign_extended H ed_sign w x HH (proj1 (proj2 Hsch)) Hx) as (G & _).
    rewrite (G _ _ E1 E2 Lk ltac:(unfold zlen; rewrite Lp; lia) Bp). discriminate.
  - intros b Hb. destruct (C96_sign_basic H ed_sign w b HH (proj1 (proj2 Hsch)) Hb) as (G3 & G4).
    destruct (bytes_eqb (ed_public seed) (b_pubkey b)) eqn:E.
    + apply bytes_eqb_eq in E. destruct (G4 ltac:(congruence)) as (G5 & _). rewrite (G5 _ E1 Lk). discriminate.
    + apply bytes_eqb_neq in E. rewrite G3 by congruence. discriminate.
Qed.
Print Assumptions C96_made_wallets_never_panic.
(** Concrete cases: 70000 bytes of data, a zero wallet, a wallet with a truncated private key. *)
Example C96_example :
  memory_tx (TExtended (MkExtendedTx (repeat 7 (Z.to_nat 70000)) (repeat 3 20) 1 (repeat 4 20) 0 5 6 100 42 0 [9; 9])) /\
  ~ can_sign (MkWallet None None zero20) /\
  SignExtendedTx toy_H toy_sign (MkWallet None None zero20) toy_tx = Panic /\
  SignExtendedTx toy_H toy_sign (MkWallet (Some (repeat 1 63)) (Some (rev toy_seed)) zero20) toy_tx = Panic /\
  SignExtendedTx toy_H toy_sign (MkWallet (Some (toy_seed ++ rev toy_seed)) (Some (repeat 1 31)) zero20) toy_tx = Panic /\
  DeriveBasic toy_public (repeat 1 31) = Panic.
Proof.
  split. { cbn [memory_tx x_data x_sender x_sender_type x_recipient x_recipient_type x_value x_fee x_height x_network x_flags x_proof].
    split; [apply Forall_forall; intros z Hz; apply repeat_spec in Hz; subst; unfold is_byte; lia|].
    unfold u8, u32, u64. repeat (split; [first [lia|split; [reflexivity|apply bytes_okb_spec; reflexivity]]|]). apply bytes_okb_spec. reflexivity. }
  split; [intros (k & p & E & _); discriminate|]. repeat split; vm_compute; reflexivity.
Qed.

(** ** C97 *)
(** A peer's identity is the beginning of the address of its key. *)
Theorem C97_peer_id_begins_address H pub :
  hash_fn H -> array 16 (GetPeerID H pub) /\
  exists rest, PublicKeyToAddress H pub = GetPeerID H pub ++ rest /\ List.length rest = 4%nat.
Proof.
  intros HH. destruct (HH pub) as (L & B). unfold GetPeerID, PublicKeyToAddress. split.
  - split; [rewrite firstn_length, L; reflexivity|apply bytes_ok_firstn, B].
  - exists (skipn 16 (firstn 20 (H pub))). split; [|rewrite skipn_length, firstn_length, L; reflexivity].
    rewrite <- (firstn_skipn 16 (firstn 20 (H pub))) at 1. rewrite firstn_firstn. reflexivity.
Qed.
Print Assumptions C97_peer_id_begins_address.
(** A peer address signed with a wallet's private key carries the wallet's identity: the peer ID of
    the key in it is the first 16 bytes of the wallet's address. *)
Theorem C97_signed_peer_identity H ed_public ed_sign ed_verify seed w pa pa' key :
  hash_fn H -> scheme_ok ed_public ed_sign ed_verify -> array 32 seed -> wallet_for H ed_public seed w -> peer_ok pa ->
  w_private w = Some key -> PeerAddress_Sign ed_sign pa key = Ok pa' ->
  exists a w', GetAddress H w = Ok (a, w') /\ GetPeerID H (pa_pubkey (pa_header pa')) = firstn 16 a.
Proof.
  intros HH Hsch Hs Hw Hpa Ek E. destruct (wallet_keys _ _ _ _ _ _ HH Hsch Hs Hw) as (E1 & E2 & _).
  rewrite E1 in Ek. injection Ek as <-.
  destruct (C71_signed_peer_verifies ed_public ed_sign ed_verify seed pa Hsch Hs Hpa) as (pa1 & G & _ & _ & Gp & _).
  rewrite E in G. injection G as <-.
  destruct (C68_wallet_address _ _ _ _ _ _ HH Hsch Hs Hw) as (_ & w' & G2 & _).
  exists (firstn 20 (H (ed_public seed))), w'. split; [exact G2|]. rewrite Gp, firstn_firstn. reflexivity.
Qed.
Print Assumptions C97_signed_peer_identity.
(** ... and it does not depend on anything else in the peer address. *)
Example C97_example :
  GetPeerID toy_H (rev toy_seed) = firstn 16 (toy_H (rev toy_seed)) /\ GetPeerID toy_H (rev toy_seed) <> GetPeerID toy_H (repeat 7 32).
Proof. split; [reflexivity|]. vm_compute. discriminate. Qed.

(** ** C98 *)
Definition known_protocol (p : Z) : Prop := p = 0 \/ p = 1 \/ p = 2 \/ p = 4.
Theorem C98_schemes :
  (forall p q, known_protocol p -> known_protocol q -> ProtocolScheme p = ProtocolScheme q -> p = q) /\
  (forall p, ProtocolScheme p = str "invalid" <-> ~ known_protocol p) /\
  ProtocolScheme 1 = str "wss" /\ ProtocolScheme 4 = str "ws" /\ ProtocolScheme 2 = str "rtc" /\ ProtocolScheme 0 = str "dumb".
Proof.
  assert (D : forall p, (p = 0 /\ ProtocolScheme p = str "dumb") \/ (p = 1 /\ ProtocolScheme p = str "wss") \/ (p = 2 /\ ProtocolScheme p = str "rtc") \/
     (p = 4 /\ ProtocolScheme p = str "ws") \/ (~ known_protocol p /\ ProtocolScheme p = str "invalid")).
  { intros p. unfold ProtocolScheme. destruct (Z.eqb_spec p 0); [auto|]. destruct (Z.eqb_spec p 4); [auto 6|]. destruct (Z.eqb_spec p 1); [auto|].
    destruct (Z.eqb_spec p 2); [auto|]. do 4 right. split; [unfold known_protocol; lia|reflexivity]. }
  split; [|split; [|repeat split]].
  - intros p q Hp Hq E. destruct (D p) as [(-> & A)|[(-> & A)|[(-> & A)|[(-> & A)|(N & A)]]]]; try contradiction;
      destruct (D q) as [(-> & B)|[(-> & B)|[(-> & B)|[(-> & B)|(N & B)]]]]; try contradiction; try reflexivity; rewrite A, B in E; discriminate E.
  - intros p. split.
    + intros E [-> |[-> |[-> | ->]]]; discriminate E.
    + intros N. destruct (D p) as [(-> & A)|[(-> & A)|[(-> & A)|[(-> & A)|(_ & A)]]]]; [exfalso; apply N; unfold known_protocol; lia..|exact A].
Qed.
Print Assumptions C98_schemes.

(** Which protocols a received peer address may name: those with a scheme ... *)
Theorem C98_received_protocols_partial h old rest :
  peer_header_ok h -> bytes_ok rest -> pa_protocol h <> 2 ->
  (PeerAddress_Unmarshal old (peer_header_bytes h ++ rest) = Err EUnknownProtocol <-> ProtocolScheme (pa_protocol h) = str "invalid").
Proof.
  intros Hh Hr N. rewrite C92_address_error by assumption. rewrite (proj1 (proj2 C98_schemes)). unfold known_protocol.
  destruct (Z.eqb_spec (pa_protocol h) 0), (Z.eqb_spec (pa_protocol h) 1), (Z.eqb_spec (pa_protocol h) 4); cbn [orb]; split; intros X; try discriminate X; try reflexivity; try lia; exfalso; apply X; lia.
Qed.
Print Assumptions C98_received_protocols_partial.
(** ... except WebRTC, which has a scheme but is refused as unknown. *)
Theorem C98_rtc_refuted h old rest :
  peer_header_ok h -> bytes_ok rest -> pa_protocol h = 2 ->
  PeerAddress_Unmarshal old (peer_header_bytes h ++ rest) = Err EUnknownProtocol /\ ProtocolScheme (pa_protocol h) = str "rtc".
Proof. intros Hh Hr E. rewrite C92_address_error by assumption. rewrite E. split; reflexivity. Qed.
Print Assumptions C98_rtc_refuted.
Example C98_example :
  let h p := MkPeerHeader p 5 1000 (MkNetAddress 1 (repeat 7 16)) (repeat 1 32) 3 (repeat 2 64) in
  peer_header_ok (h 2) /\ peer_header_ok (h 9) /\
  PeerAddress_Unmarshal (peer_of (zero ty_peer)) (peer_header_bytes (h 9)) = Err EUnknownProtocol /\
  PeerAddress_Unmarshal (peer_of (zero ty_peer)) (peer_header_bytes (h 1)) = Err ECannotMarshal.
Proof.
  cbv zeta. split; [|split; [|split; vm_compute; reflexivity]];
  unfold peer_header_ok, u8, u32, u64, netaddr_ok, array; cbn; repeat split; try lia; try (right; split; [reflexivity|split; [reflexivity|]]); repeat constructor; unfold is_byte; lia.
Qed.

(** ** C99 *)
Lemma hex_value_digit n : is_nibble n -> hex_value (hex_digit n) = Some n.
Proof.
  unfold is_nibble, hex_digit, hex_value. intros Hn. destruct (Z.ltb_spec n 10).
  - destruct (Z.leb_spec 48 (48 + n)), (Z.leb_spec (48 + n) 57); try lia. cbn [andb]. f_equal. lia.
  - destruct (Z.leb_spec 48 (87 + n)), (Z.leb_spec (87 + n) 57); try lia. cbn [andb].
    destruct (Z.leb_spec 97 (87 + n)), (Z.leb_spec (87 + n) 102); try lia. cbn [andb]. f_equal. lia.
Qed.
Lemma hex_long n : 16 <= n -> index hexTable (Z.to_nat n) = @Panic Z.
Proof. intros Hn. unfold index. assert (E : nth_error hexTable (Z.to_nat n) = None) by (apply nth_error_None; change (List.length hexTable) with 16%nat; lia). rewrite E. reflexivity. Qed.
(** The text of a path has one hexadecimal digit per element, each reading back to it; printing panics
    exactly if some element is no digit. *)
Theorem C99_text_reads_back nbs :
  bytes_ok nbs ->
  (Forall (fun n => n < 16) nbs -> exists s, Nibbles_String nbs = Ok s /\ map hex_value s = map Some nbs) /\
  (~ Forall (fun n => n < 16) nbs -> Nibbles_String nbs = Panic).
Proof.
  intros Hb. unfold Nibbles_String. split.
  - intros Hs. assert (Hn : Forall is_nibble nbs).
    { apply Forall_forall. intros n Hn. unfold bytes_ok in Hb. rewrite Forall_forall in Hb, Hs. specialize (Hb n Hn). specialize (Hs n Hn). unfold is_byte in Hb. cbn in Hs. unfold is_nibble. lia. }
    exists (map hex_digit nbs). split; [apply HexBytes_ok, Hn|]. rewrite map_map. apply map_ext_in. intros n Hi. apply hex_value_digit. rewrite Forall_forall in Hn. auto.
  - intros Hs. induction Hb as [|n nbs Hn Hb IH]; [exfalso; apply Hs; constructor|]. cbn [HexBytes].
    destruct (Z.lt_ge_cases n 16) as [Hlt|Hge].
    + rewrite IH; [|intros X; apply Hs; constructor; assumption]. destruct (index hexTable (Z.to_nat n)) eqn:E; try reflexivity.
      * unfold index in E. destruct (nth_error _ _); discriminate.
      * unfold index in E. destruct (nth_error _ _); discriminate.
    + rewrite hex_long by exact Hge. reflexivity.
Qed.
Print Assumptions C99_text_reads_back.
(** The text of an address's path is the address in hexadecimal, 40 characters. *)
Theorem C99_address_text key :
  addr20 key -> exists s, Nibbles_String (KeyToNibbles key) = Ok s /\ List.length s = 40%nat /\ read_hex s = Some key.
Proof.
  intros (L & Hok). exists (map hex_digit (KeyToNibbles key)). split; [apply HexBytes_ok, KeyToNibbles_ok, Hok|].
  split; [rewrite map_length, KeyToNibbles_length, L; reflexivity|]. clear L.
  induction Hok as [|b key Hb Hk IH]; [reflexivity|]. cbn [KeyToNibbles map read_hex]. destruct (nibble_split b Hb) as (-> & ->).
  unfold is_byte in Hb. assert (is_nibble (b / 16)) by (unfold is_nibble; split; [apply Z.div_pos; lia|apply Z.div_lt_upper_bound; lia]).
  assert (is_nibble (b mod 16)) by (unfold is_nibble; apply Z.mod_pos_bound; lia).
  rewrite !hex_value_digit by assumption. rewrite IH. do 2 f_equal. symmetry. apply Z.div_mod. lia.
Qed.
Print Assumptions C99_address_text.
(** Prefixes of paths are prefixes of their texts. *)
Theorem C99_prefix_text a b s t :
  bytes_ok a -> bytes_ok b -> Nibbles_String a = Ok s -> Nibbles_String b = Ok t ->
  (PrefixOf a b = true <-> exists r, t = s ++ r) /\ (a = b <-> s = t).
Proof.
  assert (G : forall l u, bytes_ok l -> Nibbles_String l = Ok u -> map hex_value u = map Some l /\ (forall v, HexBytes l = Ok v -> v = u)).
  { intros l u Hl E. destruct (C99_text_reads_back l Hl) as (G1 & G2). destruct (Forall_dec (fun n => n < 16) (fun n => Z_lt_dec n 16) l) as [D|D].
    - destruct (G1 D) as (v & Ev & Hv). rewrite E in Ev. injection Ev as <-. split; [exact Hv|]. intros v Ev. unfold Nibbles_String in E. congruence.
    - rewrite (G2 D) in E. discriminate. }
  assert (A : forall x y, HexBytes (x ++ y) = let? u := HexBytes x in let? v := HexBytes y in Ok (u ++ v)).
  { induction x as [|n x IH]; intros y; cbn [app HexBytes bind]; [destruct (HexBytes y); reflexivity|]. rewrite IH.
    destruct (index hexTable (Z.to_nat n)); cbn [bind]; [|reflexivity..]. destruct (HexBytes x); cbn [bind]; [|reflexivity..]. destruct (HexBytes y); reflexivity. }
  intros Ha Hb Ea Eb. destruct (G a s Ha Ea) as (Ra & Ua). destruct (G b t Hb Eb) as (Rb & Ub). unfold Nibbles_String in Ea, Eb.
  assert (I : forall x y : list Z, map Some x = map Some y -> x = y).
  { induction x as [|m x IH]; intros [|n y] E; try discriminate; [reflexivity|]. injection E as -> E. f_equal. apply IH, E. }
  split; [rewrite PrefixOf_spec|]; split.
  - intros (r & ->). rewrite A, Ea in Eb. cbn [bind] in Eb. destruct (HexBytes r) as [v|e| |]; cbn [bind] in Eb; try discriminate. injection Eb as <-. eauto.
  - intros (r & ->). rewrite map_app, Ra in Rb. 
    assert (E : a = firstn (List.length a) b).
    { apply I. rewrite <- firstn_map, <- Rb. rewrite firstn_app, map_length, Nat.sub_diag, firstn_O, app_nil_r. rewrite <- (map_length Some a), firstn_all. reflexivity. }
    exists (skipn (List.length a) b). rewrite E at 1. symmetry. apply firstn_skipn.
  - intros ->. apply Ub, Ea.
  - intros ->. apply I. congruence.
Qed.
Print Assumptions C99_prefix_text.
Example C99_example :
  Nibbles_String [4; 15; 3; 0; 2] = Ok (str "4f302") /\ Nibbles_String [] = Ok [] /\ Nibbles_String [1; 16] = Panic /\
  read_hex (str "00ff") = Some [0; 255] /\ addr20 (repeat 0xa9 20).
Proof. repeat split. apply bytes_okb_spec. reflexivity. Qed.
