(** Properties C92, C93: peer address headers, wallet keys. *)
From Coq Require Import ZArith List Lia Bool String.
Import ListNotations.
From Verif.Model Require Import Base Address Beserial Wire Wallet.
From Verif.Spec Require Import BeserialSpec WireSpec AccountSpec WalletSpec PeerSpec.
From Verif.Proofs Require Import BaseFacts BeserialFacts WireFacts InterlinkFacts BlockFacts LayoutFacts MessageFacts.
From Verif.Props Require Import BeserialProps WireProps BlockProps MessageProps WalletProps.
Open Scope Z_scope.

(** ** C92 *)
Lemma peer_header_of_v h : peer_header_of (v_peer_header h) = h.
Proof.
  destruct h as [p s t [nt ip] k d sg]. unfold peer_header_of, v_peer_header, netaddr_of, v_netaddr. cbn [fld nth num_of pa_protocol pa_services pa_timestamp pa_net pa_pubkey pa_distance pa_signature na_type na_ip].
  rewrite !bytes_of_vbytes. reflexivity.
Qed.
Lemma field_step t v e fs vs dsts rest s al :
  enc t no_tags v e -> (forall al, exists al', value_fields fs (List.tl dsts) (DState rest al) = (Ok vs, DState s al')) ->
  exists al', value_fields (field t :: fs) dsts (DState (e ++ rest) al) = (Ok (v :: vs), DState s al').
Proof.
  intros He Hv. destruct (proj1 enc_round_trip _ _ _ _ He) as (_ & Hd). destruct (Hd (hd_val dsts) rest al) as (al1 & E). destruct (Hv al1) as (al2 & E2). exists al2.
  unfold field. cbn [value_fields field_tags fail]. unfold mbind. cbn [fail]. rewrite E, E2. reflexivity.
Qed.
Lemma marshal_step t v e fs vs b : enc t no_tags v e -> marshal_fields (field t :: fs) (v :: vs) b = marshal_fields fs vs (b ++ e).
Proof.
  intros He. destruct (proj1 enc_round_trip _ _ _ _ He) as (Hm & _). unfold field. cbn [marshal_fields field_tags bind]. rewrite Hm. reflexivity.
Qed.
(** A header is sent as its fields in order. *)
Theorem C92_header_sent h b :
  peer_header_ok h -> Marshal b (APtr ty_peer_header (v_peer_header h)) = Ok (b ++ peer_header_bytes h, None).
Proof.
  intros (H1 & H2 & H3 & H4 & H5 & H6 & H7). unfold Marshal, ty_peer_header, v_peer_header. rewrite marshal_struct.
  rewrite (marshal_step _ _ _ _ _ _ (enc_int U8 _ _ H1)). rewrite (marshal_step _ _ _ _ _ _ (enc_int U32 _ _ H2)). rewrite (marshal_step _ _ _ _ _ _ (enc_int U64 _ _ H3)).
  match goal with |- marshal_fields (_ :: ?fs) (_ :: ?vs) ?b = _ =>
    change (marshal_fields (field ty_netaddr :: fs) (v_netaddr (pa_net h) :: vs) b) with (m_then (cd_marshal netaddr_codec (v_netaddr (pa_net h)) b) (marshal_fields fs vs)) end.
  unfold netaddr_codec, typed_codec. cbn [cd_marshal]. unfold netaddr_of, v_netaddr. cbn [fld nth num_of]. rewrite bytes_of_vbytes. unfold NetAddress_Marshal. cbn [na_type na_ip m_then bind].
  rewrite (marshal_step _ _ _ _ _ _ (enc_bytesN 32 _ _ H5)). rewrite (marshal_step _ _ _ _ _ _ (enc_int U8 _ _ H6)). rewrite (marshal_step _ _ _ _ _ _ (enc_bytesN 64 _ _ H7)).
  cbn [marshal_fields]. unfold m_ok, peer_header_bytes. cbn [width]. rewrite <- !app_assoc. reflexivity.
Qed.
Print Assumptions C92_header_sent.
(** It is read back with every field right, except that NetAddress.Type keeps
    the value it had (0 in a fresh header, so only IPv4 addresses round trip). *)
Theorem C92_header_read h old rest :
  peer_header_ok h -> bytes_ok rest ->
  Unmarshal (peer_header_bytes h ++ rest) (APtr ty_peer_header (v_peer_header old)) =
    (Ok (Some (v_peer_header (with_net_type h (na_type (pa_net old))))), zlen (peer_header_bytes h)).
Proof.
  intros (H1 & H2 & H3 & H4 & H5 & H6 & H7) Hr. unfold Unmarshal, ty_peer_header. rewrite value_struct. unfold mbind at 1.
  set (dsts := elems_of (v_peer_header old)).
  assert (Ed : peer_header_bytes h ++ rest = be 1 (pa_protocol h) ++ be 4 (pa_services h) ++ be 8 (pa_timestamp h) ++ (na_type (pa_net h) :: na_ip (pa_net h)) ++
    pa_pubkey h ++ be 1 (pa_distance h) ++ pa_signature h ++ rest) by (unfold peer_header_bytes; rewrite <- !app_assoc; reflexivity).
  assert (HV : exists al', value_fields [field (TNum U8); field (TNum U32); field (TNum U64); field ty_netaddr; field (bytesN 32); field (TNum U8); field (bytesN 64)] dsts
     (DState (peer_header_bytes h ++ rest) []) = (Ok (elems_of (v_peer_header (with_net_type h (na_type (pa_net old))))), DState rest al')).
  { rewrite Ed. change (be 1) with (be (width U8)). change (be 4) with (be (width U32)). change (be 8) with (be (width U64)). unfold dsts, v_peer_header. cbn [elems_of].
    apply field_step; [apply enc_int; exact H1|intros al1]. apply field_step; [apply enc_int; exact H2|intros al2]. apply field_step; [apply enc_int; exact H3|intros al3].
    cbn [List.tl pa_net with_net_type pa_pubkey pa_distance pa_signature].
    assert (Hb : bytes_ok ((na_type (pa_net h) :: na_ip (pa_net h)) ++ pa_pubkey h ++ be (width U8) (pa_distance h) ++ pa_signature h ++ rest)).
    { apply bytes_ok_app. split; [|apply bytes_ok_app; split; [apply H5|apply bytes_ok_app; split; [apply be_ok|apply bytes_ok_app; split; [apply H7|exact Hr]]]].
      destruct H4 as [(-> & _ & Hi)|(-> & _ & Hi)]; (constructor; [unfold is_byte; lia|exact Hi]). }
    assert (HN : forall al, value ty_netaddr no_tags (v_netaddr (pa_net old)) (DState ((na_type (pa_net h) :: na_ip (pa_net h)) ++ pa_pubkey h ++ be (width U8) (pa_distance h) ++ pa_signature h ++ rest) al) =
      (Ok (v_netaddr (MkNetAddress (na_type (pa_net old)) (na_ip (pa_net h)))), DState (pa_pubkey h ++ be (width U8) (pa_distance h) ++ pa_signature h ++ rest) al)).
    { intros al. set (tail := pa_pubkey h ++ be (width U8) (pa_distance h) ++ pa_signature h ++ rest) in *. pose proof (zlen_nonneg tail).
      unfold ty_netaddr. cbn [value]. unfold call_unmarshal. cbn [data allocs]. unfold netaddr_codec, typed_codec. cbn [cd_unmarshal]. rewrite netaddr_of_v, netaddr_unm by exact Hb.
      cbn [app]. rewrite zlen_cons, zlen_app. destruct H4 as [(-> & Hl & Hi)|(-> & Hl & Hi)].
      - assert (Ez : zlen (na_ip (pa_net h)) = 4) by (unfold zlen; rewrite Hl; reflexivity). rewrite Ez. change (0 =? 0) with true. cbv iota.
        destruct (Z.ltb_spec (4 + zlen tail) 4); [lia|]. cbn [bind]. change (5 <? 0) with false. cbv iota. destruct (Z.ltb_spec (1 + (4 + zlen tail)) 5); [lia|].
        rewrite firstn_app_len by exact Hl. change (Z.to_nat 5) with (S 4). change (skipn (S 4) (0 :: na_ip (pa_net h) ++ tail)) with (skipn 4 (na_ip (pa_net h) ++ tail)).
        rewrite (skipn_app_len 4) by exact Hl. reflexivity.
      - assert (Ez : zlen (na_ip (pa_net h)) = 16) by (unfold zlen; rewrite Hl; reflexivity). rewrite Ez. change (1 =? 0) with false. change (1 =? 1) with true. cbv iota.
        destruct (Z.ltb_spec (16 + zlen tail) 16); [lia|]. cbn [bind]. change (17 <? 0) with false. cbv iota. destruct (Z.ltb_spec (1 + (16 + zlen tail)) 17); [lia|].
        rewrite firstn_app_len by exact Hl. change (Z.to_nat 17) with (S 16).
        change (skipn (S 16) (1 :: na_ip (pa_net h) ++ tail)) with (skipn 16 (na_ip (pa_net h) ++ tail)). rewrite (skipn_app_len 16) by exact Hl. reflexivity. }
    change (value_fields [field ty_netaddr; field (bytesN 32); field (TNum U8); field (bytesN 64)]) with
      (fun ds => do v <- value ty_netaddr no_tags (hd_val ds); do vs <- value_fields [field (bytesN 32); field (TNum U8); field (bytesN 64)] (List.tl ds); ret (v :: vs)).
    cbv beta. cbn [hd_val List.tl]. unfold mbind at 1. rewrite HN.
    assert (HT : exists al', value_fields [field (bytesN 32); field (TNum U8); field (bytesN 64)] [vbytes (pa_pubkey old); VNum (pa_distance old); vbytes (pa_signature old)]
        (DState (pa_pubkey h ++ be (width U8) (pa_distance h) ++ pa_signature h ++ rest) al3) = (Ok [vbytes (pa_pubkey h); VNum (pa_distance h); vbytes (pa_signature h)], DState rest al')).
    { apply field_step; [apply enc_bytesN; exact H5|intros al5]. apply field_step; [apply enc_int; exact H6|intros al6]. apply field_step; [apply enc_bytesN; exact H7|intros al7].
      exists al7. reflexivity. }
    destruct HT as (al' & HT). unfold mbind. rewrite HT. unfold ret. exists al'. reflexivity. }
  destruct HV as (al' & HV). rewrite HV. unfold ret. cbn [bind data]. f_equal. rewrite zlen_app. lia.
Qed.
Print Assumptions C92_header_read.
Example C92_example :
  let h := MkPeerHeader 1 5 1000 (MkNetAddress 1 (repeat 7 16)) (repeat 1 32) 3 (repeat 2 64) in
  peer_header_ok h /\
  Unmarshal (peer_header_bytes h) (APtr ty_peer_header (zero ty_peer_header)) = (Ok (Some (v_peer_header (with_net_type h 0))), 127).
Proof. split; [|reflexivity]. unfold peer_header_ok, u8, u32, u64, netaddr_ok, array. cbn. repeat split; try lia; try (right; split; [reflexivity|split; [reflexivity|]]); repeat constructor; unfold is_byte; lia. Qed.
(** What PeerAddress.UnmarshalBESerial then says: the protocol is looked at, the
    rest is never read (C48). *)
Theorem C92_address_error h old rest :
  peer_header_ok h -> bytes_ok rest ->
  PeerAddress_Unmarshal old (peer_header_bytes h ++ rest) =
    Err (if (pa_protocol h =? 0) || (pa_protocol h =? 1) || (pa_protocol h =? 4) then ECannotMarshal else EUnknownProtocol).
Proof.
  intros Hh Hr. unfold PeerAddress_Unmarshal. rewrite C92_header_read by assumption. cbn [bind]. rewrite peer_header_of_v. cbn [with_net_type pa_protocol].
  destruct (pa_protocol h =? 0), (pa_protocol h =? 1), (pa_protocol h =? 4); reflexivity.
Qed.
Print Assumptions C92_address_error.
(** Server addresses round trip. *)
Theorem C92_server_address host port tls :
  bytes_ok host -> zlen host < 256 -> u16 port ->
  (forall b, Marshal b (APtr ty_peer_srv (peer_srv host port tls)) = Ok (b ++ peer_srv_bytes host port tls, None)) /\
  (forall old rest, Unmarshal (peer_srv_bytes host port tls ++ rest) (APtr ty_peer_srv old) = (Ok (Some (peer_srv host port tls)), zlen (peer_srv_bytes host port tls))).
Proof.
  intros Hb Hl Hp. assert (He : enc ty_peer_srv no_tags (peer_srv host port tls) (peer_srv_bytes host port tls)).
  { unfold ty_peer_srv, peer_srv, peer_srv_bytes. rewrite (app_assoc (be 1 _)). apply enc_struct. enc_fields_tac.
    - apply (enc_string _ U8); [reflexivity|]. split; [reflexivity|]. unfold zlen in Hl. cbn [width]. lia.
    - apply (enc_int U16). exact Hp.
    - apply enc_bool. }
  destruct (enc_marshal _ _ _ He) as (Hm & Hu). split; [exact Hm|exact Hu].
Qed.
Print Assumptions C92_server_address.
Example C92_server_example : Marshal [] (APtr ty_peer_srv (peer_srv (str "a.b") 8443 true)) = Ok ([3; 97; 46; 98; 32; 251; 1], None).
Proof. reflexivity. Qed.

(** ** C93 *)
(** The address of a 32-byte public key. *)
Definition key_address (H : bytes -> bytes) (pub : bytes) : bytes := firstn 20 (H pub).
(** The exported fields of a wallet, assigned by its user. *)
Definition set_public (w : Basic) (pub : bytes) : Basic := MkWallet (w_private w) (Some pub) (w_address w).

(** A wallet that was never asked answers with the address of its public key,
    however that got there, and keeps this answer as long as the key stays. *)
Theorem C93_address_partial H pub w :
  w_public w = Some pub -> array 32 pub -> w_address w = zero20 ->
  exists w', GetAddress H w = Ok (key_address H pub, w') /\ w_public w' = Some pub /\ w_private w' = w_private w /\
    exists w'', GetAddress H w' = Ok (key_address H pub, w'').
Proof.
  intros Ep (Hl & Hb) Ea.
  assert (Hk : forall a, GetPublicKey (MkWallet (w_private w) (w_public w) a) = Ok pub).
  { intros a. unfold GetPublicKey. cbn [w_public]. rewrite Ep. unfold zlen. rewrite Hl. change (Z.of_nat 32 <? 32) with false. cbv iota. f_equal.
    unfold copy_to. rewrite repeat_length, (firstn_all2 (n := 32) pub) by lia. rewrite firstn_all2 by lia. rewrite skipn_all2 by (rewrite repeat_length; lia). apply app_nil_r. }
  assert (Ew : w = MkWallet (w_private w) (w_public w) zero20) by (destruct w; cbn in *; congruence).
  unfold GetAddress. rewrite Ea, bytes_eqb_refl. pose proof (Hk zero20) as Hk0. rewrite <- Ew in Hk0. rewrite Hk0. cbn [bind]. unfold PublicKeyToAddress. fold (key_address H pub).
  eexists. split; [reflexivity|]. cbn [w_public w_private w_address]. split; [exact Ep|]. split; [reflexivity|].
  destruct (bytes_eqb (key_address H pub) zero20); [rewrite Hk; cbn [bind]; eauto|eauto].
Qed.
Print Assumptions C93_address_partial.
(** But the answer is remembered past a change of the key: the wallet goes on
    naming the old address and signs as the new one. *)
Theorem C93_stale_refuted H pub pub' w w' :
  array 32 pub -> array 32 pub' -> key_address H pub <> zero20 -> key_address H pub' <> key_address H pub ->
  w_public w = Some pub -> w_address w = zero20 -> GetAddress H w = Ok (key_address H pub, w') ->
  GetPublicKey (set_public w' pub') = Ok pub' /\ GetAddress H (set_public w' pub') = Ok (key_address H pub, set_public w' pub').
Proof.
  intros H1 H2 Hz Hd Ep Ea E. split.
  - unfold GetPublicKey, set_public. cbn [w_public]. destruct H2 as (Hl & _). unfold zlen. rewrite Hl. change (Z.of_nat 32 <? 32) with false. cbv iota. f_equal.
    unfold copy_to. rewrite repeat_length, (firstn_all2 (n := 32) pub') by lia. rewrite firstn_all2 by lia. rewrite skipn_all2 by (rewrite repeat_length; lia). apply app_nil_r.
  - assert (Ew : w_address w' = key_address H pub).
    { unfold GetAddress in E. rewrite Ea, bytes_eqb_refl in E. destruct (GetPublicKey w) as [k|e| |]; try discriminate. cbn [bind] in E.
      assert (PublicKeyToAddress H k = key_address H pub) as E2 by congruence. assert (w' = MkWallet (w_private w) (w_public w) (PublicKeyToAddress H k)) as -> by congruence. exact E2. }
    unfold GetAddress. cbn [set_public w_address]. rewrite Ew. destruct (bytes_eqb (key_address H pub) zero20) eqn:Eb; [|reflexivity].
    destruct Hz. apply bytes_eqb_eq. exact Eb.
Qed.
Print Assumptions C93_stale_refuted.
Example C93_example :
  let H := fun b => firstn 32 (b ++ repeat 9 32) in
  let pub := repeat 1 32 in let pub' := repeat 2 32 in let w := MkWallet None (Some pub) zero20 in
  array 32 pub /\ array 32 pub' /\ key_address H pub <> zero20 /\ key_address H pub' <> key_address H pub /\
  exists w', GetAddress H w = Ok (key_address H pub, w') /\ GetAddress H (set_public w' pub') = Ok (repeat 1 20, set_public w' pub').
Proof.
  cbv zeta. split; [split; [reflexivity|repeat constructor; unfold is_byte; lia]|]. split; [split; [reflexivity|repeat constructor; unfold is_byte; lia]|].
  split; [discriminate|]. split; [discriminate|]. eexists. split; reflexivity.
Qed.
