(** Properties C68-C71: what wallets and peers sign. *)
From Coq Require Import ZArith List Lia Bool.
Import ListNotations.
From Verif.Model Require Import Base Beserial Wire Account Wallet.
From Verif.Spec Require Import BeserialSpec WireSpec AccountSpec WalletSpec.
From Verif.Proofs Require Import BaseFacts BeserialFacts WireFacts LayoutFacts AccountFacts.
From Verif.Props Require Import WireProps AccountProps.
Open Scope Z_scope.

(** ** Lemmas *)
Lemma bytes_split (a a' r r' : bytes) : a ++ r = a' ++ r' -> length a = length a' -> a = a' /\ r = r'.
Proof.
  revert a'. induction a as [|x a IH]; intros [|y a'] E L; try discriminate L; [split; [reflexivity|exact E]|].
  injection E as -> E. injection L as L. destruct (IH a' E L) as (-> & ->). split; reflexivity.
Qed.
Lemma be_len n z : length (be n z) = n.
Proof. apply big_endian_length. Qed.
Lemma be_injective n z w : 0 <= z < 256 ^ Z.of_nat n -> 0 <= w < 256 ^ Z.of_nat n -> be n z = be n w -> z = w.
Proof. unfold be. rewrite !big_endian_be_put. apply be_put_inj. Qed.
Lemma copy_all dst src : length dst = length src -> copy_to dst src = src.
Proof. intros E. unfold copy_to. rewrite E, firstn_all, skipn_all2 by lia. apply app_nil_r. Qed.
Lemma firstn_exact {A} n (l : list A) : length l = n -> firstn n l = l.
Proof. intros <-. apply firstn_all. Qed.
Lemma content_message H t : hash_fn H -> tx_ok t ->
  enc ty_content no_tags (v_content (AsTxContent H t)) (signed_bytes H t).
Proof.
  intros HH Ht.
  assert (E : signed_bytes H t = content_bytes (AsTxContent H t)) by (destruct t; reflexivity).
  rewrite E. apply content_layout; destruct t as [b|x]; cbn [AsTxContent c_data c_sender c_sender_type c_recipient c_recipient_type c_value c_fee c_height c_network c_flags];
    cbn [tx_ok] in Ht; decompose [and] Ht; try assumption; try (unfold u8; lia); try constructor; try reflexivity.
  - unfold PublicKeyToAddress. rewrite firstn_length, (proj1 (HH _)). reflexivity.
  - apply bytes_ok_firstn. apply HH.
Qed.

Lemma public_key w pub : w_public w = Some pub -> length pub = 32%nat -> GetPublicKey w = Ok pub.
Proof.
  intros E L. unfold GetPublicKey. rewrite E. unfold zlen. rewrite L. change (Z.of_nat 32 <? 32) with false. cbn match.
  rewrite (firstn_exact 32), copy_all by (rewrite ?repeat_length; lia). reflexivity.
Qed.
(** A wallet holds the seed's keys, and its address if it remembers one. *)
Lemma wallet_keys H ed_public ed_sign ed_verify seed w :
  hash_fn H -> scheme_ok ed_public ed_sign ed_verify -> array 32 seed -> wallet_for H ed_public seed w ->
  w_private w = Some (seed ++ ed_public seed) /\ w_public w = Some (ed_public seed) /\
  (w_address w = zero20 \/ w_address w = firstn 20 (H (ed_public seed))).
Proof.
  intros HH (Hp & _) Hs. pose proof (Hp _ Hs) as (Lp & Bp).
  induction 1 as [w E|w E|w a w' Hw (I1 & I2 & I3) E].
  - unfold DeriveBasic in E. unfold zlen in E. rewrite (proj1 Hs) in E. injection E as <-. cbn. auto.
  - unfold GenerateBasic in E. injection E as <-. cbn. auto.
  - unfold GetAddress in E. destruct (bytes_eqb (w_address w) zero20) eqn:Ez.
    + rewrite (public_key w _ I2 Lp) in E. cbn [bind] in E. injection E as <- <-. cbn [w_private w_public w_address]. auto.
    + injection E as <- <-. auto.
Qed.
Lemma wallet_signs H ed_public ed_sign ed_verify seed w t :
  hash_fn H -> scheme_ok ed_public ed_sign ed_verify -> array 32 seed -> wallet_for H ed_public seed w -> tx_ok t ->
  signTx H ed_sign w t = Ok (ed_sign (seed ++ ed_public seed) (signed_bytes H t)).
Proof.
  intros HH Hsch Hs Hw Ht. destruct (wallet_keys _ _ _ _ _ _ HH Hsch Hs Hw) as (E1 & E2 & _).
  unfold signTx. rewrite E2. destruct (enc_marshal _ _ _ (content_message H t HH Ht)) as (Hm & _). rewrite Hm. cbn [bind app].
  unfold private_Sign. rewrite E1. unfold zlen. rewrite app_length, (proj1 Hs), (proj1 (proj1 Hsch _ Hs)). reflexivity.
Qed.

(** ** The address of a wallet (used by C68, C69) *)
Theorem C68_wallet_address H ed_public ed_sign ed_verify seed w :
  hash_fn H -> scheme_ok ed_public ed_sign ed_verify -> array 32 seed -> wallet_for H ed_public seed w ->
  GetPublicKey w = Ok (ed_public seed) /\
  exists w', GetAddress H w = Ok (firstn 20 (H (ed_public seed)), w') /\ wallet_for H ed_public seed w'.
Proof.
  intros HH Hsch Hs Hw. destruct (wallet_keys _ _ _ _ _ _ HH Hsch Hs Hw) as (E1 & E2 & E3).
  pose proof (proj1 Hsch _ Hs) as (Lp & Bp).
  pose proof (public_key w _ E2 Lp) as Ep.
  split; [exact Ep|].
  assert (Ea : exists w', GetAddress H w = Ok (firstn 20 (H (ed_public seed)), w')).
  { unfold GetAddress. destruct (bytes_eqb (w_address w) zero20) eqn:Ez.
    - rewrite Ep. cbn [bind]. eauto.
    - destruct E3 as [E3|E3]; [rewrite E3, bytes_eqb_refl in Ez; discriminate|]. rewrite E3. eauto. }
  destruct Ea as (w' & Ea). exists w'. split; [exact Ea|]. eapply wallet_used; eassumption.
Qed.
Print Assumptions C68_wallet_address.

(** ** C68 *)
Theorem C68_signed_extended H ed_public ed_sign ed_verify seed w x :
  hash_fn H -> scheme_ok ed_public ed_sign ed_verify -> array 32 seed -> wallet_for H ed_public seed w ->
  tx_ok (TExtended (with_proof x [])) ->
  let m := signed_bytes H (TExtended x) in
  exists p,
    SignExtendedTx H ed_sign w x = Ok (with_proof x (proof_bytes p), None) /\
    tx_ok (TExtended (with_proof x (proof_bytes p))) /\
    proof_ok p /\ decode_proof (proof_bytes p) = Ok (p, zlen (proof_bytes p)) /\
    SignerAddress H p = Ok (firstn 20 (H (ed_public seed))) /\ signer_of H p = firstn 20 (H (ed_public seed)) /\
    PublicKey p = ed_public seed /\
    Signature p = ed_sign (seed ++ ed_public seed) m /\ ed_verify (PublicKey p) m (Signature p) = true.
Proof.
  intros HH Hsch Hs Hw Hx m. destruct (wallet_keys _ _ _ _ _ _ HH Hsch Hs Hw) as (E1 & E2 & _).
  pose proof (proj1 Hsch _ Hs) as (Lp & Bp). destruct (proj1 (proj2 Hsch) (seed ++ ed_public seed) m) as (Ls & Bs).
  set (sig := ed_sign (seed ++ ed_public seed) m) in *.
  set (p := MkProof (ed_public seed) (MkMerklePath (MkBitSet 0 []) []) sig).
  assert (Hp : proof_ok p).
  { split; [split; assumption|]. split; [|split; assumption]. split; [|split; [reflexivity|constructor]]. split; [cbn; lia|]. split; [constructor|reflexivity]. }
  assert (Et : signTx H ed_sign w (TExtended x) = Ok sig).
  { transitivity (signTx H ed_sign w (TExtended (with_proof x []))); [destruct x; reflexivity|].
    rewrite (wallet_signs _ _ _ _ _ _ _ HH Hsch Hs Hw Hx). reflexivity. }
  destruct (C39_proof_round_trip p Hp) as (Hm & Hd).
  assert (Hpok : bytes_ok (proof_bytes p)).
  { unfold proof_bytes. cbn [p PublicKey Path Branches Hashes Signature bitset_bytes Len Bits concat]. rewrite !bytes_ok_app. split; [exact Bp|]. split; [|exact Bs]. split; [|constructor]. constructor; [|constructor]. unfold is_byte. cbn [p Path Branches Len]. lia. }
  assert (Hpl : zlen (proof_bytes p) = 97).
  { unfold proof_bytes, zlen. cbn [p PublicKey Path Branches Hashes Signature bitset_bytes Len Bits concat]. rewrite !app_length, Lp, Ls. reflexivity. }
  exists p. split.
  { unfold SignExtendedTx. rewrite Et. cbn [bind]. rewrite E2. unfold zlen. rewrite Lp, Ls. change (Z.of_nat 32 <? 32) with false. change (Z.of_nat 64 <? 64) with false. cbn match.
    rewrite (firstn_exact 32 (ed_public seed)), (firstn_exact 64 sig), !copy_all by (rewrite ?repeat_length; lia).
    unfold encode_proof in Hm. fold p. rewrite Hm. reflexivity. }
  split.
  { cbn [tx_ok with_proof x_data x_sender x_sender_type x_recipient x_recipient_type x_value x_fee x_height x_network x_flags x_proof] in *.
    destruct Hx as (X1 & X2 & X3 & X4 & X5 & X6 & X7 & X8 & X9 & X10 & X11 & _).
    repeat (split; [assumption|]). rewrite Hpl. lia. }
  split; [exact Hp|]. split; [specialize (Hd []); rewrite app_nil_r in Hd; exact Hd|].
  assert (Es : signer_of H p = firstn 20 (H (ed_public seed))) by reflexivity.
  split; [rewrite signer_ok by apply Hp; f_equal; exact Es|]. split; [exact Es|]. split; [reflexivity|]. split; [reflexivity|].
  apply (proj2 (proj2 Hsch)). exact Hs.
Qed.
Print Assumptions C68_signed_extended.

(** The old proof does not matter: signing replaces it. *)
Theorem C68_replaces_proof H ed_sign w x proof :
  SignExtendedTx H ed_sign w (with_proof x proof) = SignExtendedTx H ed_sign w x.
Proof. reflexivity. Qed.
Print Assumptions C68_replaces_proof.
(** The owner of a vesting contract can spend from it with a wallet. *)
Theorem C68_owner_spends H oob ed_public ed_sign ed_verify seed w x c height :
  hash_fn H -> scheme_ok ed_public ed_sign ed_verify -> array 32 seed -> wallet_for H ed_public seed w ->
  tx_ok (TExtended (with_proof x [])) -> account_ok (AVesting c) -> v_owner c = firstn 20 (H (ed_public seed)) ->
  x_value x <= amountUnlocked oob c height -> x_value x <= v_value c ->
  exists x', SignExtendedTx H ed_sign w x = Ok (x', None) /\
    ApplyOutgoingTx H oob (AVesting c) (TExtended x') height = Ok (with_balance (AVesting c) (v_value c - x_value x)).
Proof.
  intros HH Hsch Hs Hw Hx Hc Ho Hu Hv. destruct (C68_signed_extended _ _ _ _ _ _ _ HH Hsch Hs Hw Hx) as (p & E & Ht & Hp & _ & _ & Hsg & _).
  eexists. split; [exact E|]. change (x_value x) with (x_value (with_proof x (proof_bytes p))).
  eapply C61_owner_can_spend; [exact Ht|exact Hp|congruence|reflexivity|exact Hu|exact Hv|exact Hc].
Qed.
Print Assumptions C68_owner_spends.

(** A toy scheme to show that the hypotheses can be met: the public key is the seed
    reversed, a signature the reversed public key and a 32-byte digest of the message. *)
Definition toy_H (b : bytes) : bytes := be_put 32 (be_get b * 257 + 7).
Definition toy_public (seed : bytes) : bytes := rev (firstn 32 (seed ++ repeat 0 32)).
Definition toy_sign (key m : bytes) : bytes := be_put 32 (be_get (skipn 32 key)) ++ toy_H m.
Definition toy_verify (pub m sig : bytes) : bool := bytes_eqb sig (pub ++ toy_H m).
Lemma toy_H_ok : hash_fn toy_H.
Proof. intros x. split; [apply be_put_length|apply be_put_ok]. Qed.
Lemma toy_scheme : scheme_ok toy_public (fun k m => toy_sign k m) toy_verify.
Proof.
  assert (P : forall seed, array 32 seed -> array 32 (toy_public seed)).
  { intros seed (L & B). unfold toy_public. rewrite firstn_app, L, Nat.sub_diag, firstn_O, app_nil_r, (firstn_exact 32) by exact L.
    split; [rewrite rev_length; exact L|]. unfold bytes_ok. apply Forall_rev. exact B. }
  split; [exact P|]. split.
  - intros k m. split; [unfold toy_sign; rewrite app_length, be_put_length, (proj1 (toy_H_ok m)); reflexivity|].
    unfold toy_sign. apply bytes_ok_app. split; [apply be_put_ok|apply toy_H_ok].
  - intros seed m Hs. unfold toy_verify, toy_sign. apply bytes_eqb_eq. f_equal.
    destruct (P _ Hs) as (L & B). rewrite skipn_app, (proj1 Hs), Nat.sub_diag, skipn_O, skipn_all2 by (rewrite (proj1 Hs); lia). cbn [app].
    rewrite <- L at 1. apply be_put_get. exact B.
Qed.
Definition toy_seed : bytes := map Z.of_nat (seq 1 32).
Definition toy_wallet : Basic := MkWallet (Some (toy_seed ++ rev toy_seed)) (Some (rev toy_seed)) zero20.
Definition toy_tx : ExtendedTx := MkExtendedTx [7] (repeat 3 20) 1 (repeat 4 20) 0 5 6 100 42 0 [9; 9].
Example C68_example :
  array 32 toy_seed /\ wallet_for toy_H toy_public toy_seed toy_wallet /\ tx_ok (TExtended (with_proof toy_tx [])) /\
  (exists x', SignExtendedTx toy_H toy_sign toy_wallet toy_tx = Ok (x', None) /\ length (x_proof x') = 97%nat) /\
  account_ok (AVesting (MkVesting 10 (firstn 20 (toy_H (rev toy_seed))) 0 1 10 10)).
Proof.
  assert (S : array 32 toy_seed) by (split; [reflexivity|apply bytes_okb_spec; reflexivity]).
  split; [exact S|]. split; [apply wallet_derived; reflexivity|]. split.
  { cbn [tx_ok toy_tx with_proof x_data x_sender x_sender_type x_recipient x_recipient_type x_value x_fee x_height x_network x_flags x_proof].
    repeat split; try (apply bytes_okb_spec; reflexivity); try reflexivity; unfold u8, u32, u64; lia. }
  split; [eexists; split; [vm_compute; reflexivity|reflexivity]|].
  cbn [account_ok v_value v_owner v_start v_step_blocks v_step_amount v_total]. unfold u64, u32. repeat split; try lia. apply bytes_okb_spec. vm_compute. reflexivity.
Qed.

(** ** C69 *)
Theorem C69_signed_basic H ed_public ed_sign ed_verify seed w b :
  hash_fn H -> scheme_ok ed_public ed_sign ed_verify -> array 32 seed -> wallet_for H ed_public seed w -> tx_ok (TBasic b) ->
  let m := signed_bytes H (TBasic b) in
  let sig := ed_sign (seed ++ ed_public seed) m in
  (b_pubkey b <> ed_public seed -> exists e, SignBasicTx H ed_sign w b = Ok (b, Some e)) /\
  (b_pubkey b = ed_public seed ->
     SignBasicTx H ed_sign w b = Ok (with_signature b sig, None) /\
     tx_ok (TBasic (with_signature b sig)) /\ ed_verify (b_pubkey b) m sig = true /\
     (forall old, signed_bytes H (TBasic (with_signature b old)) = m) /\
     fst (GetSender H (TBasic (with_signature b sig))) = firstn 20 (H (ed_public seed))).
Proof.
  intros HH Hsch Hs Hw Hb m sig. destruct (wallet_keys _ _ _ _ _ _ HH Hsch Hs Hw) as (E1 & E2 & _).
  destruct (proj1 (proj2 Hsch) (seed ++ ed_public seed) m) as (Ls & Bs). fold sig in Ls, Bs.
  split; intros Hk; unfold SignBasicTx; rewrite E2.
  - apply not_eq_sym, bytes_eqb_neq in Hk. rewrite Hk. cbn [negb]. eauto.
  - rewrite Hk, bytes_eqb_refl. cbn [negb]. rewrite (wallet_signs _ _ _ _ _ _ _ HH Hsch Hs Hw Hb). cbn [bind]. fold m sig.
    cbn [tx_ok] in Hb. destruct Hb as (X1 & X2 & X3 & X4 & X5 & X6 & X7 & X8).
    rewrite copy_all by lia. split; [unfold with_signature; rewrite Hk; reflexivity|].
    split; [|split; [apply (proj2 (proj2 Hsch)); exact Hs|split; [reflexivity|cbn [GetSender with_signature b_pubkey fst]; rewrite Hk; reflexivity]]].
    cbn [tx_ok with_signature b_pubkey b_recipient b_value b_fee b_height b_network b_signature]. repeat (split; [assumption|]). first [exact (conj Ls Bs)|assumption].
Qed.
Print Assumptions C69_signed_basic.
Example C69_example :
  let b := MkBasicTx (rev toy_seed) (repeat 4 20) 5 6 100 42 (repeat 9 64) in
  let other := MkBasicTx (repeat 1 32) (repeat 4 20) 5 6 100 42 (repeat 9 64) in
  tx_ok (TBasic b) /\ tx_ok (TBasic other) /\ toy_public toy_seed = rev toy_seed /\
  SignBasicTx toy_H toy_sign toy_wallet other = Ok (other, Some EWrongSender) /\
  exists b', SignBasicTx toy_H toy_sign toy_wallet b = Ok (b', None) /\ firstn 3 (b_signature b') = [32; 31; 30].
Proof.
  cbv zeta. split; [|split; [|split; [reflexivity|split; [vm_compute; reflexivity|eexists; split; [vm_compute; reflexivity|reflexivity] ] ] ] ];
  (cbn [tx_ok b_pubkey b_recipient b_value b_fee b_height b_network b_signature]; unfold u8, u32, u64; repeat split; try lia; apply bytes_okb_spec; reflexivity).
Qed.

(** ** C70 *)
Theorem C70_payload_determines_content H t t' m :
  hash_fn H -> tx_ok t -> tx_ok t' ->
  Marshal [] (APtr ty_content (v_content (AsTxContent H t))) = Ok (m, None) ->
  Marshal [] (APtr ty_content (v_content (AsTxContent H t'))) = Ok (m, None) ->
  tx_data t = tx_data t' /\ tx_sender H t = tx_sender H t' /\ tx_sender_type t = tx_sender_type t' /\
  tx_recipient t = tx_recipient t' /\ tx_recipient_type t = tx_recipient_type t' /\ tx_value t = tx_value t' /\
  tx_fee t = tx_fee t' /\ tx_start t = tx_start t' /\ tx_network t = tx_network t' /\ tx_flags t = tx_flags t'.
Proof.
  intros HH Ht Ht' E E'.
  destruct (enc_marshal _ _ _ (content_message H t HH Ht)) as (Hm & _). rewrite Hm in E. injection E as E. cbn [app] in E.
  destruct (enc_marshal _ _ _ (content_message H t' HH Ht')) as (Hm' & _). rewrite Hm' in E'. injection E' as E'. cbn [app] in E'.
  rewrite <- E' in E. clear Hm Hm' E'.
  assert (F : forall t, tx_ok t -> zlen (tx_data t) < 2 ^ 16 /\ length (tx_sender H t) = 20%nat /\ length (tx_recipient t) = 20%nat /\
    u8 (tx_sender_type t) /\ u8 (tx_recipient_type t) /\ u64 (tx_value t) /\ u64 (tx_fee t) /\ u32 (tx_start t) /\ u8 (tx_network t) /\ u8 (tx_flags t)).
  { clear - HH. intros [b|x] Ht; cbn [tx_ok] in Ht.
    - destruct Ht as (X1 & X2 & X3 & X4 & X5 & X6 & _). cbn [tx_data tx_sender tx_recipient tx_sender_type tx_recipient_type tx_value tx_fee tx_start tx_network tx_flags].
      assert (Z0 : u8 0) by (unfold u8; lia). split; [reflexivity|]. split; [rewrite firstn_length, (proj1 (HH _)); reflexivity|]. split; [apply X2|]. auto 10.
    - destruct Ht as (X1 & X2 & X3 & X4 & X5 & X6 & X7 & X8 & X9 & X10 & X11 & _). cbn [tx_data tx_sender tx_recipient tx_sender_type tx_recipient_type tx_value tx_fee tx_start tx_network tx_flags].
      split; [exact X2|]. split; [apply X3|]. split; [apply X5|]. auto 10. }
  destruct (F t Ht) as (A1 & A2 & A3 & A4 & A5 & A6 & A7 & A8 & A9 & A10). destruct (F t' Ht') as (B1 & B2 & B3 & B4 & B5 & B6 & B7 & B8 & B9 & B10). clear F.
  unfold u8, u32, u64 in *. pose proof (Zle_0_nat (length (tx_data t))). pose proof (Zle_0_nat (length (tx_data t'))).
  unfold signed_bytes in E.
  apply bytes_split in E as (E1 & E); [|rewrite !be_len; reflexivity]. apply be_injective in E1; [|unfold zlen in *; cbn; lia|unfold zlen in *; cbn; lia].
  apply bytes_split in E as (E2 & E); [|unfold zlen in E1; lia].
  apply bytes_split in E as (E3 & E); [|congruence].
  apply bytes_split in E as (E4 & E); [|rewrite !be_len; reflexivity]. apply be_injective in E4; [|cbn; lia|cbn; lia].
  apply bytes_split in E as (E5 & E); [|congruence].
  apply bytes_split in E as (E6 & E); [|rewrite !be_len; reflexivity]. apply be_injective in E6; [|cbn; lia|cbn; lia].
  apply bytes_split in E as (E7 & E); [|rewrite !be_len; reflexivity]. apply be_injective in E7; [|cbn; lia|cbn; lia].
  apply bytes_split in E as (E8 & E); [|rewrite !be_len; reflexivity]. apply be_injective in E8; [|cbn; lia|cbn; lia].
  apply bytes_split in E as (E9 & E); [|rewrite !be_len; reflexivity]. apply be_injective in E9; [|cbn; lia|cbn; lia].
  apply bytes_split in E as (E10 & E); [|rewrite !be_len; reflexivity]. apply be_injective in E10; [|cbn; lia|cbn; lia].
  apply be_injective in E; [|cbn; lia|cbn; lia]. auto 20.
Qed.
Print Assumptions C70_payload_determines_content.
(** What a wallet signs for two transactions is the same message only if they have the same content. *)
Theorem C70_payload_exists H t : hash_fn H -> tx_ok t -> Marshal [] (APtr ty_content (v_content (AsTxContent H t))) = Ok (signed_bytes H t, None).
Proof. intros HH Ht. apply (enc_marshal _ _ _ (content_message H t HH Ht)). Qed.
Print Assumptions C70_payload_exists.

(** ** C71 *)
Theorem C71_signed_peer_verifies ed_public ed_sign ed_verify seed pa :
  scheme_ok ed_public ed_sign ed_verify -> array 32 seed -> peer_ok pa ->
  let h := pa_header pa in
  let m := be 1 (pa_protocol h) ++ be 4 (pa_services h) ++ be 8 (pa_timestamp h) in
  exists pa', PeerAddress_Sign ed_sign pa (seed ++ ed_public seed) = Ok pa' /\
    PeerAddress_VerifySignature ed_verify pa' = true /\ peer_ok pa' /\
    pa_pubkey (pa_header pa') = ed_public seed /\ pa_signature (pa_header pa') = ed_sign (seed ++ ed_public seed) m /\
    pa_protocol (pa_header pa') = pa_protocol h /\ pa_services (pa_header pa') = pa_services h /\
    pa_timestamp (pa_header pa') = pa_timestamp h /\ pa_net (pa_header pa') = pa_net h /\
    pa_distance (pa_header pa') = pa_distance h /\ pa_detail pa' = pa_detail pa.
Proof.
  intros Hsch Hs (H1 & H2 & H3 & H4 & H5) h m. fold h in H1, H2, H3, H4, H5.
  assert (Em : pa_protocol h :: be_put 4 (pa_services h) ++ be_put 8 (pa_timestamp h) = m).
  { unfold m. change (be 4) with (be_put 4). change (be 8) with (be_put 8). unfold u8 in H1. unfold be. cbn [big_endian app Z.of_nat Z.pow]. rewrite Z.div_1_r, Z.mod_small by lia. reflexivity. }
  pose proof (proj1 Hsch _ Hs) as Hp. pose proof (proj1 (proj2 Hsch) (seed ++ ed_public seed) m) as Hg.
  eexists. split.
  { unfold PeerAddress_Sign. fold h. unfold zlen. rewrite app_length, (proj1 Hs), (proj1 Hp). change (Z.of_nat (32 + 32) =? 64) with true. cbn match.
    rewrite Em, skipn_app, (proj1 Hs), Nat.sub_diag, skipn_O, skipn_all2 by (rewrite (proj1 Hs); lia). cbn [app].
    rewrite !copy_all by (rewrite ?(proj1 H4), ?(proj1 H5), ?(proj1 Hp), ?(proj1 Hg); reflexivity). reflexivity. }
  unfold PeerAddress_VerifySignature, peer_ok. cbn [pa_header pa_protocol pa_services pa_timestamp pa_net pa_pubkey pa_distance pa_signature pa_detail].
  rewrite Em. split; [apply (proj2 (proj2 Hsch)); exact Hs|]. auto 12.
Qed.
Print Assumptions C71_signed_peer_verifies.
(** The check is about a message that determines protocol, services and time stamp: ... *)
Theorem C71_message_determines_fields h h' :
  u8 (pa_protocol h) -> u32 (pa_services h) -> u64 (pa_timestamp h) -> u8 (pa_protocol h') -> u32 (pa_services h') -> u64 (pa_timestamp h') ->
  be 1 (pa_protocol h) ++ be 4 (pa_services h) ++ be 8 (pa_timestamp h) = be 1 (pa_protocol h') ++ be 4 (pa_services h') ++ be 8 (pa_timestamp h') ->
  pa_protocol h = pa_protocol h' /\ pa_services h = pa_services h' /\ pa_timestamp h = pa_timestamp h'.
Proof.
  unfold u8, u32, u64. intros R1 R2 R3 R4 R5 R6 E.
  apply bytes_split in E as (E1 & E); [|rewrite !be_len; reflexivity]. apply be_injective in E1; [|cbn; lia|cbn; lia].
  apply bytes_split in E as (E2 & E); [|rewrite !be_len; reflexivity]. apply be_injective in E2; [|cbn; lia|cbn; lia].
  apply be_injective in E; [|cbn; lia|cbn; lia]. auto.
Qed.
Print Assumptions C71_message_determines_fields.
Theorem C71_verify_checks_message ed_verify pa :
  peer_ok pa ->
  let h := pa_header pa in
  PeerAddress_VerifySignature ed_verify pa =
  ed_verify (pa_pubkey h) (be 1 (pa_protocol h) ++ be 4 (pa_services h) ++ be 8 (pa_timestamp h)) (pa_signature h).
Proof.
  intros (H1 & _) h. unfold PeerAddress_VerifySignature. fold h. change (be 4) with (be_put 4). change (be 8) with (be_put 8). fold h in H1. unfold u8 in H1. unfold be. cbn [big_endian app Z.of_nat Z.pow].
  rewrite Z.div_1_r, Z.mod_small by lia. reflexivity.
Qed.
Print Assumptions C71_verify_checks_message.
(** ... and does not cover the network address, the distance, and host and port: they can be
    changed on the way without invalidating the signature. *)
Theorem C71_address_not_covered ed_verify pa net distance detail :
  let h := pa_header pa in
  PeerAddress_VerifySignature ed_verify
    (MkPeerAddress (MkPeerHeader (pa_protocol h) (pa_services h) (pa_timestamp h) net (pa_pubkey h) distance (pa_signature h)) detail) =
  PeerAddress_VerifySignature ed_verify pa.
Proof. reflexivity. Qed.
Print Assumptions C71_address_not_covered.
Example C71_example :
  let pa := MkPeerAddress (MkPeerHeader 2 3 1000 (MkNetAddress 0 [127; 0; 0; 1]) (repeat 0 32) 1 (repeat 0 64)) None in
  peer_ok pa /\ exists pa', PeerAddress_Sign toy_sign pa (toy_seed ++ rev toy_seed) = Ok pa' /\ PeerAddress_VerifySignature toy_verify pa' = true /\
    PeerAddress_VerifySignature toy_verify pa = false /\ length (pa_signature (pa_header pa')) = 64%nat.
Proof.
  cbv zeta. split.
  - unfold peer_ok, u8, u32, u64. cbn [pa_header pa_protocol pa_services pa_timestamp pa_pubkey pa_signature]. repeat split; try lia; apply bytes_okb_spec; reflexivity.
  - eexists. split; [vm_compute; reflexivity|]. split; [vm_compute; reflexivity|]. split; reflexivity.
Qed.
