(** The encodings of accounts, transactions, proofs, headers and bodies are the
    byte layouts of Spec/WireSpec.v. *)
From Coq Require Import ZArith List Lia Bool String.
Import ListNotations.
From Verif.Model Require Import Base Address Beserial Wire.
From Verif.Spec Require Import BeserialSpec WireSpec.
From Verif.Proofs Require Import BaseFacts BeserialFacts WireFacts InterlinkFacts BlockFacts.
From Verif.Props Require Import BeserialProps.
Open Scope Z_scope.

Lemma enc_u8s b : bytes_ok b -> enc_elems (TNum U8) (map VNum b) b.
Proof.
  induction 1 as [|x b Hx Hb IH]; [constructor|]. cbn [map]. change (x :: b) with ([x] ++ b).
  constructor; [|exact IH]. replace [x] with (big_endian (width U8) x); [constructor; exact Hx|].
  cbn. unfold is_byte in Hx. rewrite Z.div_1_r, Z.mod_small by lia. reflexivity.
Qed.
Lemma enc_bytesN n ts b : array n b -> enc (bytesN n) ts (vbytes b) b.
Proof.
  intros (Hl & Hb). apply enc_array; [intros _; reflexivity|rewrite map_length; exact Hl|apply enc_u8s; exact Hb].
Qed.
Lemma enc_blob k b : signed k = false -> bytes_ok b -> zlen b < 256 ^ Z.of_nat (width k) -> zlen b < 2 ^ 63 ->
  enc (TSlice (TNum U8)) (Tags (Some k) false) (vbytes b) (be (width k) (zlen b) ++ b).
Proof.
  intros Hk Hb H1 H2. unfold be, zlen. rewrite <- (map_length VNum b). apply enc_slice; [intros _; reflexivity|reflexivity| | |apply enc_u8s; exact Hb].
  - unfold zlen in *. rewrite map_length. repeat split; assumption.
  - rewrite map_length. lia.
Qed.
Lemma enc_slice_of {A} (t : ty) (to : A -> val) (by_ : A -> bytes) k l :
  elem_ok t -> signed k = false -> zlen l < 256 ^ Z.of_nat (width k) -> zlen l < 2 ^ 63 ->
  Forall (fun x => by_ x <> [] /\ enc t no_tags (to x) (by_ x)) l ->
  enc (TSlice t) (Tags (Some k) false) (VList (map to l)) (be (width k) (zlen l) ++ List.concat (map by_ l)).
Proof.
  intros He Hk H1 H2 Hl. unfold be, zlen in *. rewrite <- (map_length to l). apply enc_slice; [exact He|reflexivity| | |].
  - rewrite map_length. repeat split; assumption.
  - rewrite map_length. clear -Hl. induction Hl as [|x l (Hx & _) _ IH]; cbn [map List.concat List.length]; [lia|]. rewrite app_length.
    destruct (by_ x); [congruence|]. cbn [List.length]. lia.
  - clear -Hl. induction Hl as [|x l (_ & Hx) _ IH]; cbn [map List.concat]; constructor; assumption.
Qed.
Lemma enc_int k ts z : in_range k z -> enc (TNum k) ts (VNum z) (be (width k) z).
Proof. apply enc_num. Qed.
Lemma enc_last tag t ts v e : field_tags tag = Ok ts -> enc t ts v e -> enc_fields [(tag, t)] [v] e.
Proof. intros Ht H. rewrite <- (app_nil_r e). econstructor; [exact Ht|exact H|constructor]. Qed.
(** Marshal and Unmarshal of a value with a known encoding. *)
Lemma enc_marshal t v e : enc t no_tags v e ->
  (forall b, Marshal b (APtr t v) = Ok (b ++ e, None)) /\ (forall dst rest, Unmarshal (e ++ rest) (APtr t dst) = (Ok (Some v), zlen e)).
Proof.
  intros He. destruct (proj1 enc_round_trip _ _ _ _ He) as (Hm & Hd). split; [exact Hm|].
  intros dst rest. destruct (Hd dst rest []) as (al & E). unfold Unmarshal. rewrite E. cbn [bind data].
  f_equal. unfold zlen. rewrite app_length. lia.
Qed.
Ltac enc_fields_tac := repeat first [eapply enc_last; [reflexivity|] | eapply enc_fields_cons; [reflexivity| |]].
Lemma account_layout a : account_ok a -> exists e, account_bytes a = AccountType a :: e /\ enc (ty_account (AccountType a)) no_tags (v_account a) e.
Proof.
  destruct a as [v|c|h]; cbn [account_ok account_bytes]; intros Ha; eexists; (split; [reflexivity|]).
  - apply enc_struct. enc_fields_tac. apply (enc_int U64). exact Ha.
  - destruct Ha as (H1 & H2 & H3 & H4 & H5 & H6). apply enc_struct. enc_fields_tac;
    first [apply enc_bytesN; assumption | apply (enc_int U64); assumption | apply (enc_int U32); assumption].
  - destruct Ha as (H1 & H2 & H3 & H4 & H5 & H6 & H7). apply enc_struct. enc_fields_tac;
    first [apply enc_bytesN; assumption | apply (enc_int U64); assumption | apply (enc_int U32); assumption | apply (enc_int U8); assumption | idtac].
    apply enc_custom. apply hash_encodes. exact H4.
Qed.
Lemma content_layout c : bytes_ok (c_data c) -> zlen (c_data c) < 2 ^ 16 -> array 20 (c_sender c) -> u8 (c_sender_type c) -> array 20 (c_recipient c) ->
  u8 (c_recipient_type c) -> u64 (c_value c) -> u64 (c_fee c) -> u32 (c_height c) -> u8 (c_network c) -> u8 (c_flags c) ->
  enc ty_content no_tags (v_content c) (content_bytes c).
Proof.
  intros. unfold content_bytes. rewrite (app_assoc (be 2 _)). apply enc_struct. enc_fields_tac;
    first [apply enc_bytesN; assumption | apply (enc_int U64); assumption | apply (enc_int U32); assumption | apply (enc_int U8); assumption | apply (enc_blob U16); try assumption; try reflexivity; cbn [width]; lia].
Qed.
Lemma tx_layout t : tx_ok t -> exists e, tx_bytes t = TxType t :: e /\ enc (ty_tx (TxType t)) no_tags (v_tx t) e.
Proof.
  destruct t as [b|x]; cbn [tx_ok tx_bytes]; intros Ht; eexists; (split; [reflexivity|]).
  - destruct Ht as (H1 & H2 & H3 & H4 & H5 & H6 & H7). apply enc_struct. enc_fields_tac;
    first [apply enc_bytesN; assumption | apply (enc_int U64); assumption | apply (enc_int U32); assumption | apply (enc_int U8); assumption].
  - destruct Ht as (H1 & H2 & H3 & H4 & H5 & H6 & H7 & H8 & H9 & H10 & H11 & H12 & H13). rewrite (app_assoc (be 2 (zlen (x_data x)))). apply enc_struct. enc_fields_tac;
    first [apply enc_bytesN; assumption | apply (enc_int U64); assumption | apply (enc_int U32); assumption | apply (enc_int U8); assumption | apply (enc_blob U16); try assumption; try reflexivity; cbn [width]; lia].
Qed.
Lemma path_layout p : path_ok p -> enc ty_path no_tags (v_path p) (bitset_bytes (Branches p) ++ List.concat (Hashes p)).
Proof. intros Hp. apply enc_custom. apply path_encodes. exact Hp. Qed.
Lemma proof_layout p : proof_ok p -> enc ty_proof no_tags (v_proof p) (proof_bytes p).
Proof.
  intros (H1 & H2 & H3). apply enc_struct. enc_fields_tac; first [apply enc_bytesN; assumption | apply path_layout; exact H2].
Qed.
Lemma header_layout h : header_ok h -> enc ty_header no_tags (v_header h) (header_bytes h).
Proof.
  intros (H1 & H2 & H3 & H4 & H5 & H6 & H7 & H8 & H9). apply enc_struct. enc_fields_tac;
    first [apply enc_bytesN; assumption | apply (enc_int U16); assumption | apply (enc_int U32); assumption].
Qed.
(** Objects with a type byte. *)
Lemma wrap_account_layout a : account_ok a -> codec_encodes wrap_account_codec (v_wrap_account (Some a)) (account_bytes a).
Proof.
  intros Ha. destruct (wrap_account_encodes a Ha) as (e & _ & He & Hm & _ & e' & -> & He').
  destruct (account_layout a Ha) as (e2 & E2 & H2).
  assert (e2 = e') as ->.
  { destruct (enc_marshal _ _ _ He') as (M1 & _). destruct (enc_marshal _ _ _ H2) as (M2 & _). specialize (M1 []). specialize (M2 []). cbn [app] in *. congruence. }
  rewrite E2. exact He.
Qed.
Lemma wrap_tx_layout t : tx_ok t -> codec_encodes wrap_tx_codec (v_wrap_tx (Some t)) (tx_bytes t).
Proof.
  intros Ha. destruct (wrap_tx_encodes t Ha) as (e & _ & He & Hm & _ & e' & -> & He').
  destruct (tx_layout t Ha) as (e2 & E2 & H2).
  assert (e2 = e') as ->.
  { destruct (enc_marshal _ _ _ He') as (M1 & _). destruct (enc_marshal _ _ _ H2) as (M2 & _). specialize (M1 []). specialize (M2 []). cbn [app] in *. congruence. }
  rewrite E2. exact He.
Qed.
Lemma pruned_layout p : pruned_ok p -> enc ty_pruned no_tags (v_pruned p) (pruned_bytes p).
Proof.
  intros (H1 & a & Ea & Ha). apply enc_struct. enc_fields_tac; [apply enc_bytesN; exact H1|]. rewrite Ea. apply enc_custom. apply wrap_account_layout. exact Ha.
Qed.
Lemma body_layout b : body_ok b -> enc ty_body no_tags (v_body b) (body_bytes b).
Proof.
  intros (H1 & H2 & H3 & H4 & H5 & H6 & H7). unfold body_bytes. rewrite (app_assoc (be 1 _)), (app_assoc (be 2 (zlen (bb_txs b)))). apply enc_struct. enc_fields_tac.
  - apply enc_bytesN; assumption.
  - apply (enc_blob U8); try assumption; try reflexivity; cbn [width]; lia.
  - apply (enc_slice_of ty_wrap_tx v_wrap_tx opt_tx_bytes U16); try reflexivity; cbn [width]; try lia.
    + intros Hd. discriminate Hd.
    + eapply Forall_impl; [|exact H5]. intros t (x & -> & Hx). cbn [opt_tx_bytes]. split; [destruct x; discriminate|]. apply enc_custom. apply wrap_tx_layout. exact Hx.
  - apply (enc_slice_of ty_pruned v_pruned pruned_bytes U16); try reflexivity; cbn [width]; try lia.
    + intros Hd. discriminate Hd.
    + eapply Forall_impl; [|exact H7]. intros p Hp. split; [|apply pruned_layout; exact Hp].
      destruct Hp as ((Hl & _) & _). unfold pruned_bytes. destruct (p_address p); [discriminate Hl|discriminate].
Qed.
