(** Property C100: decoding into an object that has been used before. *)
From Coq Require Import ZArith List Lia Bool.
Import ListNotations.
From Verif.Model Require Import Base Address Beserial Wire Policy Account Genesis Messages.
From Verif.Spec Require Import BeserialSpec WireSpec.
From Verif.Proofs Require Import BaseFacts BeserialFacts WireFacts.
Open Scope Z_scope.

(** An UnmarshalBESerial method that does not look at the object it fills. *)
Definition overwriting (c : codec) : Prop := forall old old' d, cd_unmarshal c old d = cd_unmarshal c old' d.

Lemma mbind_ext {A B} (m m' : M A) (f f' : A -> M B) s :
  m s = m' s -> (forall a s', f a s' = f' a s') -> mbind m f s = mbind m' f' s.
Proof. unfold mbind. intros -> Hf. destruct (m' s) as ([] & ?); auto. Qed.
Lemma dec_n_ext f : (forall x y s, f x s = f y s) -> forall n l l' s, dec_n f n l s = dec_n f n l' s.
Proof.
  intros Hf. induction n as [|n IH]; intros l l' s; cbn [dec_n]; [reflexivity|].
  apply mbind_ext; [apply Hf|]. intros v s'. apply mbind_ext; [apply IH|reflexivity].
Qed.
Lemma value_overwrites t : well_declared overwriting t -> forall ts old old' s, value t ts old s = value t ts old' s.
Proof.
  induction t as [|k| |t IH|n t IH|t IH|fs IH| |c t IH] using ty_ind'; intros Hw ts old old' s; try reflexivity.
  - destruct Hw as (Hc & _). destruct t; try discriminate Hc; reflexivity.
  - destruct Hw as (_ & Hw). cbn [value]. destruct (is_u8 t); [reflexivity|]. apply mbind_ext; [|reflexivity]. apply dec_n_ext. intros. now apply IH.
  - cbn [value]. apply mbind_ext; [|reflexivity]. generalize (elems_of old) (elems_of old'). clear old old'. revert s.
    induction IH as [|(tag & t) fs Ht _ IHfs]; intros s l l'; [reflexivity|].
    destruct Hw as (_ & H1 & H2). apply mbind_ext; [reflexivity|]. intros ts0 s1. apply mbind_ext; [apply Ht, H1|]. intros v s2.
    apply mbind_ext; [apply IHfs, H2|reflexivity].
  - cbn [value]. unfold call_unmarshal. rewrite (Hw old old'). reflexivity.
Qed.
(** C100. Every type whose codecs overwrite: what Unmarshal yields does not depend on the previous contents. *)
Theorem C100_overwrites_partial t old old' d : well_declared overwriting t ->
  Unmarshal d (APtr t old) = Unmarshal d (APtr t old') /\ UnmarshalFull d (APtr t old) = UnmarshalFull d (APtr t old').
Proof.
  intros Hw. assert (E : Unmarshal d (APtr t old) = Unmarshal d (APtr t old')) by (unfold Unmarshal; rewrite (value_overwrites t Hw _ old old'); reflexivity).
  split; [exact E|]. unfold UnmarshalFull. rewrite E. reflexivity.
Qed.
Print Assumptions C100_overwrites_partial.

Lemma typed_overwriting {A} to_val of_val (unm : A -> bytes -> res (A * Z)) mar :
  (forall x y d, unm x d = unm y d) -> overwriting (typed_codec to_val of_val unm mar).
Proof. intros Hu old old' d. cbn [typed_codec cd_unmarshal]. rewrite (Hu (of_val old) (of_val old')). reflexivity. Qed.
Lemma hash_overwriting : overwriting hash_codec. Proof. now apply typed_overwriting. Qed.
Lemma bitset_overwriting : overwriting bitset_codec. Proof. now apply typed_overwriting. Qed.
Lemma path_overwriting : overwriting path_codec. Proof. now apply typed_overwriting. Qed.
Lemma account_overwriting : overwriting wrap_account_codec. Proof. now apply typed_overwriting. Qed.
Lemma tx_overwriting : overwriting wrap_tx_codec. Proof. now apply typed_overwriting. Qed.
(** The types of the wire protocol for which this holds. *)
Definition reusable : list ty :=
  [ty_hash; ty_bitset; ty_path; ty_proof; ty_account 0; ty_account 1; ty_account 2; ty_wrap_account; ty_pruned; ty_tx 0; ty_tx 1; ty_wrap_tx;
   ty_content; ty_header; ty_body; ty_staking; ty_chunk; ty_genesis_account; ty_accounts_list; ty_vesting24; ty_vesting36; ty_vesting44;
   ty_htlc_params; ty_regular; ty_early; ty_timeout; ty_peer_srv;
   ty_message KInv; ty_message KGetBlocks; ty_message KHeader; ty_message KHead; ty_message KTx; ty_message KGetAddr; ty_message KVerAck;
   ty_message KGetTxProof; ty_message KGetTxReceipts].
Theorem C100_wire_objects_partial t old old' d : In t reusable ->
  Unmarshal d (APtr t old) = Unmarshal d (APtr t old') /\ UnmarshalFull d (APtr t old) = UnmarshalFull d (APtr t old').
Proof.
  intros Hin. apply C100_overwrites_partial.
  pose proof hash_overwriting as H1. pose proof bitset_overwriting as H2. pose proof path_overwriting as H3.
  pose proof account_overwriting as H4. pose proof tx_overwriting as H5.
  repeat (destruct Hin as [<-|Hin]; [cbn -[overwriting hash_codec bitset_codec path_codec wrap_account_codec wrap_tx_codec field_tags]; declare|]). destruct Hin.
Qed.
Print Assumptions C100_wire_objects_partial.

(** A block: the old block matters only through the PrevHash of its interlink. *)
Lemma interlink_prev_only il il' d : il_prev il = il_prev il' -> Interlink_Unmarshal il d = Interlink_Unmarshal il' d.
Proof. unfold Interlink_Unmarshal, BitSet_Unmarshal. intros ->. reflexivity. Qed.
Lemma header_reuse : well_declared overwriting ty_header. Proof. cbn -[field_tags]. declare. Qed.
Lemma body_reuse : well_declared overwriting ty_body.
Proof. pose proof account_overwriting. pose proof tx_overwriting. cbn -[overwriting wrap_account_codec wrap_tx_codec field_tags]. declare. Qed.
Theorem C100_blocks_partial old old' d :
  il_prev (bl_interlink old) = il_prev (bl_interlink old') ->
  Unmarshal d (APtr ty_block (v_block old)) = Unmarshal d (APtr ty_block (v_block old')).
Proof.
  intros Hp. unfold Unmarshal.
  assert (E : forall s, value ty_block no_tags (v_block old) s = value ty_block no_tags (v_block old') s); [|rewrite E; reflexivity].
  intros s. unfold ty_block. cbn [value elems_of v_block hd_val List.tl]. apply mbind_ext; [|reflexivity].
  apply mbind_ext; [reflexivity|]. intros ts0 s1. apply mbind_ext; [apply value_overwrites, header_reuse|]. intros v1 s2.
  apply mbind_ext; [|reflexivity]. apply mbind_ext; [reflexivity|]. intros ts1 s3. apply mbind_ext; [|reflexivity].
  unfold ty_interlink, interlink_codec, typed_codec, call_unmarshal. cbn [value]. unfold call_unmarshal. cbn [cd_unmarshal].
  rewrite (interlink_prev_only (interlink_of (v_interlink (bl_interlink old))) (interlink_of (v_interlink (bl_interlink old')))); [reflexivity|].
  unfold interlink_of, v_interlink. cbn [fld elems_of nth il_prev]. rewrite Hp. reflexivity.
Qed.
Print Assumptions C100_blocks_partial.
(** The property is false of the code. An interlink keeps the PrevHash that the object had, and where the encoding begins
    with a repetition, that is the first hash. *)
Theorem C100_interlink_refuted old d il n :
  Interlink_Unmarshal old d = Ok (il, n) ->
  il_prev il = il_prev old /\
  (forall hs, il_hashes il = hs -> 0 < Len (il_repeats il) -> bit (il_repeats il) 0 = Ok true -> exists hs', hs = il_prev old :: hs').
Proof.
  unfold Interlink_Unmarshal. intros E. destruct (BitSet_Unmarshal _ _) as [(bs & m)| | |]; cbn [bind] in E; try discriminate E.
  destruct (interlink_loop bs (Z.to_nat (Len bs)) 0 _ (il_prev old) _) as [((hs & cs) & b')| | |] eqn:El; cbn [bind] in E; try discriminate E.
  injection E as <- <-. cbn [il_prev il_hashes il_repeats]. split; [reflexivity|]. intros hs' <- Hl Hb.
  destruct (Z.to_nat (Len bs)) as [|k] eqn:Ek; [lia|]. cbn [interlink_loop] in El. rewrite Hb in El. cbn [bind] in El.
  destruct (interlink_loop bs k _ _ _ _) as [((hs2 & cs2) & b2)| | |]; cbn [bind] in El; try discriminate El. injection El as <- _ _. eauto.
Qed.
Print Assumptions C100_interlink_refuted.
(** A network address keeps the type that the object had: reading an address of one type into an object of
    the other gives one that is sent as something else. *)
Theorem C100_netaddress_refuted old d na n : NetAddress_Unmarshal old d = Ok (na, n) -> na_type na = na_type old.
Proof.
  unfold NetAddress_Unmarshal. intros E. destruct (Unmarshal d (APtr (TNum U8) (VNum 0))) as (r & m).
  destruct r as [v| | |]; cbn [bind] in E; try discriminate E. cbv zeta in E.
  destruct (_ =? 0); [|destruct (_ =? 1); [|discriminate E]];
    (destruct (_ <? _); [discriminate E|]); injection E as <- <-; reflexivity.
Qed.
Print Assumptions C100_netaddress_refuted.
Example C100_example :
  (let d := 1 :: 9 :: repeat 8 31 in let old := v_hash (MkHash 3 (repeat 7 32)) in
   Unmarshal (firstn 32 d) (APtr ty_hash old) = (Err EUnexpectedEOF, 0) /\
   Unmarshal (d ++ [5; 6]) (APtr ty_hash old) = (Ok (Some (v_hash (MkHash 1 (9 :: repeat 8 31)))), 33)) /\
  (let old p := MkInterlink (MkBitSet 0 []) [] (repeat p 32) [] in
   Interlink_Unmarshal (old 5) [1; 128] = Ok (MkInterlink (MkBitSet 1 [128]) [repeat 5 32] (repeat 5 32) (repeat (repeat 0 32) 7), 2)) /\
  NetAddress_Unmarshal (MkNetAddress 1 []) [0; 127; 0; 0; 1] = Ok (MkNetAddress 1 [127; 0; 0; 1], 5).
Proof. vm_compute. repeat split. Qed.
