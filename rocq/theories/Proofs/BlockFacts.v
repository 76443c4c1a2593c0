(** Lemmas about decoding and encoding blocks. *)
From Coq Require Import ZArith List Lia Bool String.
Import ListNotations.
From Verif.Model Require Import Base Address Beserial Wire.
From Verif.Spec Require Import BeserialSpec WireSpec.
From Verif.Proofs Require Import BaseFacts BeserialFacts WireFacts InterlinkFacts.
From Verif.Props Require Import BeserialProps.
Open Scope Z_scope.

(** ** Types of fixed size *)
Fixpoint fixed (t : ty) : option nat :=
  match t with
  | TNum k => Some (width k)
  | TArray n (TNum U8) => Some n
  | TStruct fs =>
      (fix all (fs : list (option bytes * ty)) : option nat :=
         match fs with
         | [] => Some O
         | (_, t) :: fs => match fixed t, all fs with Some a, Some b => Some (a + b)%nat | _, _ => None end
         end) fs
  | _ => None
  end.
Fixpoint all_fixed (fs : list (option bytes * ty)) : option nat :=
  match fs with
  | [] => Some O
  | (_, t) :: fs => match fixed t, all_fixed fs with Some a, Some b => Some (a + b)%nat | _, _ => None end
  end.
Lemma pop_skip n s b s' : pop n s = (Ok b, s') -> data s' = skipn (Z.to_nat n) (data s) /\ (Z.to_nat n <= List.length (data s))%nat.
Proof.
  unfold pop. destruct (Z.ltb_spec (zlen (data s)) n); [discriminate|]. intros E. injection E as _ <-. split; [reflexivity|]. unfold zlen in *. lia.
Qed.
Lemma value_fixed t : forall n ts dst s v s', fixed t = Some n -> value t ts dst s = (Ok v, s') ->
  data s' = skipn n (data s) /\ (n <= List.length (data s))%nat.
Proof.
  induction t as [|k| |t IH|m t IH|t IH|fs IH| |c t IH] using ty_ind'; intros n ts dst s v s' Hf E; try discriminate Hf.
  - injection Hf as <-. cbn [value] in E. apply mbind_ok in E as (z & s1 & E1 & E). injection E as _ <-. unfold number in E1.
    apply mbind_ok in E1 as (b & s2 & E1 & E). injection E as _ <-. apply pop_skip in E1. rewrite Nat2Z.id in E1. exact E1.
  - cbn [fixed] in Hf. destruct t as [|k| | | | | | |]; try discriminate Hf. destruct k; try discriminate Hf. injection Hf as <-.
    cbn [value is_u8 num_kind is_custom] in E. apply mbind_ok in E as (b & s1 & E1 & E). injection E as _ <-. apply pop_skip in E1. rewrite Nat2Z.id in E1. exact E1.
  - rewrite value_struct in E. apply mbind_ok in E as (vs & s1 & E & E'). injection E' as _ <-. change (all_fixed fs = Some n) in Hf.
    revert n vs s Hf E. generalize (elems_of dst). induction IH as [|(tag & t) fs Ht Hfs IHfs]; intros dsts n vs s Hf E; cbn [value_fields] in E.
    + injection E as _ <-. injection Hf as <-. split; [reflexivity|lia].
    + cbn [all_fixed] in Hf. destruct (fixed t) as [a|] eqn:Ea; [|discriminate]. destruct (all_fixed fs) as [b|] eqn:Eb; [|discriminate]. injection Hf as <-.
      apply mbind_ok in E as (ts0 & s2 & E2 & E). injection E2 as E2 <-. apply mbind_ok in E as (w & s3 & E3 & E).
      apply mbind_ok in E as (vs' & s4 & E4 & E). injection E as _ E. subst s4.
      destruct (Ht _ _ _ _ _ _ Ea E3) as (H1 & H2). destruct (IHfs _ _ _ _ eq_refl E4) as (H3 & H4). rewrite H1 in *. rewrite H3.
      rewrite skipn_skipn. rewrite skipn_length in H4. split; [reflexivity|lia].
Qed.

(** ** Headers *)
Lemma header_of_v h : header_of (v_header h) = h.
Proof.
  change (header_of (v_header h)) with
    (MkHeader (bh_version h) (bytes_of (vbytes (bh_prev h))) (bytes_of (vbytes (bh_interlink h))) (bytes_of (vbytes (bh_body h)))
       (bytes_of (vbytes (bh_accounts h))) (bh_nbits h) (bh_height h) (bh_timestamp h) (bh_nonce h)).
  rewrite !bytes_of_vbytes. destruct h. reflexivity.
Qed.
Lemma declared_header P : well_declared P ty_header.
Proof. cbn. declare. Qed.
Lemma header_typed_codecs : typed_codecs ty_header.
Proof. cbn. tauto. Qed.
Lemma header_encodable h : header_ok h -> encodable ty_header no_tags (v_header h).
Proof.
  intros (H1 & H2 & H3 & H4 & H5 & H6 & H7 & H8 & H9). apply encodable_struct. apply all_enc_cons; [assumption|].
  do 4 (apply all_enc_cons; [apply encodable_array; assumption|]). do 4 (apply all_enc_cons; [assumption|]). exact I.
Qed.
Lemma typed_header v : typed ty_header v -> v = v_header (header_of v) /\ header_ok (header_of v).
Proof.
  intros Hv. apply typed_struct in Hv as (vs & -> & Hv).
  destruct vs as [|a [|b [|c [|d [|e [|f [|g [|h [|i [|]]]]]]]]]]; cbn [all_typed field] in Hv; try tauto.
  destruct Hv as (Ha & Hb & Hc & Hd & He & Hf & Hg & Hh & Hi & _). typed_fields.
  change (header_of (VStruct [a; b; c; d; e; f; g; h; i])) with
    (MkHeader (num_of a) (bytes_of b) (bytes_of c) (bytes_of d) (bytes_of e) (num_of f) (num_of g) (num_of h) (num_of i)).
  split; [unfold v_header; cbn [bh_version bh_prev bh_interlink bh_body bh_accounts bh_nbits bh_height bh_timestamp bh_nonce]; congruence|].
  unfold header_ok. cbn [bh_version bh_prev bh_interlink bh_body bh_accounts bh_nbits bh_height bh_timestamp bh_nonce].
  do 8 (split; [assumption|]). assumption.
Qed.

(** ** Bodies *)
Lemma pruned_of_v p : pruned_of (v_pruned p) = p.
Proof.
  change (pruned_of (v_pruned p)) with (MkPruned (bytes_of (vbytes (p_address p))) (wrap_account_of (v_wrap_account (p_account p)))).
  rewrite bytes_of_vbytes, wrap_account_of_v. destruct p. reflexivity.
Qed.
Lemma map_id_ext {A} (f : A -> A) l : (forall x, f x = x) -> map f l = l.
Proof. intros E. rewrite (map_ext _ (fun x => x) E). apply map_id. Qed.
Lemma body_of_v b : body_of (v_body b) = b.
Proof.
  change (body_of (v_body b)) with
    (MkBody (bytes_of (vbytes (bb_miner b))) (bytes_of (vbytes (bb_extra b))) (map wrap_tx_of (map v_wrap_tx (bb_txs b))) (map pruned_of (map v_pruned (bb_pruned b)))).
  rewrite !bytes_of_vbytes, !map_map, !map_id_ext by first [exact wrap_tx_of_v | exact pruned_of_v]. destruct b. reflexivity.
Qed.
Lemma declared_body (P : codec -> Prop) : P wrap_tx_codec -> P wrap_account_codec -> well_declared P ty_body.
Proof. intros H1 H2. cbn [well_declared ty_body ty_wrap_tx ty_pruned ty_wrap_account tagged field bytesN]. declare. Qed.
Lemma pruned_encodable p : pruned_ok p -> encodable ty_pruned no_tags (v_pruned p).
Proof.
  intros (H1 & a & Ha & Hok). apply encodable_struct. apply all_enc_cons; [apply encodable_array; exact H1|]. rewrite Ha.
  apply all_enc_cons; [|exact I]. destruct (wrap_account_encodes a Hok) as (e & He & Hc & _). exists e. split; assumption.
Qed.
Lemma encodable_slice (t : ty) k vs : elem_ok t -> occupies t no_tags = true -> signed k = false ->
  zlen vs < 256 ^ Z.of_nat (width k) -> zlen vs < 2 ^ 63 -> Forall (encodable t no_tags) vs -> encodable (TSlice t) (Tags (Some k) false) (VList vs).
Proof. intros H1 H2 H3 H4 H5 H6. cbn [encodable]. split; [exact H1|]. split; [exact H2|]. split; [|exact H6]. exists k. split; [reflexivity|]. split; [exact H3|]. unfold zlen in *. lia. Qed.
Lemma body_encodable b : body_ok b -> encodable ty_body no_tags (v_body b).
Proof.
  intros (H1 & H2 & H3 & H4 & H5 & H6 & H7). apply encodable_struct. apply all_enc_cons; [apply encodable_array; exact H1|].
  eapply all_enc_tag; [reflexivity|eapply encodable_blob; [reflexivity|reflexivity|exact H2|cbn; lia|lia]|].
  eapply all_enc_tag; [reflexivity| |].
  { apply encodable_slice; try reflexivity.
    - intros ?; discriminate.
    - unfold zlen in *. rewrite map_length. cbn. lia.
    - unfold zlen in *. rewrite map_length. lia.
    - clear -H5. induction H5 as [|t ts (x & -> & Hx) _ IH]; cbn [map]; constructor; [|exact IH].
      destruct (wrap_tx_encodes x Hx) as (e & He & Hc & _). exists e. split; assumption. }
  eapply all_enc_tag; [reflexivity| |exact I].
  apply encodable_slice; try reflexivity.
  - intros ?; discriminate.
  - unfold zlen in *. rewrite map_length. cbn. lia.
  - unfold zlen in *. rewrite map_length. lia.
  - clear -H7. induction H7 as [|t ts Hx _ IH]; cbn [map]; constructor; [|exact IH]. apply pruned_encodable. exact Hx.
Qed.
(** What the codecs of accounts and transactions decode. *)
Definition wire_decodes (c : codec) (v : val) : Prop :=
  (c = wrap_tx_codec -> exists x, v = v_wrap_tx (Some x) /\ tx_ok x) /\
  (c = wrap_account_codec -> exists x, v = v_wrap_account (Some x) /\ account_ok x).
Lemma wrap_tx_decodes dst d v n : bytes_ok d -> cd_unmarshal wrap_tx_codec dst d = Ok (v, n) -> exists x, v = v_wrap_tx (Some x) /\ tx_ok x.
Proof.
  intros Hd E. change (cd_unmarshal wrap_tx_codec dst d) with (bind (WrapTx_Unmarshal (wrap_tx_of dst) d) (fun '(a, n) => Ok (v_wrap_tx a, n))) in E.
  pose proof (wrap_tx_total (wrap_tx_of dst) d Hd) as Ht. destruct (WrapTx_Unmarshal (wrap_tx_of dst) d) as [(a & m)|e| |]; try discriminate.
  cbn [bind] in E. injection E as <- _. destruct Ht as (x & -> & Hx & _). eauto.
Qed.
Lemma wrap_account_decodes dst d v n : bytes_ok d -> cd_unmarshal wrap_account_codec dst d = Ok (v, n) -> exists x, v = v_wrap_account (Some x) /\ account_ok x.
Proof.
  intros Hd E. change (cd_unmarshal wrap_account_codec dst d) with (bind (WrapAccount_Unmarshal (wrap_account_of dst) d) (fun '(a, n) => Ok (v_wrap_account a, n))) in E.
  pose proof (wrap_account_total (wrap_account_of dst) d Hd) as Ht. destruct (WrapAccount_Unmarshal (wrap_account_of dst) d) as [(a & m)|e| |]; try discriminate.
  cbn [bind] in E. injection E as <- _. destruct Ht as (x & -> & Hx & _). eauto.
Qed.
Lemma wire_decodes_tx : codec_decodes wire_decodes wrap_tx_codec.
Proof.
  intros dst d v n Hd E. split; intros Hc; [exact (wrap_tx_decodes _ _ _ _ Hd E)|]. rewrite Hc in E. exact (wrap_account_decodes _ _ _ _ Hd E).
Qed.
Lemma wire_decodes_account : codec_decodes wire_decodes wrap_account_codec.
Proof.
  intros dst d v n Hd E. split; intros Hc; [|exact (wrap_account_decodes _ _ _ _ Hd E)]. rewrite Hc in E. exact (wrap_tx_decodes _ _ _ _ Hd E).
Qed.

Lemma decoded_num Q k ts v : decoded Q (TNum k) ts v -> v = VNum (num_of v) /\ in_range k (num_of v).
Proof. destruct v; try contradiction. auto. Qed.
Lemma decoded_u8s Q vs : Forall (decoded Q (TNum U8) no_tags) vs -> Forall (typed (TNum U8)) vs.
Proof. apply Forall_impl. intros v Hv. destruct v; try contradiction. exact Hv. Qed.
Lemma decoded_bytesN Q n ts v : decoded Q (bytesN n) ts v -> v = vbytes (bytes_of v) /\ array n (bytes_of v).
Proof.
  intros Hv. apply typed_bytesN. destruct v as [| | | |vs| | |]; try contradiction. destruct Hv as (_ & Hl & Hv). split; [exact Hl|exact (decoded_u8s _ _ Hv)].
Qed.
Lemma decoded_blob Q k v : decoded Q (TSlice (TNum U8)) (Tags (Some k) false) v ->
  v = vbytes (bytes_of v) /\ bytes_ok (bytes_of v) /\ zlen (bytes_of v) < 256 ^ Z.of_nat (width k).
Proof.
  intros Hv. destruct v as [| | | |vs| | |]; try contradiction. destruct Hv as (_ & _ & (k' & Ek & _ & Hl & _) & Hv). injection Ek as <-.
  destruct (typed_u8s vs (decoded_u8s _ _ Hv)) as (E & Hb). split; [exact E|]. split; [exact Hb|]. cbn [bytes_of]. unfold zlen. rewrite map_length. exact Hl.
Qed.
Lemma decoded_slice {A} Q k t (to : A -> val) (of : val -> A) (ok : A -> Prop) v :
  (forall x, decoded Q t no_tags x -> x = to (of x) /\ ok (of x)) ->
  decoded Q (TSlice t) (Tags (Some k) false) v ->
  v = VList (map to (map of (list_of v))) /\ Forall ok (map of (list_of v)) /\ zlen (map of (list_of v)) < 256 ^ Z.of_nat (width k).
Proof.
  intros Hx Hv. destruct v as [| | | |vs| | |]; try contradiction. destruct Hv as (_ & _ & (k' & Ek & _ & Hl & _) & Hv). injection Ek as <-.
  cbn [list_of]. split; [|split].
  - f_equal. clear -Hx Hv. induction Hv as [|x vs H _ IH]; [reflexivity|]. cbn [map]. destruct (Hx x H) as (E & _). congruence.
  - clear -Hx Hv. induction Hv as [|x vs H _ IH]; cbn [map]; constructor; [apply Hx; exact H|exact IH].
  - unfold zlen. rewrite map_length. exact Hl.
Qed.
Lemma decoded_pruned v : decoded wire_decodes ty_pruned no_tags v -> v = v_pruned (pruned_of v) /\ pruned_ok (pruned_of v).
Proof.
  intros Hv. destruct v as [| | | | |vs| |]; try contradiction. change (all_dec wire_decodes [field (bytesN 20); field ty_wrap_account] vs) in Hv.
  destruct vs as [|a [|b [|]]]; cbn [all_dec field] in Hv; try tauto. destruct Hv as ((ts1 & _ & Ha) & (ts2 & _ & Hb) & _).
  destruct (decoded_bytesN _ _ _ _ Ha) as (Ea & Oa). destruct Hb as (_ & Hb). destruct (Hb eq_refl) as (x & -> & Hx).
  change (pruned_of (VStruct [a; v_wrap_account (Some x)])) with (MkPruned (bytes_of a) (wrap_account_of (v_wrap_account (Some x)))).
  rewrite wrap_account_of_v. unfold v_pruned, pruned_ok. cbn [p_address p_account]. split; [rewrite <- Ea; reflexivity|]. eauto.
Qed.
Lemma decoded_body ts v : decoded wire_decodes ty_body ts v -> v = v_body (body_of v) /\ body_ok (body_of v).
Proof.
  intros Hv. destruct v as [| | | | |vs| |]; try contradiction.
  change (all_dec wire_decodes [field (bytesN 20); tagged "len_tag=uint8" (TSlice (TNum U8)); tagged "len_tag=uint16" (TSlice ty_wrap_tx); tagged "len_tag=uint16" (TSlice ty_pruned)] vs) in Hv.
  destruct vs as [|a [|b [|c [|d [|]]]]]; cbn [all_dec field tagged] in Hv; try tauto.
  destruct Hv as ((t1 & _ & Ha) & (t2 & T2 & Hb) & (t3 & T3 & Hc) & (t4 & T4 & Hd) & _).
  assert (t2 = Tags (Some U8) false) as -> by (cbv in T2; congruence). assert (t3 = Tags (Some U16) false) as -> by (cbv in T3; congruence).
  assert (t4 = Tags (Some U16) false) as -> by (cbv in T4; congruence).
  destruct (decoded_bytesN _ _ _ _ Ha) as (Ea & Oa). destruct (decoded_blob _ _ _ Hb) as (Eb & Ob & Lb).
  destruct (decoded_slice wire_decodes U16 ty_wrap_tx v_wrap_tx wrap_tx_of (fun t => exists x, t = Some x /\ tx_ok x) _ ltac:(
    intros x (Hx & _); destruct (Hx eq_refl) as (y & -> & Hy); rewrite wrap_tx_of_v; eauto) Hc) as (Ec & Oc & Lc).
  destruct (decoded_slice _ _ _ v_pruned pruned_of pruned_ok _ decoded_pruned Hd) as (Ed & Od & Ld).
  change (body_of (VStruct [a; b; c; d])) with (MkBody (bytes_of a) (bytes_of b) (map wrap_tx_of (list_of c)) (map pruned_of (list_of d))).
  unfold v_body, body_ok. cbn [bb_miner bb_extra bb_txs bb_pruned]. split; [congruence|]. do 6 (split; [assumption|]). assumption.
Qed.

(** ** Blocks *)
Lemma interlink_of_v il : interlink_of (v_interlink il) = il.
Proof.
  change (interlink_of (v_interlink il)) with
    (MkInterlink (bitset_of (v_bitset (il_repeats il)))
      (map (fun p => match p with VPtr (Some h) => bytes_of h | _ => [] end) (map (fun h => VPtr (Some (vbytes h))) (il_hashes il)))
      (bytes_of (vbytes (il_prev il))) (map bytes_of (map vbytes (il_compressed il)))).
  rewrite bitset_of_v, bytes_of_vbytes, map_bytes_of, map_map, map_id_ext by apply bytes_of_vbytes. destruct il. reflexivity.
Qed.
Definition v_opt_body (b : option BlockBody) : val := VPtr (match b with None => None | Some x => Some (v_body x) end).
Definition block_fields : list (option bytes * ty) := [field ty_header; field ty_interlink; tagged "optional" (TPtr ty_body)].
Lemma value_block dst s :
  value ty_block no_tags dst s =
  (do h <- value ty_header no_tags (hd_val (elems_of dst));
   do i <- call_unmarshal interlink_codec (hd_val (List.tl (elems_of dst)));
   do b <- value (TPtr ty_body) (Tags None true) (hd_val (List.tl (List.tl (elems_of dst))));
   ret (VStruct [h; i; b])) s.
Proof.
  unfold ty_block. rewrite value_struct. cbn [value_fields field tagged field_tags].
  unfold mbind, fail, ret. change (parse_tag (str "optional")) with (Ok (Tags None true)).
  destruct (value ty_header no_tags (hd_val (elems_of dst)) s) as ([h|e| |] & s1); try reflexivity.
  change (value ty_interlink no_tags (hd_val (List.tl (elems_of dst))) s1) with (call_unmarshal interlink_codec (hd_val (List.tl (elems_of dst))) s1).
  destruct (call_unmarshal interlink_codec (hd_val (List.tl (elems_of dst))) s1) as ([i|e| |] & s2); try reflexivity.
  destruct (value (TPtr ty_body) (Tags None true) (hd_val (List.tl (List.tl (elems_of dst)))) s2) as ([b|e| |] & s3); reflexivity.
Qed.
Lemma nth_error_skipn0 {A} n (l : list A) x r : skipn n l = x :: r -> nth_error l n = Some x.
Proof. revert l. induction n as [|n IH]; intros [|y l] E; try discriminate; cbn in *; [congruence|auto]. Qed.
Lemma body_slices_occupy : slices_occupy (TPtr ty_body).
Proof. cbn. tauto. Qed.
Lemma opt_body_declared (P : codec -> Prop) : P wrap_tx_codec -> P wrap_account_codec -> well_declared P (TPtr ty_body).
Proof. intros H1 H2. split; [reflexivity|]. apply declared_body; assumption. Qed.

(** The result of decoding a block from [d]: the header, the interlink (decoded
    from byte 146 on) and the body, with the bytes each of them was read from. *)
Definition block_read (prev : bytes) (d : bytes) (blk : Block) (n : Z) : Prop :=
  exists m, 0 <= m /\ 146 + m <= n <= zlen d /\
    header_ok (bl_header blk) /\ (forall b, bl_body blk = Some b -> body_ok b) /\
    (forall b, Marshal b (APtr ty_header (v_header (bl_header blk))) = Ok (b ++ firstn 146 d, None)) /\
    (exists il0, il_prev il0 = prev /\ Interlink_Unmarshal il0 (skipn 146 d) = Ok (bl_interlink blk, m)) /\
    (forall b, marshal (TPtr ty_body) (v_opt_body (bl_body blk)) b (Tags None true) = Ok (b ++ firstn (Z.to_nat (n - (146 + m))) (skipn (Z.to_nat (146 + m)) d), None)).

Lemma adv_skip s s' : adv s s' -> data s' = skipn (List.length (data s) - List.length (data s')) (data s) /\ (List.length (data s') <= List.length (data s))%nat.
Proof.
  intros ((e & E) & _). rewrite E. rewrite app_length. split; [|lia]. replace (List.length e + List.length (data s') - List.length (data s'))%nat with (List.length e) by lia.
  rewrite skipn_app_len; reflexivity.
Qed.
Lemma value_fixed_ok t : well_declared no_codec t -> forall n ts dst s, fixed t = Some n -> (n <= List.length (data s))%nat -> exists v s', value t ts dst s = (Ok v, s').
Proof.
  induction t as [|k| |t IH|m t IH|t IH|fs IH| |c t IH] using ty_ind'; intros Hw n ts dst s Hf Hl; try discriminate Hf.
  - injection Hf as <-. cbn [value]. unfold number, mbind, pop, ret. destruct (Z.ltb_spec (zlen (data s)) (Z.of_nat (width k))); [unfold zlen in *; lia|]. eauto.
  - cbn [fixed] in Hf. destruct t as [|k| | | | | | |]; try discriminate Hf. destruct k; try discriminate Hf. injection Hf as <-.
    cbn [value is_u8 num_kind is_custom]. unfold mbind, pop, ret. destruct (Z.ltb_spec (zlen (data s)) (Z.of_nat m)); [unfold zlen in *; lia|]. eauto.
  - rewrite value_struct. change (all_fixed fs = Some n) in Hf. change (all_declared no_codec fs) in Hw.
    assert (G : exists vs s', value_fields fs (elems_of dst) s = (Ok vs, s')).
    { revert n s Hf Hl. generalize (elems_of dst). induction IH as [|(tag & t) fs Ht Hfs IHfs]; intros dsts n s Hf Hl; cbn [value_fields]; [unfold ret; eauto|].
      cbn [all_fixed] in Hf. destruct (fixed t) as [a|] eqn:Ea; [|discriminate]. destruct (all_fixed fs) as [b|] eqn:Eb; [|discriminate]. injection Hf as <-.
      destruct Hw as ((ts0 & Et) & Hw1 & Hw2). rewrite Et. unfold mbind, fail, ret.
      destruct (Ht Hw1 _ ts0 (hd_val dsts) s Ea ltac:(lia)) as (v & s1 & E1). cbn [snd] in E1. rewrite E1.
      destruct (value_fixed t _ _ _ _ _ _ Ea E1) as (Es & Hs).
      destruct (IHfs Hw2 (List.tl dsts) _ s1 eq_refl ltac:(rewrite Es, skipn_length; lia)) as (vs & s2 & E2). rewrite E2. eauto. }
    destruct G as (vs & s' & G). unfold mbind. rewrite G. unfold ret. eauto.
Qed.
Lemma nth_error_skipn {A} n (l : list A) x : nth_error l n = Some x -> exists r, skipn n l = x :: r.
Proof. revert l. induction n as [|n IH]; intros [|y l] E; try discriminate; cbn in *; [injection E as <-; eauto|auto]. Qed.

Lemma block_unm dst d : bytes_ok d ->
  let '(r, n) := Unmarshal d (APtr ty_block dst) in
  (match r with
   | Ok o => exists blk, o = Some (v_block blk) /\ block_read (il_prev (interlink_of (hd_val (List.tl (elems_of dst))))) d blk n
   | Err _ => True
   | Panic => exists x, nth_error d 146 = Some x /\ 249 <= x
   | OutOfFuel => False
   end) /\ (forall x, nth_error d 146 = Some x -> 249 <= x -> r = Panic).
Proof.
  intros Hd. unfold Unmarshal. destruct (value ty_block no_tags dst (DState d [])) as (r & s) eqn:E. rewrite value_block in E.
  pose proof (safe_value ty_header (declared_header _) no_tags (hd_val (elems_of dst)) (DState d [])) as Hsafe.
  unfold mbind at 1 in E. destruct (value ty_header no_tags (hd_val (elems_of dst)) (DState d [])) as (rh & s1) eqn:Eh.
  specialize (Hsafe _ _ Hd eq_refl).
  assert (Hlong : forall x, nth_error d 146 = Some x -> exists v, rh = Ok v).
  { intros x Hx. destruct (value_fixed_ok ty_header (declared_header _) 146 no_tags (hd_val (elems_of dst)) (DState d []) eq_refl) as (v & s' & Ev).
    - assert (nth_error d 146 <> None) as Hn by congruence. apply nth_error_Some in Hn. cbn [data]. lia.
    - rewrite Eh in Ev. exists v. congruence. }
  destruct rh as [h|e| |]; [|injection E as <- <-; split; [exact I|intros x Hx _; destruct (Hlong x Hx); discriminate]|destruct Hsafe; congruence..].
  destruct (value_fixed ty_header _ _ _ _ _ _ (eq_refl : fixed ty_header = Some 146%nat) Eh) as (Es1 & Hl1). cbn [data] in Es1, Hl1.
  destruct (typed_header h (value_typed ty_header (declared_header _) header_typed_codecs no_tags (hd_val (elems_of dst)) (DState d []) h s1 Hd Eh)) as (Ev & Hok).
  destruct (re_value ty_header (declared_header _) no_tags (hd_val (elems_of dst)) ltac:(intros ? ?; discriminate) (DState d []) h s1 Hd Eh) as (eh & Edh & Mh). cbn [data] in Edh.
  assert (Eeh : eh = firstn 146 d).
  { rewrite Edh. symmetry. apply firstn_app_len. rewrite Es1 in Edh. apply (f_equal (@List.length Z)) in Edh. rewrite app_length, skipn_length in Edh. lia. }
  assert (Hd1 : bytes_ok (data s1)) by (rewrite Es1; apply bytes_ok_skipn; exact Hd).
  set (il0 := interlink_of (hd_val (List.tl (elems_of dst)))) in *.
  unfold mbind at 1 in E. unfold call_unmarshal in E. fold il0 in E.
  change (cd_unmarshal interlink_codec (hd_val (List.tl (elems_of dst))) (data s1)) with (bind (Interlink_Unmarshal il0 (data s1)) (fun '(a, n) => Ok (v_interlink a, n))) in E.
  destruct (interlink_unm il0 (data s1) Hd1) as (Hi & Hp).
  assert (P : forall x, nth_error d 146 = Some x -> 249 <= x -> Interlink_Unmarshal il0 (data s1) = Panic).
  { intros x Hx Hge. destruct (nth_error_skipn _ _ _ Hx) as (d' & Ed'). apply (Hp x d'); [congruence|exact Hge]. }
  destruct (Interlink_Unmarshal il0 (data s1)) as [(il & m)|e| |] eqn:Ei; cbn [bind] in E.
  2: { injection E as <- <-. split; [exact I|]. intros x Hx Hge. specialize (P x Hx Hge). discriminate. }
  2: { injection E as <- <-. cbn [bind]. split; [|reflexivity]. destruct Hi as (x & d' & Ed' & Hge). rewrite Es1 in Ed'. exists x. split; [exact (nth_error_skipn0 _ _ _ _ Ed')|exact Hge]. }
  2: contradiction.
  destruct Hi as (bs & m0 & _ & _ & _ & _ & _ & Hm & _).
  destruct (Z.ltb_spec m 0); [lia|]. destruct (Z.ltb_spec (zlen (data s1)) m); [lia|].
  set (s2 := DState (skipn (Z.to_nat m) (data s1)) (allocs s1)) in *.
  assert (Hd2 : bytes_ok (data s2)) by (apply bytes_ok_skipn; exact Hd1).
  unfold mbind at 1 in E. set (bd := hd_val (List.tl (List.tl (elems_of dst)))) in *.
  pose proof (safe_value (TPtr ty_body) (opt_body_declared _ wrap_tx_safe wrap_account_safe) (Tags None true) bd s2) as Hsafe2.
  destruct (value (TPtr ty_body) (Tags None true) bd s2) as (rb & s3) eqn:Eb. specialize (Hsafe2 _ _ Hd2 eq_refl).
  destruct rb as [b|e| |]; [|injection E as <- <-; split; [exact I|intros x Hx Hge; specialize (P x Hx Hge); discriminate]|destruct Hsafe2; congruence..].
  injection E as <- <-. cbn [bind]. split; [|intros x Hx Hge; specialize (P x Hx Hge); discriminate].
  assert (Ht : tags_unsigned (Tags None true)) by (intros ? ?; discriminate).
  assert (Hw : codec_decodes wire_decodes wrap_tx_codec /\ codec_decodes wire_decodes wrap_account_codec) by (split; [apply wire_decodes_tx|apply wire_decodes_account]).
  pose proof (value_decoded wire_decodes (TPtr ty_body) (opt_body_declared _ (proj1 Hw) (proj2 Hw)) body_slices_occupy _ _ _ _ _ Ht Hd2 Eb) as Hdec.
  destruct (re_value (TPtr ty_body) (opt_body_declared _ wrap_tx_canonical wrap_account_canonical) (Tags None true) bd Ht _ _ _ Hd2 Eb) as (eb & Edb & Mb).
  assert (exists ob, b = v_opt_body ob /\ forall x, ob = Some x -> body_ok x) as (ob & -> & Hob).
  { destruct b as [| | |[b|]| | | |]; try contradiction.
    - destruct Hdec as (_ & Hdec). destruct (decoded_body _ _ Hdec) as (Eq & Hok'). exists (Some (body_of b)).
      split; [unfold v_opt_body; rewrite <- Eq; reflexivity|]. intros x Ex. injection Ex as <-. exact Hok'.
    - exists None. split; [reflexivity|]. discriminate. }
  exists (MkBlock (header_of h) il ob). split; [unfold v_block; cbn [bl_header bl_interlink bl_body]; rewrite <- Ev; reflexivity|].
  assert (Hlen : zlen d = 146 + zlen (data s1)) by (rewrite Es1; unfold zlen; rewrite skipn_length; lia).
  assert (Hlen2 : zlen (data s1) = m + zlen (data s2)) by (unfold s2, zlen in *; cbn [data]; rewrite skipn_length; lia).
  assert (Hlen3 : zlen (data s2) = zlen eb + zlen (data s3)) by (rewrite Edb, zlen_app; reflexivity).
  pose proof (zlen_nonneg eb). pose proof (zlen_nonneg (data s3)).
  exists m. cbn [bl_header bl_interlink bl_body]. split; [lia|]. split; [lia|]. split; [exact Hok|]. split; [exact Hob|].
  split; [intros b; cbn [Marshal]; rewrite <- Ev, Mh, Eeh; reflexivity|].
  split; [exists il0; split; [reflexivity|rewrite <- Es1; exact Ei]|].
  intros b. rewrite Mb. unfold m_ok. do 3 f_equal.
  replace (skipn (Z.to_nat (146 + m)) d) with (data s2).
  2: { unfold s2. cbn [data]. rewrite Es1, skipn_skipn. f_equal. lia. }
  rewrite Edb. symmetry. apply firstn_app_len. unfold zlen in *. lia.
Qed.
