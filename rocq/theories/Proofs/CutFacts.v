(** What Unmarshal makes of an encoding that was cut off. *)
From Coq Require Import ZArith List Lia Bool.
Import ListNotations.
From Verif.Model Require Import Base Beserial Wire.
From Verif.Spec Require Import BeserialSpec WireSpec CutSpec.
From Verif.Proofs Require Import BaseFacts BeserialFacts WireFacts InterlinkFacts BlockFacts LayoutFacts.
Open Scope Z_scope.

Lemma app_cut {A} (a b p x : list A) : a ++ b = p ++ x -> x <> [] ->
  (exists y, y <> [] /\ a = p ++ y) \/ (exists q, p = a ++ q /\ b = q ++ x).
Proof.
  revert p. induction a as [|h a IH]; intros p E Hx.
  - right. exists p. split; [reflexivity|exact E].
  - destruct p as [|h' p]; [left; exists (h :: a); split; [discriminate|reflexivity]|].
    injection E as <- E. destruct (IH p E Hx) as [(y & Hy & ->)|(q & -> & ->)]; [left; exists y; split; [exact Hy|reflexivity]|right; exists q; split; reflexivity].
Qed.
Lemma pop_cut n p x al : zlen (p ++ x) = n -> x <> [] -> pop n (DState p al) = (Err EUnexpectedEOF, DState p al).
Proof.
  intros Hn Hx. unfold pop. cbn [data]. destruct (Z.ltb_spec (zlen p) n) as [|H]; [reflexivity|].
  unfold zlen in *. rewrite app_length in Hn. destruct x; [congruence|]. cbn [List.length] in Hn. lia.
Qed.
Lemma number_cut k z p x al : big_endian (width k) z = p ++ x -> x <> [] -> number k (DState p al) = (Err EUnexpectedEOF, DState p al).
Proof.
  intros E Hx. unfold number, mbind. rewrite (pop_cut _ p x); [reflexivity| |exact Hx].
  rewrite <- E, big_endian_be_put. unfold zlen. rewrite be_put_length. reflexivity.
Qed.
Definition cut_in {A} (r : res A * dstate) : Prop := exists er s, r = (Err er, s) /\ cut_error er.
Lemma cut_eof {A} s : @cut_in A (Err EUnexpectedEOF, s).
Proof. do 2 eexists. split; [reflexivity|left; reflexivity]. Qed.
Lemma cut_bind {A B} (m : M A) (f : A -> M B) s : cut_in (m s) -> cut_in (mbind m f s).
Proof. intros (er & s' & E & H). unfold mbind. rewrite E. exists er, s'. split; [reflexivity|exact H]. Qed.

Theorem enc_cut :
  (forall t ts v e, enc t ts v e -> well_declared codec_short t -> bytes_ok e -> forall p x dst al, e = p ++ x -> x <> [] ->
     cut_in (value t ts dst (DState p al))) /\
  (forall t vs e, enc_elems t vs e -> well_declared codec_short t -> bytes_ok e -> forall p x dsts al, e = p ++ x -> x <> [] ->
     cut_in (dec_n (value t no_tags) (List.length vs) dsts (DState p al))) /\
  (forall fs vs e, enc_fields fs vs e -> all_declared codec_short fs -> bytes_ok e -> forall p x dsts al, e = p ++ x -> x <> [] ->
     cut_in (value_fields fs dsts (DState p al))).
Proof.
  apply enc_mutind.
  - intros ts b _ Hbo p x dst al E Hx. cbn [value]. apply cut_bind. rewrite (pop_cut 1 p x); [apply cut_eof| |exact Hx]. rewrite <- E. reflexivity.
  - intros ts k z Hr _ Hbo p x dst al E Hx. cbn [value]. apply cut_bind. rewrite (number_cut k z p x); [apply cut_eof|exact E|exact Hx].
  - intros ts k s Hk Hf _ Hbo p x dst al E Hx. cbn [value]. destruct (app_cut _ _ _ _ E Hx) as [(y & Hy & Ey)|(q & -> & Eq)].
    + apply cut_bind. unfold read_len. rewrite Hk. apply cut_bind. rewrite (number_cut _ _ _ _ _ Ey Hy); apply cut_eof.
    + unfold mbind at 1. rewrite big_endian_be_put, (read_len_app ts k _ _ _ Hk Hf). apply cut_bind. rewrite (pop_cut _ q x); [apply cut_eof| |exact Hx].
      rewrite <- Eq. reflexivity.
  - intros t ts v e Hc Ho _ IH Hw Hbo p x dst al E Hx. destruct Hw as (_ & Hw). rewrite value_ptr by exact Hc. rewrite Ho. cbv zeta. apply cut_bind. exact (IH Hw Hbo p x _ al E Hx).
  - intros t ts Hc Ho Hw Hbo p x dst al E Hx. rewrite value_ptr by exact Hc. rewrite Ho. cbv zeta. apply cut_bind. rewrite (pop_cut 1 p x); [apply cut_eof| |exact Hx]. rewrite <- E. reflexivity.
  - intros t ts v e Hc Ho _ IH Hw Hbo p x dst al E Hx. destruct Hw as (_ & Hw). rewrite value_ptr by exact Hc. rewrite Ho. cbv zeta.
    destruct (app_cut [1] e p x E Hx) as [(y & Hy & Ey)|(q & -> & Eq)].
    + apply cut_bind. rewrite (pop_cut 1 p y); [apply cut_eof| |exact Hy]. rewrite <- Ey. reflexivity.
    + unfold mbind at 1. rewrite (pop_app' 1 [1]) by reflexivity. apply cut_bind. exact (IH Hw (proj2 (proj1 (bytes_ok_app [1] e) Hbo)) q x _ al Eq Hx).
  - intros n t ts vs e Hok Hl He IH Hw Hbo p x dst al E Hx. destruct Hw as (_ & Hw). cbn [value]. subst n. destruct (is_u8 t) eqn:Eu.
    + rewrite (Hok Eu). apply cut_bind. rewrite (pop_cut _ p x); [apply cut_eof| |exact Hx]. rewrite <- E.
      destruct (proj1 (proj2 enc_round_trip) _ _ _ He) as (_ & _ & Hraw). destruct (Hraw (is_u8_num t Eu (Hok Eu))) as (_ & ->). unfold zlen. rewrite map_length. reflexivity.
    + apply cut_bind. exact (IH Hw Hbo p x _ al E Hx).
  - intros t ts k vs e Hok Hk Hf Hlen He IH Hw Hbo p x dst al E Hx. destruct Hw as (_ & Hw). cbn [value].
    destruct (app_cut _ _ _ _ E Hx) as [(y & Hy & Ey)|(q & -> & Eq)].
    + apply cut_bind. unfold read_len. rewrite Hk. apply cut_bind. rewrite (number_cut _ _ _ _ _ Ey Hy); apply cut_eof.
    + unfold mbind at 1. rewrite big_endian_be_put, (read_len_app ts k _ _ _ Hk Hf). destruct (is_u8 t) eqn:Eu.
      * apply cut_bind. rewrite (pop_cut _ q x); [apply cut_eof| |exact Hx]. rewrite <- Eq.
        destruct (proj1 (proj2 enc_round_trip) _ _ _ He) as (_ & _ & Hraw). destruct (Hraw (is_u8_num t Eu (Hok Eu))) as (_ & ->). unfold zlen. rewrite map_length. reflexivity.
      * cbn [data]. destruct (zlen q <? Z.of_nat (List.length vs)); [do 2 eexists; split; [reflexivity|right; reflexivity]|].
        unfold mbind at 1, alloc_elems. cbn [data allocs]. apply cut_bind. rewrite Nat2Z.id. exact (IH Hw (proj2 (proj1 (bytes_ok_app _ e) Hbo)) q x _ _ Eq Hx).
  - intros fs ts vs e _ IH Hw Hbo p x dst al E Hx. rewrite value_struct. apply cut_bind. exact (IH Hw Hbo p x _ al E Hx).
  - intros c t ts v e He Hw Hbo p x dst al E Hx. cbn [value]. unfold call_unmarshal. cbn [data]. destruct (Hw v e p x dst Hbo He E Hx) as (er & -> & Her).
    do 2 eexists. split; [reflexivity|exact Her].
  - intros t _ Hbo p x dsts al E Hx. destruct p; [|discriminate]. cbn in E. congruence.
  - intros t v vs e es He IH1 _ IH2 Hw Hbo p x dsts al E Hx. cbn [List.length dec_n]. destruct (app_cut _ _ _ _ E Hx) as [(y & Hy & Ey)|(q & -> & Eq)].
    + apply cut_bind. exact (IH1 Hw (proj1 (proj1 (bytes_ok_app e es) Hbo)) p y _ al Ey Hy).
    + unfold mbind at 1. destruct (proj1 enc_round_trip _ _ _ _ He) as (_ & Hd). destruct (Hd (hd_val dsts) q al) as (al' & ->).
      apply cut_bind. exact (IH2 Hw (proj2 (proj1 (bytes_ok_app e es) Hbo)) q x _ al' Eq Hx).
  - intros _ Hbo p x dsts al E Hx. destruct p; [|discriminate]. cbn in E. congruence.
  - intros tag t fs ts v vs e es Ht He IH1 _ IH2 Hw Hbo p x dsts al E Hx. cbn [value_fields]. destruct Hw as (_ & Hw1 & Hw2). rewrite Ht.
    unfold mbind at 1. cbn [fail]. destruct (app_cut _ _ _ _ E Hx) as [(y & Hy & Ey)|(q & -> & Eq)].
    + apply cut_bind. exact (IH1 Hw1 (proj1 (proj1 (bytes_ok_app e es) Hbo)) p y _ al Ey Hy).
    + unfold mbind at 1. destruct (proj1 enc_round_trip _ _ _ _ He) as (_ & Hd). destruct (Hd (hd_val dsts) q al) as (al' & ->).
      apply cut_bind. exact (IH2 Hw2 (proj2 (proj1 (bytes_ok_app e es) Hbo)) q x _ al' Eq Hx).
Qed.
Lemma unmarshal_cut t v e p x dst : well_declared codec_short t -> bytes_ok e -> enc t no_tags v e -> e = p ++ x -> x <> [] ->
  exists er n, Unmarshal p (APtr t dst) = (Err er, n) /\ cut_error er.
Proof.
  intros Hw Hb He E Hx. destruct (proj1 enc_cut _ _ _ _ He Hw Hb p x dst [] E Hx) as (er & s & Ev & Her). unfold Unmarshal. rewrite Ev. cbn [bind].
  do 2 eexists. split; [reflexivity|exact Her].
Qed.

(** Codecs that know one error only, and do not look past what they read. *)
Definition codec_mono (c : codec) : Prop :=
  forall dst p x v n, cd_unmarshal c dst p = Ok (v, n) -> n <= zlen p /\ cd_unmarshal c dst (p ++ x) = Ok (v, n).
Lemma short_mono c : codec_mono c -> (forall dst d, (exists v n, cd_unmarshal c dst d = Ok (v, n)) \/ cd_unmarshal c dst d = Err EUnexpectedEOF) ->
  codec_short c.
Proof.
  intros Hm Ht v e p x dst _ He E Hx. destruct (Ht dst p) as [(w & n & Ew)| ->]; [|eexists; split; [reflexivity|left; reflexivity]].
  exfalso. destruct (Hm dst p x w n Ew) as (Hn & Ee). destruct He as (_ & Hu). specialize (Hu dst []). rewrite app_nil_r, E, Ee in Hu.
  assert (n = zlen (p ++ x)) as -> by congruence. rewrite zlen_app in Hn. destruct x; [congruence|]. rewrite zlen_cons in Hn. pose proof (zlen_nonneg x). lia.
Qed.
Lemma firstn_more {A} n (a b : list A) : (n <= List.length a)%nat -> firstn n (a ++ b) = firstn n a.
Proof. intros H. rewrite firstn_app. replace (n - List.length a)%nat with 0%nat by lia. rewrite app_nil_r. reflexivity. Qed.
Lemma skipn_more {A} n (a b : list A) : (n <= List.length a)%nat -> skipn n (a ++ b) = skipn n a ++ b.
Proof. intros H. rewrite skipn_app. replace (n - List.length a)%nat with 0%nat by lia. reflexivity. Qed.
Lemma typed_mono {A} to of (unm : A -> bytes -> res (A * Z)) mar :
  (forall a p x v n, unm a p = Ok (v, n) -> n <= zlen p /\ unm a (p ++ x) = Ok (v, n)) -> codec_mono (typed_codec to of unm mar).
Proof.
  intros Hm dst p x v n E. cbn [cd_unmarshal typed_codec] in *. destruct (unm (of dst) p) as [(a & m)|e| |] eqn:Ea; try discriminate. cbn [bind] in E.
  destruct (Hm _ _ x _ _ Ea) as (Hn & ->). cbn [bind]. assert (m = n) as <- by congruence. split; [exact Hn|exact E].
Qed.
Lemma typed_total {A} to of (unm : A -> bytes -> res (A * Z)) mar :
  (forall a d, (exists v n, unm a d = Ok (v, n)) \/ unm a d = Err EUnexpectedEOF) ->
  forall dst d, (exists v n, cd_unmarshal (typed_codec to of unm mar) dst d = Ok (v, n)) \/ cd_unmarshal (typed_codec to of unm mar) dst d = Err EUnexpectedEOF.
Proof. intros Ht dst d. cbn [cd_unmarshal typed_codec]. destruct (Ht (of dst) d) as [(v & n & ->)| ->]; cbn [bind]; eauto. Qed.

Lemma hash_short : codec_short hash_codec.
Proof.
  apply short_mono; [apply typed_mono|apply typed_total].
  - intros a p x v n. unfold Hash_Unmarshal. destruct p as [|t p]; [discriminate|]. cbn [app]. rewrite zlen_app. pose proof (zlen_nonneg x).
    destruct (Z.ltb_spec (zlen p) 32); [discriminate|]. destruct (Z.ltb_spec (zlen p + zlen x) 32); [lia|]. rewrite zlen_cons.
    rewrite firstn_more by (unfold zlen in *; lia). intros E. split; [|exact E]. assert (n = 33) as -> by congruence. lia.
  - intros a d. unfold Hash_Unmarshal. destruct d as [|t d]; [right; reflexivity|]. destruct (zlen d <? 32); eauto.
Qed.
Lemma w8_pos z : 0 <= w8 z.
Proof. unfold w8. apply Z.mod_pos_bound. reflexivity. Qed.
Lemma bitset_mono a p x v n : BitSet_Unmarshal a p = Ok (v, n) -> n <= zlen p /\ BitSet_Unmarshal a (p ++ x) = Ok (v, n).
Proof.
  unfold BitSet_Unmarshal. destruct p as [|t p]; [discriminate|]. cbn [app]. cbv zeta. rewrite zlen_app, zlen_cons. pose proof (zlen_nonneg x).
  assert (H0 : 0 <= w8 (t + 7) / 8) by (apply Z.div_pos; [apply w8_pos|lia]).
  destruct (Z.ltb_spec (zlen p) (w8 (t + 7) / 8)); [discriminate|]. destruct (Z.ltb_spec (zlen p + zlen x) (w8 (t + 7) / 8)); [lia|].
  rewrite firstn_more by (unfold zlen in *; lia). intros E. split; [|exact E]. assert (n = 1 + w8 (t + 7) / 8) as -> by congruence. lia.
Qed.
Lemma bitset_short : codec_short bitset_codec.
Proof. apply short_mono; [apply typed_mono, bitset_mono|apply typed_total, bitset_unm_total]. Qed.
Lemma read_nodes_mono k : forall p x hs q, read_nodes k p = Ok (hs, q) -> zlen q <= zlen p /\ read_nodes k (p ++ x) = Ok (hs, q ++ x).
Proof.
  induction k as [|k IH]; intros p x hs q; cbn [read_nodes].
  - intros E. assert (hs = [] /\ q = p) as (-> & ->) by (split; congruence). split; [lia|reflexivity].
  - rewrite zlen_app. pose proof (zlen_nonneg x). destruct (Z.ltb_spec (zlen p) 32); [discriminate|]. destruct (Z.ltb_spec (zlen p + zlen x) 32); [lia|].
    rewrite skipn_more, firstn_more by (unfold zlen in *; lia). destruct (read_nodes k (skipn 32 p)) as [(hs' & q')|e| |] eqn:E; try discriminate. cbn [bind].
    destruct (IH _ x _ _ E) as (Hq & ->). cbn [bind]. intros E'. assert (firstn 32 p :: hs' = hs /\ q' = q) as (-> & ->) by (split; congruence).
    split; [|reflexivity]. unfold zlen in *. rewrite skipn_length in Hq. lia.
Qed.
Lemma path_short : codec_short path_codec.
Proof.
  apply short_mono; [apply typed_mono|apply typed_total, path_unm_total].
  intros a p x v n. unfold MerklePath_Unmarshal. destruct (BitSet_Unmarshal (Branches a) p) as [(bs & m)|e| |] eqn:Eb; try discriminate. cbn [bind].
  destruct (bitset_mono _ _ x _ _ Eb) as (Hm & ->). cbn [bind].
  rewrite skipn_more by (pose proof (zlen_nonneg p); unfold zlen in *; lia). destruct (read_nodes (Z.to_nat (Len bs)) (skipn (Z.to_nat m) p)) as [(hs & q)|e| |] eqn:En; try discriminate. cbn [bind].
  destruct (read_nodes_mono _ _ x _ _ En) as (Hq & ->). cbn [bind]. rewrite !zlen_app. intros E. assert (n = zlen p - zlen q) as -> by congruence.
  pose proof (zlen_nonneg q). split; [lia|]. assert (v = MkMerklePath bs hs) as -> by congruence. do 2 f_equal. lia.
Qed.
(** An input read to its end, cut off. *)
Lemma read_cut t e v p x dst dst' : well_declared codec_short t -> well_declared codec_full t -> well_declared codec_canonical t -> slices_occupy t -> bytes_ok e ->
  Unmarshal e (APtr t dst) = (Ok (Some v), zlen e) -> e = p ++ x -> x <> [] -> exists er n, Unmarshal p (APtr t dst') = (Err er, n) /\ cut_error er.
Proof.
  intros Hs Hf Hc Ho Hb E Ee Hx. destruct (unmarshal_encodable t e _ _ Hf Ho Hb dst E) as (w & Ew & Hw). assert (w = v) as -> by congruence.
  destruct (encodable_enc t no_tags v Hw) as (e' & He & _). apply (unmarshal_cut t v e p x dst' Hs Hb); [|exact Ee|exact Hx].
  assert (e' = e) as <-; [|exact He]. destruct (proj1 enc_round_trip _ _ _ _ He) as (Hm & _). specialize (Hm []).
  unfold Unmarshal in E. destruct (value t no_tags dst (DState e [])) as ([w|er| |] & s) eqn:Ev; try discriminate. cbn [bind] in E.
  assert (w = v) as -> by congruence.
  destruct (re_value t Hc no_tags dst ltac:(intros ? ?; discriminate) (DState e []) v s Hb Ev) as (e2 & Hd & Hm2). cbn [data] in Hd.
  rewrite Hm2 in Hm. unfold m_ok in Hm. cbn [app] in Hm. assert (e2 = e') as -> by congruence.
  assert (Hl : zlen e - zlen (data s) = zlen e) by congruence. rewrite Hd. destruct (data s); [rewrite app_nil_r; reflexivity|].
  rewrite zlen_cons in Hl. pose proof (zlen_nonneg l). lia.
Qed.

Lemma encodes_unique c v e1 e2 : codec_encodes c v e1 -> codec_encodes c v e2 -> e1 = e2.
Proof. intros (H1 & _) (H2 & _). specialize (H1 []). rewrite H2 in H1. cbn [app] in H1. congruence. Qed.
Lemma wrap_account_short : codec_short wrap_account_codec.
Proof.
  intros v e p x dst Hb He E Hx. destruct (wrap_account_decodes dst e v (zlen e) Hb) as (a & -> & Ha).
  { destruct He as (_ & Hu). specialize (Hu dst []). rewrite app_nil_r in Hu. exact Hu. }
  destruct (wrap_account_encodes a Ha) as (e2 & _ & H2 & _ & _ & e' & -> & He'). rewrite (encodes_unique _ _ _ _ He H2) in E, Hb. clear He H2 e.
  unfold wrap_account_codec, typed_codec. cbn [cd_unmarshal]. unfold WrapAccount_Unmarshal. destruct p as [|t p]; [eexists; split; [reflexivity|left; reflexivity]|].
  injection E as <- E. inversion Hb as [|? ? _ Hb']; subst.
  assert (Et : (AccountType a =? 0) || (AccountType a =? 1) || (AccountType a =? 2) = true) by (destruct a; reflexivity). rewrite Et.
  destruct (unmarshal_cut _ _ _ p x (zero (ty_account (AccountType a))) (declared_account _ (AccountType a) hash_short) Hb' He' eq_refl Hx) as (er & n & -> & Her).
  cbn [bind]. exists er. split; [reflexivity|exact Her].
Qed.
Lemma wrap_tx_short : codec_short wrap_tx_codec.
Proof.
  intros v e p x dst Hb He E Hx. destruct (wrap_tx_decodes dst e v (zlen e) Hb) as (a & -> & Ha).
  { destruct He as (_ & Hu). specialize (Hu dst []). rewrite app_nil_r in Hu. exact Hu. }
  destruct (tx_layout a Ha) as (e' & E2 & He'). rewrite (encodes_unique _ _ _ _ He (wrap_tx_layout a Ha)), E2 in E, Hb. clear He e E2.
  unfold wrap_tx_codec, typed_codec. cbn [cd_unmarshal]. unfold WrapTx_Unmarshal. destruct p as [|t p]; [eexists; split; [reflexivity|left; reflexivity]|].
  injection E as <- E. inversion Hb as [|? ? _ Hb']; subst.
  assert (Et : (TxType a =? 0) || (TxType a =? 1) = true) by (destruct a; reflexivity). rewrite Et.
  destruct (unmarshal_cut _ _ _ p x (zero (ty_tx (TxType a))) (declared_tx _ (TxType a)) Hb' He' eq_refl Hx) as (er & n & -> & Her).
  cbn [bind]. exists er. split; [reflexivity|exact Her].
Qed.

Lemma interlink_cut il bs distinct p x : interlink_fits bs distinct -> bytes_ok (interlink_bytes bs distinct) -> interlink_bytes bs distinct = p ++ x -> x <> [] ->
  Interlink_Unmarshal il p = Err EUnexpectedEOF.
Proof.
  intros (Hbs & Hd & Hz) Hb E Hx. assert (Hbp : bytes_ok p) by (rewrite E in Hb; apply bytes_ok_app in Hb as (Hb & _); exact Hb).
  destruct (interlink_unm il p Hbp) as (HI & _). destruct (Interlink_Unmarshal il p) as [(r & n)|er| |] eqn:Ei.
  - exfalso. destruct HI as (bs' & m & Eb & _ & _ & HI). destruct (bitset_mono _ _ x _ _ Eb) as (_ & Eb'). rewrite <- E in Eb'. unfold interlink_bytes in Eb'.
    unfold bitset_bytes in Eb'. rewrite (bitset_unm_enc _ bs _ Hbs) in Eb'.
    assert (bs' = bs /\ m = 1 + zlen (Bits bs)) as (-> & ->) by (split; congruence). destruct HI as (_ & En & Hn & _).
    assert (Hlen : zlen (interlink_bytes bs distinct) = n).
    { unfold interlink_bytes, bitset_bytes. rewrite zlen_app, zlen_cons, En, <- Hz. f_equal.
      clear -Hd. induction Hd as [|h l Hh _ IH]; [reflexivity|]. cbn [List.concat]. rewrite zlen_app, zlen_cons, IH. destruct Hh as (Hh & _). unfold zlen. lia. }
    rewrite E, zlen_app in Hlen. destruct x; [congruence|]. rewrite zlen_cons in Hlen. pose proof (zlen_nonneg x). lia.
  - rewrite HI. reflexivity.
  - exfalso. destruct HI as (y & d' & -> & Hy). unfold interlink_bytes, bitset_bytes in E. cbn [app] in E. destruct Hbs as (Hl & _).
    assert (Len bs = y) by congruence. lia.
  - destruct HI.
Qed.
(** Element slices are the only source of the second error. *)
Definition roomy (c : codec) : Prop := forall dst d, cd_unmarshal c dst d <> Err ECannotAlloc.
Lemma mbind_roomy {A B} (x : M A) (f : A -> M B) s :
  (forall s, fst (x s) <> Err ECannotAlloc) -> (forall a s, fst (f a s) <> Err ECannotAlloc) -> fst (mbind x f s) <> Err ECannotAlloc.
Proof.
  intros Hx Hf. unfold mbind. specialize (Hx s). destruct (x s) as ([a|e| |] & s'); cbn [fst] in *; [apply Hf|congruence|discriminate|discriminate].
Qed.
Lemma pop_roomy n s : fst (pop n s) <> Err ECannotAlloc.
Proof. unfold pop. destruct (zlen (data s) <? n); discriminate. Qed.
Lemma number_roomy k s : fst (number k s) <> Err ECannotAlloc.
Proof. unfold number. apply mbind_roomy; [apply pop_roomy|]. intros; discriminate. Qed.
Lemma read_len_roomy ts s : fst (read_len ts s) <> Err ECannotAlloc.
Proof.
  unfold read_len. destruct (lenTag ts); [|discriminate]. apply mbind_roomy; [apply number_roomy|]. intros a s'.
  destruct (signed k && (a <? 0)); [discriminate|]. destruct (maxInt <? a); discriminate.
Qed.
Lemma dec_n_roomy f n : (forall d s, fst (f d s) <> Err ECannotAlloc) -> forall dsts s, fst (dec_n f n dsts s) <> Err ECannotAlloc.
Proof.
  intros Hf. induction n as [|n IH]; intros dsts s; cbn [dec_n]; [discriminate|]. apply mbind_roomy; [apply Hf|]. intros v s1.
  apply mbind_roomy; [apply IH|]. intros; discriminate.
Qed.
Fixpoint all_byte_slices (fs : list (option (list Z) * ty)) : Prop :=
  match fs with [] => True | (_, t) :: fs => byte_slices t /\ all_byte_slices fs end.
Lemma value_roomy t : well_declared roomy t -> byte_slices t -> forall ts dst s, fst (value t ts dst s) <> Err ECannotAlloc.
Proof.
  induction t as [|k| |t IH|m t IH|t IH|fs IH| |c t IH] using ty_ind'; intros Hw Hs ts dst s.
  - cbn [value]. apply mbind_roomy; [apply pop_roomy|]. intros b s'. repeat (destruct b as [|[|[| |]|] b]; try discriminate).
  - cbn [value]. apply mbind_roomy; [apply number_roomy|]. intros; discriminate.
  - cbn [value]. apply mbind_roomy; [apply read_len_roomy|]. intros u s'. apply mbind_roomy; [apply pop_roomy|]. intros; discriminate.
  - destruct Hw as (Hc & Hw). rewrite value_ptr by exact Hc. cbv zeta.
    assert (HG : forall s, fst (mbind (value t ts (zero t)) (fun v => ret (VPtr (Some v))) s) <> Err ECannotAlloc) by (intros s0; apply mbind_roomy; [intros; apply (IH Hw Hs)|intros; discriminate]).
    destruct (optional ts); [|apply HG]. apply mbind_roomy; [apply pop_roomy|]. intros b s'.
    destruct b as [|[|[| |]|] [|]]; try discriminate; apply HG.
  - destruct Hw as (Hc & Hw). cbn [value]. destruct (is_u8 t).
    + destruct (is_custom t); (apply mbind_roomy; [apply pop_roomy|]; intros; discriminate).
    + apply mbind_roomy; [apply dec_n_roomy; intros; apply (IH Hw Hs)|]. intros; discriminate.
  - cbn [byte_slices] in Hs. cbn [value]. apply mbind_roomy; [apply read_len_roomy|]. intros u s'. rewrite Hs.
    apply mbind_roomy; [apply pop_roomy|]. intros; discriminate.
  - rewrite value_struct. apply mbind_roomy; [|intros; discriminate]. clear s. change (all_declared roomy fs) in Hw. change (all_byte_slices fs) in Hs.
    generalize (elems_of dst). induction IH as [|(tag & t) fs Ht Hfs IHfs]; intros dsts s; cbn [value_fields]; [discriminate|].
    destruct Hw as ((ts0 & Et) & Hw1 & Hw2). destruct Hs as (Hs1 & Hs2). apply mbind_roomy; [rewrite Et; discriminate|]. intros ts1 s1. apply mbind_roomy; [intros; apply (Ht Hw1 Hs1)|]. intros v s2.
    apply mbind_roomy; [intros; apply (IHfs Hw2 Hs2)|]. intros; discriminate.
  - discriminate.
  - cbn [value]. unfold call_unmarshal. specialize (Hw dst (data s)). destruct (cd_unmarshal c dst (data s)) as [(v & n)|e| |]; cbn [fst]; try discriminate; [|congruence].
    destruct (n <? 0); [discriminate|]. destruct (zlen (data s) <? n); discriminate.
Qed.
Lemma unmarshal_roomy t d v n : well_declared roomy t -> byte_slices t -> Unmarshal d (APtr t v) <> (Err ECannotAlloc, n).
Proof.
  intros Hw Hs. unfold Unmarshal. pose proof (value_roomy t Hw Hs no_tags v (DState d [])) as H.
  destruct (value t no_tags v (DState d [])) as ([w|e| |] & s); cbn [fst bind] in *; congruence.
Qed.
Lemma hash_roomy : roomy hash_codec.
Proof. intros dst d. unfold hash_codec, typed_codec. cbn [cd_unmarshal]. unfold Hash_Unmarshal. destruct d as [|x0 d]; [discriminate|]. destruct (zlen d <? 32); discriminate. Qed.
Lemma path_roomy : roomy path_codec.
Proof. intros dst d. unfold path_codec, typed_codec. cbn [cd_unmarshal]. destruct (path_unm_total (path_of dst) d) as [(bs & n & ->)| ->]; discriminate. Qed.
Lemma account_slices typ : byte_slices (ty_account typ).
Proof. unfold ty_account. destruct (typ =? 0); [|destruct (typ =? 1)]; cbn; tauto. Qed.
Lemma tx_slices typ : byte_slices (ty_tx typ).
Proof. unfold ty_tx. destruct (typ =? 0); cbn; tauto. Qed.
Lemma wrap_account_roomy : roomy wrap_account_codec.
Proof.
  intros dst d. unfold wrap_account_codec, typed_codec. cbn [cd_unmarshal]. unfold WrapAccount_Unmarshal. destruct d as [|typ d]; [discriminate|].
  destruct ((typ =? 0) || (typ =? 1) || (typ =? 2)); [|discriminate].
  destruct (Unmarshal d (APtr (ty_account typ) (zero (ty_account typ)))) as ([o|e| |] & n) eqn:E; cbn [bind]; try discriminate.
  intros E'. injection E' as ->. exact (unmarshal_roomy _ _ _ _ (declared_account _ typ hash_roomy) (account_slices typ) E).
Qed.
Lemma wrap_tx_roomy : roomy wrap_tx_codec.
Proof.
  intros dst d. unfold wrap_tx_codec, typed_codec. cbn [cd_unmarshal]. unfold WrapTx_Unmarshal. destruct d as [|typ d]; [discriminate|].
  destruct ((typ =? 0) || (typ =? 1)); [|discriminate].
  destruct (Unmarshal d (APtr (ty_tx typ) (zero (ty_tx typ)))) as ([o|e| |] & n) eqn:E; cbn [bind]; try discriminate.
  intros E'. injection E' as ->. exact (unmarshal_roomy _ _ _ _ (declared_tx _ typ) (tx_slices typ) E).
Qed.
