(** Properties C27-C35: package beserial. *)
From Coq Require Import ZArith List Lia Bool String.
Import ListNotations.
From Verif.Model Require Import Base Address Beserial.
From Verif.Spec Require Import BeserialSpec.
From Verif.Proofs Require Import BaseFacts BeserialFacts.
Open Scope Z_scope.

(** Example types and values used below. *)
Definition tag (s : string) : option bytes := Some (str s).
Definition t_rec : ty :=
  TStruct [(None, TNum U64); (tag "len_tag=uint16", TSlice (TNum U8)); (None, TBool);
           (tag "optional", TPtr (TNum U8)); (tag "len_tag=uint8", TSlice (TArray 2 (TNum I16)));
           (tag "len_tag=uint8", TString); (None, TPtr (TNum I32))].
Definition v_rec : val :=
  VStruct [VNum 0xC0C0404009090303; VList [VNum 1; VNum 255]; VBool true; VPtr (Some (VNum 7));
           VList [VList [VNum (-2020); VNum 3]; VList [VNum 0; VNum (-1)]]; VString (str "ya"); VPtr (Some (VNum (-5)))].
Definition e_rec : bytes :=
  [0xC0; 0xC0; 0x40; 0x40; 0x09; 0x09; 0x03; 0x03; 0; 2; 1; 255; 1; 1; 7;
   2; 0xF8; 0x1C; 0; 3; 0; 0; 255; 255; 2; 0x79; 0x61; 255; 255; 255; 251].

Example v_rec_encodable : encodable t_rec no_tags v_rec.
Proof.
  cbn [encodable t_rec v_rec].
  repeat match goal with
         | |- _ /\ _ => split
         | |- exists ts, field_tags _ = Ok ts /\ _ => eexists; split; [reflexivity|]
         | |- exists k, lenTag _ = Some k /\ _ => eexists; split; [reflexivity|]
         | |- Forall _ _ => constructor
         | |- len_fits _ _ => split; [reflexivity|cbn; lia]
         | |- elem_ok _ => intros _; reflexivity
         | |- True => exact I
         | |- is_custom _ = _ => reflexivity
         | |- occupies _ _ = _ => reflexivity
         | |- length _ = _ => reflexivity
         | _ => cbn; lia
         end.
Qed.

(** ** C27 *)
(** Every encodable value has an encoding in the format of the specification;
    Marshal appends it to any buffer, and Unmarshal reads it back from any input
    that begins with it, over any old destination. *)
Theorem C27_decode_inverts_encode t v :
  encodable t no_tags v ->
  exists e, enc t no_tags v e /\
    (forall b, Marshal b (APtr t v) = Ok (b ++ e, None)) /\
    (forall dst rest, Unmarshal (e ++ rest) (APtr t dst) = (Ok (Some v), zlen e)) /\
    (forall dst, UnmarshalFull e (APtr t dst) = Ok (Some v)).
Proof.
  intros H. destruct (encodable_enc t no_tags v H) as (e & He & _). exists e. split; [exact He|].
  destruct (proj1 enc_round_trip _ _ _ _ He) as (Hm & Hd). split; [exact Hm|].
  assert (Hu : forall dst rest, Unmarshal (e ++ rest) (APtr t dst) = (Ok (Some v), zlen e)).
  { intros dst rest. destruct (Hd dst rest []) as (al & E). unfold Unmarshal. rewrite E. cbn [bind data].
    f_equal. unfold zlen. rewrite app_length. lia. }
  split; [exact Hu|].
  intros dst. unfold UnmarshalFull. specialize (Hu dst []). rewrite app_nil_r in Hu. rewrite Hu. cbn [bind].
  rewrite Z.ltb_irrefl. reflexivity.
Qed.
Print Assumptions C27_decode_inverts_encode.
Example C27_example : Marshal [] (APtr t_rec v_rec) = Ok (e_rec, None).
Proof. reflexivity. Qed.

(** The one exception to "slices that fit their length tag": elements that take
    no bytes.  A slice of one empty struct is written but not read back. *)
Definition t_empties : ty := TStruct [(tag "len_tag=uint8", TSlice (TStruct []))].
Theorem C27_zero_size_elements_refuted :
  let v := VStruct [VList [VStruct []]] in
  Marshal [] (APtr t_empties v) = Ok ([1], None) /\
  Unmarshal [1] (APtr t_empties (zero t_empties)) = (Err ECannotAlloc, 1).
Proof. split; reflexivity. Qed.
Print Assumptions C27_zero_size_elements_refuted.

(** ** C28 *)
Theorem C28_unmarshal_total t dst d :
  well_declared codec_safe t -> bytes_ok d ->
  exists r n, Unmarshal d (APtr t dst) = (r, n) /\ 0 <= n <= zlen d /\
    ((exists v, r = Ok (Some v)) \/ (exists e, r = Err e)) /\
    (forall v, UnmarshalFull d (APtr t dst) = Ok v <-> r = Ok v /\ n = zlen d) /\
    UnmarshalFull d (APtr t dst) <> Panic.
Proof.
  intros Hw Hb. unfold UnmarshalFull. unfold Unmarshal. destruct (value t no_tags dst (DState d [])) as (r & s) eqn:E.
  pose proof (adv_value t no_tags dst _ _ _ E) as ((e & He) & _).
  pose proof (safe_value t Hw no_tags dst (DState d []) r s Hb E) as (Hp & Ho). cbn [data] in *.
  assert (Hn : 0 <= zlen d - zlen (data s) <= zlen d).
  { rewrite He. unfold zlen. rewrite app_length. lia. }
  do 2 eexists. split; [reflexivity|]. split; [exact Hn|]. destruct r as [v|e'| |]; try congruence; cbn [bind].
  - split; [left; eauto|]. destruct (Z.ltb_spec (zlen d - zlen (data s)) (zlen d)).
    + split; [|discriminate]. intros v'. split; [discriminate|]. intros (_ & ?). lia.
    + split; [|discriminate]. intros v'. split; [intros H'; injection H' as <-; split; [reflexivity|lia]|]. intros (H' & _). exact H'.
  - split; [right; eauto|]. split; [|discriminate]. intros v'. split; [discriminate|]. intros (? & _). discriminate.
Qed.
Print Assumptions C28_unmarshal_total.
Example C28_hypotheses : well_declared codec_safe t_rec /\ bytes_ok e_rec.
Proof.
  split.
  - cbn [well_declared t_rec]. repeat match goal with
      | |- _ /\ _ => split
      | |- exists ts, _ = Ok ts => eexists; reflexivity
      | |- elem_ok _ => intros _; reflexivity
      | _ => first [exact I|reflexivity] end.
  - unfold bytes_ok, is_byte, e_rec. repeat constructor; lia.
Qed.

(** ** C29 *)
Theorem C29_self_delimiting t v1 v2 e1 e2 x :
  encodable t no_tags v1 -> encodable t no_tags v2 ->
  Marshal [] (APtr t v1) = Ok (e1, None) -> Marshal [] (APtr t v2) = Ok (e2, None) ->
  e2 = e1 ++ x -> v1 = v2 /\ x = [].
Proof.
  intros H1 H2 M1 M2 E.
  destruct (C27_decode_inverts_encode t v1 H1) as (f1 & _ & A1 & U1 & _).
  destruct (C27_decode_inverts_encode t v2 H2) as (f2 & _ & A2 & U2 & _).
  rewrite A1 in M1. rewrite A2 in M2. cbn in M1, M2. injection M1 as ->. injection M2 as ->.
  specialize (U1 VOther x). specialize (U2 VOther []). rewrite app_nil_r, E in U2. rewrite U1 in U2. injection U2 as -> Hl.
  split; [reflexivity|]. unfold zlen in Hl. rewrite app_length in Hl. destruct x; [reflexivity|cbn in Hl; lia].
Qed.
Print Assumptions C29_self_delimiting.

(** ** C30 *)
Theorem C30_canonical t dst d v n :
  well_declared codec_canonical t -> bytes_ok d ->
  Unmarshal d (APtr t dst) = (Ok (Some v), n) ->
  forall b, Marshal b (APtr t v) = Ok (b ++ firstn (Z.to_nat n) d, None).
Proof.
  intros Hw Hb E b. unfold Unmarshal in E. destruct (value t no_tags dst (DState d [])) as (r & s) eqn:Ev.
  destruct r as [v'|e| |]; try discriminate. cbn [bind] in E. injection E as -> En.
  destruct (re_value t Hw no_tags dst ltac:(intros ? ?; discriminate) (DState d []) v s Hb Ev) as (e & Hd & Hm).
  cbn [data] in Hd. unfold Marshal. rewrite Hm. unfold m_ok. do 3 f_equal.
  rewrite Hd in En |- *. unfold zlen in En. rewrite app_length in En.
  replace (Z.to_nat n) with (List.length e) by lia. rewrite firstn_app, firstn_all, Nat.sub_diag, app_nil_r. reflexivity.
Qed.
Print Assumptions C30_canonical.
Example C30_hypotheses : well_declared codec_canonical t_rec /\
  Unmarshal (e_rec ++ [9; 9]) (APtr t_rec (zero t_rec)) = (Ok (Some v_rec), 31).
Proof.
  split; [|reflexivity]. cbn [well_declared t_rec]. repeat match goal with
      | |- _ /\ _ => split
      | |- exists ts, _ = Ok ts => eexists; reflexivity
      | |- elem_ok _ => intros _; reflexivity
      | _ => first [exact I|reflexivity] end.
Qed.

(** ** C31 *)
(** Size does not consult MarshalBESerial: whatever a type's own codec writes, Size
    counts the underlying type. *)
Theorem C31_custom_types_refuted c t v n e :
  Size (APtr t v) = Ok n -> (forall b, cd_marshal c v b = Ok (b ++ e, None)) ->
  Size (APtr (TCustom c t) v) = Ok n /\ forall b, Marshal b (APtr (TCustom c t) v) = Ok (b ++ e, None).
Proof. intros E1 E2. split; [exact E1|exact E2]. Qed.
Print Assumptions C31_custom_types_refuted.
(** E.g. a struct whose codec writes nothing. *)
Definition silent : codec := Codec (fun dst _ => Ok (dst, 0)) (fun _ b => Ok (b, None)).
Example C31_custom_types_example :
  let t := TCustom silent (TStruct [(None, TNum U64)]) in
  let v := VStruct [VNum 1] in
  Size (APtr t v) = Ok 8 /\ Marshal [] (APtr t v) = Ok ([], None).
Proof. split; reflexivity. Qed.
(** It is exact for all types without codecs. *)
Theorem C31_size_exact_partial t v n :
  well_declared no_codec t -> typed t v -> Size (APtr t v) = Ok n ->
  exists e, zlen e = n /\ forall b, Marshal b (APtr t v) = Ok (b ++ e, None).
Proof. intros Hw Hv E. apply size_exact; try assumption. intros ? ?; discriminate. Qed.
Print Assumptions C31_size_exact_partial.
(** ... and it succeeds on every such value unless a bool, or a part that
    Marshal cannot encode either, occurs. *)
Definition t_sized : ty :=
  TStruct [(None, TNum U64); (tag "len_tag=uint16", TSlice (TNum U8)); (tag "optional", TPtr (TNum U8));
           (tag "len_tag=uint8", TSlice (TArray 2 (TNum I16)))].
Example C31_example :
  Size (APtr t_sized (VStruct [VNum 5; VList [VNum 1; VNum 2]; VPtr None; VList [VList [VNum 1; VNum 2]]])) = Ok 18
  /\ well_declared no_codec t_sized.
Proof.
  split; [reflexivity|]. cbn [well_declared t_sized]. repeat match goal with
      | |- _ /\ _ => split
      | |- exists ts, _ = Ok ts => eexists; reflexivity
      | |- elem_ok _ => intros _; reflexivity
      | _ => first [exact I|reflexivity] end.
Qed.
Example C31_no_bools : Size (APtr TBool (VBool true)) = Err ECannotMarshal.
Proof. reflexivity. Qed.

(** ** C32 *)
(** If every part can be encoded, Marshal appends to the buffer, whatever it
    holds; and if the type has no pointers, Marshal succeeds only then, and
    otherwise returns an error. *)
Theorem C32_marshal_appends_partial t v :
  well_declared codec_total t -> typed t v ->
  (parts_ok t no_tags v -> exists e, forall b, Marshal b (APtr t v) = Ok (b ++ e, None)) /\
  (pointer_free t -> ~ parts_ok t no_tags v -> exists er, forall b, exists r, Marshal b (APtr t v) = Ok (r, Some er)).
Proof.
  intros Hw Hv. assert (Hu : tags_unsigned no_tags) by (intros ? ?; discriminate). split.
  - intros Hp. exact (parts_append t Hw no_tags v Hu Hv Hp).
  - intros Hf Hn. destruct (marshal_dichotomy t Hw Hf no_tags v Hu Hv) as [(e & He)|H]; [|exact H].
    destruct Hn. exact (marshal_ok_parts t Hw Hf no_tags v [] _ Hu Hv (He [])).
Qed.
Print Assumptions C32_marshal_appends_partial.
(** The error of a value behind a pointer is dropped (encode.go:58-63), and so is
    everything that was in the buffer: whatever cannot be encoded, and whatever
    encodable fields come before and after the pointer to it, Marshal reports success
    and returns the encoding of the later fields only. *)
Lemma marshal_struct_app fs1 : forall l1 fs2 l2 b ts, List.length fs1 = List.length l1 ->
  marshal (TStruct (fs1 ++ fs2)) (VStruct (l1 ++ l2)) b ts =
  m_then (marshal (TStruct fs1) (VStruct l1) b ts) (fun b => marshal (TStruct fs2) (VStruct l2) b ts).
Proof.
  induction fs1 as [|(tg & t0) fs1 IH]; intros l1 fs2 l2 b ts El; destruct l1 as [|v0 l1]; try discriminate El; [reflexivity|].
  injection El as El.
  change (marshal (TStruct (((tg, t0) :: fs1) ++ fs2)) (VStruct ((v0 :: l1) ++ l2)) b ts) with
    (let? ts0 := field_tags tg in m_then (marshal t0 v0 b ts0) (fun b => marshal (TStruct (fs1 ++ fs2)) (VStruct (l1 ++ l2)) b ts)).
  change (marshal (TStruct ((tg, t0) :: fs1)) (VStruct (v0 :: l1)) b ts) with
    (let? ts0 := field_tags tg in m_then (marshal t0 v0 b ts0) (fun b => marshal (TStruct fs1) (VStruct l1) b ts)).
  destruct (field_tags tg) as [ts0| | |]; try reflexivity. cbn [bind].
  destruct (marshal t0 v0 b ts0) as [(b1 & [er|])| | |]; try reflexivity. unfold m_then at 1 3. cbn [bind]. apply IH, El.
Qed.
Lemma enc_n_error f l : forall b r er, enc_n f l b = Ok (r, Some er) -> r = [].
Proof.
  induction l as [|v l IH]; intros b r er E; cbn in E; [discriminate E|].
  destruct (f v b) as [(b1 & [e1|])| | |]; cbn in E; try discriminate E; [injection E as <- _; reflexivity|eapply IH; eauto].
Qed.
Lemma marshal_error t v b ts r er : (forall c t0, t <> TCustom c t0) -> pointer_free t -> marshal t v b ts = Ok (r, Some er) -> r = [].
Proof.
  intros Hc Hf E. destruct t as [| | |t0|n t0|t0|fs| |c t0]; cbn in E; try contradiction Hf.
  - destruct v; discriminate E.
  - destruct v; discriminate E.
  - destruct v; try discriminate E. destruct (lenTag ts); [destruct (marshalInt _ _ _); discriminate E|injection E as <- _; reflexivity].
  - destruct v; try discriminate E. destruct (negb _); [discriminate E|]. destruct (is_u8 t0); [destruct (raw_bytes l); discriminate E|]. eapply enc_n_error; eauto.
  - destruct v; try discriminate E. destruct (lenTag ts); [|injection E as <- _; reflexivity].
    destruct (marshalInt _ _ _); try discriminate E. cbn in E. destruct (is_u8 t0); [destruct (raw_bytes l); discriminate E|]. eapply enc_n_error; eauto.
  - destruct v; try discriminate E. clear Hf Hc. revert l b E. induction fs as [|(tg & t0) fs IH]; intros [|v0 l] b E; try discriminate E.
    destruct (field_tags tg); try discriminate E. cbn [bind] in E. destruct (marshal t0 v0 b _) as [(b1 & [e1|])| | |]; cbn in E; try discriminate E.
    + injection E as <- _. reflexivity.
    + eapply IH; eauto.
  - injection E as <- _. reflexivity.
  - destruct (Hc c t0 eq_refl).
Qed.
Theorem C32_pointer_error_refuted t v fs1 l1 fs2 l2 :
  well_declared codec_total t -> typed t v -> pointer_free t -> (forall c t0, t <> TCustom c t0) -> ~ parts_ok t no_tags v ->
  well_declared codec_total (TStruct fs1) -> typed (TStruct fs1) (VStruct l1) -> parts_ok (TStruct fs1) no_tags (VStruct l1) ->
  well_declared codec_total (TStruct fs2) -> typed (TStruct fs2) (VStruct l2) -> parts_ok (TStruct fs2) no_tags (VStruct l2) ->
  exists later, (forall b, Marshal b (APtr (TStruct fs2) (VStruct l2)) = Ok (b ++ later, None)) /\
  forall b, Marshal b (APtr (TStruct (fs1 ++ (None, TPtr t) :: fs2)) (VStruct (l1 ++ VPtr (Some v) :: l2))) = Ok (later, None).
Proof.
  intros Hw Hv Hf Hc Hn W1 T1 P1 W2 T2 P2.
  destruct (proj1 (C32_marshal_appends_partial _ _ W1 T1) P1) as (e1 & E1).
  destruct (proj1 (C32_marshal_appends_partial _ _ W2 T2) P2) as (e2 & E2).
  destruct (proj2 (C32_marshal_appends_partial _ _ Hw Hv) Hf Hn) as (er & Er).
  exists e2. split; [exact E2|]. intros b. unfold Marshal in *.
  rewrite marshal_struct_app.
  2:{ clear -T1. revert l1 T1. induction fs1 as [|(tg & t0) fs1 IH]; intros [|v0 l1] T; cbn in T |- *; try reflexivity; try contradiction T.
      f_equal. apply IH. exact (proj2 T). }
  rewrite E1. unfold m_then at 1. cbn [bind].
  change (marshal (TStruct ((None, TPtr t) :: fs2)) (VStruct (VPtr (Some v) :: l2)) (b ++ e1) no_tags) with
    (m_then (marshal (TPtr t) (VPtr (Some v)) (b ++ e1) no_tags) (fun b => marshal (TStruct fs2) (VStruct l2) b no_tags)).
  assert (Ep : marshal (TPtr t) (VPtr (Some v)) (b ++ e1) no_tags = Ok ([], None)).
  { destruct (Er (b ++ e1)) as (r & E). pose proof (marshal_error t v _ _ r er Hc Hf E) as ->.
    destruct t; try (destruct (Hc _ _ eq_refl)); cbn [marshal optional no_tags] in *; try contradiction Hf; rewrite E; reflexivity. }
  rewrite Ep. cbn. exact (E2 []).
Qed.
Print Assumptions C32_pointer_error_refuted.
Example C32_pointer_error_example :
  let t := TStruct [(None, TNum U8); (None, TPtr (TSlice (TNum U8))); (None, TNum U16)] in
  let v := VStruct [VNum 9; VPtr (Some (VList [VNum 1])); VNum 258] in
  typed t v /\ ~ parts_ok t no_tags v /\
  forall b, Marshal b (APtr t v) = Ok ([1; 2], None).
Proof.
  split; [|split].
  - cbn. repeat constructor; lia.
  - cbn. intros (_ & (ts & E & H) & _). injection E as <-. destruct H as (H & _). apply H. reflexivity.
  - reflexivity.
Qed.

Example C32_example :
  let t := TStruct [(None, TNum U8); (None, TArray 1 (TStruct [(None, TSlice (TNum U8))]))] in
  let v := VStruct [VNum 1; VList [VStruct [VList []]]] in
  well_declared codec_total t /\ typed t v /\ pointer_free t /\ ~ parts_ok t no_tags v /\
  Marshal [7] (APtr t v) = Ok ([], Some ENoLenTag).
Proof.
  cbv zeta. split; [|split; [|split; [|split]]].
  - cbn. repeat match goal with
      | |- _ /\ _ => split
      | |- exists ts, _ = Ok ts => eexists; reflexivity
      | |- elem_ok _ => intros H; discriminate H || reflexivity
      | _ => first [exact I|reflexivity] end.
  - cbn. repeat constructor; lia.
  - cbn. repeat split.
  - cbn. intros (_ & (ts & _ & H) & _). apply Forall_inv in H. destruct H as ((ts' & E & Hl & _) & _). injection E as <-. apply Hl. reflexivity.
  - reflexivity.
Qed.

(** ** C33 *)
(** A byte slice longer than its length tag can express is not rejected: the
    encoding decodes to the first (n mod 2^bits) bytes. *)
Definition t_blob (k : string) : ty := TStruct [(tag k, TSlice (TNum U8))].
Theorem C33_truncation_refuted s :
  bytes_ok s -> zlen s < 2 ^ 63 ->
  exists e, Marshal [] (APtr (t_blob "len_tag=uint8") (VStruct [vbytes s])) = Ok (e, None) /\
    fst (Unmarshal e (APtr (t_blob "len_tag=uint8") (VStruct [VList []]))) =
      Ok (Some (VStruct [vbytes (firstn (Z.to_nat (zlen s mod 256)) s)])).
Proof.
  intros Hs Hl. exists (be_put 1 (zlen s) ++ s). split.
  - cbn [Marshal t_blob marshal]. change (field_tags (tag "len_tag=uint8")) with (@Ok tags (Tags (Some U8) false)).
    cbn [bind marshal lenTag m_then]. unfold marshalInt. cbn [signed bind]. unfold vbytes. cbn [is_u8 num_kind].
    rewrite raw_bytes_map. unfold zlen. rewrite map_length. reflexivity.
  - set (m := Z.to_nat (zlen s mod 256)).
    assert (Hm : (m <= List.length s)%nat).
    { unfold m, zlen. pose proof (Z.mod_le (Z.of_nat (List.length s)) 256). lia. }
    pose proof (Z.mod_pos_bound (zlen s) 256 ltac:(lia)) as Hb.
    destruct (C27_decode_inverts_encode (t_blob "len_tag=uint8") (VStruct [vbytes (firstn m s)])) as (e & He & Hmar & Hun & _).
    { cbn [encodable t_blob]. split; [|exact I]. eexists. split; [reflexivity|]. unfold vbytes. split; [intros _; reflexivity|]. split; [reflexivity|]. split.
      - exists U8. split; [reflexivity|]. split; [reflexivity|]. rewrite map_length, firstn_length, Nat.min_l by exact Hm. unfold m. cbn. lia.
      - apply Forall_forall. intros v Hv. apply in_map_iff in Hv as (x & <- & Hx). apply firstn_In in Hx || idtac.
        assert (Hx' : In x s) by (revert Hx; generalize m; clear; induction s; intros [|m]; cbn; [easy..|intros []; auto]; right; eauto).
        unfold bytes_ok in Hs. rewrite Forall_forall in Hs. specialize (Hs x Hx'). cbn. unfold is_byte in Hs. lia. }
    assert (Ee : e = be_put 1 (zlen s) ++ firstn m s).
    { specialize (Hmar []). cbn [Marshal t_blob marshal] in Hmar.
      change (field_tags (tag "len_tag=uint8")) with (@Ok tags (Tags (Some U8) false)) in Hmar.
      cbn [bind marshal lenTag m_then] in Hmar. unfold marshalInt in Hmar. cbn [signed bind] in Hmar. unfold vbytes in Hmar. cbn [is_u8 num_kind] in Hmar.
      rewrite raw_bytes_map in Hmar. cbn in Hmar. unfold zlen in Hmar. rewrite map_length, firstn_length, Nat.min_l in Hmar by exact Hm.
      injection Hmar as <-. cbn. unfold m. rewrite Z2Nat.id by lia. unfold zlen. rewrite !Z.div_1_r, Zmod_mod. reflexivity. }
    replace (be_put 1 (zlen s) ++ s) with (e ++ skipn m s).
    + rewrite Hun. reflexivity.
    + rewrite Ee, <- app_assoc, firstn_skipn. reflexivity.
Qed.
Print Assumptions C33_truncation_refuted.
(** Values whose slices fit their tags are not truncated: whatever Marshal
    returns for them decodes to the same value. *)
Theorem C33_no_truncation_partial t v b e :
  encodable t no_tags v -> Marshal b (APtr t v) = Ok (b ++ e, None) ->
  forall dst rest, Unmarshal (e ++ rest) (APtr t dst) = (Ok (Some v), zlen e).
Proof.
  intros H E. destruct (C27_decode_inverts_encode t v H) as (e' & _ & Hm & Hu & _).
  rewrite Hm in E. injection E as E. apply app_inv_head in E. subst e'. exact Hu.
Qed.
Print Assumptions C33_no_truncation_partial.

(** ** C34 *)
(** Every allocation that decoding performs, successful or not, is of at most as
    many elements as there were input bytes left at that moment. *)
Theorem C34_bounded_allocation t dst d len left :
  In (len, left) (allocs (snd (value t no_tags dst (DState d [])))) -> len <= left.
Proof.
  intros H. destruct (value t no_tags dst (DState d [])) as (r & s) eqn:E.
  pose proof (adv_value t no_tags dst _ _ _ E) as (_ & Ha). specialize (Ha (Forall_nil _)).
  unfold alloc_ok in Ha. rewrite Forall_forall in Ha. exact (Ha _ H).
Qed.
Print Assumptions C34_bounded_allocation.
Example C34_example :
  allocs (snd (value t_rec no_tags (zero t_rec) (DState e_rec []))) = [(2, 21); (2, 15); (2, 6)] /\
  (* a claim of 2^16-1 elements *)
  value (TStruct [(tag "len_tag=uint16", TSlice (TNum U16))]) no_tags VOther (DState [255; 255; 1] []) =
    (Err ECannotAlloc, DState [1] []).
Proof. split; reflexivity. Qed.

(** ** C35 *)
Theorem C35_combination_refuted :
  parse_tag (str "optional,len_tag=uint8") = Panic /\ parse_tag (str "len_tag=uint8,optional") = Panic.
Proof. split; reflexivity. Qed.
Print Assumptions C35_combination_refuted.

Lemma split_optionals n : split_comma (optionals n) [] = repeat s_optional (S n).
Proof.
  induction n as [|n IH]; [reflexivity|].
  change (optionals (S n)) with (s_optional ++ 44 :: optionals n).
  change (split_comma (s_optional ++ 44 :: optionals n) []) with (s_optional :: split_comma (optionals n) []).
  rewrite IH. reflexivity.
Qed.
Lemma split_all_optional s : forall cur, Forall (eq s_optional) (split_comma s cur) -> exists n, cur ++ s = optionals n.
Proof.
  induction s as [|c s IH]; intros cur H; cbn [split_comma] in H.
  - inversion H; subst. exists 0%nat. apply app_nil_r.
  - destruct (Z.eqb_spec c 44) as [->|_].
    + inversion H as [|? ? E H']; subst. destruct (IH [] H') as (n & En). exists (S n). cbn [app] in En. cbn [optionals]. congruence.
    + destruct (IH _ H) as (n & En). exists n. rewrite <- En, <- app_assoc. reflexivity.
Qed.
Lemma parse_optionals tg n ts : parse_elems tg (repeat s_optional n) ts = Ok (Tags (lenTag ts) (match n with O => optional ts | _ => true end)).
Proof.
  revert ts. induction n as [|n IH]; intros ts; cbn [repeat parse_elems]; [destruct ts; reflexivity|].
  unfold bytes_eqb. destruct list_eq_dec; [|congruence]. rewrite IH. cbn. destruct n; reflexivity.
Qed.
Lemma parse_len_tag tg elems : forall ts ts', has_prefix tg s_len_tag = true -> (exists el, In el elems /\ el <> s_optional) ->
  parse_elems tg elems ts = Ok ts' -> exists k, parse_len (skipn (List.length s_len_tag) tg) = Ok k.
Proof.
  induction elems as [|el r IH]; intros ts ts' Hp (x & Hin & Hx) E; [contradiction|]. cbn [parse_elems] in E.
  unfold bytes_eqb at 1 in E. destruct list_eq_dec as [He|He].
  - apply (IH _ _ Hp) in E; [exact E|]. destruct Hin; [congruence|eauto].
  - rewrite Hp in E. destruct (parse_len _) as [k|e| |]; try discriminate. eauto.
Qed.
Lemma parse_no_prefix tg elems : forall ts ts', has_prefix tg s_len_tag = false -> parse_elems tg elems ts = Ok ts' -> Forall (eq s_optional) elems.
Proof.
  induction elems as [|el r IH]; intros ts ts' Hp E; constructor; cbn [parse_elems] in E; rewrite Hp in E;
    unfold bytes_eqb at 1 in E; destruct list_eq_dec; try discriminate; [congruence|eauto].
Qed.
Lemma parse_len_res s : (exists k, parse_len s = Ok k) \/ parse_len s = Panic.
Proof.
  unfold parse_len. destruct (bytes_eqb s (str "uint8")); [eauto|]. destruct (bytes_eqb s (str "uint16")); [eauto|].
  destruct (bytes_eqb s (str "uint32")); [eauto|]. destruct (bytes_eqb s (str "uint64")); eauto.
Qed.
Lemma parse_elems_res tg elems : forall ts, (exists ts', parse_elems tg elems ts = Ok ts') \/ parse_elems tg elems ts = Panic.
Proof.
  induction elems as [|el r IH]; intros ts; cbn [parse_elems]; [eauto|].
  destruct (bytes_eqb el s_optional); [apply IH|]. destruct (has_prefix tg s_len_tag); [|auto].
  destruct (parse_len_res (skipn (List.length s_len_tag) tg)) as [(k & ->)| ->]; cbn [bind]; [apply IH|auto].
Qed.

(** Exactly these tags are accepted; all others panic. *)
Theorem C35_accepted_tags_partial tg ts :
  (parse_tag tg = Ok ts <->
     (tg = str "len_tag=uint8" /\ ts = Tags (Some U8) false) \/
     (tg = str "len_tag=uint16" /\ ts = Tags (Some U16) false) \/
     (tg = str "len_tag=uint32" /\ ts = Tags (Some U32) false) \/
     (tg = str "len_tag=uint64" /\ ts = Tags (Some U64) false) \/
     (exists n, tg = optionals n) /\ ts = Tags None true) /\
  ((exists ts', parse_tag tg = Ok ts') \/ parse_tag tg = Panic).
Proof.
  split; [|apply parse_elems_res].
  split.
  - intros E. destruct (has_prefix tg s_len_tag) eqn:Hp.
    + unfold has_prefix, bytes_eqb in Hp. destruct list_eq_dec as [Hf|]; [|discriminate].
      assert (Et : tg = s_len_tag ++ skipn (List.length s_len_tag) tg) by (rewrite <- Hf at 1; symmetry; apply firstn_skipn).
      set (r := skipn (List.length s_len_tag) tg) in *. clearbody r. subst tg.
      assert (Hx : exists el, In el (split_comma (s_len_tag ++ r) []) /\ el <> s_optional).
      { assert (Hs : exists el rest, split_comma (s_len_tag ++ r) [] = (s_len_tag ++ el) :: rest).
        { change (split_comma (s_len_tag ++ r) []) with (split_comma r s_len_tag). clear.
          assert (G : forall cur, exists el rest, split_comma r cur = (cur ++ el) :: rest).
          { induction r as [|c r IH]; intros cur; cbn [split_comma].
            - exists [], []. rewrite app_nil_r. reflexivity.
            - destruct (c =? 44); [exists []; rewrite app_nil_r; eauto|]. destruct (IH (cur ++ [c])) as (el & rest & ->).
              exists (c :: el), rest. rewrite <- app_assoc. reflexivity. }
          apply G. }
        destruct Hs as (el & rest & ->). exists (s_len_tag ++ el). split; [left; reflexivity|]. discriminate. }
      destruct (parse_len_tag (s_len_tag ++ r) _ _ _ ltac:(unfold has_prefix, bytes_eqb; destruct list_eq_dec; [reflexivity|contradiction]) Hx E) as (k & Ek).
      change (skipn (List.length s_len_tag) (s_len_tag ++ r)) with r in Ek.
      unfold parse_len, bytes_eqb in Ek.
      destruct (list_eq_dec Z.eq_dec r (str "uint8")) as [->|_]; [left; split; [reflexivity|]; cbv in E; congruence|].
      destruct (list_eq_dec Z.eq_dec r (str "uint16")) as [->|_]; [right; left; split; [reflexivity|]; cbv in E; congruence|].
      destruct (list_eq_dec Z.eq_dec r (str "uint32")) as [->|_]; [right; right; left; split; [reflexivity|]; cbv in E; congruence|].
      destruct (list_eq_dec Z.eq_dec r (str "uint64")) as [->|_]; [right; right; right; left; split; [reflexivity|]; cbv in E; congruence|discriminate].
    + pose proof (parse_no_prefix _ _ _ _ Hp E) as Ha. destruct (split_all_optional _ _ Ha) as (n & En). cbn [app] in En. subst tg.
      unfold parse_tag in E. rewrite split_optionals, parse_optionals in E. injection E as <-. repeat right. eauto.
  - intros [(-> & ->)|[(-> & ->)|[(-> & ->)|[(-> & ->)|((n & ->) & ->)]]]]; try reflexivity.
    unfold parse_tag. rewrite split_optionals, parse_optionals. reflexivity.
Qed.
Print Assumptions C35_accepted_tags_partial.

(** ** The repository's test vectors (beserial/decode_test.go, encode_test.go, size_test.go) *)
Definition t_test : ty :=
  TStruct [(None, TNum U64); (None, TNum U32); (None, TNum U16); (None, TNum U8);
           (None, TNum I64); (None, TNum I32); (None, TNum I16); (None, TNum I8); (None, TBool)].
Definition v_test : val :=
  VStruct [VNum 0xC0C0404009090303; VNum 0x7070D5D5; VNum 0x2349; VNum 0x20;
           VNum (- 0x2222333344445555); VNum (- 0x4FEFEFEF); VNum (-2020); VNum (-128); VBool true].
Definition e_test : bytes :=
  [0xC0; 0xC0; 0x40; 0x40; 0x09; 0x09; 0x03; 0x03; 0x70; 0x70; 0xD5; 0xD5; 0x23; 0x49; 0x20;
   0xDD; 0xDD; 0xCC; 0xCC; 0xBB; 0xBB; 0xAA; 0xAB; 0xB0; 0x10; 0x10; 0x11; 0xF8; 0x1C; 0x80; 0x01].
Example test_struct_decode : UnmarshalFull e_test (APtr t_test (zero t_test)) = Ok (Some v_test).
Proof. reflexivity. Qed.
Example test_struct_encode : Marshal [] (APtr t_test v_test) = Ok (e_test, None).
Proof. reflexivity. Qed.
Example test_bool_invalid : UnmarshalFull [2] (APtr TBool (VBool false)) = Err EBadBool.
Proof. reflexivity. Qed.
Example test_string :
  UnmarshalFull [7; 0x79; 0x61; 0x20; 0x79; 0x65; 0x65; 0x74] (APtr (TStruct [(tag "len_tag=uint8", TString)]) VOther)
  = Ok (Some (VStruct [VString (str "ya yeet")])).
Proof. reflexivity. Qed.
Example test_optional :
  let t := TStruct [(None, TNum U8); (tag "optional", TPtr (TNum U8)); (None, TNum U8)] in
  UnmarshalFull [16; 0; 48] (APtr t (zero t)) = Ok (Some (VStruct [VNum 16; VPtr None; VNum 48])) /\
  UnmarshalFull [16; 1; 0; 48] (APtr t (zero t)) = Ok (Some (VStruct [VNum 16; VPtr (Some (VNum 0)); VNum 48])) /\
  UnmarshalFull [16; 2; 0; 48] (APtr t (zero t)) = Err EBadOptionalFlag.
Proof. repeat split; reflexivity. Qed.
(** Arguments that are not a non-nil pointer: Marshal reports an error for every nilable one (never an
    empty encoding), and panics for the others. *)
Theorem C32_non_pointer_arguments a b :
  (forall t v, a <> APtr t v) ->
  (a <> ANotNilable -> Marshal b a = Ok ([], Some ENilArg)) /\
  (a = ANotNilable -> Marshal b a = Panic).
Proof. intros Ha. destruct a; [destruct (Ha t v); reflexivity| | |]; split; intros; try reflexivity; try discriminate; congruence. Qed.
Print Assumptions C32_non_pointer_arguments.
(** A nil destination makes Unmarshal consume nothing and report success; one that is
    no pointer is an error. *)
Theorem C28_nil_destination d :
  Unmarshal d ANilPtr = (Ok None, 0) /\ Unmarshal d (ANilable true) = (Ok None, 0) /\
  Unmarshal d (ANilable false) = (Err EInvalidUnmarshal, 0) /\ Unmarshal d ANotNilable = (Panic, 0) /\
  (UnmarshalFull d ANilPtr = Ok None <-> d = []) /\ UnmarshalFull d (ANilable false) = Err EInvalidUnmarshal.
Proof.
  split; [reflexivity|]. split; [reflexivity|]. split; [reflexivity|]. split; [reflexivity|]. split; [|reflexivity].
  unfold UnmarshalFull. cbn [Unmarshal bind]. unfold zlen. destruct d as [|z d]; cbn [List.length Z.of_nat Z.ltb Z.compare]; [tauto|]. split; discriminate.
Qed.
Print Assumptions C28_nil_destination.

(** Size of such arguments: a nil one has size 0 without an error, though Marshal
    refuses it; the others fail in both. *)
Theorem C31_non_pointer_arguments a b :
  (forall t v, a <> APtr t v) ->
  (a = ANilPtr \/ a = ANilable true -> Size a = Ok 0 /\ Marshal b a = Ok ([], Some ENilArg)) /\
  (a = ANilable false -> Size a = Err EInvalidUnmarshal) /\ (a = ANotNilable -> Size a = Panic).
Proof. intros Ha. split; [intros [-> | ->]; split; reflexivity|]. split; intros ->; reflexivity. Qed.
Print Assumptions C31_non_pointer_arguments.
