(** Lemmas about the beserial interpreters. *)
From Coq Require Import ZArith List Lia Bool String.
Import ListNotations.
From Verif.Model Require Import Base Address Beserial.
From Verif.Spec Require Import BeserialSpec.
From Verif.Proofs Require Import BaseFacts.
Open Scope Z_scope.

(** Induction over types. *)
Section TyInd.
  Variable P : ty -> Prop.
  Hypothesis Hbool : P TBool.
  Hypothesis Hnum : forall k, P (TNum k).
  Hypothesis Hstring : P TString.
  Hypothesis Hptr : forall t, P t -> P (TPtr t).
  Hypothesis Harray : forall n t, P t -> P (TArray n t).
  Hypothesis Hslice : forall t, P t -> P (TSlice t).
  Hypothesis Hstruct : forall fs, Forall (fun f => P (snd f)) fs -> P (TStruct fs).
  Hypothesis Hother : P TOther.
  Hypothesis Hcustom : forall c t, P t -> P (TCustom c t).
  Fixpoint ty_ind' (t : ty) : P t :=
    match t with
    | TBool => Hbool
    | TNum k => Hnum k
    | TString => Hstring
    | TPtr t => Hptr t (ty_ind' t)
    | TArray n t => Harray n t (ty_ind' t)
    | TSlice t => Hslice t (ty_ind' t)
    | TStruct fs =>
        Hstruct fs ((fix go (fs : list (option bytes * ty)) : Forall (fun f => P (snd f)) fs :=
                       match fs with
                       | [] => Forall_nil _
                       | f :: fs' => Forall_cons f (ty_ind' (snd f)) (go fs')
                       end) fs)
    | TOther => Hother
    | TCustom c t => Hcustom c t (ty_ind' t)
    end.
End TyInd.

(** The loops over struct fields, named. *)
Fixpoint value_fields (fs : list (option bytes * ty)) (dsts : list val) : M (list val) :=
  match fs with
  | [] => ret []
  | (tag, t0) :: fs' =>
      do ts0 <- fail (field_tags tag);
      do v <- value t0 ts0 (hd_val dsts);
      do vs <- value_fields fs' (List.tl dsts);
      ret (v :: vs)
  end.
Lemma value_struct fs ts dst : value (TStruct fs) ts dst = (do vs <- value_fields fs (elems_of dst); ret (VStruct vs)).
Proof. reflexivity. Qed.
Fixpoint marshal_fields (fs : list (option bytes * ty)) (l : list val) (b : bytes) : mret :=
  match fs, l with
  | [], [] => m_ok b
  | (tag, t0) :: fs', v0 :: l' =>
      let? ts0 := field_tags tag in
      m_then (marshal t0 v0 b ts0) (marshal_fields fs' l')
  | _, _ => Panic
  end.
Lemma marshal_struct fs l b ts : marshal (TStruct fs) (VStruct l) b ts = marshal_fields fs l b.
Proof. reflexivity. Qed.
Fixpoint size_fields (fs : list (option bytes * ty)) (l : list val) : res Z :=
  match fs, l with
  | [], [] => Ok 0
  | (tag, t0) :: fs', v0 :: l' =>
      let? ts0 := field_tags tag in
      let? n := valueSize t0 v0 ts0 in
      let? m := size_fields fs' l' in
      Ok (n + m)
  | _, _ => Panic
  end.
Lemma size_struct fs l ts : valueSize (TStruct fs) (VStruct l) ts = size_fields fs l.
Proof. reflexivity. Qed.

(** ** Numbers *)
Lemma big_endian_be_put n z : big_endian n z = be_put n z.
Proof. reflexivity. Qed.

Lemma modulus_pos k : 0 < modulus k.
Proof. destruct k; reflexivity. Qed.
Lemma modulus_width k : modulus k = 256 ^ Z.of_nat (width k).
Proof. reflexivity. Qed.

Lemma to_kind_range k z : in_range k (to_kind k z).
Proof.
  unfold to_kind. pose proof (Z.mod_pos_bound z (modulus k) (modulus_pos k)).
  destruct k; cbn [signed modulus width in_range] in *;
    try change (256 ^ Z.of_nat 1) with 256 in *; try change (256 ^ Z.of_nat 2) with 65536 in *;
    try change (256 ^ Z.of_nat 4) with 4294967296 in *; try change (256 ^ Z.of_nat 8) with 18446744073709551616 in *;
    cbn - [Z.modulo] in *; try lia;
    match goal with |- context [if ?c then _ else _] => destruct c eqn:E end; lia.
Qed.

Lemma to_kind_id k z : in_range k z -> to_kind k z = z.
Proof.
  unfold to_kind. intros Hr.
  destruct (signed k) eqn:Es.
  - assert (Hc : (0 <= z < modulus k / 2) \/ (- (modulus k / 2) <= z < 0))
      by (destruct k; try discriminate; cbn in Hr |- *; lia).
    assert (Hm : 2 * (modulus k / 2) = modulus k) by (destruct k; try discriminate; reflexivity).
    pose proof (modulus_pos k).
    destruct Hc as [Hc|Hc].
    + rewrite Z.mod_small by lia. destruct (Z.ltb_spec z (modulus k / 2)); lia.
    + replace (z mod modulus k) with (z + modulus k).
      * destruct (Z.ltb_spec (z + modulus k) (modulus k / 2)); lia.
      * rewrite <- (Z.mod_add z 1) by lia. rewrite Z.mul_1_l. symmetry. apply Z.mod_small. lia.
  - apply Z.mod_small. destruct k; try discriminate; cbn in Hr |- *; lia.
Qed.

Lemma to_kind_mod k z : to_kind k z mod modulus k = z mod modulus k.
Proof.
  unfold to_kind. pose proof (modulus_pos k). destruct (signed k).
  - destruct (_ <? _); [apply Z.mod_mod; lia|].
    replace (z mod modulus k - modulus k) with (z mod modulus k + (-1) * modulus k) by lia.
    rewrite Z.mod_add by lia. apply Z.mod_mod; lia.
  - apply Z.mod_mod; lia.
Qed.
Lemma to_kind_congr k a b : a mod modulus k = b mod modulus k -> to_kind k a = to_kind k b.
Proof. intros E. unfold to_kind. rewrite E. reflexivity. Qed.

(** The bytes of a number depend on it modulo 256^n only. *)
Lemma be_put_mod n z m : (n <= m)%nat -> be_put n (z mod 256 ^ Z.of_nat m) = be_put n z.
Proof.
  intros Hle. induction n as [|n IH]; [reflexivity|]. cbn [be_put].
  rewrite IH by lia. f_equal.
  replace (256 ^ Z.of_nat m) with (256 ^ Z.of_nat n * 256 ^ Z.of_nat (m - n)) by
    (rewrite <- Z.pow_add_r by lia; f_equal; lia).
  rewrite Z.rem_mul_r by (try apply Z.pow_nonzero; try apply Z.pow_pos_nonneg; lia).
  rewrite Z.mul_comm, Z.div_add by (apply Z.pow_nonzero; lia).
  rewrite (Z.div_small (z mod 256 ^ Z.of_nat n)) by (apply Z.mod_pos_bound, Z.pow_pos_nonneg; lia).
  rewrite Z.add_0_l. replace (m - n)%nat with (S (m - n - 1)) by lia.
  rewrite Nat2Z.inj_succ, Z.pow_succ_r by lia.
  rewrite Z.rem_mul_r by (try apply Z.pow_pos_nonneg; lia).
  rewrite Z.mul_comm, Z.mod_add by lia. apply Z.mod_mod. lia.
Qed.

Lemma be_put_congr k a b : a mod modulus k = b mod modulus k -> be_put (width k) a = be_put (width k) b.
Proof.
  intros E. rewrite <- (be_put_mod (width k) a (width k)), <- (be_put_mod (width k) b (width k)) by lia.
  rewrite <- modulus_width, E. reflexivity.
Qed.

(** ** The decoding monad *)
Lemma pop_app e rest al : pop (zlen e) (DState (e ++ rest) al) = (Ok e, DState rest al).
Proof.
  unfold pop, zlen. cbn [data allocs]. rewrite app_length.
  destruct (Z.ltb_spec (Z.of_nat (List.length e + List.length rest)) (Z.of_nat (List.length e))); [lia|].
  rewrite Nat2Z.id, firstn_app, skipn_app, firstn_all, skipn_all, Nat.sub_diag. cbn.
  rewrite app_nil_r. reflexivity.
Qed.
Lemma pop_app' n e rest al : zlen e = n -> pop n (DState (e ++ rest) al) = (Ok e, DState rest al).
Proof. intros <-. apply pop_app. Qed.

Lemma number_app k z rest al :
  exists z', number k (DState (be_put (width k) z ++ rest) al) = (Ok z', DState rest al) /\
    to_kind k z' = to_kind k z /\ (signed k = false -> z' = z mod modulus k).
Proof.
  unfold number, mbind. rewrite pop_app' by (unfold zlen; rewrite be_put_length; reflexivity).
  cbn [ret]. eexists. split; [reflexivity|]. rewrite be_get_put, <- modulus_width.
  pose proof (modulus_pos k). split.
  - destruct k; try (apply to_kind_congr; apply Z.mod_mod; lia);
      apply to_kind_congr; rewrite to_kind_mod; apply Z.mod_mod; lia.
  - destruct k; try discriminate; reflexivity.
Qed.

Lemma read_len_app ts k n rest al :
  lenTag ts = Some k -> len_fits k n ->
  read_len ts (DState (be_put (width k) (Z.of_nat n) ++ rest) al) = (Ok (Z.of_nat n), DState rest al).
Proof.
  intros Hk (Hs & Hn & Hm). unfold read_len. rewrite Hk. unfold mbind.
  destruct (number_app k (Z.of_nat n) rest al) as (z' & -> & _ & Hz). specialize (Hz Hs). subst z'.
  rewrite Z.mod_small by (rewrite modulus_width; lia). rewrite Hs. cbn [andb].
  destruct (Z.ltb_spec maxInt (Z.of_nat n)); [unfold maxInt in *; lia|]. reflexivity.
Qed.

Lemma is_u8_num t : is_u8 t = true -> is_custom t = false -> t = TNum U8.
Proof.
  unfold is_u8. destruct t as [|k| | | | | | |c t]; cbn; try discriminate.
  destruct k; try discriminate; reflexivity.
Qed.

Lemma value_ptr t ts dst : is_custom t = false ->
  value (TPtr t) ts dst =
    (let go := do v <- value t ts (zero t); ret (VPtr (Some v)) in
     if optional ts then
       do flag <- pop 1;
       match flag with [0] => ret (VPtr None) | [1] => go | _ => err EBadOptionalFlag end
     else go).
Proof. destruct t; try discriminate; reflexivity. Qed.
Lemma marshal_ptr t v b ts : is_custom t = false ->
  marshal (TPtr t) v b ts =
    match v with
    | VPtr None => if optional ts then m_ok (b ++ [0]) else m_err ENonOptionalNil
    | VPtr (Some v') =>
        let b1 := if optional ts then b ++ [1] else b in
        let? (b', _) := marshal t v' b1 ts in m_ok b'
    | _ => Panic
    end.
Proof. destruct t; try discriminate; reflexivity. Qed.

(** ** Round trip *)
Scheme enc_mind := Minimality for enc Sort Prop
  with enc_elems_mind := Minimality for enc_elems Sort Prop
  with enc_fields_mind := Minimality for enc_fields Sort Prop.
Combined Scheme enc_mutind from enc_mind, enc_elems_mind, enc_fields_mind.

Definition dec_ok (t : ty) (ts : tags) (v : val) (e : bytes) : Prop :=
  forall dst rest al, exists al', value t ts dst (DState (e ++ rest) al) = (Ok v, DState rest al').

Theorem enc_round_trip :
  (forall t ts v e, enc t ts v e -> (forall b, marshal t v b ts = m_ok (b ++ e)) /\ dec_ok t ts v e) /\
  (forall t vs e, enc_elems t vs e ->
     (forall b, enc_n (fun v b => marshal t v b no_tags) vs b = m_ok (b ++ e)) /\
     (forall dsts rest al, exists al', dec_n (value t no_tags) (List.length vs) dsts (DState (e ++ rest) al) = (Ok vs, DState rest al')) /\
     (t = TNum U8 -> raw_bytes vs = Some e /\ vs = map VNum e)) /\
  (forall fs vs e, enc_fields fs vs e ->
     (forall b, marshal_fields fs vs b = m_ok (b ++ e)) /\
     (forall dsts rest al, exists al', value_fields fs dsts (DState (e ++ rest) al) = (Ok vs, DState rest al'))).
Proof.
  apply enc_mutind.
  - (* bool *) intros ts b. split; [destruct b; reflexivity|]. intros dst rest al. exists al. cbn [value]. unfold mbind.
    rewrite (pop_app' 1) by reflexivity. destruct b; reflexivity.
  - (* num *) intros ts k z Hr. split.
    + intros b. cbn [marshal]. unfold marshalNumber. rewrite to_kind_id by exact Hr. reflexivity.
    + intros dst rest al. exists al. cbn [value]. unfold mbind.
      destruct (number_app k z rest al) as (z' & E & Ek & _). rewrite big_endian_be_put, E. cbn [ret].
      rewrite Ek, to_kind_id by exact Hr. reflexivity.
  - (* string *) intros ts k s Hk Hf. pose proof Hf as (Hs & _). split.
    + intros b. cbn [marshal]. rewrite Hk. unfold marshalInt. rewrite Hs. cbn [bind]. rewrite app_assoc. reflexivity.
    + intros dst rest al. rewrite <- app_assoc. cbn [value]. unfold mbind at 1.
      rewrite big_endian_be_put, (read_len_app ts k _ _ _ Hk Hf). unfold mbind.
      rewrite pop_app' by reflexivity. cbn [data allocs]. eexists. reflexivity.
  - (* ptr *) intros t ts v e Hc Ho _ (Hm & Hd). split.
    + intros b. rewrite marshal_ptr by exact Hc. cbv zeta. rewrite Ho, Hm. reflexivity.
    + intros dst rest al. rewrite value_ptr by exact Hc. rewrite Ho. cbv zeta. unfold mbind.
      destruct (Hd (zero t) rest al) as (al' & ->). exists al'. reflexivity.
  - (* none *) intros t ts Hc Ho. split.
    + intros b. rewrite marshal_ptr by exact Hc. rewrite Ho. reflexivity.
    + intros dst rest al. rewrite value_ptr by exact Hc. rewrite Ho. cbv zeta. unfold mbind.
      rewrite (pop_app' 1 [0]) by reflexivity. exists al. reflexivity.
  - (* some *) intros t ts v e Hc Ho _ (Hm & Hd). split.
    + intros b. rewrite marshal_ptr by exact Hc. cbv zeta. rewrite Ho, Hm. cbn. unfold m_ok. rewrite <- app_assoc. reflexivity.
    + intros dst rest al. rewrite value_ptr by exact Hc. rewrite Ho. cbv zeta. unfold mbind.
      change ((1 :: e) ++ rest) with ([1] ++ (e ++ rest)). rewrite (pop_app' 1 [1]) by reflexivity.
      destruct (Hd (zero t) rest al) as (al' & ->). exists al'. reflexivity.
  - (* array *) intros n t ts vs e Hok Hl _ (Hm & Hd & Hraw). split.
    + intros b. cbn [marshal]. subst n. rewrite Nat.eqb_refl. cbn [negb].
      destruct (is_u8 t) eqn:Eu; [|apply Hm].
      destruct (Hraw (is_u8_num t Eu (Hok Eu))) as (-> & _). reflexivity.
    + intros dst rest al. cbn [value]. subst n. destruct (is_u8 t) eqn:Eu.
      * rewrite (Hok Eu). destruct (Hraw (is_u8_num t Eu (Hok Eu))) as (_ & ->). unfold mbind.
        rewrite pop_app' by (unfold zlen; rewrite map_length; reflexivity). exists al. reflexivity.
      * unfold mbind. destruct (Hd (elems_of dst) rest al) as (al' & ->). exists al'. reflexivity.
  - (* slice *) intros t ts k vs e Hok Hk Hf Hlen _ (Hm & Hd & Hraw). pose proof Hf as (Hs & _). split.
    + intros b. cbn [marshal]. rewrite Hk. unfold marshalInt, zlen. rewrite Hs. cbn [bind]. rewrite app_assoc.
      destruct (is_u8 t) eqn:Eu; [|apply Hm].
      destruct (Hraw (is_u8_num t Eu (Hok Eu))) as (-> & _). reflexivity.
    + intros dst rest al. rewrite <- app_assoc. cbn [value]. unfold mbind at 1.
      rewrite big_endian_be_put, (read_len_app ts k _ _ _ Hk Hf). destruct (is_u8 t) eqn:Eu.
      * destruct (Hraw (is_u8_num t Eu (Hok Eu))) as (_ & ->). unfold mbind.
        rewrite pop_app' by (unfold zlen; rewrite map_length; reflexivity). eexists. reflexivity.
      * cbn [data]. unfold zlen. rewrite app_length.
        destruct (Z.ltb_spec (Z.of_nat (List.length e + List.length rest)) (Z.of_nat (List.length vs))); [lia|].
        unfold alloc_elems, mbind. cbn [data allocs]. rewrite Nat2Z.id.
        match goal with |- context [DState (e ++ rest) ?a] => destruct (Hd (repeat (zero t) (List.length vs)) rest a) as (al' & ->) end.
        exists al'. reflexivity.
  - (* struct *) intros fs ts vs e _ (Hm & Hd). split.
    + intros b. rewrite marshal_struct. apply Hm.
    + intros dst rest al. rewrite value_struct. unfold mbind. destruct (Hd (elems_of dst) rest al) as (al' & ->).
      exists al'. reflexivity.
  - (* custom *) intros c t ts v e (Hm & Hu). split; [exact Hm|].
    intros dst rest al. exists al. cbn [value]. unfold call_unmarshal. cbn [data allocs]. rewrite Hu.
    unfold zlen. rewrite app_length, Nat2Z.id.
    destruct (Z.ltb_spec (Z.of_nat (List.length e)) 0); [lia|].
    destruct (Z.ltb_spec (Z.of_nat (List.length e + List.length rest)) (Z.of_nat (List.length e))); [lia|].
    rewrite skipn_app, skipn_all, Nat.sub_diag. reflexivity.
  - (* elems nil *) intros t. split; [intros b; cbn; rewrite app_nil_r; reflexivity|]. split; [|intros _; split; reflexivity].
    intros dsts rest al. exists al. reflexivity.
  - (* elems cons *) intros t v vs e es He (Hm & Hd) _ (Hms & Hds & Hraw). split; [|split].
    + intros b. cbn [enc_n]. rewrite Hm. cbn. rewrite Hms, app_assoc. reflexivity.
    + intros dsts rest al. cbn [List.length dec_n]. rewrite <- app_assoc. unfold mbind.
      destruct (Hd (hd_val dsts) (es ++ rest) al) as (al1 & ->).
      destruct (Hds (List.tl dsts) rest al1) as (al2 & ->). exists al2. reflexivity.
    + intros ->. destruct (Hraw eq_refl) as (E1 & E2). inversion He as [| ? ? z Hr | | | | | | | |]; subst.
      cbn [raw_bytes]. rewrite E1. cbn [big_endian width app map]. cbn in Hr. rewrite Z.div_1_r, Z.mod_small by lia.
      split; reflexivity.
  - (* fields nil *) split; [intros b; cbn; rewrite app_nil_r; reflexivity|]. intros dsts rest al. exists al. reflexivity.
  - (* fields cons *) intros tag t fs ts v vs e es Ht _ (Hm & Hd) _ (Hms & Hds). split.
    + intros b. cbn [marshal_fields]. rewrite Ht. cbn [bind]. rewrite Hm. cbn. rewrite Hms, app_assoc. reflexivity.
    + intros dsts rest al. cbn [value_fields]. rewrite <- app_assoc. rewrite Ht. unfold mbind at 1. cbn [fail]. unfold mbind.
      destruct (Hd (hd_val dsts) (es ++ rest) al) as (al1 & ->).
      destruct (Hds (List.tl dsts) rest al1) as (al2 & ->). exists al2. reflexivity.
Qed.

(** ** Which values have an encoding *)
Lemma len_fits_width k n : len_fits k n -> (0 < width k)%nat.
Proof. destruct k; cbn; lia. Qed.
Lemma big_endian_length n z : List.length (big_endian n z) = n.
Proof. apply be_put_length. Qed.

Fixpoint all_encodable (fs : list (option bytes * ty)) (vs : list val) : Prop :=
  match fs, vs with
  | [], [] => True
  | (tag, t) :: fs, v :: vs => (exists ts, field_tags tag = Ok ts /\ encodable t ts v) /\ all_encodable fs vs
  | _, _ => False
  end.

Lemma encodable_enc t : forall ts v, encodable t ts v ->
  exists e, enc t ts v e /\ (occupies t ts = true -> (0 < List.length e)%nat).
Proof.
  induction t as [|k| |t IH|n t IH|t IH|fs IH| |c t IH] using ty_ind'; intros ts v Hv.
  - destruct v; try contradiction. eexists. split; [constructor|]. cbn. lia.
  - destruct v; try contradiction. eexists. split; [constructor; exact Hv|]. rewrite big_endian_length. destruct k; cbn; lia.
  - destruct v; try contradiction. destruct Hv as (k & Hk & Hf). eexists. split; [econstructor; eassumption|].
    rewrite app_length, big_endian_length. pose proof (len_fits_width _ _ Hf). lia.
  - destruct v as [| | |[v|]| | | |]; try contradiction; destruct Hv as (Hc & Hv).
    + destruct (IH ts v Hv) as (e & He & Hl). destruct (optional ts) eqn:Ho.
      * exists (1 :: e). split; [apply enc_opt_some; assumption|]. cbn. lia.
      * exists e. split; [apply enc_ptr; assumption|]. cbn [occupies]. rewrite Ho. exact Hl.
    + exists [0]. split; [apply enc_opt_none; assumption|]. cbn. lia.
  - destruct v as [| | | |vs| | |]; try contradiction. destruct Hv as (Hok & Hn & Hall).
    assert (Hes : exists e, enc_elems t vs e /\ (occupies t no_tags = true -> (List.length vs <= List.length e)%nat)).
    { clear Hn. induction Hall as [|v vs Hv Hvs IHvs].
      - exists []. split; [constructor|]. cbn. lia.
      - destruct IHvs as (es & Hes & Hls). destruct (IH no_tags v Hv) as (e & He & Hle).
        exists (e ++ es). split; [constructor; assumption|]. intros Ho. specialize (Hls Ho). specialize (Hle Ho).
        rewrite app_length. cbn. lia. }
    destruct Hes as (e & He & Hl). exists e. split; [constructor; assumption|].
    cbn [occupies]. intros Ho. apply andb_prop in Ho as (Ho1 & Ho2). specialize (Hl Ho2).
    destruct (Nat.eqb_spec n 0); [discriminate|]. lia.
  - destruct v as [| | | |vs| | |]; try contradiction. destruct Hv as (Hok & Hocc & (k & Hk & Hf) & Hall).
    assert (Hes : exists e, enc_elems t vs e /\ (List.length vs <= List.length e)%nat).
    { clear Hf. induction Hall as [|v vs Hv Hvs IHvs].
      - exists []. split; [constructor|]. cbn. lia.
      - destruct IHvs as (es & Hes & Hls). destruct (IH no_tags v Hv) as (e & He & Hle).
        exists (e ++ es). split; [constructor; assumption|]. specialize (Hle Hocc).
        rewrite app_length. cbn. lia. }
    destruct Hes as (e & He & Hl). eexists. split; [eapply enc_slice; eassumption|].
    rewrite app_length, big_endian_length. pose proof (len_fits_width _ _ Hf). lia.
  - destruct v as [| | | | |vs| |]; try contradiction.
    change (all_encodable fs vs) in Hv.
    assert (Hes : exists e, enc_fields fs vs e /\
      (existsb (fun f => match field_tags (fst f) with Ok ts => occupies (snd f) ts | _ => false end) fs = true -> (0 < List.length e)%nat)).
    { revert vs Hv. induction IH as [|(tag & t) fs Ht Hfs IHfs]; intros vs Hv.
      - destruct vs; [|contradiction]. exists []. split; [constructor|discriminate].
      - destruct vs as [|v vs]; [contradiction|]. destruct Hv as ((ts' & Hts & Hv) & Hvs).
        destruct (IHfs vs Hvs) as (es & Hes & Hls). destruct (Ht ts' v Hv) as (e & He & Hle).
        exists (e ++ es). split; [econstructor; eassumption|]. cbn [existsb fst snd]. rewrite Hts.
        rewrite orb_true_iff, app_length. intros [Ho|Ho]; [specialize (Hle Ho)|specialize (Hls Ho)]; lia. }
    destruct Hes as (e & He & Hl). exists e. split; [constructor; exact He|exact Hl].
  - destruct v; contradiction.
  - destruct Hv as (e & He & Hn). exists e. split; [constructor; exact He|]. intros _. destruct e; [congruence|cbn; lia].
Qed.

(** ** Decoding consumes a prefix, and allocates no more than there is *)
Lemma mbind_inv {A B} (x : M A) (f : A -> M B) s r s' : mbind x f s = (r, s') ->
  (exists a s1, x s = (Ok a, s1) /\ f a s1 = (r, s')) \/
  (exists e, x s = (Err e, s') /\ r = Err e) \/ (x s = (Panic, s') /\ r = Panic) \/ (x s = (OutOfFuel, s') /\ r = OutOfFuel).
Proof.
  unfold mbind. destruct (x s) as ([a|e| |] & s1); intros E.
  - left. eauto.
  - right; left. injection E as <- <-. eauto.
  - right; right; left. injection E as <- <-. auto.
  - right; right; right. injection E as <- <-. auto.
Qed.

Definition alloc_ok (l : list (Z * Z)) : Prop := Forall (fun a => fst a <= snd a) l.
(** [s'] is [s] after some input was consumed. *)
Definition adv (s s' : dstate) : Prop :=
  (exists e, data s = e ++ data s') /\ (alloc_ok (allocs s) -> alloc_ok (allocs s')).
Lemma adv_refl s : adv s s.
Proof. split; [exists []; reflexivity|auto]. Qed.
Lemma adv_trans a b c : adv a b -> adv b c -> adv a c.
Proof.
  intros ((e1 & E1) & A1) ((e2 & E2) & A2). split; [exists (e1 ++ e2); rewrite <- app_assoc; congruence|].
  auto.
Qed.
Lemma adv_bytes s s' : adv s s' -> bytes_ok (data s) -> bytes_ok (data s').
Proof. intros ((e & E) & _) Hb. rewrite E in Hb. apply bytes_ok_app in Hb. apply Hb. Qed.

Definition advancing {A} (m : M A) : Prop := forall s r s', m s = (r, s') -> adv s s'.
Lemma adv_ret {A} (a : A) : advancing (ret a).
Proof. intros s r s' E. injection E as _ <-. apply adv_refl. Qed.
Lemma adv_fail {A} (r : res A) : advancing (fail r).
Proof. intros s r' s' E. injection E as _ <-. apply adv_refl. Qed.
Lemma adv_bind {A B} (x : M A) (f : A -> M B) : advancing x -> (forall a, advancing (f a)) -> advancing (mbind x f).
Proof.
  intros Hx Hf s r s' E. apply mbind_inv in E as [(a & s1 & E1 & E2)|[(e & E1 & _)|[(E1 & _)|(E1 & _)]]].
  - eapply adv_trans; [eapply Hx, E1|eapply Hf, E2].
  - eapply Hx, E1.
  - eapply Hx, E1.
  - eapply Hx, E1.
Qed.
Lemma adv_pop n : advancing (pop n).
Proof.
  intros s r s' E. unfold pop in E. destruct (_ <? _); injection E as _ <-; [apply adv_refl|].
  split; [|auto]. exists (firstn (Z.to_nat n) (data s)). cbn. symmetry. apply firstn_skipn.
Qed.
Lemma adv_number k : advancing (number k).
Proof. apply adv_bind; [apply adv_pop|]. intros. apply adv_ret. Qed.
Lemma adv_read_len ts : advancing (read_len ts).
Proof.
  unfold read_len. destruct (lenTag ts) as [k|]; [|apply adv_fail].
  apply adv_bind; [apply adv_number|]. intros u. destruct (_ && _); [apply adv_fail|].
  destruct (_ <? _); [apply adv_fail|apply adv_ret].
Qed.
Lemma adv_call c dst : advancing (call_unmarshal c dst).
Proof.
  intros s r s' E. unfold call_unmarshal in E.
  destruct (cd_unmarshal c dst (data s)) as [(v & n)|e| |]; try (injection E as _ <-; apply adv_refl).
  destruct (n <? 0); [injection E as _ <-; apply adv_refl|].
  destruct (_ <? _); injection E as _ <-; [apply adv_refl|].
  split; [|auto]. exists (firstn (Z.to_nat n) (data s)). cbn. symmetry. apply firstn_skipn.
Qed.
Lemma adv_dec_n f n : (forall d, advancing (f d)) -> forall dsts, advancing (dec_n f n dsts).
Proof.
  intros Hf. induction n as [|n IH]; intros dsts; cbn [dec_n]; [apply adv_ret|].
  apply adv_bind; [apply Hf|]. intros v. apply adv_bind; [apply IH|]. intros vs. apply adv_ret.
Qed.

(** A length that was read successfully is not negative (on real input). *)
Lemma number_unsigned k s z s' : bytes_ok (data s) -> number k s = (Ok z, s') ->
  exists b, data s = b ++ data s' /\ allocs s' = allocs s /\ List.length b = width k /\
    (signed k = false -> z = be_get b /\ 0 <= z < modulus k).
Proof.
  intros Hb E. unfold number in E. apply mbind_inv in E as [(b & s1 & E1 & E2)|[(e & _ & E)|[(_ & E)|(_ & E)]]]; try discriminate.
  injection E2 as Ez Es. subst s1. unfold pop in E1. destruct (Z.ltb_spec (zlen (data s)) (Z.of_nat (width k))) as [|Hl]; [discriminate|].
  injection E1 as E1 E2. subst s'. cbn [data allocs]. rewrite Nat2Z.id in *. exists b. subst b.
  split; [symmetry; apply firstn_skipn|]. split; [reflexivity|].
  assert (Hlen : List.length (firstn (width k) (data s)) = width k) by (apply firstn_length_le; unfold zlen in Hl; lia).
  split; [exact Hlen|]. intros Hs. assert (Hz : z = be_get (firstn (width k) (data s))) by (destruct k; try discriminate; auto).
  clear Ez. split; [exact Hz|]. rewrite Hz, modulus_width.
  replace (width k) with (List.length (firstn (width k) (data s))) at 3 by exact Hlen. apply be_get_bound.
  rewrite <- (firstn_skipn (width k) (data s)) in Hb. apply bytes_ok_app in Hb. apply Hb.
Qed.
Lemma read_len_ok ts s u s' : bytes_ok (data s) -> read_len ts s = (Ok u, s') ->
  exists k b, lenTag ts = Some k /\ data s = b ++ data s' /\ allocs s' = allocs s /\ List.length b = width k /\
    0 <= u /\ (signed k = false -> u = be_get b /\ u < modulus k).
Proof.
  intros Hb E. unfold read_len in E. destruct (lenTag ts) as [k|]; [|discriminate].
  apply mbind_inv in E as [(z & s1 & E1 & E2)|[(e & _ & E)|[(_ & E)|(_ & E)]]]; try discriminate.
  destruct (number_unsigned k s z s1 Hb E1) as (b & Hd & Ha & Hl & Hz).
  destruct (signed k && (z <? 0)) eqn:Es; [discriminate|]. destruct (maxInt <? z); [discriminate|].
  injection E2 as -> ->. exists k, b. split; [reflexivity|]. split; [exact Hd|]. split; [exact Ha|]. split; [exact Hl|].
  destruct (signed k).
  - cbn in Es. apply Z.ltb_ge in Es. split; [exact Es|discriminate].
  - destruct (Hz eq_refl) as (-> & Hr). split; [lia|]. intros _. split; [reflexivity|lia].
Qed.

Lemma adv_log n s b s' : pop n s = (Ok b, s') ->
  adv s (DState (data s') (allocs s' ++ [(n, zlen (data s))])).
Proof.
  intros E. destruct (adv_pop _ _ _ _ E) as (Hd & Ha). split; [exact Hd|]. intros Hal. cbn [allocs].
  apply Forall_app. split; [apply Ha; assumption|]. constructor; [|constructor]. cbn.
  unfold pop in E. destruct (Z.ltb_spec (zlen (data s)) n); [discriminate|lia].
Qed.

Lemma adv_value t : forall ts dst, advancing (value t ts dst).
Proof.
  induction t as [|k| |t IH|n t IH|t IH|fs IH| |c t IH] using ty_ind'; intros ts dst.
  - cbn [value]. apply adv_bind; [apply adv_pop|]. intros [|x [|y z]]; try apply adv_fail.
    + destruct x as [|[]|]; try apply adv_fail; apply adv_ret.
    + destruct x as [|[]|]; apply adv_fail.
  - cbn [value]. apply adv_bind; [apply adv_number|]. intros. apply adv_ret.
  - cbn [value]. intros s r s' E. apply mbind_inv in E as [(u & s1 & E1 & E2)|[(e & E1 & _)|[(E1 & _)|(E1 & _)]]];
      try (eapply adv_read_len, E1).
    eapply adv_trans; [eapply adv_read_len, E1|].
    apply mbind_inv in E2 as [(b & s2 & E2 & E3)|[(e & E2 & _)|[(E2 & _)|(E2 & _)]]]; try (eapply adv_pop, E2).
    injection E3 as _ <-. eapply adv_log; exact E2.
  - destruct (is_custom t) eqn:Ec.
    + destruct t; try discriminate. cbn [value]. destruct dst as [| | |[v|]| | | |]; try apply adv_fail.
      apply adv_bind; [apply adv_call|]. intros. apply adv_ret.
    + rewrite value_ptr by exact Ec. cbv zeta.
      assert (Hgo : advancing (do v <- value t ts (zero t); ret (VPtr (Some v)))).
      { apply adv_bind; [apply IH|]. intros. apply adv_ret. }
      destruct (optional ts); [|exact Hgo]. apply adv_bind; [apply adv_pop|].
      intros [|x [|y z]]; try apply adv_fail.
      * destruct x as [|[]|]; try apply adv_fail; try apply adv_ret. exact Hgo.
      * destruct x as [|[]|]; apply adv_fail.
  - cbn [value]. destruct (is_u8 t); [destruct (is_custom t)|].
    + apply adv_bind; [apply adv_pop|]. intros. apply adv_fail.
    + apply adv_bind; [apply adv_pop|]. intros. apply adv_ret.
    + apply adv_bind; [apply adv_dec_n; intros; apply IH|]. intros. apply adv_ret.
  - cbn [value]. apply adv_bind; [apply adv_read_len|]. intros u. destruct (is_u8 t).
    + intros s r s' E. apply mbind_inv in E as [(b & s2 & E2 & E3)|[(e & E2 & _)|[(E2 & _)|(E2 & _)]]]; try (eapply adv_pop, E2).
      injection E3 as _ <-. eapply adv_log; exact E2.
    + intros s r s' E. destruct (Z.ltb_spec (zlen (data s)) u) as [|Hu]; [injection E as _ <-; apply adv_refl|].
      unfold alloc_elems, mbind at 1 in E.
      eapply adv_trans; [|eapply (adv_bind _ _ (adv_dec_n _ _ (fun d => IH no_tags d) _) (fun vs => adv_ret (VList vs))), E].
      split; [exists []; reflexivity|]. cbn [allocs]. intros Ha. apply Forall_app. split; [exact Ha|].
      constructor; [exact Hu|constructor].
  - rewrite value_struct. apply adv_bind; [|intros; apply adv_ret]. generalize (elems_of dst). clear dst.
    induction IH as [|(tag & t) fs Ht Hfs IHfs]; intros dsts; cbn [value_fields]; [apply adv_ret|].
    apply adv_bind; [apply adv_fail|]. intros ts0. apply adv_bind; [apply Ht|]. intros v.
    apply adv_bind; [apply IHfs|]. intros vs. apply adv_ret.
  - apply adv_fail.
  - apply adv_call.
Qed.

(** ** Decoding never panics *)
Definition safe {A} (m : M A) : Prop :=
  forall s r s', bytes_ok (data s) -> m s = (r, s') -> r <> Panic /\ r <> OutOfFuel.
Lemma safe_ret {A} (a : A) : safe (ret a).
Proof. intros s r s' _ E. injection E as <- _. split; discriminate. Qed.
Lemma safe_err {A} e : safe (@err A e).
Proof. intros s r s' _ E. injection E as <- _. split; discriminate. Qed.
Lemma safe_bind {A B} (x : M A) (f : A -> M B) : advancing x -> safe x -> (forall a, safe (f a)) -> safe (mbind x f).
Proof.
  intros Ha Hx Hf s r s' Hb E. apply mbind_inv in E as [(a & s1 & E1 & E2)|[(e & E1 & ->)|[(E1 & _)|(E1 & _)]]].
  - eapply Hf; [|exact E2]. eapply adv_bytes; [eapply Ha, E1|exact Hb].
  - split; discriminate.
  - destruct (Hx _ _ _ Hb E1); congruence.
  - destruct (Hx _ _ _ Hb E1); congruence.
Qed.
Lemma safe_pop n : safe (pop n).
Proof. intros s r s' _ E. unfold pop in E. destruct (_ <? _); injection E as <- _; split; discriminate. Qed.
Lemma safe_number k : safe (number k).
Proof. apply safe_bind; [apply adv_pop|apply safe_pop|]. intros. apply safe_ret. Qed.
Lemma safe_read_len ts : safe (read_len ts).
Proof.
  unfold read_len. destruct (lenTag ts) as [k|]; [|apply safe_err].
  apply safe_bind; [apply adv_number|apply safe_number|]. intros u. destruct (_ && _); [apply safe_err|].
  destruct (_ <? _); [apply safe_err|apply safe_ret].
Qed.
Lemma safe_dec_n f n : (forall d, advancing (f d)) -> (forall d, safe (f d)) -> forall dsts, safe (dec_n f n dsts).
Proof.
  intros Ha Hf. induction n as [|n IH]; intros dsts; cbn [dec_n]; [apply safe_ret|].
  apply safe_bind; [apply Ha|apply Hf|]. intros v. apply safe_bind; [apply adv_dec_n, Ha|apply IH|]. intros vs. apply safe_ret.
Qed.

(** The loop of [well_declared] over fields, named. *)
Section AllDeclared.
  Variable P : codec -> Prop.
  Fixpoint all_declared (fs : list (option bytes * ty)) : Prop :=
    match fs with
    | [] => True
    | (tag, t) :: fs => (exists ts, field_tags tag = Ok ts) /\ well_declared P t /\ all_declared fs
    end.
End AllDeclared.

Lemma adv_fields fs : forall dsts, advancing (value_fields fs dsts).
Proof.
  induction fs as [|(tag & t) fs IH]; intros dsts; cbn [value_fields]; [apply adv_ret|].
  apply adv_bind; [apply adv_fail|]. intros ts0. apply adv_bind; [apply adv_value|]. intros v.
  apply adv_bind; [apply IH|]. intros vs. apply adv_ret.
Qed.

Lemma safe_value t : well_declared codec_safe t -> forall ts dst, safe (value t ts dst).
Proof.
  induction t as [|k| |t IH|n t IH|t IH|fs IH| |c t IH] using ty_ind'; intros Hw ts dst.
  - cbn [value]. apply safe_bind; [apply adv_pop|apply safe_pop|]. intros [|x [|y z]]; try apply safe_err.
    + destruct x as [|[]|]; try apply safe_err; apply safe_ret.
    + destruct x as [|[]|]; apply safe_err.
  - cbn [value]. apply safe_bind; [apply adv_number|apply safe_number|]. intros. apply safe_ret.
  - cbn [value]. apply safe_bind; [apply adv_read_len|apply safe_read_len|]. intros u s r s' Hb E.
    apply mbind_inv in E as [(b & s2 & E2 & E3)|[(e & E2 & ->)|[(E2 & ->)|(E2 & ->)]]]; try (split; discriminate).
    + injection E3 as <- _. split; discriminate.
    + destruct (safe_pop _ _ _ _ Hb E2); congruence.
    + destruct (safe_pop _ _ _ _ Hb E2); congruence.
  - destruct Hw as (Hc & Hw). rewrite value_ptr by exact Hc. cbv zeta.
    assert (Hgo : safe (do v <- value t ts (zero t); ret (VPtr (Some v)))).
    { apply safe_bind; [apply adv_value|apply IH, Hw|]. intros. apply safe_ret. }
    destruct (optional ts); [|exact Hgo]. apply safe_bind; [apply adv_pop|apply safe_pop|].
    intros [|x [|y z]]; try apply safe_err.
    + destruct x as [|[]|]; try apply safe_err; try apply safe_ret. exact Hgo.
    + destruct x as [|[]|]; apply safe_err.
  - destruct Hw as (Hok & Hw). cbn [value]. destruct (is_u8 t) eqn:Eu.
    + rewrite (Hok Eu). apply safe_bind; [apply adv_pop|apply safe_pop|]. intros. apply safe_ret.
    + apply safe_bind; [apply adv_dec_n; intros; apply adv_value|apply safe_dec_n; intros; [apply adv_value|apply IH, Hw]|].
      intros. apply safe_ret.
  - destruct Hw as (Hok & Hw). cbn [value]. apply safe_bind; [apply adv_read_len|apply safe_read_len|].
    intros u. destruct (is_u8 t).
    + intros s r s' Hb E. apply mbind_inv in E as [(b & s2 & E2 & E3)|[(e & E2 & ->)|[(E2 & ->)|(E2 & ->)]]]; try (split; discriminate).
      * injection E3 as <- _. split; discriminate.
      * destruct (safe_pop _ _ _ _ Hb E2); congruence.
      * destruct (safe_pop _ _ _ _ Hb E2); congruence.
    + intros s r s' Hb E. destruct (_ <? _); [injection E as <- _; split; discriminate|].
      unfold alloc_elems, mbind at 1 in E. refine (safe_bind _ _ _ _ _ (DState (data s) _) r s' Hb E).
      * apply adv_dec_n. intros; apply adv_value.
      * apply safe_dec_n; intros; [apply adv_value|apply IH, Hw].
      * intros. apply safe_ret.
  - rewrite value_struct. apply safe_bind; [apply adv_fields| |intros; apply safe_ret].
    change (all_declared codec_safe fs) in Hw. generalize (elems_of dst). clear dst.
    induction IH as [|(tag & t) fs Ht Hfs IHfs]; intros dsts; cbn [value_fields]; [apply safe_ret|].
    destruct Hw as ((ts0 & Hts) & Hw1 & Hw2). rewrite Hts. apply safe_bind; [apply adv_ret|apply safe_ret|].
    intros ts1. apply safe_bind; [apply adv_value|apply Ht, Hw1|]. intros v.
    apply safe_bind; [apply adv_fields|apply IHfs, Hw2|]. intros vs. apply safe_ret.
  - apply safe_err.
  - cbn [value]. intros s r s' Hb E. unfold call_unmarshal in E. specialize (Hw dst (data s) Hb).
    destruct (cd_unmarshal c dst (data s)) as [(v & n)|e| |]; try contradiction.
    + destruct (Z.ltb_spec n 0); [lia|]. destruct (Z.ltb_spec (zlen (data s)) n); [lia|].
      injection E as <- _. split; discriminate.
    + injection E as <- _. split; discriminate.
Qed.

(** ** What was accepted re-encodes to the same bytes *)
Lemma mbind_ok {A B} (x : M A) (f : A -> M B) s b s' : mbind x f s = (Ok b, s') ->
  exists a s1, x s = (Ok a, s1) /\ f a s1 = (Ok b, s').
Proof.
  intros E. apply mbind_inv in E as [E|[(e & _ & E)|[(_ & E)|(_ & E)]]]; [exact E|discriminate..].
Qed.
Lemma pop_ok n s b s' : pop n s = (Ok b, s') ->
  data s = b ++ data s' /\ allocs s' = allocs s /\ List.length b = Z.to_nat n.
Proof.
  unfold pop. destruct (Z.ltb_spec (zlen (data s)) n); [discriminate|]. intros E. injection E as <- <-. cbn.
  split; [symmetry; apply firstn_skipn|]. split; [reflexivity|]. apply firstn_length_le. unfold zlen in *. lia.
Qed.

Definition tags_unsigned (ts : tags) : Prop := forall k, lenTag ts = Some k -> signed k = false.
Lemma parse_elems_unsigned tag elems : forall ts ts', tags_unsigned ts -> parse_elems tag elems ts = Ok ts' -> tags_unsigned ts'.
Proof.
  induction elems as [|el r IH]; intros ts ts' Hu E; cbn [parse_elems] in E; [injection E as <-; exact Hu|].
  destruct (bytes_eqb el s_optional); [eapply IH; [|exact E]; exact Hu|].
  destruct (has_prefix tag s_len_tag); [|discriminate].
  destruct (parse_len _) as [k|e| |] eqn:Ep; try discriminate. cbn [bind] in E.
  eapply IH; [|exact E]. intros k' Ek. injection Ek as <-. unfold parse_len in Ep.
  repeat match type of Ep with context [if ?c then _ else _] => destruct c end; try discriminate; injection Ep as <-; reflexivity.
Qed.
Lemma field_tags_unsigned tag ts : field_tags tag = Ok ts -> tags_unsigned ts.
Proof.
  destruct tag as [s|]; cbn [field_tags].
  - intros E. eapply parse_elems_unsigned; [|exact E]. intros k; discriminate.
  - intros E. injection E as <-. intros k; discriminate.
Qed.

Lemma raw_bytes_map b : raw_bytes (map VNum b) = Some b.
Proof. induction b as [|x b IH]; cbn; [reflexivity|]. rewrite IH. reflexivity. Qed.

Lemma number_kind k s z s' : bytes_ok (data s) -> number k s = (Ok z, s') ->
  exists b, data s = b ++ data s' /\ be_put (width k) (to_kind k z) = b.
Proof.
  intros Hb E. unfold number in E. apply mbind_ok in E as (b & s1 & E1 & E2). injection E2 as Ez Es. subst s1.
  destruct (pop_ok _ _ _ _ E1) as (Hd & _ & Hl). rewrite Nat2Z.id in Hl. exists b. split; [exact Hd|].
  assert (Hbb : bytes_ok b) by (rewrite Hd in Hb; apply bytes_ok_app in Hb; apply Hb).
  rewrite <- (be_put_get b Hbb) at 1. rewrite Hl. apply be_put_congr. rewrite to_kind_mod. subst z.
  destruct k; try reflexivity; apply to_kind_mod.
Qed.

(** Decoding [v] read [e], and encoding [v] gives [e]. *)
Definition re (m : M val) (mar : val -> bytes -> mret) : Prop :=
  forall s v s', bytes_ok (data s) -> m s = (Ok v, s') ->
  exists e, data s = e ++ data s' /\ forall b, mar v b = m_ok (b ++ e).

Lemma re_dec_n f mar n : (forall d, re (f d) mar) -> (forall d, advancing (f d)) ->
  forall dsts s vs s', bytes_ok (data s) -> dec_n f n dsts s = (Ok vs, s') ->
  List.length vs = n /\ exists e, data s = e ++ data s' /\ forall b, enc_n mar vs b = m_ok (b ++ e).
Proof.
  intros Hf Ha. induction n as [|n IH]; intros dsts s vs s' Hb E; cbn [dec_n] in E.
  - injection E as <- <-. split; [reflexivity|]. exists []. split; [reflexivity|]. intros b. cbn. rewrite app_nil_r. reflexivity.
  - apply mbind_ok in E as (v & s1 & E1 & E). apply mbind_ok in E as (vs1 & s2 & E2 & E). injection E as <- <-.
    destruct (Hf _ _ _ _ Hb E1) as (e1 & D1 & M1). pose proof (adv_bytes _ _ (Ha _ _ _ _ E1) Hb) as Hb1.
    destruct (IH _ _ _ _ Hb1 E2) as (Hl & e2 & D2 & M2). split; [cbn; congruence|].
    exists (e1 ++ e2). split; [rewrite <- app_assoc; congruence|]. intros b. cbn [enc_n]. rewrite M1. cbn.
    rewrite M2, app_assoc. reflexivity.
Qed.

Lemma re_value t : well_declared codec_canonical t -> forall ts dst, tags_unsigned ts ->
  re (value t ts dst) (fun v b => marshal t v b ts).
Proof.
  induction t as [|k| |t IH|n t IH|t IH|fs IH| |c t IH] using ty_ind'; intros Hw ts dst Hu s v s' Hb E.
  - cbn [value] in E. apply mbind_ok in E as (b & s1 & E1 & E). destruct (pop_ok _ _ _ _ E1) as (Hd & _ & Hl).
    destruct b as [|x [|y z]]; try discriminate. exists [x].
    destruct x as [|[]|]; try discriminate; injection E as <- <-; split; auto.
  - cbn [value] in E. apply mbind_ok in E as (z & s1 & E1 & E). injection E as <- <-.
    destruct (number_kind _ _ _ _ Hb E1) as (b & Hd & Hp). exists b. split; [exact Hd|]. intros b0. cbn [marshal].
    unfold marshalNumber. rewrite (to_kind_id k (to_kind k z)) by apply to_kind_range. rewrite Hp. reflexivity.
  - cbn [value] in E. apply mbind_ok in E as (u & s1 & E1 & E). apply mbind_ok in E as (b & s2 & E2 & E). injection E as <- <-.
    destruct (read_len_ok _ _ _ _ Hb E1) as (k & bl & Hk & D1 & _ & Hl & Hu0 & Hz). specialize (Hz (Hu k Hk)) as (-> & _).
    destruct (pop_ok _ _ _ _ E2) as (D2 & _ & Hl2). exists (bl ++ b). split; [cbn [data]; rewrite <- app_assoc; congruence|].
    intros b0. cbn [marshal]. rewrite Hk. unfold marshalInt. rewrite (Hu k Hk). cbn [bind].
    assert (Hbl : bytes_ok bl) by (rewrite D1 in Hb; apply bytes_ok_app in Hb; apply Hb).
    unfold zlen. rewrite Hl2, Z2Nat.id by exact Hu0. rewrite <- Hl, (be_put_get bl Hbl), app_assoc. reflexivity.
  - destruct Hw as (Hc & Hw). rewrite value_ptr in E by exact Hc. cbv zeta in E.
    assert (Hgo : forall s, bytes_ok (data s) -> (do v <- value t ts (zero t); ret (VPtr (Some v))) s = (Ok v, s') ->
              exists v' e, v = VPtr (Some v') /\ data s = e ++ data s' /\ forall b, marshal t v' b ts = m_ok (b ++ e)).
    { intros s0 Hb0 E0. apply mbind_ok in E0 as (v' & s1 & E1 & E0). injection E0 as <- <-.
      destruct (IH Hw ts (zero t) Hu _ _ _ Hb0 E1) as (e & D & Hm). exists v', e. auto. }
    destruct (optional ts) eqn:Ho.
    + apply mbind_ok in E as (fl & s1 & E1 & E). destruct (pop_ok _ _ _ _ E1) as (Hd & _ & Hl).
      destruct fl as [|x [|y z]]; try discriminate.
      assert (Hb1 : bytes_ok (data s1)) by (rewrite Hd in Hb; apply bytes_ok_app in Hb; apply Hb).
      destruct x as [|[]|]; try discriminate.
      * injection E as <- <-. exists [0]. split; [exact Hd|]. intros b. rewrite marshal_ptr by exact Hc. rewrite Ho. reflexivity.
      * destruct (Hgo s1 Hb1 E) as (v' & e & -> & D & Hm). exists (1 :: e). split; [rewrite Hd, D; reflexivity|].
        intros b. rewrite marshal_ptr by exact Hc. cbv zeta. rewrite Ho, Hm. cbn. unfold m_ok. rewrite <- app_assoc. reflexivity.
    + destruct (Hgo s Hb E) as (v' & e & -> & D & Hm). exists e. split; [exact D|].
      intros b. rewrite marshal_ptr by exact Hc. cbv zeta. rewrite Ho, Hm. reflexivity.
  - destruct Hw as (Hok & Hw). cbn [value] in E. destruct (is_u8 t) eqn:Eu.
    + rewrite (Hok Eu) in E. apply mbind_ok in E as (b & s1 & E1 & E). injection E as <- <-.
      destruct (pop_ok _ _ _ _ E1) as (Hd & _ & Hl). rewrite Nat2Z.id in Hl. exists b. split; [exact Hd|].
      intros b0. cbn [marshal vbytes]. rewrite map_length, Hl, Nat.eqb_refl, Eu, raw_bytes_map. reflexivity.
    + apply mbind_ok in E as (vs & s1 & E1 & E). injection E as <- <-.
      destruct (re_dec_n _ (fun v b => marshal t v b no_tags) n (fun d => IH Hw no_tags d ltac:(intros ? ?; discriminate))
                  (fun d => adv_value t no_tags d) _ _ _ _ Hb E1) as (Hl & e & D & Hm).
      exists e. split; [exact D|]. intros b. cbn [marshal]. rewrite Hl, Nat.eqb_refl, Eu. apply Hm.
  - destruct Hw as (Hok & Hw). cbn [value] in E. apply mbind_ok in E as (u & s1 & E1 & E).
    pose proof (adv_bytes _ _ (adv_read_len _ _ _ _ E1) Hb) as Hb1.
    destruct (read_len_ok _ _ _ _ Hb E1) as (k & bl & Hk & D1 & _ & Hl & Hu0 & Hz). specialize (Hz (Hu k Hk)) as (-> & _).
    assert (Hbl : bytes_ok bl) by (rewrite D1 in Hb; apply bytes_ok_app in Hb; apply Hb).
    destruct (is_u8 t) eqn:Eu.
    + apply mbind_ok in E as (b & s2 & E2 & E). injection E as <- <-.
      destruct (pop_ok _ _ _ _ E2) as (D2 & _ & Hl2). exists (bl ++ b). split; [cbn [data]; rewrite <- app_assoc; congruence|].
      intros b0. cbn [marshal vbytes]. rewrite Hk. unfold marshalInt. rewrite (Hu k Hk). cbn [bind]. rewrite Eu, raw_bytes_map.
      unfold zlen. rewrite map_length, Hl2, Z2Nat.id by exact Hu0. rewrite <- Hl, (be_put_get bl Hbl), app_assoc. reflexivity.
    + destruct (_ <? _); [discriminate|]. unfold alloc_elems, mbind at 1 in E.
      apply mbind_ok in E as (vs & s2 & E2 & E). injection E as <- <-.
      destruct (re_dec_n _ (fun v b => marshal t v b no_tags) _ (fun d => IH Hw no_tags d ltac:(intros ? ?; discriminate))
                  (fun d => adv_value t no_tags d) _ (DState _ _) _ _ Hb1 E2) as (Hlv & e & D & Hm). cbn [data] in D.
      exists (bl ++ e). split; [rewrite <- app_assoc; congruence|].
      intros b. cbn [marshal]. rewrite Hk. unfold marshalInt. rewrite (Hu k Hk). cbn [bind]. rewrite Eu.
      unfold zlen. rewrite Hlv, Z2Nat.id by exact Hu0. rewrite <- Hl, (be_put_get bl Hbl), Hm, app_assoc. reflexivity.
  - rewrite value_struct in E. apply mbind_ok in E as (vs & s1 & E1 & E). injection E as <- <-.
    change (all_declared codec_canonical fs) in Hw. cbn beta.
    assert (Hf : exists e, data s = e ++ data s1 /\ forall b, marshal_fields fs vs b = m_ok (b ++ e)); [|exact Hf].
    revert s vs s1 Hb E1. generalize (elems_of dst). clear dst.
    induction IH as [|(tag & t) fs Ht Hfs IHfs]; intros dsts s vs s1 Hb E1; cbn [value_fields] in E1.
    + injection E1 as <- <-. exists []. split; [reflexivity|]. intros b. cbn. rewrite app_nil_r. reflexivity.
    + destruct Hw as ((ts0 & Hts) & Hw1 & Hw2). rewrite Hts in E1. apply mbind_ok in E1 as (ts1 & s0 & E0 & E1).
      injection E0 as <- <-. apply mbind_ok in E1 as (v & s2 & E1 & E2). apply mbind_ok in E2 as (vs2 & s3 & E2 & E3).
      injection E3 as <- <-.
      destruct (Ht Hw1 ts0 _ (field_tags_unsigned _ _ Hts) _ _ _ Hb E1) as (e1 & D1 & M1).
      pose proof (adv_bytes _ _ (adv_value _ _ _ _ _ _ E1) Hb) as Hb2.
      destruct (IHfs Hw2 _ _ _ _ Hb2 E2) as (e2 & D2 & M2).
      exists (e1 ++ e2). split; [rewrite <- app_assoc; congruence|]. intros b. cbn [marshal_fields]. rewrite Hts. cbn [bind].
      rewrite M1. cbn. rewrite M2, app_assoc. reflexivity.
  - discriminate.
  - cbn [value] in E. unfold call_unmarshal in E.
    destruct (cd_unmarshal c dst (data s)) as [(v0 & n)|e| |] eqn:Ec; try discriminate.
    destruct (Hw dst (data s) v0 n Hb Ec) as (Hn & Hm).
    destruct (n <? 0); [discriminate|]. destruct (_ <? _); [discriminate|]. injection E as <- <-.
    exists (firstn (Z.to_nat n) (data s)). split; [cbn; symmetry; apply firstn_skipn|]. exact Hm.
Qed.

(** ** Sizes *)
Fixpoint all_typed (fs : list (option bytes * ty)) (vs : list val) : Prop :=
  match fs, vs with
  | [], [] => True
  | (_, t) :: fs, v :: vs => typed t v /\ all_typed fs vs
  | _, _ => False
  end.

Lemma num_kind_num t k : num_kind t = Some k -> is_custom t = false -> t = TNum k.
Proof. destruct t; cbn; try discriminate. congruence. Qed.
Lemma is_u8_kind t : is_u8 t = true <-> num_kind t = Some U8.
Proof. unfold is_u8. destruct (num_kind t) as [[]|]; split; congruence. Qed.

Lemma raw_typed vs : Forall (typed (TNum U8)) vs -> exists b, raw_bytes vs = Some b /\ List.length b = List.length vs.
Proof.
  induction 1 as [|v vs Hv _ (b & E & Hl)]; [exists []; auto|].
  destruct v; try contradiction. cbn [raw_bytes]. rewrite E. eexists. split; [reflexivity|]. cbn. congruence.
Qed.
Lemma nums_typed k vs : Forall (typed (TNum k)) vs ->
  exists e, zlen e = zlen vs * sizeNumber k /\ forall b, enc_n (fun v b => marshal (TNum k) v b no_tags) vs b = m_ok (b ++ e).
Proof.
  induction 1 as [|v vs Hv _ (e & Hl & Hm)].
  - exists []. split; [reflexivity|]. intros b. cbn. rewrite app_nil_r. reflexivity.
  - destruct v; try contradiction. exists (be_put (width k) (to_kind k z) ++ e).
    split; [unfold zlen in *; rewrite app_length, be_put_length; cbn [List.length]; unfold sizeNumber in *; rewrite Nat2Z.inj_add, Hl; nia|].
    intros b. cbn [enc_n marshal]. cbn. unfold marshalNumber. rewrite Hm, app_assoc. reflexivity.
Qed.

Lemma size_exact t : well_declared no_codec t -> forall ts v n, tags_unsigned ts -> typed t v -> valueSize t v ts = Ok n ->
  exists e, zlen e = n /\ forall b, marshal t v b ts = m_ok (b ++ e).
Proof.
  induction t as [|k| |t IH|m t IH|t IH|fs IH| |c t IH] using ty_ind'; intros Hw ts v n Hu Hv E.
  - discriminate.
  - destruct v; try contradiction. injection E as <-. eexists. split; [|intros b; reflexivity].
    unfold zlen. rewrite be_put_length. reflexivity.
  - destruct v as [| |s| | | | |]; try contradiction. cbn [valueSize] in E. destruct (lenTag ts) as [k|] eqn:Hk; [|discriminate].
    injection E as <-. exists (be_put (width k) (zlen s) ++ s). split.
    + unfold zlen, sizeNumber. rewrite app_length, be_put_length. lia.
    + intros b. cbn [marshal]. rewrite Hk. unfold marshalInt. rewrite (Hu k Hk). cbn [bind]. rewrite app_assoc. reflexivity.
  - destruct Hw as (Hc & Hw). destruct v as [| | |[v|]| | | |]; try contradiction; cbn [valueSize] in E.
    + destruct (valueSize t v ts) as [n'|e| |] eqn:E'; try discriminate. injection E as <-.
      destruct (IH Hw ts v n' Hu Hv E') as (e & Hl & Hm).
      exists ((if optional ts then [1] else []) ++ e). split.
      * unfold zlen in *. rewrite app_length. destruct (optional ts); cbn [List.length]; lia.
      * intros b. rewrite marshal_ptr by exact Hc. cbv zeta. rewrite Hm. cbn. unfold m_ok.
        destruct (optional ts); [rewrite <- app_assoc|]; reflexivity.
    + destruct (optional ts) eqn:Ho; [|discriminate]. injection E as <-. exists [0]. split; [reflexivity|].
      intros b. rewrite marshal_ptr by exact Hc. rewrite Ho. reflexivity.
  - destruct Hw as (Hok & Hw). destruct v as [| | | |vs| | |]; try contradiction. destruct Hv as (Hl & Hv). cbn [valueSize] in E.
    destruct (num_kind t) as [k|] eqn:Ek.
    + injection E as <-.
      assert (Et : t = TNum k).
      { apply num_kind_num; [exact Ek|]. destruct t; try reflexivity. contradiction. }
      subst t. destruct k; try (
        destruct (nums_typed _ vs Hv) as (e & He & Hm); exists e; split; [rewrite He; unfold zlen; rewrite Hl; reflexivity|];
        intros b; cbn [marshal]; rewrite Hl, Nat.eqb_refl; cbn [negb is_u8 num_kind]; apply Hm).
      destruct (raw_typed vs Hv) as (r & Er & Hlr). exists r. split; [unfold zlen; rewrite Hlr, Hl; cbn; lia|].
      intros b. cbn [marshal]. rewrite Hl, Nat.eqb_refl. cbn [negb is_u8 num_kind]. rewrite Er. reflexivity.
    + assert (Hes : exists e, zlen e = n /\ forall b, enc_n (fun v b => marshal t v b no_tags) vs b = m_ok (b ++ e)).
      { clear Hl. revert n E. induction Hv as [|v vs Hv Hvs IHvs]; intros n E; cbn [size_n] in E.
        - injection E as <-. exists []. split; [reflexivity|]. intros b. cbn. rewrite app_nil_r. reflexivity.
        - destruct (valueSize t v no_tags) as [n1|e| |] eqn:E1; try discriminate. cbn [bind] in E.
          destruct (size_n _ vs) as [n2|e| |] eqn:E2; try discriminate. injection E as <-.
          destruct (IH Hw no_tags v n1 ltac:(intros ? ?; discriminate) Hv E1) as (e1 & L1 & M1).
          destruct (IHvs _ eq_refl) as (e2 & L2 & M2). exists (e1 ++ e2).
          split; [unfold zlen in *; rewrite app_length; lia|]. intros b. cbn [enc_n]. rewrite M1. cbn. rewrite M2, app_assoc. reflexivity. }
      destruct Hes as (e & He & Hm). exists e. split; [exact He|]. intros b. cbn [marshal]. rewrite Hl, Nat.eqb_refl. cbn [negb].
      destruct (is_u8 t) eqn:Eu; [apply is_u8_kind in Eu; congruence|]. apply Hm.
  - destruct Hw as (Hok & Hw). destruct v as [| | | |vs| | |]; try contradiction. cbn [typed] in Hv. cbn [valueSize] in E.
    destruct (lenTag ts) as [k|] eqn:Hk; [|discriminate].
    assert (Hb : forall b, exists b1, marshalInt k (zlen vs) b = Ok (b ++ be_put (width k) (zlen vs)) /\ b1 = b).
    { intros b. exists b. unfold marshalInt. rewrite (Hu k Hk). auto. }
    destruct (num_kind t) as [k'|] eqn:Ek.
    + injection E as <-.
      assert (Et : t = TNum k').
      { apply num_kind_num; [exact Ek|]. destruct t; try reflexivity. contradiction. }
      subst t. destruct k'; try (
        destruct (nums_typed _ vs Hv) as (e & He & Hm); exists (be_put (width k) (zlen vs) ++ e);
        split; [unfold zlen in *; rewrite app_length, be_put_length; unfold sizeNumber in *; lia|];
        intros b; cbn [marshal]; rewrite Hk; unfold marshalInt; rewrite (Hu k Hk); cbn [bind is_u8 num_kind]; rewrite Hm, app_assoc; reflexivity).
      destruct (raw_typed vs Hv) as (r & Er & Hlr). exists (be_put (width k) (zlen vs) ++ r).
      split; [unfold zlen; rewrite app_length, be_put_length, Hlr; unfold sizeNumber; cbn; lia|].
      intros b. cbn [marshal]. rewrite Hk. unfold marshalInt. rewrite (Hu k Hk). cbn [bind is_u8 num_kind]. rewrite Er, app_assoc. reflexivity.
    + destruct (size_n _ vs) as [m|e| |] eqn:Es; try discriminate. injection E as <-.
      assert (Hes : exists e, zlen e = m /\ forall b, enc_n (fun v b => marshal t v b no_tags) vs b = m_ok (b ++ e)).
      { clear Hb. revert m Es. induction Hv as [|v vs Hv Hvs IHvs]; intros n E; cbn [size_n] in E.
        - injection E as <-. exists []. split; [reflexivity|]. intros b. cbn. rewrite app_nil_r. reflexivity.
        - destruct (valueSize t v no_tags) as [n1|e| |] eqn:E1; try discriminate. cbn [bind] in E.
          destruct (size_n _ vs) as [n2|e| |] eqn:E2; try discriminate. injection E as <-.
          destruct (IH Hw no_tags v n1 ltac:(intros ? ?; discriminate) Hv E1) as (e1 & L1 & M1).
          destruct (IHvs _ eq_refl) as (e2 & L2 & M2). exists (e1 ++ e2).
          split; [unfold zlen in *; rewrite app_length; lia|]. intros b. cbn [enc_n]. rewrite M1. cbn. rewrite M2, app_assoc. reflexivity. }
      destruct Hes as (e & He & Hm). exists (be_put (width k) (zlen vs) ++ e).
      split; [unfold zlen in *; rewrite app_length, be_put_length; unfold sizeNumber; lia|].
      intros b. cbn [marshal]. rewrite Hk. unfold marshalInt. rewrite (Hu k Hk). cbn [bind].
      destruct (is_u8 t) eqn:Eu; [apply is_u8_kind in Eu; congruence|]. rewrite Hm, app_assoc. reflexivity.
  - destruct v as [| | | | |vs| |]; try contradiction. rewrite size_struct in E.
    change (all_declared no_codec fs) in Hw. change (all_typed fs vs) in Hv. setoid_rewrite marshal_struct.
    revert vs n Hv E. induction IH as [|(tag & t) fs Ht Hfs IHfs]; intros vs n Hv E.
    + destruct vs; [|contradiction]. injection E as <-. exists []. split; [reflexivity|]. intros b. cbn. rewrite app_nil_r. reflexivity.
    + destruct vs as [|v vs]; [contradiction|]. destruct Hv as (Hv & Hvs). destruct Hw as ((ts0 & Hts) & Hw1 & Hw2).
      cbn [size_fields] in E. rewrite Hts in E. cbn [bind] in E.
      destruct (valueSize t v ts0) as [n1|e| |] eqn:E1; try discriminate. cbn [bind] in E.
      destruct (size_fields fs vs) as [n2|e| |] eqn:E2; try discriminate. injection E as <-.
      destruct (Ht Hw1 ts0 v n1 (field_tags_unsigned _ _ Hts) Hv E1) as (e1 & L1 & M1).
      destruct (IHfs Hw2 vs n2 Hvs E2) as (e2 & L2 & M2). exists (e1 ++ e2).
      split; [unfold zlen in *; rewrite app_length; lia|]. intros b. cbn [marshal_fields]. rewrite Hts. cbn [bind]. rewrite M1. cbn.
      rewrite M2, app_assoc. reflexivity.
  - discriminate.
  - contradiction.
Qed.

(** ** Marshal either appends or reports the error, except below pointers *)
Fixpoint all_parts (fs : list (option bytes * ty)) (vs : list val) : Prop :=
  match fs, vs with
  | (tag, t) :: fs, v :: vs => (exists ts, field_tags tag = Ok ts /\ parts_ok t ts v) /\ all_parts fs vs
  | _, _ => True
  end.
Fixpoint all_pointer_free (fs : list (option bytes * ty)) : Prop :=
  match fs with [] => True | (_, t) :: fs => pointer_free t /\ all_pointer_free fs end.

Lemma enc_n_appends t vs (Q : val -> Prop) :
  (forall v, Q v -> exists e, forall b, marshal t v b no_tags = m_ok (b ++ e)) -> Forall Q vs ->
  exists e, forall b, enc_n (fun v b => marshal t v b no_tags) vs b = m_ok (b ++ e).
Proof.
  intros H. induction 1 as [|v vs Hv _ (e2 & E2)].
  - exists []. intros b. cbn. rewrite app_nil_r. reflexivity.
  - destruct (H v Hv) as (e1 & E1). exists (e1 ++ e2). intros b. cbn [enc_n]. rewrite E1. cbn. rewrite E2, app_assoc. reflexivity.
Qed.
Lemma u8_num t : elem_ok t -> is_u8 t = true -> t = TNum U8.
Proof. intros Ho Hu. apply is_u8_num; auto. Qed.

Lemma parts_append t : well_declared codec_total t -> forall ts v, tags_unsigned ts -> typed t v -> parts_ok t ts v ->
  exists e, forall b, marshal t v b ts = m_ok (b ++ e).
Proof.
  induction t as [|k| |t IH|m t IH|t IH|fs IH| |c t IH] using ty_ind'; intros Hw ts v Hu Hv Hp.
  - destruct v; try contradiction. eexists. intros. reflexivity.
  - destruct v; try contradiction. eexists. intros. reflexivity.
  - destruct v as [| |s| | | | |]; try contradiction. cbn [parts_ok] in Hp. destruct (lenTag ts) as [k|] eqn:Hk; [|congruence].
    eexists. intros b. cbn [marshal]. rewrite Hk. unfold marshalInt. rewrite (Hu k Hk). cbn [bind]. rewrite <- app_assoc. reflexivity.
  - destruct Hw as (Hc & Hw). destruct v as [| | |[v|]| | | |]; try contradiction; cbn [parts_ok] in Hp.
    + destruct (IH Hw ts v Hu Hv Hp) as (e & Hm). exists ((if optional ts then [1] else []) ++ e).
      intros b. rewrite marshal_ptr by exact Hc. cbv zeta. rewrite Hm. cbn [bind m_ok]. unfold m_ok.
      destruct (optional ts); [rewrite <- app_assoc|]; reflexivity.
    + exists [0]. intros b. rewrite marshal_ptr by exact Hc. rewrite Hp. reflexivity.
  - destruct Hw as (Hok & Hw). destruct v as [| | | |vs| | |]; try contradiction. destruct Hv as (Hl & Hv). cbn [parts_ok] in Hp.
    destruct (is_u8 t) eqn:Eu.
    + pose proof (u8_num t Hok Eu) as ->. destruct (raw_typed vs Hv) as (r & Er & _). exists r.
      intros b. cbn [marshal]. rewrite Hl, Nat.eqb_refl. cbn [negb is_u8 num_kind]. rewrite Er. reflexivity.
    + destruct (enc_n_appends t vs (fun v => typed t v /\ parts_ok t no_tags v)) as (e & He).
      { intros v (H1 & H2). apply (IH Hw no_tags v); auto. intros k; discriminate. }
      { clear Hl. induction Hv; inversion Hp; subst; constructor; auto. }
      exists e. intros b. cbn [marshal]. rewrite Hl, Nat.eqb_refl, Eu. apply He.
  - destruct Hw as (Hok & Hw). destruct v as [| | | |vs| | |]; try contradiction. cbn [typed] in Hv. cbn [parts_ok] in Hp.
    destruct Hp as (Hn & Hp). destruct (lenTag ts) as [k|] eqn:Hk; [|congruence].
    destruct (is_u8 t) eqn:Eu.
    + pose proof (u8_num t Hok Eu) as ->. destruct (raw_typed vs Hv) as (r & Er & _). eexists.
      intros b. cbn [marshal]. rewrite Hk. unfold marshalInt. rewrite (Hu k Hk). cbn [bind is_u8 num_kind]. rewrite Er, <- app_assoc. reflexivity.
    + destruct (enc_n_appends t vs (fun v => typed t v /\ parts_ok t no_tags v)) as (e & He).
      { intros v (H1 & H2). apply (IH Hw no_tags v); auto. intros k'; discriminate. }
      { clear Hn. induction Hv; inversion Hp; subst; constructor; auto. }
      eexists. intros b. cbn [marshal]. rewrite Hk. unfold marshalInt. rewrite (Hu k Hk). cbn [bind]. rewrite Eu, He, <- app_assoc. reflexivity.
  - destruct v as [| | | | |vs| |]; try contradiction.
    change (all_declared codec_total fs) in Hw. change (all_typed fs vs) in Hv. change (all_parts fs vs) in Hp.
    setoid_rewrite marshal_struct. revert vs Hv Hp. induction IH as [|(tag & t) fs Ht Hfs IHfs]; intros vs Hv Hp.
    + destruct vs; [|contradiction]. exists []. intros b. cbn. rewrite app_nil_r. reflexivity.
    + destruct vs as [|v vs]; [contradiction|]. destruct Hv as (Hv & Hvs). destruct Hw as (_ & Hw1 & Hw2).
      destruct Hp as ((ts0 & Hts & Hp1) & Hp2).
      destruct (Ht Hw1 ts0 v (field_tags_unsigned _ _ Hts) Hv Hp1) as (e1 & M1).
      destruct (IHfs Hw2 vs Hvs Hp2) as (e2 & M2). exists (e1 ++ e2).
      intros b. cbn [marshal_fields]. rewrite Hts. cbn [bind]. rewrite M1. cbn [m_then bind m_ok]. rewrite M2, app_assoc. reflexivity.
  - contradiction.
  - destruct Hp as (e & He). exists e. exact He.
Qed.

Lemma enc_n_errs t vs (Q : val -> Prop) :
  (forall v, Q v -> (exists e, forall b, marshal t v b no_tags = m_ok (b ++ e)) \/
                    (exists er, forall b, exists r, marshal t v b no_tags = Ok (r, Some er))) ->
  Forall Q vs ->
  (exists e, forall b, enc_n (fun v b => marshal t v b no_tags) vs b = m_ok (b ++ e)) \/
  (exists er, forall b, exists r, enc_n (fun v b => marshal t v b no_tags) vs b = Ok (r, Some er)).
Proof.
  intros H. induction 1 as [|v vs Hv _ IH].
  - left. exists []. intros b. cbn. rewrite app_nil_r. reflexivity.
  - destruct (H v Hv) as [(e1 & E1)|(er & E1)].
    + destruct IH as [(e2 & E2)|(er & E2)].
      * left. exists (e1 ++ e2). intros b. cbn [enc_n]. rewrite E1. cbn. rewrite E2, app_assoc. reflexivity.
      * right. exists er. intros b. cbn [enc_n]. rewrite E1. apply E2.
    + right. exists er. intros b. destruct (E1 b) as (r & E). exists []. cbn [enc_n]. rewrite E. reflexivity.
Qed.

(** Without pointers: appended, or an error. *)
Lemma marshal_dichotomy t : well_declared codec_total t -> pointer_free t -> forall ts v, tags_unsigned ts -> typed t v ->
  (exists e, forall b, marshal t v b ts = m_ok (b ++ e)) \/
  (exists er, forall b, exists r, marshal t v b ts = Ok (r, Some er)).
Proof.
  induction t as [|k| |t IH|m t IH|t IH|fs IH| |c t IH] using ty_ind'; intros Hw Hf ts v Hu Hv.
  - destruct v; try contradiction. left. eexists. intros. reflexivity.
  - destruct v; try contradiction. left. eexists. intros. reflexivity.
  - destruct v as [| |s| | | | |]; try contradiction. cbn [marshal]. destruct (lenTag ts) as [k|] eqn:Hk.
    + left. eexists. intros b. unfold marshalInt. rewrite (Hu k Hk). cbn [bind]. rewrite <- app_assoc. reflexivity.
    + right. exists ENoLenTag. intros b. eexists. reflexivity.
  - contradiction.
  - destruct Hw as (Hok & Hw). destruct v as [| | | |vs| | |]; try contradiction. destruct Hv as (Hl & Hv).
    cbn [marshal]. rewrite Hl, Nat.eqb_refl. cbn [negb]. destruct (is_u8 t) eqn:Eu.
    + pose proof (u8_num t Hok Eu) as ->. destruct (raw_typed vs Hv) as (r & Er & _). left. exists r.
      intros b. rewrite Er. reflexivity.
    + apply (enc_n_errs t vs (typed t)); [|exact Hv]. intros v Hv'. apply IH; auto. intros k; discriminate.
  - destruct Hw as (Hok & Hw). destruct v as [| | | |vs| | |]; try contradiction. cbn [typed] in Hv.
    cbn [marshal]. destruct (lenTag ts) as [k|] eqn:Hk.
    2: { right. exists ENoLenTag. intros b. eexists. reflexivity. }
    unfold marshalInt. rewrite (Hu k Hk). cbn [bind]. destruct (is_u8 t) eqn:Eu.
    + pose proof (u8_num t Hok Eu) as ->. destruct (raw_typed vs Hv) as (r & Er & _). left. eexists.
      intros b. rewrite Er, <- app_assoc. reflexivity.
    + destruct (enc_n_errs t vs (typed t)) as [(e & He)|(er & He)]; [|exact Hv| |].
      * intros v Hv'. apply IH; auto. intros k'; discriminate.
      * left. eexists. intros b. rewrite He, <- app_assoc. reflexivity.
      * right. exists er. intros b. apply He.
  - destruct v as [| | | | |vs| |]; try contradiction.
    change (all_declared codec_total fs) in Hw. change (all_typed fs vs) in Hv. change (all_pointer_free fs) in Hf.
    assert (Q : (exists e, forall b, marshal_fields fs vs b = m_ok (b ++ e)) \/
                (exists er, forall b, exists r, marshal_fields fs vs b = Ok (r, Some er))); [|exact Q].
    revert vs Hv. induction IH as [|(tag & t) fs Ht Hfs IHfs]; intros vs Hv.
    + destruct vs; [|contradiction]. left. exists []. intros b. cbn. rewrite app_nil_r. reflexivity.
    + destruct vs as [|v vs]; [contradiction|]. destruct Hv as (Hv & Hvs). destruct Hw as ((ts0 & Hts) & Hw1 & Hw2).
      destruct Hf as (Hf1 & Hf2). cbn [marshal_fields]. rewrite Hts. cbn [bind]. cbn [snd] in Ht.
      destruct (Ht Hw1 Hf1 ts0 v (field_tags_unsigned _ _ Hts) Hv) as [(e1 & M1)|(er & M1)].
      * destruct (IHfs Hw2 Hf2 vs Hvs) as [(e2 & M2)|(er & M2)].
        -- left. exists (e1 ++ e2). intros b. rewrite M1. cbn [m_then bind m_ok]. rewrite M2, app_assoc. reflexivity.
        -- right. exists er. intros b. rewrite M1. apply M2.
      * right. exists er. intros b. destruct (M1 b) as (r & E). exists []. rewrite E. reflexivity.
  - right. exists ECannotMarshal. intros b. eexists. reflexivity.
  - exact (Hw v).
Qed.

(** Success of one call means that every part was encodable (no pointers). *)
Lemma marshal_ok_parts t : well_declared codec_total t -> pointer_free t -> forall ts v b b', tags_unsigned ts -> typed t v ->
  marshal t v b ts = m_ok b' -> parts_ok t ts v.
Proof.
  induction t as [|k| |t IH|m t IH|t IH|fs IH| |c t IH] using ty_ind'; intros Hw Hf ts v b b' Hu Hv E.
  - destruct v; try contradiction. exact I.
  - destruct v; try contradiction. exact I.
  - destruct v as [| |s| | | | |]; try contradiction. cbn [marshal] in E. cbn [parts_ok]. destruct (lenTag ts); [discriminate|discriminate].
  - contradiction.
  - destruct Hw as (Hok & Hw). destruct v as [| | | |vs| | |]; try contradiction. destruct Hv as (Hl & Hv).
    cbn [marshal] in E. rewrite Hl, Nat.eqb_refl in E. cbn [negb] in E. cbn [parts_ok]. destruct (is_u8 t) eqn:Eu.
    + pose proof (u8_num t Hok Eu) as ->. clear. induction vs; constructor; [exact I|auto].
    + clear Hl Eu. revert b E. induction Hv as [|v vs Hv Hvs IHvs]; intros b E; constructor; cbn [enc_n] in E.
      * destruct (marshal t v b no_tags) as [(b1 & [er|])|er| |] eqn:E1; try discriminate.
        refine (IH Hw Hf no_tags v b b1 _ Hv E1). intros k; discriminate.
      * destruct (marshal t v b no_tags) as [(b1 & [er|])|er| |] eqn:E1; try discriminate. exact (IHvs _ E).
  - destruct Hw as (Hok & Hw). destruct v as [| | | |vs| | |]; try contradiction. cbn [typed] in Hv.
    cbn [marshal] in E. cbn [parts_ok]. destruct (lenTag ts) as [k|] eqn:Hk; [|discriminate]. split; [discriminate|].
    unfold marshalInt in E. rewrite (Hu k Hk) in E. cbn [bind] in E. destruct (is_u8 t) eqn:Eu.
    + pose proof (u8_num t Hok Eu) as ->. clear. induction vs; constructor; [exact I|auto].
    + clear Eu. match type of E with enc_n _ _ ?b0 = _ => generalize dependent b0 end. intros b0 E.
      revert b0 E. induction Hv as [|v vs Hv Hvs IHvs]; intros b0 E; constructor; cbn [enc_n] in E.
      * destruct (marshal t v b0 no_tags) as [(b1 & [er|])|er| |] eqn:E1; try discriminate.
        refine (IH Hw Hf no_tags v b0 b1 _ Hv E1). intros k'; discriminate.
      * destruct (marshal t v b0 no_tags) as [(b1 & [er|])|er| |] eqn:E1; try discriminate. exact (IHvs _ E).
  - destruct v as [| | | | |vs| |]; try contradiction.
    change (all_declared codec_total fs) in Hw. change (all_typed fs vs) in Hv. change (all_pointer_free fs) in Hf.
    change (all_parts fs vs). rewrite marshal_struct in E.
    revert vs b Hv E. induction IH as [|(tag & t) fs Ht Hfs IHfs]; intros vs b Hv E; [exact I|].
    destruct vs as [|v vs]; [contradiction|]. destruct Hv as (Hv & Hvs). destruct Hw as (_ & Hw1 & Hw2).
    destruct Hf as (Hf1 & Hf2). cbn [snd] in Ht. cbn [marshal_fields] in E. destruct (field_tags tag) as [ts0|er| |] eqn:Hts; try discriminate. cbn [bind] in E.
    destruct (marshal t v b ts0) as [(b1 & [er|])|er| |] eqn:E1; try discriminate.
    split; [exists ts0; split; [exact Hts|]|exact (IHfs Hw2 Hf2 vs _ Hvs E)].
    exact (Ht Hw1 Hf1 ts0 v b b1 (field_tags_unsigned _ _ Hts) Hv E1).
  - discriminate.
  - cbn [parts_ok]. destruct (Hw v) as [H|(er & H)]; [exact H|]. cbn [marshal] in E. destruct (H b) as (r & E'). rewrite E' in E. discriminate.
Qed.
