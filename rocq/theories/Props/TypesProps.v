(** C129: unexported fields, named types, one-sided methods. *)
From Coq Require Import ZArith List Lia Bool String.
Import ListNotations.
From Verif.Model Require Import Base Address Beserial BeserialTypes.
From Verif.Spec Require Import BeserialSpec TypesSpec.
From Verif.Proofs Require Import BaseFacts BeserialFacts.
From Verif.Props Require Import BeserialProps.
Open Scope Z_scope.

Section GInd.
  Variable P : gty -> Prop.
  Hypothesis Hbool : P GBool.
  Hypothesis Hnum : forall k, P (GNum k).
  Hypothesis Hstring : P GString.
  Hypothesis Hptr : forall t, P t -> P (GPtr t).
  Hypothesis Harray : forall n t, P t -> P (GArray n t).
  Hypothesis Hslice : forall t, P t -> P (GSlice t).
  Hypothesis Hstruct : forall fs, Forall (fun f => P (snd f)) fs -> P (GStruct fs).
  Hypothesis Hother : P GOther.
  Hypothesis Hnamed : forall um ma t, P t -> P (GNamed um ma t).
  Fixpoint gty_ind' (t : gty) : P t :=
    match t with
    | GBool => Hbool
    | GNum k => Hnum k
    | GString => Hstring
    | GPtr t => Hptr t (gty_ind' t)
    | GArray n t => Harray n t (gty_ind' t)
    | GSlice t => Hslice t (gty_ind' t)
    | GStruct fs =>
        Hstruct fs ((fix go (fs : list (visibility * option bytes * gty)) : Forall (fun f => P (snd f)) fs :=
                       match fs with
                       | [] => Forall_nil _
                       | f :: fs' => Forall_cons f (gty_ind' (snd f)) (go fs')
                       end) fs)
    | GOther => Hother
    | GNamed um ma t => Hnamed um ma t (gty_ind' t)
    end.
End GInd.

(** The loops over fields, named. *)
Definition g_fields (a : access) : list (visibility * option bytes * gty) -> list val -> M (list val) :=
  fix go fs dsts {struct fs} :=
  match fs with
  | [] => ret []
  | (vis, tag, t0) :: fs' =>
      do ts0 <- fail (field_tags tag);
      do v <- g_value t0 (field_access a vis) ts0 (hd_val dsts);
      do vs <- go fs' (List.tl dsts);
      ret (v :: vs)
  end.
Lemma g_struct fs a ts dst : g_value (GStruct fs) a ts dst = (do vs <- g_fields a fs (elems_of dst); ret (VStruct vs)).
Proof. reflexivity. Qed.
Definition gm_fields (a : access) : list (visibility * option bytes * gty) -> list val -> bytes -> mret :=
  fix go fs l b {struct fs} :=
  match fs, l with
  | [], [] => m_ok b
  | (vis, tag, t0) :: fs', v0 :: l' =>
      let? ts0 := field_tags tag in
      m_then (g_marshal t0 (field_access a vis) v0 b ts0) (go fs' l')
  | _, _ => Panic
  end.
Lemma gm_struct fs a l b ts : g_marshal (GStruct fs) a (VStruct l) b ts = gm_fields a fs l b.
Proof. reflexivity. Qed.

(** *** Places and reflect's flags *)
Definition at_place (a : access) : place := match a with Free => Open | EmbedRO => Embedded | StickyRO => Hidden end.
Lemma open_at a : is_open (at_place a) = is_free a.
Proof. destruct a; reflexivity. Qed.
Lemma field_at a v : in_field (at_place a) v = at_place (field_access a v).
Proof. destruct a, v; reflexivity. Qed.
Lemma elem_at a : in_elem (at_place a) = at_place (elem_access a).
Proof. destruct a; reflexivity. Qed.
Lemma at_open a : at_place a = Open -> a = Free.
Proof. destruct a; [reflexivity|discriminate|discriminate]. Qed.

(** *** Ordinary types *)
Lemma kind_erased t : forall p, g_num_kind t = num_kind (erased t p).
Proof. induction t as [|k| |t IH|n t IH|t IH|fs IH| |um ma t IH] using gty_ind'; intros p; try reflexivity. cbn [g_num_kind]. rewrite (IH p). destruct um, ma, p; reflexivity. Qed.
Lemma u8_erased t p : g_is_u8 t = is_u8 (erased t p).
Proof. unfold g_is_u8, is_u8. rewrite (kind_erased t p). reflexivity. Qed.
Lemma zero_erased t : forall p, g_zero t = zero (erased t p).
Proof.
  induction t as [|k| |t IH|n t IH|t IH|fs IH| |um ma t IH] using gty_ind'; intros p; try reflexivity.
  - cbn [g_zero erased zero]. rewrite (IH Open). reflexivity.
  - cbn [g_zero erased zero]. f_equal. rewrite map_map. apply map_ext_Forall. eapply Forall_impl; [|exact IH]. intros f H. apply H.
  - cbn [g_zero]. rewrite (IH p). destruct um, ma, p; reflexivity.
Qed.
Lemma ordinary_fields fs p : ordinary (GStruct fs) p -> Forall (fun f => ordinary (snd f) (in_field p (fst (fst f)))) fs.
Proof. induction fs as [|((v & tg) & t) fs IH]; intros Ho; constructor; [apply Ho|apply IH; apply Ho]. Qed.

Lemma mbind_ext {A B} (x : M A) (f g : A -> M B) s : (forall a s', f a s' = g a s') -> mbind x f s = mbind x g s.
Proof. intros E. unfold mbind. destruct (x s) as ([a|e| |] & s'); [apply E|reflexivity|reflexivity|reflexivity]. Qed.
Lemma dec_n_ext (f g : val -> M val) n : (forall v s, f v s = g v s) -> forall l s, dec_n f n l s = dec_n g n l s.
Proof.
  intros E. induction n as [|n IH]; intros l s; [reflexivity|]. cbn [dec_n]. unfold mbind at 1 3. rewrite E. destruct (g _ s) as ([a|e| |] & s'); try reflexivity.
  unfold mbind. rewrite IH. reflexivity.
Qed.
Lemma decode_agree t : forall a, ordinary t (at_place a) -> forall ts dst s, g_value t a ts dst s = value (erased t (at_place a)) ts dst s.
Proof.
  induction t as [|k| |t IH|n t IH|t IH|fs IH| |um ma t IH] using gty_ind'; intros a Ho ts dst s; try (apply at_open in Ho; subst a; reflexivity).
  - (* pointer *)
    destruct Ho as (Ha & Ho). apply at_open in Ha. subst a. specialize (IH Free Ho). change (at_place Free) with Open in *.
    assert (Eg : forall s, (do v <- g_value t Free ts (g_zero t); ret (VPtr (Some v))) s = (do v <- value (erased t Open) ts (zero (erased t Open)); ret (VPtr (Some v))) s).
    { intros s0. unfold mbind. rewrite IH, (zero_erased t Open). reflexivity. }
    assert (Ex : forall s, (if optional ts then do flag <- pop 1; match flag with [0] => set Free (VPtr None) | [1] => do v <- g_value t Free ts (g_zero t); ret (VPtr (Some v)) | _ => err EBadOptionalFlag end
        else do v <- g_value t Free ts (g_zero t); ret (VPtr (Some v))) s =
      (if optional ts then do flag <- pop 1; match flag with [0] => ret (VPtr None) | [1] => do v <- value (erased t Open) ts (zero (erased t Open)); ret (VPtr (Some v)) | _ => err EBadOptionalFlag end
        else do v <- value (erased t Open) ts (zero (erased t Open)); ret (VPtr (Some v))) s).
    { intros s0. destruct (optional ts); [|apply Eg]. apply mbind_ext. intros f s'. destruct f as [|z [|z' f]]; try reflexivity; destruct z as [|[p|p|]|p]; try reflexivity. apply Eg. }
    destruct t as [|k| |t|n t|t|fs| |um ma t]; try exact (Ex s). destruct Ho as (Ho & Hn & Hb). specialize (Hb eq_refl). destruct um as [f|], ma as [g|]; try contradiction Hb.
    + reflexivity.
    + destruct t; try exact (Ex s). discriminate Hn.
  - (* array *)
    destruct Ho as (Ha & Ho & Hna). apply at_open in Ha. subst a. change (at_place Free) with Open in *. cbn [g_value erased value]. rewrite <- u8_erased. destruct (g_is_u8 t) eqn:Eu.
    + specialize (Hna eq_refl). destruct t as [|k| |t|m t|t|fs| |um ma t]; try reflexivity. destruct Ho as (Ho & Hn & Hb). specialize (Hb eq_refl). destruct um as [f|], ma as [g|]; try contradiction. reflexivity.
    + unfold mbind. rewrite (dec_n_ext _ (value (erased t Open) no_tags)); [reflexivity|]. intros v s'. apply (IH Free), Ho.
  - (* slice *)
    destruct Ho as (Ha & Ho). apply at_open in Ha. subst a. change (at_place Free) with Open in *. cbn [g_value erased value]. apply mbind_ext. intros u s'. rewrite <- u8_erased. destruct (g_is_u8 t); [reflexivity|]. destruct (_ <? _); [reflexivity|].
    apply mbind_ext. intros [] s2. cbn [set is_free]. unfold mbind at 1, ret at 1. unfold mbind. rewrite (dec_n_ext _ (value (erased t Open) no_tags)) by (intros; apply (IH Free), Ho). rewrite (zero_erased t Open). reflexivity.
  - (* struct *)
    apply ordinary_fields in Ho. cbn [erased]. rewrite g_struct, value_struct. unfold mbind.
    assert (E : forall l s, g_fields a fs l s = value_fields (map (fun f => (snd (fst f), erased (snd f) (in_field (at_place a) (fst (fst f))))) fs) l s); [|rewrite E; reflexivity].
    clear s. induction fs as [|((v & tg) & t) fs IHf]; intros l s; [reflexivity|]. pose proof (Forall_inv IH) as IH1. apply Forall_inv_tail in IH. pose proof (Forall_inv Ho) as Ho1. apply Forall_inv_tail in Ho.
    cbn [fst snd] in *. rewrite field_at in Ho1. cbn [map g_fields value_fields fst snd]. fold (g_fields a). apply mbind_ext. intros ts0 s0. rewrite field_at. unfold mbind. rewrite (IH1 _ Ho1).
    destruct (value (erased t _) ts0 (hd_val l) s0) as ([w|e| |] & s'); try reflexivity.
    rewrite (IHf IH Ho). reflexivity.
  - (* named *)
    destruct Ho as (Ho & Hn & Hb). cbn [g_value erased]. rewrite open_at. destruct (is_free a) eqn:Ea.
    + assert (a = Free) as -> by (destruct a; [reflexivity|discriminate|discriminate]). specialize (Hb eq_refl). destruct um as [f|], ma as [g|]; try contradiction Hb; [reflexivity|]. apply IH, Ho.
    + destruct um as [f|], ma as [g|]; apply IH, Ho.
Qed.
Lemma enc_n_ext (f g : val -> bytes -> mret) : (forall v b, f v b = g v b) -> forall l b, enc_n f l b = enc_n g l b.
Proof. intros E. induction l as [|v l IH]; intros b; [reflexivity|]. cbn [enc_n]. rewrite E. unfold m_then. destruct (g v b) as [(b' & [e|])|e| |]; cbn [bind]; try reflexivity. apply IH. Qed.
Lemma encode_agree t : forall a, ordinary t (at_place a) -> forall v b ts, g_marshal t a v b ts = marshal (erased t (at_place a)) v b ts.
Proof.
  induction t as [|k| |t IH|n t IH|t IH|fs IH| |um ma t IH] using gty_ind'; intros a Ho v b ts; try (apply at_open in Ho; subst a; reflexivity).
  - destruct Ho as (Ha & Ho). apply at_open in Ha. subst a. specialize (IH Free Ho). change (at_place Free) with Open in *.
    assert (Ex : match v with VPtr None => if optional ts then m_ok (b ++ [0]) else m_err ENonOptionalNil
        | VPtr (Some v') => let b1 := if optional ts then b ++ [1] else b in let? (b', _) := g_marshal t Free v' b1 ts in m_ok b' | _ => Panic end =
      match v with VPtr None => if optional ts then m_ok (b ++ [0]) else m_err ENonOptionalNil
        | VPtr (Some v') => let b1 := if optional ts then b ++ [1] else b in let? (b', _) := marshal (erased t Open) v' b1 ts in m_ok b' | _ => Panic end).
    { destruct v as [x|z|x|[x|]|l|l|i|]; try reflexivity. cbv zeta. rewrite IH. reflexivity. }
    destruct t as [|k| |t|n t|t|fs| |um ma t]; try exact Ex. destruct Ho as (Ho & Hn & Hb). specialize (Hb eq_refl). destruct um as [f|], ma as [g|]; try contradiction Hb; [reflexivity|].
    destruct t; try exact Ex. discriminate Hn.
  - destruct Ho as (Ha & Ho & Hna). apply at_open in Ha. subst a. change (at_place Free) with Open in *. cbn [g_marshal erased marshal]. destruct v as [x|z|x|[x|]|l|l|i|]; try reflexivity. destruct (negb _); [reflexivity|]. rewrite <- u8_erased. destruct (g_is_u8 t); [reflexivity|].
    apply enc_n_ext. intros w b'. apply (IH Free), Ho.
  - destruct Ho as (Ha & Ho). apply at_open in Ha. subst a. change (at_place Free) with Open in *. cbn [g_marshal erased marshal]. destruct v as [x|z|x|[x|]|l|l|i|]; try reflexivity. destruct (lenTag ts) as [k|]; [|reflexivity]. destruct (marshalInt k (zlen l) b) as [b1|e| |]; cbn [bind]; try reflexivity.
    rewrite <- u8_erased. destruct (g_is_u8 t); [reflexivity|]. apply enc_n_ext. intros w b'. apply (IH Free), Ho.
  - apply ordinary_fields in Ho. cbn [erased]. destruct v as [x|z|x|[x|]|l|l|i|]; try reflexivity. rewrite gm_struct, marshal_struct. revert l b.
    induction fs as [|((v & tg) & t) fs IHf]; intros l b; [reflexivity|]. pose proof (Forall_inv IH) as IH1. apply Forall_inv_tail in IH. pose proof (Forall_inv Ho) as Ho1. apply Forall_inv_tail in Ho.
    cbn [fst snd] in *. rewrite field_at in Ho1. destruct l as [|w l]; [reflexivity|]. cbn [map gm_fields marshal_fields fst snd]. fold (gm_fields a). rewrite field_at. destruct (field_tags tg) as [ts0|e| |]; cbn [bind]; try reflexivity.
    rewrite (IH1 _ Ho1). unfold m_then. destruct (marshal (erased t _) w b ts0) as [(b' & [e|])|e| |]; cbn [bind]; try reflexivity. apply (IHf IH Ho).
  - destruct Ho as (Ho & Hn & Hb). cbn [g_marshal erased]. rewrite open_at. destruct (is_free a) eqn:Ea.
    + assert (a = Free) as -> by (destruct a; [reflexivity|discriminate|discriminate]). specialize (Hb eq_refl). destruct um as [f|], ma as [g|]; try contradiction Hb; [reflexivity|]. apply IH, Ho.
    + destruct um as [f|], ma as [g|]; apply IH, Ho.
Qed.

(** For ordinary types everything is as in Model/Beserial.v, in particular (C27) ... *)
Theorem C129_ordinary_partial : forall t, ordinary t Open ->
  (forall b v, g_Marshal b t v = Marshal b (APtr (erased t Open) v)) /\
  (forall d dst, Unmarshal d (APtr (erased t Open) dst) = (let? v := fst (g_Unmarshal d t dst) in Ok (Some v), snd (g_Unmarshal d t dst))).
Proof.
  intros t Ho. split.
  - intros b v. unfold g_Marshal. cbn [Marshal]. apply (encode_agree t Free), Ho.
  - intros d dst. unfold g_Unmarshal. cbn [Unmarshal]. rewrite (decode_agree t Free Ho). destruct (value _ _ _ _) as (r & s). reflexivity.
Qed.
Print Assumptions C129_ordinary_partial.
(** ... what Marshal writes Unmarshal reads back. *)
Theorem C129_roundtrip_partial : forall t v, ordinary t Open -> encodable (erased t Open) no_tags v ->
  exists e, (forall b, g_Marshal b t v = Ok (b ++ e, None)) /\ forall dst rest, g_Unmarshal (e ++ rest) t dst = (Ok v, zlen e).
Proof.
  intros t v Ho He. destruct (C27_decode_inverts_encode _ _ He) as (e & _ & HM & HU & _). destruct (C129_ordinary_partial t Ho) as (EM & EU).
  exists e. split; [intros b; rewrite EM; apply HM|]. intros dst rest. specialize (EU (e ++ rest) dst). rewrite HU in EU.
  destruct (g_Unmarshal (e ++ rest) t dst) as (r & n). cbn [fst snd] in EU. injection EU as E1 E2. destruct r as [w|x| |]; cbn [bind] in E1; try discriminate E1. injection E1 as ->. subst. reflexivity.
Qed.
Print Assumptions C129_roundtrip_partial.

(** *** Hidden data *)
Definition never_ok {A} (x : M A) : Prop := forall s a s', x s <> (Ok a, s').
Lemma never_bind {A B} (x : M A) (f : A -> M B) : never_ok x -> never_ok (mbind x f).
Proof. intros N s b s'. unfold mbind. destruct (x s) as ([a|e| |] & s1) eqn:E; try discriminate. exfalso. exact (N _ _ _ E). Qed.
Lemma never_then {A B} (x : M A) (f : A -> M B) : (forall a, never_ok (f a)) -> never_ok (mbind x f).
Proof. intros N s b s'. unfold mbind. destruct (x s) as ([a|e| |] & s1) eqn:E; try discriminate. apply N. Qed.
Lemma never_panic {A} : never_ok (A := A) (fail Panic).
Proof. intros s a s'. discriminate. Qed.
Lemma never_err {A} e : never_ok (A := A) (err e).
Proof. intros s a s'. discriminate. Qed.
Lemma never_set a v : is_free a = false -> never_ok (set a v).
Proof. intros E. unfold set. rewrite E. apply never_panic. Qed.
Lemma negb_free a : negb (is_free a) = true -> is_free a = false.
Proof. destruct (is_free a); [discriminate|reflexivity]. Qed.
Lemma hidden_never t : forall a ts dst, hides t (at_place a) ts = true -> never_ok (g_value t a ts dst).
Proof.
  induction t as [|k| |t IH|n t IH|t IH|fs IH| |um ma t IH] using gty_ind'; intros a ts dst Hh; cbn [hides] in Hh; rewrite ?open_at in Hh.
  - apply negb_free in Hh. apply never_then. intros [|z [|z' l]]; try apply never_err; destruct z as [|[p|p|]|p]; try apply never_err; apply never_set, Hh.
  - apply negb_free in Hh. apply never_then. intros z. apply never_set, Hh.
  - apply negb_free in Hh. apply never_then. intros u. intros s. apply (never_then (pop u)). intros b. apply never_bind, never_set, Hh.
  - assert (Ng : never_ok (if is_free a then do v <- g_value t Free ts (g_zero t); ret (VPtr (Some v)) else fail Panic) -> (is_free a = true -> optional ts = false) ->
      never_ok (if optional ts then do flag <- pop 1; match flag with [0] => set a (VPtr None) | [1] => if is_free a then do v <- g_value t Free ts (g_zero t); ret (VPtr (Some v)) else fail Panic | _ => err EBadOptionalFlag end
        else if is_free a then do v <- g_value t Free ts (g_zero t); ret (VPtr (Some v)) else fail Panic)).
    { intros N Hop. destruct (optional ts) eqn:Eo; [|exact N]. apply never_then. destruct (is_free a) eqn:Ea; [discriminate (Hop eq_refl)|].
      intros [|z [|z' l]]; try apply never_err; destruct z as [|[p|p|]|p]; try apply never_err; [apply never_set, Ea|exact N]. }
    destruct (is_free a) eqn:Ea.
    + cbn [negb orb] in Hh. apply andb_true_iff in Hh as (Ho & Hh). apply negb_true_iff in Ho.
      assert (Hg : hides t Open ts = true /\ match t with GNamed (Some _) _ _ => False | _ => True end) by (destruct t as [| | | | | | | |[?|] ? ?]; try (split; [exact Hh|exact I]); discriminate Hh).
      destruct Hg as (Hg & Hn). specialize (Ng (never_bind _ _ (IH Free ts (g_zero t) Hg)) (fun _ => Ho)).
      cbn [g_value]. rewrite Ea. destruct t as [| | | | | | | |[?|] ? ?]; try exact Ng. contradiction Hn.
    + specialize (Ng never_panic ltac:(discriminate)). cbn [g_value]. rewrite Ea. destruct t as [| | | | | | | |[?|] ? ?]; exact Ng.
  - cbn [g_value]. destruct (g_is_u8 t).
    + apply negb_free in Hh. apply never_then. intros b. destruct (is_named t); [apply never_panic|apply never_set, Hh].
    + apply andb_true_iff in Hh as (Hn & Hh). destruct n as [|n]; [discriminate Hn|]. apply never_bind. cbn [dec_n]. rewrite elem_at in Hh. apply never_bind, IH, Hh.
  - apply negb_free in Hh. cbn [g_value]. apply never_then. intros u. destruct (g_is_u8 t).
    + intros s. apply (never_then (pop u)). intros b. apply never_bind, never_set, Hh.
    + intros s v s'. destruct (_ <? _); [discriminate|]. revert s v s'. apply (never_then (alloc_elems u)). intros []. apply never_bind, never_set, Hh.
  - rewrite g_struct. apply never_bind. generalize (elems_of dst). clear dst. induction fs as [|((v & tg) & t) fs IHf]; intros l; [discriminate Hh|].
    pose proof (Forall_inv IH) as IH1. apply Forall_inv_tail in IH. cbn [existsb fst snd] in Hh, IH1. cbn [g_fields]. fold (g_fields a). apply orb_true_iff in Hh as [Hh|Hh].
    + destruct (field_tags tg) as [ts0|e| |] eqn:Et; try discriminate Hh. intros s. rewrite field_at in Hh. apply (never_bind (g_value t (field_access a v) ts0 (hd_val l))). apply IH1, Hh.
    + apply never_then. intros ts0. apply never_then. intros w. apply never_bind. apply (IHf IH). exact Hh.
  - apply never_err.
  - cbn [g_value]. destruct um as [f|]; [|apply IH, Hh]. apply andb_true_iff in Hh as (Ha & Hh). apply negb_free in Ha. rewrite Ha. apply IH, Hh.
Qed.
(** Whatever the input and the destination, a type with hidden data is never decoded. *)
Theorem C129_hidden_never_read : forall t d dst v n, hides t Open no_tags = true -> g_Unmarshal d t dst <> (Ok v, n).
Proof.
  intros t d dst v n Hh E. unfold g_Unmarshal in E. destruct (g_value t Free no_tags dst (DState d [])) as (r & s) eqn:Eg. injection E as -> _.
  exact (hidden_never t Free no_tags dst Hh _ _ _ Eg).
Qed.
Print Assumptions C129_hidden_never_read.

(** *** Writing *)
Lemma u8_published t a : g_is_u8 (published t a) = g_is_u8 t.
Proof. unfold g_is_u8. assert (E : forall a, g_num_kind (published t a) = g_num_kind t); [|rewrite E; reflexivity]. induction t using gty_ind'; intros a'; try reflexivity. cbn [published g_num_kind]. apply IHt. Qed.
(** Marshal writes hidden parts like exported ones, but without calling their methods. *)
Theorem C129_hidden_written : forall t v b, g_Marshal b t v = g_Marshal b (published t Open) v.
Proof.
  assert (G : forall t a v b ts, g_marshal t a v b ts = g_marshal (published t (at_place a)) Free v b ts); [|intros; apply (G t Free)].
  induction t as [|k| |t IH|n t IH|t IH|fs IH| |um ma t IH] using gty_ind'; intros a v b ts; try reflexivity.
  - cbn [published].
    assert (Ex : match v with VPtr None => if optional ts then m_ok (b ++ [0]) else m_err ENonOptionalNil
        | VPtr (Some v') => let b1 := if optional ts then b ++ [1] else b in let? (b', _) := g_marshal t a v' b1 ts in m_ok b' | _ => Panic end =
      match v with VPtr None => if optional ts then m_ok (b ++ [0]) else m_err ENonOptionalNil
        | VPtr (Some v') => let b1 := if optional ts then b ++ [1] else b in let? (b', _) := g_marshal (published t (at_place a)) Free v' b1 ts in m_ok b' | _ => Panic end).
    { destruct v as [x|z|x|[x|]|l|l|i|]; try reflexivity. cbv zeta. rewrite IH. reflexivity. }
    destruct t as [|k| |t|n t|t|fs| |um ma t]; try exact Ex. cbn [g_marshal published]. cbn [g_marshal published] in Ex. rewrite open_at in *. destruct ma as [f|]; destruct (is_free a) eqn:Ea; try exact Ex. reflexivity.
  - cbn [published g_marshal]. destruct v as [x|z|x|[x|]|l|l|i|]; try reflexivity. destruct (negb _); [reflexivity|]. rewrite u8_published. destruct (g_is_u8 t); [reflexivity|].
    apply enc_n_ext. intros w b'. rewrite elem_at. apply IH.
  - cbn [published g_marshal]. destruct v as [x|z|x|[x|]|l|l|i|]; try reflexivity. destruct (lenTag ts) as [k|]; [|reflexivity]. destruct (marshalInt k (zlen l) b) as [b1|e| |]; cbn [bind]; try reflexivity.
    rewrite u8_published. destruct (g_is_u8 t); [reflexivity|]. apply enc_n_ext. intros w b'. rewrite elem_at. apply IH.
  - destruct v as [x|z|x|[x|]|l|l|i|]; try reflexivity. cbn [published]. rewrite !gm_struct. revert l b.
    induction fs as [|((v & tg) & t) fs IHf]; intros l b; [reflexivity|]. pose proof (Forall_inv IH) as IH1. apply Forall_inv_tail in IH. cbn [fst snd] in IH1.
    destruct l as [|w l]; [reflexivity|]. cbn [map gm_fields fst snd]. fold (gm_fields a) (gm_fields Free). rewrite field_at. destruct (field_tags tg) as [ts0|e| |]; cbn [bind]; try reflexivity.
    change (field_access Free Exported) with Free. rewrite IH1. unfold m_then. destruct (g_marshal (published t _) Free w b ts0) as [(b' & [e|])|e| |]; cbn [bind]; try reflexivity. apply (IHf IH).
  - cbn [published g_marshal]. rewrite open_at. destruct ma as [f|]; [|destruct (is_free a); apply IH]. destruct (is_free a); [reflexivity|apply IH].
Qed.
Print Assumptions C129_hidden_written.

(** *** False: that Unmarshal reads back what Marshal writes *)
(** struct { x uint8 }, with an unexported field *)
Definition secret : gty := GStruct [(Unexported, None, GNum U8)].
Theorem C129_hidden_refuted : forall z rest, 0 <= z < 256 ->
  g_Marshal [] secret (VStruct [VNum z]) = Ok ([z], None) /\ forall dst, fst (g_Unmarshal (z :: rest) secret dst) = Panic.
Proof.
  intros z rest Hz. split.
  - cbn. unfold marshalNumber, to_kind. cbn. rewrite !(Z.mod_small z 256) by lia. rewrite Z.div_1_r, Z.mod_small by lia. reflexivity.
  - intros dst. assert (Ep : pop (Z.of_nat 1) (DState (z :: rest) []) = (Ok [z], DState rest [])).
    { unfold pop. cbn [data]. change (Z.of_nat 1) with 1. destruct (Z.ltb_spec (zlen (z :: rest)) 1) as [Hl|_]; [unfold zlen in Hl; cbn [List.length] in Hl; lia|]. reflexivity. }
    unfold g_Unmarshal, secret. cbn [g_value]. unfold number, mbind, fail. cbn [field_tags width]. rewrite Ep. reflexivity.
Qed.
Print Assumptions C129_hidden_refuted.
(** type octet uint8; an array of them, as a field or alone *)
Definition octets (n : nat) : gty := GArray n (GNamed None None (GNum U8)).
Theorem C129_named_bytes_refuted : forall e rest, Forall (fun z => 0 <= z < 256) e ->
  g_Marshal [] (octets (List.length e)) (VList (map VNum e)) = Ok (e, None) /\ forall dst, fst (g_Unmarshal (e ++ rest) (octets (List.length e)) dst) = Panic.
Proof.
  intros e rest He. split.
  - unfold g_Marshal, octets. cbn [g_marshal]. rewrite map_length, Nat.eqb_refl. cbn [negb g_is_u8 g_num_kind].
    replace (raw_bytes (map VNum e)) with (Some e); [reflexivity|]. induction e as [|z e IH]; [reflexivity|]. cbn [map raw_bytes]. rewrite <- (IH (Forall_inv_tail He)). reflexivity.
  - intros dst. unfold g_Unmarshal, octets. cbn [g_value g_is_u8 g_num_kind is_named]. unfold mbind, pop. cbn [data].
    rewrite (proj2 (Z.ltb_ge (zlen (e ++ rest)) (Z.of_nat (List.length e)))) by (unfold zlen; rewrite app_length; lia). reflexivity.
Qed.
Print Assumptions C129_named_bytes_refuted.
(** A type with an exported field in an embedded unexported struct is read; one with hidden data behind
    a pointer, or in a hidden type that has methods, is not; a hidden type's own MarshalBESerial is not called. *)
Example C129_cases :
  let inner := GStruct [(Exported, None, GNum U16)] in
  let loud := GNamed (Some (fun v d => Ok (v, 0))) (Some (fun v b => Ok (b ++ [1; 2; 3], None))) (GNum U8) in
  g_Unmarshal [1; 2] (GStruct [(EmbeddedUnexported, None, inner)]) (VStruct [VStruct [VNum 0]]) = (Ok (VStruct [VStruct [VNum 258]]), 2) /\
  hides (GStruct [(EmbeddedUnexported, None, inner)]) Open no_tags = false /\
  hides (GPtr secret) Open no_tags = true /\ hides (GStruct [(Unexported, None, loud)]) Open no_tags = true /\
  hides (GStruct [(Exported, None, loud)]) Open no_tags = false /\
  g_Marshal [] (GStruct [(Exported, None, loud)]) (VStruct [VNum 7]) = Ok ([1; 2; 3], None) /\
  g_Marshal [] (GStruct [(Unexported, None, loud)]) (VStruct [VNum 7]) = Ok ([7], None) /\
  ordinary (GStruct [(EmbeddedUnexported, None, GNamed None None inner); (Exported, None, loud); (Exported, Some (str "len_tag=uint8"), GSlice (GNamed None None (GNum U32)))]) Open.
Proof. repeat split. Qed.
