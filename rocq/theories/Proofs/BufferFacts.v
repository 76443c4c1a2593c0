(** Marshal on slices (Model/MarshalSlices.v) simulates Marshal on lists. *)
From Coq Require Import ZArith List Lia Bool.
From stdpp Require Import gmap list.
From Verif.Model Require Import Base Address Beserial TreeSlices MarshalSlices.
From Verif.Spec Require Import BeserialSpec SliceHistory BufferSpec.
From Verif.Proofs Require Import BaseFacts BeserialFacts SliceSim.
Open Scope Z_scope.

(** Only the unused capacity of [x] changes. *)
Definition only_spare (x : slice) (A A' : arrays) : Prop :=
  (length A <= length A')%nat /\
  forall a, (a < length A)%nat -> length (array A' a) = length (array A a) /\
    forall i, (a <> s_arr x \/ i < s_off x + s_len x \/ s_off x + s_cap x <= i)%nat -> array A' a !! i = array A a !! i.
(** [y] is [x] made longer in place, or new, or nil. *)
Definition in_place (x y : slice) : Prop :=
  s_arr y = s_arr x /\ s_off y = s_off x /\ (s_len x <= s_len y)%nat /\ s_cap y = s_cap x.
Definition derived (A : arrays) (x y : slice) : Prop :=
  in_place x y \/ (length A <= s_arr y)%nat \/ s_cap y = 0%nat.

Lemma spare_refl x A : only_spare x A A.
Proof. split; [lia|auto]. Qed.
Lemma spare_valid x A A' z : only_spare x A A' -> valid A z -> valid A' z.
Proof. intros (L & F) (V1 & V2 & V3). destruct (F _ V1) as (E & _). split; [lia|]. rewrite E. auto. Qed.
Lemma spare_content x A A' z : only_spare x A A' -> valid A z -> apart z x -> content A' z = content A z.
Proof.
  intros (L & F) (V1 & V2 & V3) Hz. destruct (F _ V1) as (E & G). unfold content. apply list_eq. intros i.
  destruct (decide (i < s_len z)%nat) as [Hi|Hi].
  - rewrite !lookup_take, !lookup_drop by exact Hi. apply G. unfold apart in Hz. intuition lia.
  - rewrite !lookup_take_ge by lia. reflexivity.
Qed.
Lemma spare_trans x y A A' A'' : only_spare x A A' -> derived A x y -> valid A' y -> only_spare y A' A'' -> only_spare x A A''.
Proof.
  intros (L1 & F1) Hd (_ & Hlc & _) (L2 & F2). split; [lia|]. intros a Ha. destruct (F1 a Ha) as (E1 & G1). destruct (F2 a ltac:(lia)) as (E2 & G2).
  split; [congruence|]. intros i Hi. rewrite <- (G1 i Hi). apply G2. destruct Hd as [(H1 & H2 & H3 & H4)|[Hd|Hd]].
  - rewrite H1, H2, H4. intuition lia.
  - left. lia.
  - right. lia.
Qed.
Lemma derived_refl A x : derived A x x.
Proof. left. repeat split; lia. Qed.
Lemma derived_trans A A' x y z : derived A x y -> (length A <= length A')%nat -> derived A' y z -> derived A x z.
Proof.
  unfold derived, in_place. intros H1 HL H2. destruct H2 as [(E1 & E2 & E3 & E4)|[H2|H2]]; [|right; left; lia|right; right; exact H2].
  destruct H1 as [(F1 & F2 & F3 & F4)|[H1|H1]]; [left; intuition (congruence || lia)|right; left; congruence|right; right; congruence].
Qed.

Lemma append_step grow A x ys A' y : valid A x -> append grow A x ys = (A', y) ->
  valid A' y /\ content A' y = content A x ++ ys /\ only_spare x A A' /\ derived A x y /\
  s_len y = (s_len x + length ys)%nat /\
  ((s_len x + length ys <= s_cap x)%nat -> in_place x y /\
     forall i, (s_off y + s_len y <= i)%nat -> array A' (s_arr x) !! i = array A (s_arr x) !! i).
Proof.
  intros Hv E. destruct (append_spec grow A x ys A' y Hv E) as (V & C & _ & Hl & _ & _). split; [exact V|]. split; [exact C|].
  unfold append in E. case_bool_decide as Hn.
  - injection E as <- <-. destruct Hv as (V1 & V2 & V3). cbn [s_arr s_off s_len s_cap] in *.
    assert (La : length (overwrite A (s_arr x) (s_off x + s_len x) ys) = length A) by (unfold overwrite; apply insert_length).
    assert (Hip : in_place x (Sl (s_arr x) (s_off x) (s_len x + length ys) (s_cap x))) by (repeat split; cbn; lia).
    assert (Hout : forall i, (i < s_off x + s_len x \/ s_off x + (s_len x + length ys) <= i)%nat ->
        (take (s_off x + s_len x) (array A (s_arr x)) ++ ys ++ drop (s_off x + s_len x + length ys) (array A (s_arr x))) !! i = array A (s_arr x) !! i).
    { intros i [Hi|Hi].
      - rewrite lookup_app_l by (rewrite take_length; lia). apply lookup_take, Hi.
      - rewrite lookup_app_r by (rewrite take_length; lia). rewrite take_length, Nat.min_l by lia.
        rewrite lookup_app_r by lia. rewrite lookup_drop. f_equal. lia. }
    split; [|split; [left; exact Hip|split; [exact Hl|]]].
    + split; [lia|]. intros a Ha. rewrite overwrite_array by exact V1. case_decide as Ea; [|auto]. subst a. split.
      * rewrite !app_length, take_length, drop_length. lia.
      * intros i [Hi|[Hi|Hi]]; [congruence| |]; apply Hout; [left; exact Hi|right; lia].
    + intros _. split; [exact Hip|]. intros i Hi. rewrite overwrite_array by exact V1. case_decide; [|congruence]. apply Hout. right. exact Hi.
  - apply fresh_spec in E. destruct E as (_ & _ & F3 & _ & _ & F6). split; [|split; [right; left; lia|split; [exact Hl|lia]]].
    destruct (F6 nil_slice) as (L & F). split; [exact L|]. intros a Ha. destruct (F a Ha) as (E1 & G). split; [exact E1|]. intros i _. apply G. right. left. reflexivity.
Qed.

Lemma nil_valid A x : valid A x -> valid A nil_slice.
Proof. intros (V & _). split; [cbn; lia|]. split; cbn; lia. Qed.

Section Sim.
  Variable grow : grow_policy.
  Variable pieces : codec -> val -> bytes -> list bytes.

  Lemma appends_step ps : forall A x A' y, valid A x -> appends grow A x ps = (A', y) ->
    valid A' y /\ content A' y = content A x ++ concat ps /\ only_spare x A A' /\ derived A x y /\
    s_len y = (s_len x + length (concat ps))%nat /\
    ((s_len x + length (concat ps) <= s_cap x)%nat -> in_place x y /\
       forall i, (s_off y + s_len y <= i)%nat -> array A' (s_arr x) !! i = array A (s_arr x) !! i).
  Proof.
    induction ps as [|p ps IH]; intros A x A' y Hv E; cbn [appends concat] in *.
    - injection E as <- <-. rewrite app_nil_r. split; [exact Hv|]. split; [reflexivity|]. split; [apply spare_refl|]. split; [apply derived_refl|].
      cbn [length]. split; [lia|]. intros _. split; [repeat split; lia|]. auto.
    - destruct (append grow A x p) as (A1, x1) eqn:E1. destruct (append_step _ _ _ _ _ _ Hv E1) as (V1 & C1 & S1 & D1 & L1 & P1).
      destruct (IH _ _ _ _ V1 E) as (V2 & C2 & S2 & D2 & L2 & P2). rewrite app_length.
      split; [exact V2|]. split; [rewrite C2, C1, app_assoc; reflexivity|]. split; [eapply spare_trans; eauto|].
      split; [exact (derived_trans _ _ _ _ _ D1 (proj1 S1) D2)|]. split; [lia|]. intros Hfit.
      destruct P1 as (P1 & Q1); [lia|]. pose proof P1 as (I1 & I2 & I3 & I4). destruct P2 as (P2 & Q2); [lia|]. pose proof P2 as (J1 & J2 & J3 & J4).
      split; [repeat split; (congruence || lia)|]. intros i Hi. transitivity (array A1 (s_arr x) !! i); [rewrite <- I1; apply Q2, Hi|apply Q1; lia].
  Qed.

  (** The relation between a result on slices and the one on lists. *)
  Definition agrees (A : arrays) (x : slice) (s : sret) (m : mret) : Prop :=
    match m with
    | Ok (b, e) => exists A' y, s = Ok (A', y, e) /\ valid A' y /\ content A' y = b /\ only_spare x A A' /\ derived A x y
    | Err e => s = Err e
    | Panic => s = Panic
    | OutOfFuel => s = OutOfFuel
    end.

  Lemma agrees_append A x ys : valid A x -> agrees A x (s_ok (append grow A x ys)) (m_ok (content A x ++ ys)).
  Proof.
    intros Hv. destruct (append grow A x ys) as (A', y) eqn:E. destruct (append_step _ _ _ _ _ _ Hv E) as (V & C & S & D & _).
    exists A', y. auto.
  Qed.
  Lemma agrees_id A x : valid A x -> agrees A x (s_ok (A, x)) (m_ok (content A x)).
  Proof. intros Hv. exists A, x. split; [reflexivity|]. split; [exact Hv|]. split; [reflexivity|]. split; [apply spare_refl|apply derived_refl]. Qed.
  Lemma agrees_err A x e : valid A x -> agrees A x (s_err A e) (m_err e).
  Proof.
    intros Hv. exists A, nil_slice. split; [reflexivity|]. split; [eapply nil_valid; eauto|]. split; [reflexivity|]. split; [apply spare_refl|right; right; reflexivity].
  Qed.
  (** Continue after a step from [x] to [x1]. *)
  Lemma agrees_from A x A1 x1 s m : only_spare x A A1 -> derived A x x1 -> valid A1 x1 -> agrees A1 x1 s m -> agrees A x s m.
  Proof.
    intros S D V H. destruct m as [(b, e)|e| |]; try exact H. destruct H as (A' & y & E & V' & C & S' & D'). exists A', y.
    split; [exact E|]. split; [exact V'|]. split; [exact C|]. split; [eapply spare_trans; eauto|exact (derived_trans _ _ _ _ _ D (proj1 S) D')].
  Qed.
  Lemma agrees_then A x s m f g : valid A x -> agrees A x s m ->
    (forall A1 x1, valid A1 x1 -> agrees A1 x1 (f A1 x1) (g (content A1 x1))) ->
    agrees A x (s_then s f) (m_then m g).
  Proof.
    intros Hv H Hf. destruct m as [(b, e)|e| |]; cbn in H; [|subst s; reflexivity..].
    destruct H as (A' & y & -> & V & <- & S & D). cbn [s_then m_then bind]. unfold s_then, m_then. cbn [bind].
    eapply agrees_from; eauto. destruct e as [e|]; [apply agrees_err, V|apply Hf, V].
  Qed.
  Lemma agrees_codec c v A x : pieces_ok pieces c -> valid A x -> agrees A x (s_codec grow pieces c v A x) (cd_marshal c v (content A x)).
  Proof.
    intros Hc Hv. unfold s_codec. destruct (cd_marshal c v (content A x)) as [(b, e)|e| |] eqn:E; cbn [bind]; try reflexivity.
    destruct (appends grow A x _) as (A', y) eqn:Ea. destruct (appends_step _ _ _ _ _ Hv Ea) as (V & C & S & D & _).
    destruct e as [e|].
    - destruct (fresh_slice A' b 0) as (A'', z) eqn:Ef. apply fresh_spec in Ef. destruct Ef as (F1 & F2 & F3 & _ & _ & F6). exists A'', z.
      split; [reflexivity|]. split; [exact F1|]. split; [exact F2|]. split; [|right; left; destruct S; lia].
      eapply spare_trans; [exact S|exact D|exact V|]. destruct (F6 nil_slice) as (L & F). split; [exact L|]. intros a Ha. destruct (F a Ha) as (E1 & G).
      split; [exact E1|]. intros i _. apply G. right. left. reflexivity.
    - exists A', y. split; [reflexivity|]. split; [exact V|]. split; [rewrite C; symmetry; apply (Hc v), E|]. auto.
  Qed.
  Lemma agrees_enc_n f g l : (forall v A x, valid A x -> agrees A x (f v A x) (g v (content A x))) ->
    forall A x, valid A x -> agrees A x (s_enc_n f l A x) (enc_n g l (content A x)).
  Proof.
    intros Hf. induction l as [|v l IH]; intros A x Hv; cbn [s_enc_n enc_n]; [apply agrees_id, Hv|].
    apply agrees_then; [exact Hv|apply Hf, Hv|exact IH].
  Qed.

  Fixpoint s_fields (fs : list (option bytes * ty)) (l : list val) (A : arrays) (x : slice) : sret :=
    match fs, l with
    | [], [] => s_ok (A, x)
    | (tag, t0) :: fs', v0 :: l' =>
        let? ts0 := field_tags tag in
        s_then (s_marshal grow pieces t0 v0 A x ts0) (s_fields fs' l')
    | _, _ => Panic
    end.
  Lemma s_marshal_struct fs l A x ts : s_marshal grow pieces (TStruct fs) (VStruct l) A x ts = s_fields fs l A x.
  Proof. reflexivity. Qed.
  Lemma s_marshal_ptr t v A x ts : is_custom t = false ->
    s_marshal grow pieces (TPtr t) v A x ts =
      match v with
      | VPtr None => if optional ts then s_ok (append grow A x [0]) else s_err A ENonOptionalNil
      | VPtr (Some v') =>
          let '(A1, x1) := if optional ts then append grow A x [1] else (A, x) in
          let? (A2, x2, _) := s_marshal grow pieces t v' A1 x1 ts in s_ok (A2, x2)
      | _ => Panic
      end.
  Proof. intros Hc. destruct t; try discriminate Hc; reflexivity. Qed.

  Lemma marshalInt_step k n A x : valid A x ->
    (signed k = true /\ s_marshalInt grow k n A x = Panic /\ marshalInt k n (content A x) = Panic) \/
    exists A1 x1, s_marshalInt grow k n A x = Ok (A1, x1) /\ append grow A x (be_put (width k) n) = (A1, x1) /\
      marshalInt k n (content A x) = Ok (content A1 x1) /\ valid A1 x1 /\ only_spare x A A1 /\ derived A x x1.
  Proof.
    intros Hv. unfold s_marshalInt, marshalInt. destruct (signed k); [left; auto|right].
    destruct (append grow A x _) as (A1, x1) eqn:E. destruct (append_step _ _ _ _ _ _ Hv E) as (V & C & S & D & _).
    exists A1, x1. rewrite C. auto 7.
  Qed.

  Lemma simulation t : every_codec (pieces_ok pieces) t -> forall ts v A x, valid A x ->
    agrees A x (s_marshal grow pieces t v A x ts) (marshal t v (content A x) ts).
  Proof.
    induction t as [|k| |t IH|n t IH|t IH|fs IH| |c t IH] using ty_ind'; intros Hw ts v A x Hv.
    - destruct v; try reflexivity. apply agrees_append, Hv.
    - destruct v; try reflexivity. apply agrees_append, Hv.
    - destruct v; try reflexivity. cbn [s_marshal marshal]. destruct (lenTag ts) as [k|]; [|apply agrees_err, Hv].
      destruct (marshalInt_step k (zlen s) A x Hv) as [(_ & -> & ->)|(A1 & x1 & -> & _ & -> & V & S & D)]; [reflexivity|]. cbn [bind].
      eapply agrees_from; eauto. apply agrees_append, V.
    - destruct (is_custom t) eqn:Ec.
      + destruct t; try discriminate Ec. destruct v as [| | |[v|]| | | |]; try reflexivity. apply agrees_codec; [exact Hw|exact Hv].
      + rewrite s_marshal_ptr, marshal_ptr by exact Ec. destruct v as [| | |[v|]| | | |]; try reflexivity.
        * assert (Hx : exists A1 x1, (if optional ts then append grow A x [1] else (A, x)) = (A1, x1) /\
            content A1 x1 = (if optional ts then content A x ++ [1] else content A x) /\ valid A1 x1 /\ only_spare x A A1 /\ derived A x x1).
          { destruct (optional ts); [|exists A, x; split; [reflexivity|]; split; [reflexivity|]; split; [exact Hv|]; split; [apply spare_refl|apply derived_refl]].
            destruct (append grow A x [1]) as (A1, x1) eqn:E. destruct (append_step _ _ _ _ _ _ Hv E) as (V & C & S & D & _). exists A1, x1. auto. }
          destruct Hx as (A1 & x1 & -> & <- & V & S & D). cbv zeta. eapply agrees_from; eauto.
          specialize (IH Hw ts v A1 x1 V). destruct (marshal t v (content A1 x1) ts) as [(b, e)|e| |]; cbn in IH; [|rewrite IH; reflexivity..].
          destruct IH as (A2 & y & -> & V2 & <- & S2 & D2). exists A2, y. auto.
        * destruct (optional ts); [apply agrees_append, Hv|apply agrees_err, Hv].
    - destruct v; try reflexivity. cbn [s_marshal marshal]. destruct (negb _); [reflexivity|]. destruct (is_u8 t).
      + destruct (raw_bytes l); [apply agrees_append, Hv|reflexivity].
      + apply (agrees_enc_n (fun v A x => s_marshal grow pieces t v A x no_tags) (fun v b => marshal t v b no_tags)); [|exact Hv]. intros; apply IH; assumption.
    - destruct v; try reflexivity. cbn [s_marshal marshal]. destruct (lenTag ts) as [k|]; [|apply agrees_err, Hv].
      destruct (marshalInt_step k (zlen l) A x Hv) as [(_ & -> & ->)|(A1 & x1 & -> & _ & -> & V & S & D)]; [reflexivity|]. cbn [bind].
      eapply agrees_from; eauto. destruct (is_u8 t).
      + destruct (raw_bytes l); [apply agrees_append, V|reflexivity].
      + apply (agrees_enc_n (fun v A x => s_marshal grow pieces t v A x no_tags) (fun v b => marshal t v b no_tags)); [|exact V]. intros; apply IH; assumption.
    - destruct v; try reflexivity. rewrite s_marshal_struct, marshal_struct.
      revert l A x Hv. induction IH as [|(tag & t) fs Ht Hfs IHfs]; intros l A x Hv.
      + destruct l; [apply agrees_id, Hv|reflexivity].
      + destruct l as [|v l]; [reflexivity|]. destruct Hw as (Hw1 & Hw2). cbn [s_fields marshal_fields].
        destruct (field_tags tag) as [ts0| | |]; try reflexivity. cbn [bind].
        apply agrees_then; [exact Hv|apply (Ht Hw1), Hv|]. intros A1 x1 V. apply (IHfs Hw2), V.
    - apply agrees_err, Hv.
    - apply agrees_codec; [exact Hw|exact Hv].
  Qed.

  (** A value that can be encoded is written in place where it fits. *)
  Definition written (A : arrays) (x : slice) (n : nat) (r : sret) : Prop :=
    exists A' y, r = Ok (A', y, None) /\ valid A' y /\ s_len y = (s_len x + n)%nat /\
      ((s_len x + n <= s_cap x)%nat -> in_place x y /\
         forall i, (s_off y + s_len y <= i)%nat -> array A' (s_arr x) !! i = array A (s_arr x) !! i).
  Lemma written_append A x ys : valid A x -> written A x (length ys) (s_ok (append grow A x ys)).
  Proof.
    intros Hv. destruct (append grow A x ys) as (A', y) eqn:E. destruct (append_step _ _ _ _ _ _ Hv E) as (V & _ & _ & _ & L & P). exists A', y. auto.
  Qed.
  Lemma written_id A x : valid A x -> written A x 0 (s_ok (A, x)).
  Proof. intros Hv. exists A, x. split; [reflexivity|]. split; [exact Hv|]. split; [lia|]. intros _. split; [repeat split; lia|auto]. Qed.
  Lemma written_from A x n A1 x1 m r : written A x n (s_ok (A1, x1)) -> written A1 x1 m r -> written A x (n + m) r.
  Proof.
    intros (A' & y & E & V & L & P) (A2 & z & -> & V2 & L2 & P2). injection E as <- <-. exists A2, z. split; [reflexivity|]. split; [exact V2|]. split; [lia|].
    intros Hfit. destruct P as ((I1 & I2 & I3 & I4) & Q); [lia|]. destruct P2 as ((J1 & J2 & J3 & J4) & Q2); [lia|].
    split; [repeat split; (congruence || lia)|]. intros i Hi. transitivity (array A1 (s_arr x) !! i); [rewrite <- I1; apply Q2, Hi|apply Q; lia].
  Qed.
  Lemma written_then A x n s m f : written A x n s -> (forall A1 x1, valid A1 x1 -> written A1 x1 m (f A1 x1)) -> written A x (n + m) (s_then s f).
  Proof.
    intros (A' & y & -> & V & L & P) Hf. unfold s_then. cbn [bind]. eapply written_from; [|apply Hf, V]. exists A', y. auto.
  Qed.
  Lemma written_codec c v e : pieces_ok pieces c -> (forall b, cd_marshal c v b = Ok (b ++ e, None)) ->
    forall A x, valid A x -> written A x (length e) (s_codec grow pieces c v A x).
  Proof.
    intros Hc He A x Hv. unfold s_codec. rewrite He. cbn [bind]. destruct (appends grow A x _) as (A', y) eqn:Ea.
    destruct (appends_step _ _ _ _ _ Hv Ea) as (V & C & _ & _ & L & P).
    pose proof (Hc v _ _ (He (content A x))) as Ec. apply app_inv_head in Ec. rewrite <- Ec in L, P. exists A', y. auto.
  Qed.
  Lemma written_enc_n f l (Q : val -> Prop) : (forall v, Q v -> exists n, forall A x, valid A x -> written A x n (f v A x)) -> Forall Q l ->
    exists n, forall A x, valid A x -> written A x n (s_enc_n f l A x).
  Proof.
    intros Hf. induction 1 as [|v l Hq Hl IH]; [exists 0%nat; apply written_id|]. destruct (Hf v Hq) as (n & Hn). destruct IH as (m & Hm).
    exists (n + m)%nat. intros A x Hv. cbn [s_enc_n]. apply written_then; [apply Hn, Hv|exact Hm].
  Qed.
  Lemma written_int k n A x : valid A x -> signed k = false -> exists A1 x1, s_marshalInt grow k n A x = Ok (A1, x1) /\ valid A1 x1 /\
    written A x (length (be_put (width k) n)) (s_ok (A1, x1)).
  Proof.
    intros Hv Hs. unfold s_marshalInt. rewrite Hs. destruct (append grow A x (be_put (width k) n)) as (A1, x1) eqn:E. exists A1, x1. split; [reflexivity|].
    split; [apply (append_step _ _ _ _ _ _ Hv E)|]. rewrite <- E. apply written_append, Hv.
  Qed.

  Lemma fits t : well_declared codec_total t -> every_codec (pieces_ok pieces) t -> forall ts v, tags_unsigned ts -> typed t v -> parts_ok t ts v ->
    exists n, forall A x, valid A x -> written A x n (s_marshal grow pieces t v A x ts).
  Proof.
    induction t as [|k| |t IH|n t IH|t IH|fs IH| |c t IH] using ty_ind'; intros Hw He ts v Hu Hv Hp.
    - destruct v; try contradiction. exists 1%nat. intros. apply (written_append A x [_]); assumption.
    - destruct v; try contradiction. eexists. intros. apply written_append; assumption.
    - destruct v as [| |s| | | | |]; try contradiction. cbn [parts_ok] in Hp. destruct (lenTag ts) as [k|] eqn:Hk; [|congruence].
      eexists. intros A x V. cbn [s_marshal]. rewrite Hk. destruct (written_int k (zlen s) A x V (Hu k Hk)) as (A1 & x1 & -> & V1 & W1). cbn [bind].
      eapply written_from; [exact W1|apply written_append, V1].
    - destruct Hw as (Hc & Hw). destruct v as [| | |[v|]| | | |]; try contradiction; cbn [parts_ok] in Hp.
      + destruct (IH Hw He ts v Hu Hv Hp) as (n & Hn). destruct (optional ts) eqn:Eo.
        * exists (1 + n)%nat. intros A x V. rewrite s_marshal_ptr, Eo by exact Hc. pose proof (written_append A x [1] V) as W.
          destruct (append grow A x [1]) as (A1, x1) eqn:E. destruct (append_step _ _ _ _ _ _ V E) as (V1 & _).
          eapply written_from; [exact W|]. destruct (Hn A1 x1 V1) as (A2 & y & -> & Hr). exists A2, y. auto.
        * exists n. intros A x V. rewrite s_marshal_ptr, Eo by exact Hc. destruct (Hn A x V) as (A2 & y & -> & Hr). exists A2, y. auto.
      + exists 1%nat. intros A x V. rewrite s_marshal_ptr, Hp by exact Hc. apply (written_append A x [0] V).
    - destruct Hw as (Hok & Hw). destruct v as [| | | |vs| | |]; try contradiction. destruct Hv as (Hl & Hv). cbn [parts_ok] in Hp.
      destruct (is_u8 t) eqn:Eu.
      + pose proof (u8_num t Hok Eu) as ->. destruct (raw_typed vs Hv) as (r & Er & _). exists (length r).
        intros A x V. cbn [s_marshal]. rewrite Hl, Nat.eqb_refl. cbn [negb is_u8 num_kind]. rewrite Er. apply written_append, V.
      + destruct (written_enc_n (fun v A x => s_marshal grow pieces t v A x no_tags) vs (fun v => typed t v /\ parts_ok t no_tags v)) as (m & Hm).
        { intros v (H1 & H2). apply (IH Hw He no_tags v); auto. intros k; discriminate. }
        { clear Hl. induction Hv; inversion Hp; subst; constructor; auto. }
        exists m. intros A x V. cbn [s_marshal]. rewrite Hl, Nat.eqb_refl, Eu. apply Hm, V.
    - destruct Hw as (Hok & Hw). destruct v as [| | | |vs| | |]; try contradiction. cbn [typed] in Hv. cbn [parts_ok] in Hp.
      destruct Hp as (Hn & Hp). destruct (lenTag ts) as [k|] eqn:Hk; [|congruence].
      destruct (is_u8 t) eqn:Eu.
      + pose proof (u8_num t Hok Eu) as ->. destruct (raw_typed vs Hv) as (r & Er & _). eexists.
        intros A x V. cbn [s_marshal]. rewrite Hk. destruct (written_int k (zlen vs) A x V (Hu k Hk)) as (A1 & x1 & -> & V1 & W1). cbn [bind is_u8 num_kind].
        rewrite Er. eapply written_from; [exact W1|apply written_append, V1].
      + destruct (written_enc_n (fun v A x => s_marshal grow pieces t v A x no_tags) vs (fun v => typed t v /\ parts_ok t no_tags v)) as (m & Hm).
        { intros v (H1 & H2). apply (IH Hw He no_tags v); auto. intros k'; discriminate. }
        { clear Hn. induction Hv; inversion Hp; subst; constructor; auto. }
        eexists. intros A x V. cbn [s_marshal]. rewrite Hk. destruct (written_int k (zlen vs) A x V (Hu k Hk)) as (A1 & x1 & -> & V1 & W1). cbn [bind].
        rewrite Eu. eapply written_from; [exact W1|apply Hm, V1].
    - destruct v as [| | | | |vs| |]; try contradiction.
      change (all_declared codec_total fs) in Hw. change (all_typed fs vs) in Hv. change (all_parts fs vs) in Hp.
      setoid_rewrite s_marshal_struct. revert vs Hv Hp. induction IH as [|(tag & t) fs Ht Hfs IHfs]; intros vs Hv Hp.
      + destruct vs; [|contradiction]. exists 0%nat. intros A x V. apply written_id, V.
      + destruct vs as [|v vs]; [contradiction|]. destruct Hv as (Hv & Hvs). destruct Hw as (_ & Hw1 & Hw2). destruct He as (He1 & He2).
        destruct Hp as ((ts0 & Hts & Hp1) & Hp2).
        destruct (Ht Hw1 He1 ts0 v (field_tags_unsigned _ _ Hts) Hv Hp1) as (n & M1).
        destruct (IHfs Hw2 He2 vs Hvs Hp2) as (m & M2). exists (n + m)%nat.
        intros A x V. cbn [s_fields]. rewrite Hts. cbn [bind]. apply written_then; [apply M1, V|exact M2].
    - contradiction.
    - destruct Hp as (e & Hm). exists (length e). intros A x V. apply written_codec; assumption.
  Qed.
End Sim.

(** Codecs that append when they succeed. *)
Definition appending (c : codec) : Prop := forall v b r, cd_marshal c v b = Ok (r, None) -> exists e, r = b ++ e.
Lemma app_trans (b b1 r : bytes) : (exists e, b1 = b ++ e) -> (exists e, r = b1 ++ e) -> exists e, r = b ++ e.
Proof. intros (e & ->) (e' & ->). exists (e ++ e'). rewrite app_assoc. reflexivity. Qed.
Lemma enc_n_appending f l : (forall v b r, f v b = Ok (r, None) -> exists e, r = b ++ e) ->
  forall b r, enc_n f l b = Ok (r, None) -> exists e, r = b ++ e.
Proof.
  intros Hf. induction l as [|v l IH]; intros b r E; cbn in E; [injection E as <-; exists []; rewrite app_nil_r; reflexivity|].
  unfold m_then in E. destruct (f v b) as [(b1, [er|])|er| |] eqn:E1; cbn in E; try discriminate E. eapply app_trans; eauto.
Qed.
Lemma marshalInt_appending k n b b1 : marshalInt k n b = Ok b1 -> exists e, b1 = b ++ e.
Proof. unfold marshalInt. destruct (signed k); [discriminate|]. intros E. injection E as <-. eauto. Qed.
Lemma marshal_appending t : pointer_free t -> every_codec appending t -> forall ts v b r, marshal t v b ts = Ok (r, None) -> exists e, r = b ++ e.
Proof.
  induction t as [|k| |t IH|n t IH|t IH|fs IH| |c t IH] using ty_ind'; intros Hf Hw ts v b r E.
  - destruct v; try discriminate E. injection E as <-. eauto.
  - destruct v; try discriminate E. injection E as <-. eexists; reflexivity.
  - destruct v; try discriminate E. cbn in E. destruct (lenTag ts); [|discriminate E]. destruct (marshalInt _ _ b) as [b1| | |] eqn:E1; try discriminate E.
    cbn in E. injection E as <-. eapply app_trans; [eapply marshalInt_appending; eauto|eauto].
  - destruct Hf.
  - destruct v; try discriminate E. cbn [marshal] in E. destruct (negb _); [discriminate E|]. destruct (is_u8 t).
    + destruct (raw_bytes l); [|discriminate E]. injection E as <-. eauto.
    + eapply enc_n_appending; [|exact E]. intros v b' r' E'. exact (IH Hf Hw _ _ _ _ E').
  - destruct v; try discriminate E. cbn [marshal] in E. destruct (lenTag ts); [|discriminate E]. destruct (marshalInt _ _ b) as [b1| | |] eqn:E1; try discriminate E.
    cbn [bind] in E. eapply app_trans; [eapply marshalInt_appending; eauto|]. destruct (is_u8 t).
    + destruct (raw_bytes l); [|discriminate E]. injection E as <-. eauto.
    + eapply enc_n_appending; [|exact E]. intros v b' r' E'. exact (IH Hf Hw _ _ _ _ E').
  - destruct v; try discriminate E. rewrite marshal_struct in E.
    revert l b E. induction IH as [|(tag & t) fs Ht Hfs IHfs]; intros l b E.
    + destruct l; [|discriminate E]. injection E as <-. exists []. rewrite app_nil_r. reflexivity.
    + destruct l as [|v l]; [discriminate E|]. destruct Hw as (Hw1 & Hw2). destruct Hf as (Hf1 & Hf2). cbn [marshal_fields] in E.
      destruct (field_tags tag) as [ts0| | |]; try discriminate E. cbn [bind] in E. unfold m_then in E.
      destruct (marshal t v b ts0) as [(b1, [er|])|er| |] eqn:E1; cbn in E; try discriminate E.
      eapply app_trans; [exact (Ht Hf1 Hw1 _ _ _ _ E1)|exact (IHfs Hf2 Hw2 _ _ E)].
  - discriminate E.
  - exact (Hw v b r E).
Qed.
