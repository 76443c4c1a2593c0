(** Lemmas about decoding into memory (Model/DecodeMemory.v). *)
From Coq Require Import ZArith List Lia Bool.
Import ListNotations.
From Verif.Model Require Import Base Address Beserial DecodeMemory.
From Verif.Spec Require Import BeserialSpec OwnershipSpec.
From Verif.Proofs Require Import BaseFacts BeserialFacts.
Open Scope Z_scope.

(** ** Named loops *)
Fixpoint read_fields (m : mem) (fs : list (option bytes * ty)) (l : list mval) : option (list val) :=
  match fs, l with
  | [], [] => Some []
  | (_, t0) :: fs', y :: l' => match read t0 m y, read_fields m fs' l' with Some v, Some vs => Some (v :: vs) | _, _ => None end
  | _, _ => None
  end.
Lemma read_struct fs m l : read (TStruct fs) m (MStruct l) = option_map VStruct (read_fields m fs l).
Proof. cbn [read]. f_equal. revert l. induction fs as [|(g & t) fs IH]; intros [|y l]; cbn; try reflexivity. rewrite <- IH. reflexivity. Qed.
Fixpoint cells_fields (m : mem) (fs : list (option bytes * ty)) (l : list mval) : list nat :=
  match fs, l with
  | (_, t0) :: fs', y :: l' => cells t0 m y ++ cells_fields m fs' l'
  | _, _ => []
  end.
Lemma cells_struct fs m l : cells (TStruct fs) m (MStruct l) = cells_fields m fs l.
Proof. cbn [cells]. revert l. induction fs as [|(g & t) fs IH]; intros [|y l]; cbn; try reflexivity. rewrite <- IH. reflexivity. Qed.
Fixpoint shaped_fields (fs : list (option bytes * ty)) (vs : list val) : Prop :=
  match fs, vs with
  | [], [] => True
  | (_, t) :: fs, v :: vs => shaped t v /\ shaped_fields fs vs
  | _, _ => False
  end.
Fixpoint plain_fields (fs : list (option bytes * ty)) : Prop :=
  match fs with [] => True | (_, t) :: fs => plain t /\ plain_fields fs end.
Fixpoint place_fields (fs : list (option bytes * ty)) (vs : list val) (m : mem) : list mval * mem :=
  match fs, vs with
  | (_, t0) :: fs', v0 :: vs' =>
      let '(x, m1) := place t0 v0 m in let '(xs, m2) := place_fields fs' vs' m1 in (x :: xs, m2)
  | _, _ => ([], m)
  end.
Lemma place_struct fs vs m : place (TStruct fs) (VStruct vs) m = let '(xs, m1) := place_fields fs vs m in (MStruct xs, m1).
Proof. reflexivity. Qed.
Fixpoint mfields (fs : list (option bytes * ty)) (l : list mval) (s : dec) : outcome (list mval) :=
  match fs, l with
  | [], _ => (Ok tt, [], s)
  | (tag, t0) :: fs', y :: l' =>
      match field_tags tag with
      | Ok ts0 =>
          match mvalue t0 ts0 y s with
          | (Ok _, z, s1) => let '(r, zs, s2) := mfields fs' l' s1 in (r, z :: zs, s2)
          | (r, z, s1) => (r, z :: l', s1)
          end
      | r => (lost r, y :: l', s)
      end
  | _, [] => (Panic, [], s)
  end.
Lemma mvalue_struct fs ts l s : mvalue (TStruct fs) ts (MStruct l) s = let '(r, ys, s1) := mfields fs l s in (r, MStruct ys, s1).
Proof. reflexivity. Qed.

(** ** Memory *)
Lemma set_cell_app m c l r : set_cell (m ++ c :: r) (length m) l = m ++ l :: r.
Proof. induction m as [|x m IH]; cbn; [reflexivity|]. rewrite IH. reflexivity. Qed.
Lemma cell_nth m c : cell m c = match nth_error m c with Some l => l | None => [] end.
Proof. unfold cell. revert c. induction m as [|x m IH]; intros [|c]; cbn; auto. Qed.
Lemma all_some_in {A} l (r : list A) : all_some l = Some r -> forall x, In x l -> exists y, x = Some y.
Proof.
  revert r. induction l as [|[y|] l IH]; intros r E x Hx; cbn in *; try discriminate; [destruct Hx|].
  destruct (all_some l) as [q|]; [|discriminate]. destruct Hx as [<-|Hx]; [eauto|]. exact (IH q eq_refl x Hx).
Qed.
Lemma all_some_length {A} l : forall (r : list A), all_some l = Some r -> length r = length l.
Proof.
  induction l as [|[y|] l IH]; intros r E; cbn in *; try discriminate; [injection E as <-; reflexivity|].
  destruct (all_some l) as [q|]; [|discriminate]. injection E as <-. cbn. rewrite (IH q eq_refl). reflexivity.
Qed.

(** Reading depends only on the cells that are reached. *)
Lemma frame t : forall m m' x, (forall c, In c (cells t m x) -> nth_error m' c = nth_error m c) ->
  read t m' x = read t m x /\ cells t m' x = cells t m x.
Proof.
  induction t as [|k| |t IH|n t IH|t IH|fs IH| |c t IH] using ty_ind'; intros m m' x H.
  1-3: destruct x; split; reflexivity.
  - destruct x as [| | |[c|]| | | |]; try (split; reflexivity). cbn [cells read] in *. rewrite (H c (or_introl eq_refl)).
    destruct (nth_error m c) as [[|y l]|]; try (split; reflexivity).
    destruct (IH m m' y) as (-> & ->); [|split; reflexivity]. intros c' Hc. apply H. right. exact Hc.
  - destruct x as [| | | |l| | |]; try (split; reflexivity). cbn [cells read] in *.
    assert (E : map (read t m') l = map (read t m) l /\ flat_map (cells t m') l = flat_map (cells t m) l).
    { clear -IH H. induction l as [|y l IHl]; [split; reflexivity|]. cbn [map flat_map] in *.
      destruct (IH m m' y) as (-> & ->); [intros c Hc; apply H; apply in_or_app; left; exact Hc|].
      destruct IHl as (-> & ->); [intros c Hc; apply H; apply in_or_app; right; exact Hc|]. split; reflexivity. }
    destruct E as (-> & ->). split; reflexivity.
  - destruct x as [| | | | |c off len| |]; try (split; reflexivity). destruct len as [|len]; [split; reflexivity|].
    cbn [cells read] in *. assert (Ee : elems_at m' c off (S len) = elems_at m c off (S len)).
    { unfold elems_at. rewrite !cell_nth, (H c (or_introl eq_refl)). reflexivity. }
    rewrite Ee. assert (H' : forall c0, In c0 (flat_map (cells t m) (elems_at m c off (S len))) -> nth_error m' c0 = nth_error m c0) by (intros c0 Hc; apply H; right; exact Hc).
    revert H'. generalize (elems_at m c off (S len)) as l. intros l H'.
    assert (E : map (read t m') l = map (read t m) l /\ flat_map (cells t m') l = flat_map (cells t m) l).
    { clear -IH H'. induction l as [|y l IHl]; [split; reflexivity|]. cbn [map flat_map] in *.
      destruct (IH m m' y) as (-> & ->); [intros c Hc; apply H'; apply in_or_app; left; exact Hc|].
      destruct IHl as (-> & ->); [intros c Hc; apply H'; apply in_or_app; right; exact Hc|]. split; reflexivity. }
    destruct E as (-> & ->). split; reflexivity.
  - destruct x as [| | | | | |l|]; try (split; reflexivity). rewrite !read_struct, !cells_struct in *.
    assert (E : read_fields m' fs l = read_fields m fs l /\ cells_fields m' fs l = cells_fields m fs l).
    { revert l H. induction IH as [|(g & t) fs Ht Hfs IHfs]; intros [|y l] H; cbn [read_fields cells_fields snd] in *; try (split; reflexivity).
      destruct (Ht m m' y) as (-> & ->); [intros c Hc; apply H; apply in_or_app; left; exact Hc|].
      destruct (IHfs l) as (-> & ->); [intros c Hc; apply H; apply in_or_app; right; exact Hc|]. split; reflexivity. }
    destruct E as (-> & ->). split; reflexivity.
  - destruct x; split; reflexivity.
  - cbn [cells read] in *. apply IH. exact H.
Qed.
(** A variable that reads has all its cells in the memory. *)
Lemma cells_bound t : forall m x v, read t m x = Some v -> Forall (fun c => c < length m)%nat (cells t m x).
Proof.
  induction t as [|k| |t IH|n t IH|t IH|fs IH| |c t IH] using ty_ind'; intros m x v E.
  1-3: destruct x; try discriminate; constructor.
  - destruct x as [| | |[c|]| | | |]; try discriminate; cbn [cells read] in *; [|constructor].
    destruct (nth_error m c) as [[|y l]|] eqn:Ec; try discriminate. destruct (read t m y) as [w|] eqn:Ey; [|discriminate].
    constructor; [apply nth_error_Some; congruence|]. exact (IH m y w Ey).
  - destruct x as [| | | |l| | |]; try discriminate. cbn [cells read] in *. destruct (is_u8 t || (length l =? n)%nat); [|discriminate].
    destruct (all_some (map (read t m) l)) as [q|] eqn:Eq; [|discriminate]. apply Forall_flat_map. apply Forall_forall. intros y Hy.
    destruct (all_some_in _ _ Eq (read t m y)) as (w & Ew); [apply in_map; exact Hy|]. exact (IH m y w Ew).
  - destruct x as [| | | | |c off len| |]; try discriminate. destruct len as [|len]; [constructor|]. cbn [cells read] in *.
    destruct (Nat.eqb_spec (length (elems_at m c off (S len))) (S len)) as [El|]; [|discriminate].
    destruct (all_some (map (read t m) (elems_at m c off (S len)))) as [q|] eqn:Eq; [|discriminate]. constructor.
    + destruct (Nat.ltb_spec c (length m)) as [|Hge]; [assumption|]. exfalso. unfold elems_at, cell in El. rewrite (nth_overflow m) in El by exact Hge.
      rewrite skipn_nil, firstn_nil in El. discriminate.
    + apply Forall_flat_map. apply Forall_forall. intros y Hy. destruct (all_some_in _ _ Eq (read t m y)) as (w & Ew); [apply in_map; exact Hy|]. exact (IH m y w Ew).
  - destruct x as [| | | | | |l|]; try discriminate. rewrite read_struct in E. rewrite cells_struct. destruct (read_fields m fs l) as [q|] eqn:Eq; [|discriminate]. clear E.
    revert l q Eq. induction IH as [|(g & t) fs Ht Hfs IHfs]; intros [|y l] q Eq; cbn [read_fields cells_fields snd] in *; try discriminate; [constructor|].
    destruct (read t m y) as [w|] eqn:Ey; [|discriminate]. destruct (read_fields m fs l) as [ws|] eqn:El; [|discriminate].
    apply Forall_app. split; [exact (Ht m y w Ey)|exact (IHfs l ws El)].
  - destruct x; try discriminate. constructor.
  - cbn [cells read] in *. exact (IH m x v E).
Qed.
Definition ext (m m' : mem) : Prop := exists e, m' = m ++ e.
Lemma ext_refl m : ext m m. Proof. exists []. rewrite app_nil_r. reflexivity. Qed.
Lemma ext_trans m1 m2 m3 : ext m1 m2 -> ext m2 m3 -> ext m1 m3.
Proof. intros (e & ->) (f & ->). exists (e ++ f). apply eq_sym, app_assoc. Qed.
Lemma ext_length m m' : ext m m' -> (length m <= length m')%nat.
Proof. intros (e & ->). rewrite app_length. lia. Qed.
Lemma ext_nth m m' c : ext m m' -> (c < length m)%nat -> nth_error m' c = nth_error m c.
Proof. intros (e & ->) H. apply nth_error_app1. exact H. Qed.
Lemma ext_alloc m l : ext m (m ++ [l]). Proof. exists [l]. reflexivity. Qed.
Lemma ext_keeps t m m' x v : ext m m' -> read t m x = Some v -> read t m' x = Some v /\ cells t m' x = cells t m x.
Proof.
  intros He E. destruct (frame t m m' x) as (-> & ->); [|split; [exact E|reflexivity]].
  intros c Hc. apply ext_nth; [exact He|]. pose proof (cells_bound t m x v E) as B. rewrite Forall_forall in B. exact (B c Hc).
Qed.
Lemma ext_cell m m' c : ext m m' -> (c < length m)%nat -> cell m' c = cell m c.
Proof. intros He Hc. rewrite !cell_nth, (ext_nth m m' c He Hc). reflexivity. Qed.

(** ** Zero values *)
Lemma read_zero t m : read t m (mzero t) = Some (zero t).
Proof.
  induction t as [|k| |t IH|n t IH|t IH|fs IH| |c t IH] using ty_ind'; try reflexivity.
  - cbn [read mzero zero]. rewrite repeat_length, Nat.eqb_refl, orb_true_r. replace (all_some (map (read t m) (repeat (mzero t) n))) with (Some (repeat (zero t) n)); [reflexivity|].
    induction n as [|n IHn]; [reflexivity|]. cbn [repeat map all_some]. rewrite IH, <- IHn. reflexivity.
  - cbn [mzero zero]. rewrite read_struct. replace (read_fields m fs (map (fun f => mzero (snd f)) fs)) with (Some (map (fun f : option bytes * ty => zero (snd f)) fs)); [reflexivity|].
    induction IH as [|(g & t) fs Ht Hfs IHfs]; [reflexivity|]. cbn [map read_fields snd] in *. rewrite Ht, <- IHfs. reflexivity.
  - exact IH.
Qed.
Lemma cells_zero t m : cells t m (mzero t) = [].
Proof.
  induction t as [|k| |t IH|n t IH|t IH|fs IH| |c t IH] using ty_ind'; try reflexivity.
  - cbn [cells mzero]. induction n as [|n IHn]; [reflexivity|]. cbn [repeat flat_map]. rewrite IH, IHn. reflexivity.
  - cbn [mzero]. rewrite cells_struct. induction IH as [|(g & t) fs Ht Hfs IHfs]; [reflexivity|]. cbn [map cells_fields snd] in *. rewrite Ht, IHfs. reflexivity.
  - exact IH.
Qed.

(** ** Ownership of lists of cells *)
Definition fresh_list (n n' : nat) (l : list nat) : Prop := NoDup l /\ Forall (fun c => n <= c < n')%nat l.
Lemma fresh_nil n n' : fresh_list n n' []. Proof. split; constructor. Qed.
Lemma NoDup_app_disjoint {A} (l1 l2 : list A) : NoDup l1 -> NoDup l2 -> (forall x, In x l1 -> In x l2 -> False) -> NoDup (l1 ++ l2).
Proof.
  induction 1 as [|x l1 Hx H1 IH]; intros H2 D; [exact H2|]. cbn. constructor.
  - intros Hin. apply in_app_or in Hin as [Hin|Hin]; [exact (Hx Hin)|]. exact (D x (or_introl eq_refl) Hin).
  - apply IH; [exact H2|]. intros y Hy. apply D. right. exact Hy.
Qed.
Lemma fresh_app n k n' l1 l2 : (n <= k <= n')%nat -> fresh_list n k l1 -> fresh_list k n' l2 -> fresh_list n n' (l1 ++ l2).
Proof.
  intros Hk (N1 & F1) (N2 & F2). rewrite Forall_forall in F1, F2. split.
  - apply NoDup_app_disjoint; [exact N1|exact N2|]. intros c H1 H2. specialize (F1 c H1). specialize (F2 c H2). lia.
  - apply Forall_forall. intros c Hc. apply in_app_or in Hc as [Hc|Hc]; [specialize (F1 c Hc)|specialize (F2 c Hc)]; lia.
Qed.
Lemma fresh_weaken n n' k k' l : fresh_list n n' l -> (k <= n)%nat -> (n' <= k')%nat -> fresh_list k k' l.
Proof. intros (N & F) H H'. split; [exact N|]. eapply Forall_impl; [|exact F]. cbn. intros c Hc. lia. Qed.
Lemma fresh_cons n n' c l : (n <= c < n')%nat -> fresh_list n n' l -> ~ In c l -> fresh_list n n' (c :: l).
Proof. intros Hc (N & F) Hn. split; constructor; assumption. Qed.

(** ** Placing a value *)
Definition placed (t : ty) (m : mem) (v : val) (r : mval * mem) : Prop :=
  let '(x, m') := r in ext m m' /\ read t m' x = Some v /\ fresh_list (length m) (length m') (cells t m' x).
Lemma place_all_ok t : (forall v m, shaped t v -> placed t m v (place t v m)) -> forall vs m, Forall (shaped t) vs ->
  let '(xs, m') := place_all (place t) vs m in
  ext m m' /\ all_some (map (read t m') xs) = Some vs /\ fresh_list (length m) (length m') (flat_map (cells t m') xs) /\ length xs = length vs.
Proof.
  intros Hp. induction vs as [|v vs IH]; intros m Hs; cbn [place_all].
  - split; [apply ext_refl|]. split; [reflexivity|]. split; [apply fresh_nil|reflexivity].
  - inversion Hs as [|? ? H1 H2]; subst. specialize (Hp v m H1). destruct (place t v m) as (x & m1). destruct Hp as (E1 & R1 & F1).
    specialize (IH m1 H2). destruct (place_all (place t) vs m1) as (xs & m2). destruct IH as (E2 & R2 & F2 & L2).
    destruct (ext_keeps t m1 m2 x v E2 R1) as (R1' & C1'). split; [eapply ext_trans; eassumption|].
    cbn [map all_some flat_map length]. rewrite R1', R2, C1', L2. split; [reflexivity|]. split; [|reflexivity].
    eapply fresh_app; [|exact F1|exact F2]. split; apply ext_length; assumption.
Qed.
Lemma elems_new m l : elems_at (m ++ [l]) (length m) 0 (length l) = l.
Proof. unfold elems_at, cell. rewrite app_nth2, Nat.sub_diag by lia. cbn. apply firstn_all. Qed.
Lemma not_in_fresh n n' l c : fresh_list n n' l -> (n' <= c)%nat -> ~ In c l.
Proof. intros (_ & F) Hc Hin. rewrite Forall_forall in F. specialize (F c Hin). lia. Qed.
Lemma cells_slice t m c off len : cells (TSlice t) m (MSlice c off len) = if (len =? 0)%nat then [] else c :: flat_map (cells t m) (elems_at m c off len).
Proof. destruct len; reflexivity. Qed.
Lemma map_keeps t m m' l vs : ext m m' -> all_some (map (read t m) l) = Some vs ->
  all_some (map (read t m') l) = Some vs /\ flat_map (cells t m') l = flat_map (cells t m) l.
Proof.
  intros He. revert vs. induction l as [|y l IH]; intros vs E; [split; [exact E|reflexivity]|]. cbn [map all_some flat_map] in *.
  destruct (read t m y) as [w|] eqn:Ey; [|discriminate]. destruct (all_some (map (read t m) l)) as [ws|]; [|discriminate].
  destruct (ext_keeps t m m' y w He Ey) as (-> & ->). destruct (IH ws eq_refl) as (-> & ->). split; [exact E|reflexivity].
Qed.
Lemma place_ok t : forall v m, shaped t v -> placed t m v (place t v m).
Proof.
  induction t as [|k| |t IH|n t IH|t IH|fs IH| |c t IH] using ty_ind'; intros v m Hs.
  1-3: destruct v; try contradiction; (split; [apply ext_refl|]; split; [reflexivity|apply fresh_nil]).
  - destruct v as [| | |[v|]| | | |]; try contradiction; cbn [place shaped] in *.
    + specialize (IH v m Hs). destruct (place t v m) as (x & m1). destruct IH as (E1 & R1 & F1). unfold alloc.
      destruct (ext_keeps t m1 (m1 ++ [[x]]) x v (ext_alloc m1 [x]) R1) as (R2 & C2).
      split; [eapply ext_trans; [exact E1|apply ext_alloc]|]. cbn [read cells]. rewrite nth_error_app2, Nat.sub_diag by lia. cbn [nth_error]. rewrite R2, C2.
      split; [reflexivity|]. rewrite app_length. cbn [length]. pose proof (ext_length _ _ E1).
      apply fresh_cons; [lia|eapply fresh_weaken; [exact F1|lia|lia]|]. eapply not_in_fresh; [exact F1|lia].
    + split; [apply ext_refl|]. split; [reflexivity|apply fresh_nil].
  - destruct v as [| | | |vs| | |]; try contradiction. cbn [place shaped] in *. destruct Hs as (Hl & Hs).
    pose proof (place_all_ok t IH vs m Hs) as P. destruct (place_all (place t) vs m) as (xs & m1). destruct P as (E1 & R1 & F1 & L1).
    split; [exact E1|]. cbn [read cells]. replace (is_u8 t || (length xs =? n)%nat) with true; [rewrite R1; split; [reflexivity|exact F1]|].
    symmetry. destruct Hl as [->|Hl]; [reflexivity|]. rewrite L1, Hl, Nat.eqb_refl. apply orb_true_r.
  - destruct v as [| | | |vs| | |]; try contradiction. cbn [place shaped] in *.
    pose proof (place_all_ok t IH vs m Hs) as P. destruct (place_all (place t) vs m) as (xs & m1). destruct P as (E1 & R1 & F1 & L1). unfold alloc.
    destruct (map_keeps t m1 (m1 ++ [xs]) xs vs (ext_alloc m1 xs) R1) as (R2 & C2).
    split; [eapply ext_trans; [exact E1|apply ext_alloc]|]. rewrite cells_slice. cbn [read]. rewrite elems_new, Nat.eqb_refl, R2, C2.
    split; [reflexivity|]. rewrite app_length. cbn [length]. pose proof (ext_length _ _ E1). destruct (length xs =? 0)%nat; [apply fresh_nil|].
    apply fresh_cons; [lia|eapply fresh_weaken; [exact F1|lia|lia]|]. eapply not_in_fresh; [exact F1|lia].
  - destruct v as [| | | | |vs| |]; try contradiction. rewrite place_struct. change (shaped_fields fs vs) in Hs.
    assert (P : let '(xs, m') := place_fields fs vs m in ext m m' /\ read_fields m' fs xs = Some vs /\ fresh_list (length m) (length m') (cells_fields m' fs xs)).
    { revert vs m Hs. induction IH as [|(g & t) fs Ht Hfs IHfs]; intros [|v vs] m Hs; cbn [shaped_fields] in Hs; try contradiction; cbn [place_fields snd] in *.
      - split; [apply ext_refl|]. split; [reflexivity|apply fresh_nil].
      - destruct Hs as (H1 & H2). specialize (Ht v m H1). destruct (place t v m) as (x & m1). destruct Ht as (E1 & R1 & F1).
        specialize (IHfs vs m1 H2). destruct (place_fields fs vs m1) as (xs & m2). destruct IHfs as (E2 & R2 & F2).
        destruct (ext_keeps t m1 m2 x v E2 R1) as (R1' & C1'). split; [eapply ext_trans; eassumption|].
        cbn [read_fields cells_fields]. rewrite R1', R2, C1'. split; [reflexivity|]. eapply fresh_app; [|exact F1|exact F2]. split; apply ext_length; assumption. }
    destruct (place_fields fs vs m) as (xs & m1). destruct P as (E1 & R1 & F1). split; [exact E1|]. rewrite read_struct, cells_struct, R1. split; [reflexivity|exact F1].
  - destruct v; (split; [apply ext_refl|]; split; [reflexivity|apply fresh_nil]).
  - cbn [place shaped] in *. specialize (IH v m Hs). destruct v; exact IH.
Qed.
