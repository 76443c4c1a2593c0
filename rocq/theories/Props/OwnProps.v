(** C111: a decoded value owns its memory. *)
From Coq Require Import ZArith List Lia Bool String.
Import ListNotations.
From Verif.Model Require Import Base Address Beserial Wire Messages DecodeMemory.
From Verif.Spec Require Import BeserialSpec OwnershipSpec.
From Verif.Proofs Require Import BaseFacts BeserialFacts DecodeMemFacts DecodeMemSim.
Open Scope Z_scope.
Notation length := List.length.

(** data[off : off+len] of cell [c] is a slice of bytes. *)
Definition input (m : mem) (c off len : nat) : Prop :=
  (c < length m)%nat /\ (off + len <= length (cell m c))%nat /\ bytes_ok (bytes_in m c off len).

Lemma run_agrees m c off len t x dv : plain t -> input m c off len -> read t m x = Some dv ->
  agrees (read t) (cells t) x (Dec m c off len) (mvalue t no_tags x (Dec m c off len)) (value t no_tags dv (DState (bytes_in m c off len) [])).
Proof. intros Hp Hi Hx. apply value_sim; [exact Hp|exact Hi|reflexivity|exact Hx]. Qed.

(** Decoding gives the outcome, the byte count and the value of Model/Beserial.v. *)
Theorem C111_same_result m c off len t x dv : plain t -> input m c off len -> read t m x = Some dv ->
  let '(r, y, n, m') := MUnmarshal m c off len t x in
  match Unmarshal (bytes_in m c off len) (APtr t dv) with
  | (Ok (Some v), k) => r = Ok tt /\ Z.of_nat n = k /\ read t m' y = Some v
  | (Ok None, _) => False
  | (Err e, k) => r = Err e /\ Z.of_nat n = k
  | (Panic, k) => r = Panic /\ Z.of_nat n = k
  | (OutOfFuel, k) => r = OutOfFuel /\ Z.of_nat n = k
  end.
Proof.
  intros Hp Hi Hx. pose proof (run_agrees m c off len t x dv Hp Hi Hx) as A. unfold MUnmarshal. cbn [Unmarshal].
  pose proof (rest_length (Dec m c off len) Hi) as L0. unfold rest in L0. cbn [d_mem d_cell d_off d_len] in L0.
  unfold agrees in A. destruct (mvalue t no_tags x (Dec m c off len)) as ((r & y) & s).
  pose proof (adv_value t no_tags dv (DState (bytes_in m c off len) [])) as Adv.
  destruct (value t no_tags dv (DState (bytes_in m c off len) [])) as (pr & ps).
  destruct A as ((_ & _ & Hv & Hd) & _ & _ & Hr).
  assert (Hn : Z.of_nat (len - d_len s) = zlen (bytes_in m c off len) - zlen (data ps)).
  { destruct (Adv pr ps eq_refl) as ((e & E) & _). apply (f_equal (@List.length Z)) in E. rewrite app_length in E. cbn [data] in E.
    unfold zlen. rewrite Hd, (rest_length s Hv), L0 in *. lia. }
  destruct pr as [v| | |]; cbn [bind]; [destruct Hr as (-> & Hr & _)|..]; auto.
Qed.

(** Decoding changes no memory that existed before, however it ends. *)
Theorem C111_old_memory m c off len t x dv : plain t -> input m c off len -> read t m x = Some dv ->
  let '(_, _, _, m') := MUnmarshal m c off len t x in agree_below (length m) m m' /\ (length m <= length m')%nat.
Proof.
  intros Hp Hi Hx. pose proof (run_agrees m c off len t x dv Hp Hi Hx) as A. unfold MUnmarshal. unfold agrees in A.
  destruct (mvalue t no_tags x (Dec m c off len)) as ((r & y) & s), (value t no_tags dv (DState (bytes_in m c off len) [])) as (pr & ps).
  destruct A as ((He & _) & _). cbn [d_mem] in He. split; [|exact (ext_length _ _ He)]. intros k Hk. exact (ext_nth _ _ k He Hk).
Qed.
(** So every other variable, for example a copy of what was decoded into the same
    variable before, keeps its value. *)
Theorem C111_earlier_values m c off len t x dv u z w : plain t -> input m c off len -> read t m x = Some dv ->
  read u m z = Some w ->
  let '(_, _, _, m') := MUnmarshal m c off len t x in read u m' z = Some w.
Proof.
  intros Hp Hi Hx Hz. pose proof (C111_old_memory m c off len t x dv Hp Hi Hx) as A.
  destruct (MUnmarshal m c off len t x) as (((r & y) & n) & m'). destruct A as (A & _).
  destruct (frame u m m' z) as (-> & _); [|exact Hz]. intros k Hk. apply A. pose proof (cells_bound u m z w Hz) as B. rewrite Forall_forall in B. exact (B k Hk).
Qed.

(** What was decoded is in new memory and is the only way to it. *)
Theorem C111_owns m c off len t x dv : plain t -> input m c off len -> read t m x = Some dv ->
  forall y n m', MUnmarshal m c off len t x = (Ok tt, y, n, m') -> owns t (length m) m' y.
Proof.
  intros Hp Hi Hx y n m' E. pose proof (run_agrees m c off len t x dv Hp Hi Hx) as A. unfold MUnmarshal in E. unfold agrees in A.
  destruct (mvalue t no_tags x (Dec m c off len)) as ((r & y') & s), (value t no_tags dv (DState (bytes_in m c off len) [])) as (pr & ps).
  injection E as -> -> _ <-. destruct A as (_ & _ & _ & A). destruct pr as [v| | |]; try discriminate. destruct A as (_ & _ & A). exact A.
Qed.
(** The caller may overwrite the input, and whatever else there was before. *)
Theorem C111_input_reused m c off len t x dv : plain t -> input m c off len -> read t m x = Some dv ->
  forall y n m' m2, MUnmarshal m c off len t x = (Ok tt, y, n, m') -> agree_from (length m) m' m2 ->
  read t m2 y = read t m' y /\ exists v, read t m' y = Some v.
Proof.
  intros Hp Hi Hx y n m' m2 E A. pose proof (C111_owns m c off len t x dv Hp Hi Hx y n m' E) as (_ & F). split.
  - apply frame. intros k Hk. apply A. rewrite Forall_forall in F. apply (F k Hk).
  - pose proof (C111_same_result m c off len t x dv Hp Hi Hx) as S. rewrite E in S.
    destruct (Unmarshal (bytes_in m c off len) (APtr t dv)) as ([[v|]|e| |] & k); try (destruct S; discriminate). exists v. apply S.
Qed.
(** And the other way round: writing to the decoded value changes nothing that
    existed before, such as the input. *)
Theorem C111_value_written m c off len t x dv : plain t -> input m c off len -> read t m x = Some dv ->
  forall y n m' m2, MUnmarshal m c off len t x = (Ok tt, y, n, m') ->
  (forall k, ~ In k (cells t m' y) -> nth_error m2 k = nth_error m' k) ->
  agree_below (length m) m m2.
Proof.
  intros Hp Hi Hx y n m' m2 E A k Hk. pose proof (C111_owns m c off len t x dv Hp Hi Hx y n m' E) as (_ & F).
  pose proof (C111_old_memory m c off len t x dv Hp Hi Hx) as O. rewrite E in O. destruct O as (O & _).
  rewrite (A k); [exact (O k Hk)|]. intros Hin. rewrite Forall_forall in F. specialize (F k Hin). lia.
Qed.
(** A failed decode leaves the variable with memory of its own: its old memory, or
    new memory; in no case the input's (unless it was there before). *)
Theorem C111_failed m c off len t x dv : plain t -> input m c off len -> read t m x = Some dv ->
  let '(_, y, _, m') := MUnmarshal m c off len t x in
  Forall (fun k => In k (cells t m x) \/ (length m <= k)%nat) (cells t m' y) /\ exists w, read t m' y = Some w.
Proof.
  intros Hp Hi Hx. pose proof (run_agrees m c off len t x dv Hp Hi Hx) as A. unfold MUnmarshal. unfold agrees in A.
  destruct (mvalue t no_tags x (Dec m c off len)) as ((r & y) & s), (value t no_tags dv (DState (bytes_in m c off len) [])) as (pr & ps).
  destruct A as (_ & W & O & _). split; [exact O|exact W].
Qed.

(** The parts of a value that owns its memory are separate: writing through one
    does not change another. *)
Lemma NoDup_app_inv {A} (l1 l2 : list A) : NoDup (l1 ++ l2) -> NoDup l1 /\ NoDup l2 /\ forall a, In a l1 -> In a l2 -> False.
Proof.
  induction l1 as [|a l1 IH]; cbn; intros H; [split; [constructor|split; [exact H|intros ? []]]|].
  inversion H as [|? ? Ha Hl]; subst. destruct (IH Hl) as (I1 & I2 & I3). split; [|split; [exact I2|]].
  - constructor; [|exact I1]. intros Hin. apply Ha. apply in_or_app. left. exact Hin.
  - intros b [->|Hb] H2; [apply Ha, in_or_app; right; exact H2|exact (I3 b Hb H2)].
Qed.
Lemma flat_disjoint (f : mval -> list nat) l : NoDup (flat_map f l) -> forall i j x y, i <> j -> nth_error l i = Some x -> nth_error l j = Some y ->
  forall k, In k (f x) -> In k (f y) -> False.
Proof.
  induction l as [|a l IH]; intros N i j x y Hij Hi Hj k Hx Hy; [destruct i; discriminate|]. cbn [flat_map] in N.
  destruct (NoDup_app_inv _ _ N) as (N1 & N2 & D).
  assert (G : forall n z, nth_error l n = Some z -> In k (f z) -> In k (flat_map f l)) by (intros n z Hn Hz; apply in_flat_map; exists z; split; [eapply nth_error_In; exact Hn|exact Hz]).
  destruct i as [|i], j as [|j]; cbn in Hi, Hj; try congruence.
  - injection Hi as ->. exact (D k Hx (G j y Hj Hy)).
  - injection Hj as ->. exact (D k Hy (G i x Hi Hx)).
  - exact (IH N2 i j x y ltac:(congruence) Hi Hj k Hx Hy).
Qed.
Lemma fields_disjoint m fs : forall l, NoDup (cells_fields m fs l) -> forall i j ti tj x y, i <> j ->
  nth_error (map snd fs) i = Some ti -> nth_error (map snd fs) j = Some tj -> nth_error l i = Some x -> nth_error l j = Some y ->
  forall k, In k (cells ti m x) -> In k (cells tj m y) -> False.
Proof.
  induction fs as [|(g & t) fs IH]; intros [|a l] N i j ti tj x y Hij Ti Tj Hi Hj k Hx Hy; try (destruct i; discriminate).
  cbn [cells_fields map snd] in *. destruct (NoDup_app_inv _ _ N) as (N1 & N2 & D).
  assert (G : forall n t0 z, nth_error (map snd fs) n = Some t0 -> nth_error l n = Some z -> In k (cells t0 m z) -> In k (cells_fields m fs l)).
  { clear. induction fs as [|(g & t) fs IH] in l |- *; intros [|n] t0 z Ht Hz Hk; destruct l as [|b l]; cbn in *; try discriminate; apply in_or_app.
    - injection Ht as ->. injection Hz as ->. left. exact Hk.
    - right. eapply IH; eassumption. }
  destruct i as [|i], j as [|j]; cbn in Ti, Tj, Hi, Hj; try congruence.
  - injection Ti as ->. injection Hi as ->. exact (D k Hx (G j tj y Tj Hj Hy)).
  - injection Tj as ->. injection Hj as ->. exact (D k Hy (G i ti x Ti Hi Hx)).
  - exact (IH l N2 i j ti tj x y ltac:(congruence) Ti Tj Hi Hj k Hx Hy).
Qed.
(** Memory [m2] is [m] after writes through [x] only. *)
Definition written_through (t : ty) (x : mval) (m m2 : mem) : Prop := forall k, ~ In k (cells t m x) -> nth_error m2 k = nth_error m k.
Theorem C111_fields n m fs l : owns (TStruct fs) n m (MStruct l) ->
  forall i j ti tj x y, i <> j ->
  nth_error (map snd fs) i = Some ti -> nth_error l i = Some x -> nth_error (map snd fs) j = Some tj -> nth_error l j = Some y ->
  forall m2, written_through ti x m m2 -> read tj m2 y = read tj m y.
Proof.
  intros (N & _) i j ti tj x y Hij Ti Hi Tj Hj m2 W. rewrite cells_struct in N. apply frame. intros k Hk. apply W. intros Hx.
  exact (fields_disjoint m fs l N i j ti tj x y Hij Ti Tj Hi Hj k Hx Hk).
Qed.
Theorem C111_elements n m t c off len : owns (TSlice t) n m (MSlice c off len) ->
  forall i j x y, i <> j -> nth_error (elems_at m c off len) i = Some x -> nth_error (elems_at m c off len) j = Some y ->
  forall m2, written_through t x m m2 -> read t m2 y = read t m y.
Proof.
  intros (N & _) i j x y Hij Hi Hj m2 W. rewrite cells_slice in N. apply frame. intros k Hk. apply W. intros Hx.
  destruct len as [|len]; [destruct i; discriminate|]. cbn [Nat.eqb] in N. inversion N as [|? ? _ N']; subst.
  exact (flat_disjoint (cells t m) _ N' i j x y Hij Hi Hj k Hx Hk).
Qed.

(** ** The types of package wire *)
Lemma typed_plain {A} (tv : A -> val) ov unm mar t : (forall a, shaped t (tv a)) -> plain (TCustom (typed_codec tv ov unm mar) t).
Proof.
  intros H v0 d v n E. cbn [cd_unmarshal typed_codec] in E. destruct (unm (ov v0) d) as [(a & k)| | |]; try discriminate. cbn [bind] in E. injection E as <- _. apply H.
Qed.
Lemma shaped_bytes n b : shaped (bytesN n) (vbytes b).
Proof. split; [left; reflexivity|]. apply Forall_forall. intros v Hv. apply in_map_iff in Hv as (z & <- & _). exact I. Qed.
Lemma shaped_blob b : shaped (TSlice (TNum U8)) (vbytes b).
Proof. apply Forall_forall. intros v Hv. apply in_map_iff in Hv as (z & <- & _). exact I. Qed.
Lemma shaped_list {A} t (f : A -> val) l : (forall a, shaped t (f a)) -> shaped (TSlice t) (VList (map f l)).
Proof. intros H. apply Forall_forall. intros v Hv. apply in_map_iff in Hv as (z & <- & _). apply H. Qed.
Lemma shaped_bitset b : shaped ty_bitset (v_bitset b).
Proof. repeat split. apply shaped_blob. Qed.
Lemma shaped_netaddr a : shaped ty_netaddr (v_netaddr a).
Proof. repeat split. apply shaped_blob. Qed.
(** Every type that is decoded with its wire form, and holds no interlink. *)
Inductive wire_type : ty -> Prop :=
| W_hash : wire_type ty_hash | W_bitset : wire_type ty_bitset | W_path : wire_type ty_path | W_proof : wire_type ty_proof
| W_account k : wire_type (ty_account k) | W_wrap_account : wire_type ty_wrap_account | W_pruned : wire_type ty_pruned
| W_tx k : wire_type (ty_tx k) | W_wrap_tx : wire_type ty_wrap_tx | W_header : wire_type ty_header | W_body : wire_type ty_body
| W_chunk : wire_type ty_chunk | W_staking : wire_type ty_staking | W_netaddr : wire_type ty_netaddr | W_peer : wire_type ty_peer
| W_message k : k <> KBlock -> wire_type (ty_message k).
Lemma plain_hash : plain ty_hash.
Proof. apply typed_plain. intros a. repeat split; try apply shaped_bytes. left; reflexivity. Qed.
Lemma plain_bitset : plain ty_bitset. Proof. apply typed_plain, shaped_bitset. Qed.
Lemma plain_path : plain ty_path.
Proof.
  apply typed_plain. intros a. split; [apply shaped_bitset|]. split; [|exact I]. apply shaped_list. intros. apply shaped_bytes.
Qed.
Lemma plain_netaddr : plain ty_netaddr. Proof. apply typed_plain, shaped_netaddr. Qed.
Lemma plain_wrap_account : plain ty_wrap_account. Proof. apply typed_plain. intros a. repeat split. Qed.
Lemma plain_wrap_tx : plain ty_wrap_tx. Proof. apply typed_plain. intros a. repeat split. Qed.
Lemma plain_peer : plain ty_peer.
Proof.
  apply typed_plain. intros a. split; [|repeat split]. repeat split; try apply shaped_bytes; try apply shaped_blob; try (left; reflexivity).
Qed.
Ltac plains := repeat first [exact plain_hash | exact plain_bitset | exact plain_path | exact plain_netaddr | exact plain_wrap_account
  | exact plain_wrap_tx | exact plain_peer | exact I | split | reflexivity].
Theorem C111_wire_types t : wire_type t -> plain t.
Proof.
  intros H. destruct H; try (plains; fail).
  - unfold ty_account. destruct (k =? 0); [plains|]. destruct (k =? 1); plains.
  - unfold ty_tx. destruct (k =? 0); plains.
  - destruct k; try congruence; try (plains; fail). apply typed_plain. intros a. repeat split.
Qed.

(** ** The exception: a pointer to a type with its own UnmarshalBESerial is decoded
    in place (decode.go:62-66), so copies of the pointer see the new value.  No type
    of package wire has such a field. *)
Theorem C111_pointer_codec_refuted :
  exists m c off len t x y n m', MUnmarshal m c off len t x = (Ok tt, y, n, m') /\ input m c off len /\
    y = x /\ ~ agree_below (length m) m m' /\ (exists v w, read t m x = Some v /\ read t m' x = Some w /\ v <> w).
Proof.
  exists [[MNum 0; MNum 0; MNum 0; MNum 9]; [MStruct [MNum 5; MBool true]]], 0%nat, 0%nat, 4%nat, (TPtr (ty_message KPing)), (MPtr (Some 1%nat)).
  eexists _, _, _. split; [vm_compute; reflexivity|]. split; [|split; [reflexivity|split]].
  - split; [cbn; lia|]. split; [cbn; lia|]. repeat constructor; cbn; lia.
  - intros A. specialize (A 1%nat ltac:(cbn; lia)). discriminate.
  - eexists _, _. split; [vm_compute; reflexivity|]. split; [vm_compute; reflexivity|]. discriminate.
Qed.

(** Not vacuous: a tree chunk of two byte strings, its length tags and its input
    being part of a larger buffer.  (Type: slice of byte slices.) *)
Definition ex_ty : ty := TStruct [tagged "len_tag=uint8" (TSlice (TStruct [tagged "len_tag=uint8" (TSlice (TNum U8))])); tagged "optional" (TPtr (TNum U16))].
Definition ex_mem : mem := [map MNum [7; 2; 2; 10; 11; 1; 12; 1; 3; 4; 99]].
Example C111_example :
  input ex_mem 0 1 9 /\ plain ex_ty /\ read ex_ty ex_mem (mzero ex_ty) = Some (zero ex_ty) /\
  exists y m', MUnmarshal ex_mem 0 1 9 ex_ty (mzero ex_ty) = (Ok tt, y, 9%nat, m') /\
    cells ex_ty m' y = [1; 2; 3; 4]%nat /\
    read ex_ty m' y = Some (VStruct [VList [VStruct [VList [VNum 10; VNum 11]]; VStruct [VList [VNum 12]]]; VPtr (Some (VNum 772))]) /\
    read ex_ty ([] :: List.tl m') y = read ex_ty m' y.
Proof.
  split; [split; [cbn; lia|]; split; [cbn; lia|]; repeat constructor; cbn; lia|]. split; [repeat split|]. split; [reflexivity|].
  eexists _, _. split; [vm_compute; reflexivity|]. repeat split.
Qed.
