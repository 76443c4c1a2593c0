(** Lemmas about the total allocation of a decode. *)
From Coq Require Import ZArith List Lia Bool.
Import ListNotations.
From Verif.Model Require Import Base Address Beserial.
From Verif.Spec Require Import AllocSpec.
From Verif.Proofs Require Import BaseFacts BeserialFacts.
Open Scope Z_scope.

Lemma total_app l1 l2 : total (l1 ++ l2) = total l1 + total l2.
Proof. unfold total. induction l1 as [|a l1 IH]; cbn [app fold_right]; lia. Qed.
Lemma total_one a b : total [(a, b)] = a. Proof. cbn. lia. Qed.

(** What is left to read after a step: nothing matters after a failure. *)
Definition left {A} (r : res A) (s : dstate) : Z := match r with Ok _ => zlen (data s) | _ => 0 end.
Definition thrifty {A} (k : Z) (m : M A) : Prop :=
  forall s r s', m s = (r, s') -> total (allocs s') - total (allocs s) <= k * (zlen (data s) - left r s').
Lemma adv_zlen s s' : adv s s' -> zlen (data s') <= zlen (data s).
Proof. intros ((e & E) & _). rewrite E. unfold zlen. rewrite app_length. lia. Qed.
Lemma zlen_pos {A} (l : list A) : 0 <= zlen l. Proof. unfold zlen. lia. Qed.

Lemma thrifty_same {A} k (m : M A) : 0 <= k -> advancing m -> (forall s r s', m s = (r, s') -> allocs s' = allocs s) -> thrifty k m.
Proof.
  intros Hk Ha Hs s r s' E. rewrite (Hs _ _ _ E). pose proof (adv_zlen _ _ (Ha _ _ _ E)). pose proof (zlen_pos (data s)). pose proof (zlen_pos (data s')).
  destruct r; cbn [left]; nia.
Qed.
Lemma thrifty_ret {A} k (a : A) : 0 <= k -> thrifty k (ret a).
Proof. intros Hk. apply thrifty_same; [exact Hk|apply adv_ret|]. intros s r s' E. injection E as _ <-. reflexivity. Qed.
Lemma thrifty_fail {A} k (r : res A) : 0 <= k -> thrifty k (fail r).
Proof. intros Hk. apply thrifty_same; [exact Hk|apply adv_fail|]. intros s r' s' E. injection E as _ <-. reflexivity. Qed.
Lemma pop_same n s r s' : pop n s = (r, s') -> allocs s' = allocs s.
Proof. unfold pop. destruct (_ <? _); intros E; injection E as _ <-; reflexivity. Qed.
Lemma thrifty_pop k n : 0 <= k -> thrifty k (pop n).
Proof. intros Hk. apply thrifty_same; [exact Hk|apply adv_pop|]. apply pop_same. Qed.
Lemma thrifty_bind {A B} k (x : M A) (f : A -> M B) : 0 <= k -> advancing x -> thrifty k x -> (forall a, thrifty k (f a)) -> thrifty k (mbind x f).
Proof.
  intros Hk Ha Hx Hf s r s' E. pose proof (zlen_pos (data s)) as P. apply mbind_inv in E as [(a & s1 & E1 & E2)|[(e & E1 & ->)|[(E1 & ->)|(E1 & ->)]]].
  - pose proof (Hx _ _ _ E1) as H1. pose proof (Hf a _ _ _ E2) as H2. cbn [left] in H1. nia.
  - exact (Hx _ _ _ E1).
  - exact (Hx _ _ _ E1).
  - exact (Hx _ _ _ E1).
Qed.
Lemma thrifty_weaken {A} k k' (m : M A) : k <= k' -> advancing m -> thrifty k m -> thrifty k' m.
Proof.
  intros Hk Ha Hm s r s' E. pose proof (Hm _ _ _ E) as H. pose proof (adv_zlen _ _ (Ha _ _ _ E)). pose proof (zlen_pos (data s)). destruct r; cbn [left] in *; nia.
Qed.
Lemma thrifty_number k n : 0 <= k -> thrifty k (number n).
Proof. intros Hk. apply thrifty_bind; [exact Hk|apply adv_pop|apply thrifty_pop, Hk|]. intros. apply thrifty_ret, Hk. Qed.
Lemma thrifty_read_len k ts : 0 <= k -> thrifty k (read_len ts).
Proof.
  intros Hk. unfold read_len. destruct (lenTag ts) as [n|]; [|apply thrifty_fail, Hk].
  apply thrifty_bind; [exact Hk|apply adv_number|apply thrifty_number, Hk|]. intros u. destruct (_ && _); [apply thrifty_fail, Hk|].
  destruct (_ <? _); [apply thrifty_fail, Hk|apply thrifty_ret, Hk].
Qed.
Lemma thrifty_call k c dst : 0 <= k -> thrifty k (call_unmarshal c dst).
Proof.
  intros Hk. apply thrifty_same; [exact Hk|apply adv_call|]. intros s r s' E. unfold call_unmarshal in E.
  destruct (cd_unmarshal c dst (data s)) as [(v & n)|e| |]; try (injection E as _ <-; reflexivity).
  destruct (n <? 0); [injection E as _ <-; reflexivity|]. destruct (_ <? _); injection E as _ <-; reflexivity.
Qed.
Lemma thrifty_dec k f n : 0 <= k -> (forall d, advancing (f d)) -> (forall d, thrifty k (f d)) -> forall dsts, thrifty k (dec_n f n dsts).
Proof.
  intros Hk Ha Hf. induction n as [|n IH]; intros dsts; cbn [dec_n]; [apply thrifty_ret, Hk|].
  apply thrifty_bind; [exact Hk|apply Ha|apply Hf|]. intros v. apply thrifty_bind; [exact Hk|apply adv_dec_n, Ha|apply IH|]. intros vs. apply thrifty_ret, Hk.
Qed.
(** Elements that take a byte each take as many bytes as there are. *)
Lemma dec_takes f n : (forall d, advancing (f d)) -> (forall d s v s', f d s = (Ok v, s') -> zlen (data s') + 1 <= zlen (data s)) ->
  forall dsts s vs s', dec_n f n dsts s = (Ok vs, s') -> zlen (data s') + Z.of_nat n <= zlen (data s).
Proof.
  intros Ha Hf. induction n as [|n IH]; intros dsts s vs s' E; cbn [dec_n] in E; [injection E as _ <-; lia|].
  apply mbind_inv in E as [(v & s1 & E1 & E2)|[(e & _ & E)|[(_ & E)|(_ & E)]]]; try discriminate.
  apply mbind_inv in E2 as [(ws & s2 & E2 & E3)|[(e & _ & E)|[(_ & E)|(_ & E)]]]; try discriminate. injection E3 as _ <-.
  specialize (Hf _ _ _ _ E1). specialize (IH _ _ _ _ E2). lia.
Qed.
(** The log of allocations does not matter to the result. *)
Definition alike {A} (p q : res A * dstate) : Prop := fst p = fst q /\ data (snd p) = data (snd q).
Definition oblivious {A} (m : M A) : Prop := forall s s', data s = data s' -> alike (m s) (m s').
Lemma obl_ret {A} (a : A) : oblivious (ret a). Proof. intros s s' E. split; [reflexivity|exact E]. Qed.
Lemma obl_fail {A} (r : res A) : oblivious (fail r). Proof. intros s s' E. split; [reflexivity|exact E]. Qed.
Lemma obl_pop n : oblivious (pop n).
Proof. intros s s' E. unfold pop. rewrite E. destruct (_ <? _); split; try reflexivity. exact E. Qed.
Lemma obl_bind {A B} (x : M A) (f : A -> M B) : oblivious x -> (forall a, oblivious (f a)) -> oblivious (mbind x f).
Proof.
  intros Hx Hf s s' E. specialize (Hx s s' E). unfold mbind. destruct (x s) as (r & s1), (x s') as (r' & s1'). destruct Hx as (E1 & E2). cbn [fst snd] in *. subst r'.
  destruct r as [a|e| |]; try (split; [reflexivity|exact E2]). exact (Hf a s1 s1' E2).
Qed.
Lemma obl_number k : oblivious (number k).
Proof. apply obl_bind; [apply obl_pop|]. intros. apply obl_ret. Qed.
Lemma obl_read_len ts : oblivious (read_len ts).
Proof.
  unfold read_len. destruct (lenTag ts) as [k|]; [|apply obl_fail]. apply obl_bind; [apply obl_number|]. intros u.
  destruct (_ && _); [apply obl_fail|]. destruct (_ <? _); [apply obl_fail|apply obl_ret].
Qed.
Lemma obl_call c dst : oblivious (call_unmarshal c dst).
Proof.
  intros s s' E. unfold call_unmarshal. rewrite E. destruct (cd_unmarshal c dst (data s')) as [(v & n)|e| |]; try (split; [reflexivity|exact E]).
  destruct (n <? 0); [split; [reflexivity|exact E]|]. destruct (_ <? _); split; try reflexivity. exact E.
Qed.
Lemma obl_dec f n : (forall d, oblivious (f d)) -> forall dsts, oblivious (dec_n f n dsts).
Proof.
  intros Hf. induction n as [|n IH]; intros dsts; cbn [dec_n]; [apply obl_ret|]. apply obl_bind; [apply Hf|]. intros v.
  apply obl_bind; [apply IH|]. intros. apply obl_ret.
Qed.
Lemma obl_log u (f : bytes -> val) : oblivious (fun s => (do b <- pop u; fun s' => (Ok (f b), DState (data s') (allocs s' ++ [(u, zlen (data s))]))) s).
Proof.
  intros s s' E. unfold mbind, pop. rewrite E. destruct (_ <? _); split; try reflexivity. exact E.
Qed.
Lemma obl_value t : forall ts dst, oblivious (value t ts dst).
Proof.
  induction t as [|k| |t IH|n t IH|t IH|fs IH| |c t IH] using ty_ind'; intros ts dst.
  - cbn [value]. apply obl_bind; [apply obl_pop|]. intros [|x [|y z]]; try apply obl_fail.
    + destruct x as [|[]|]; try apply obl_fail; apply obl_ret.
    + destruct x as [|[]|]; apply obl_fail.
  - cbn [value]. apply obl_bind; [apply obl_number|]. intros. apply obl_ret.
  - cbn [value]. apply obl_bind; [apply obl_read_len|]. intros u. apply obl_log.
  - destruct (is_custom t) eqn:Ec.
    + destruct t; try discriminate. cbn [value]. destruct dst as [| | |[v|]| | | |]; try apply obl_fail.
      apply obl_bind; [apply obl_call|]. intros. apply obl_ret.
    + rewrite value_ptr by exact Ec. cbv zeta.
      assert (Hgo : oblivious (do v <- value t ts (zero t); ret (VPtr (Some v)))) by (apply obl_bind; [apply IH|]; intros; apply obl_ret).
      destruct (optional ts); [|exact Hgo]. apply obl_bind; [apply obl_pop|].
      intros [|x [|y z]]; try apply obl_fail.
      * destruct x as [|[]|]; try apply obl_fail; try apply obl_ret. exact Hgo.
      * destruct x as [|[]|]; apply obl_fail.
  - cbn [value]. destruct (is_u8 t); [destruct (is_custom t)|].
    + apply obl_bind; [apply obl_pop|]. intros. apply obl_fail.
    + apply obl_bind; [apply obl_pop|]. intros. apply obl_ret.
    + apply obl_bind; [apply obl_dec; intros; apply IH|]. intros. apply obl_ret.
  - cbn [value]. apply obl_bind; [apply obl_read_len|]. intros u. destruct (is_u8 t); [apply obl_log|].
    intros s s' E. rewrite E. destruct (_ <? _); [split; [reflexivity|exact E]|].
    apply obl_bind; [|intros; apply obl_bind; [apply obl_dec; intros; apply IH|intros; apply obl_ret]|exact E].
    intros s1 s2 E'. split; [reflexivity|exact E'].
  - rewrite value_struct. apply obl_bind; [|intros; apply obl_ret]. generalize (elems_of dst). clear dst.
    induction IH as [|(tag & t) fs Ht Hfs IHfs]; intros dsts; cbn [value_fields]; [apply obl_ret|].
    apply obl_bind; [apply obl_fail|]. intros ts0. apply obl_bind; [apply Ht|]. intros v.
    apply obl_bind; [apply IHfs|]. intros vs. apply obl_ret.
  - apply obl_fail.
  - apply obl_call.
Qed.
Lemma takes_value t : takes_a_byte t -> forall d s v s', value t no_tags d s = (Ok v, s') -> zlen (data s') + 1 <= zlen (data s).
Proof.
  intros Ht d s v s' E. pose proof (obl_value t no_tags d s (DState (data s) []) eq_refl) as (V1 & V2). rewrite E in V1, V2. cbn [fst snd] in V1, V2.
  specialize (Ht (data s) d v). cbn [Unmarshal] in Ht. destruct (value t no_tags d (DState (data s) [])) as (r & s2). cbn [fst snd] in *. subst r.
  cbn [bind] in Ht. specialize (Ht _ eq_refl). rewrite <- V2 in Ht. lia.
Qed.

(** ** The bound *)
Lemma adv_fields fs : forall dsts, advancing (value_fields fs dsts).
Proof.
  induction fs as [|(tag & t) fs IHfs]; intros dsts; cbn [value_fields]; [apply adv_ret|].
  apply adv_bind; [apply adv_fail|]. intros ts0. apply adv_bind; [apply adv_value|]. intros v. apply adv_bind; [apply IHfs|]. intros vs. apply adv_ret.
Qed.
Fixpoint solid_fields (fs : list (option bytes * ty)) : Prop := match fs with [] => True | (_, t) :: fs => solid t /\ solid_fields fs end.
Fixpoint depth_fields (fs : list (option bytes * ty)) : nat := match fs with [] => O | (_, t) :: fs => Nat.max (depth t) (depth_fields fs) end.
Lemma log_thrifty k u (f : bytes -> val) : 1 <= k ->
  thrifty k (fun s => (do b <- pop u; fun s' => (Ok (f b), DState (data s') (allocs s' ++ [(u, zlen (data s))]))) s).
Proof.
  intros Hk s r s' E. unfold mbind, pop in E. pose proof (zlen_pos (data s)). destruct (Z.ltb_spec (zlen (data s)) u) as [|Hu]; injection E as <- <-.
  - cbn [left]. rewrite Z.sub_diag. nia.
  - cbn [left data allocs]. rewrite total_app, total_one. unfold zlen in *. rewrite skipn_length.
    destruct (Z.leb_spec u 0); [assert (Z.to_nat u = 0%nat) as -> by lia; lia|]. nia.
Qed.
Lemma thrifty_value t : solid t -> forall ts dst, thrifty (Z.of_nat (depth t)) (value t ts dst).
Proof.
  induction t as [|k| |t IH|n t IH|t IH|fs IH| |c t IH] using ty_ind'; intros Hs ts dst.
  - cbn [value]. apply thrifty_bind; [lia|apply adv_pop|apply thrifty_pop; lia|]. intros [|x [|y z]]; try (apply thrifty_fail; lia).
    + destruct x as [|[]|]; try (apply thrifty_fail; lia); apply thrifty_ret; lia.
    + destruct x as [|[]|]; apply thrifty_fail; lia.
  - cbn [value]. apply thrifty_bind; [lia|apply adv_number|apply thrifty_number; lia|]. intros. apply thrifty_ret. lia.
  - cbn [value]. apply thrifty_bind; [lia|apply adv_read_len|apply thrifty_read_len; lia|]. intros u. apply log_thrifty. cbn. lia.
  - cbn [solid depth] in *. destruct (is_custom t) eqn:Ec.
    + destruct t; try discriminate. cbn [value]. destruct dst as [| | |[v|]| | | |]; try (apply thrifty_fail; lia).
      apply thrifty_bind; [lia|apply adv_call|apply thrifty_call; lia|]. intros. apply thrifty_ret. lia.
    + rewrite value_ptr by exact Ec. cbv zeta.
      assert (Hgo : thrifty (Z.of_nat (depth t)) (do v <- value t ts (zero t); ret (VPtr (Some v)))).
      { apply thrifty_bind; [lia|apply adv_value|apply IH, Hs|]. intros. apply thrifty_ret. lia. }
      destruct (optional ts); [|exact Hgo]. apply thrifty_bind; [lia|apply adv_pop|apply thrifty_pop; lia|].
      intros [|x [|y z]]; try (apply thrifty_fail; lia).
      * destruct x as [|[]|]; try (apply thrifty_fail; lia); try (apply thrifty_ret; lia). exact Hgo.
      * destruct x as [|[]|]; apply thrifty_fail; lia.
  - cbn [value solid depth] in *. destruct (is_u8 t); [destruct (is_custom t)|].
    + apply thrifty_bind; [lia|apply adv_pop|apply thrifty_pop; lia|]. intros. apply thrifty_fail. lia.
    + apply thrifty_bind; [lia|apply adv_pop|apply thrifty_pop; lia|]. intros. apply thrifty_ret. lia.
    + apply thrifty_bind; [lia|apply adv_dec_n; intros; apply adv_value|apply thrifty_dec; [lia|intros; apply adv_value|intros; apply IH, Hs]|]. intros. apply thrifty_ret. lia.
  - cbn [value]. apply thrifty_bind; [lia|apply adv_read_len|apply thrifty_read_len; lia|]. intros u. cbn [solid depth] in *. destruct (is_u8 t) eqn:Eu; [apply log_thrifty; lia|].
    destruct Hs as [Hs|(Ht & Hs)]; [discriminate|]. intros s r s' E. pose proof (zlen_pos (data s)) as P.
    destruct (Z.ltb_spec (zlen (data s)) u) as [|Hu]; [injection E as <- <-; cbn [left]; rewrite Z.sub_diag; nia|].
    unfold mbind at 1, alloc_elems at 1 in E.
    set (s1 := DState (data s) (allocs s ++ [(u, zlen (data s))])) in *.
    assert (T1 : total (allocs s1) = total (allocs s) + u) by (unfold s1; cbn [allocs]; rewrite total_app, total_one; reflexivity).
    apply mbind_inv in E as [(vs & s2 & E1 & E2)|[(e & E1 & ->)|[(E1 & ->)|(E1 & ->)]]].
    + injection E2 as <- <-. pose proof (thrifty_dec _ _ _ (Zle_0_nat (depth t)) (fun d => adv_value t no_tags d) (IH Hs no_tags) _ _ _ _ E1) as B.
      pose proof (dec_takes _ _ (fun d => adv_value t no_tags d) (takes_value t Ht) _ _ _ _ E1) as C. cbn [left] in *. change (data s1) with (data s) in *. nia.
    + pose proof (thrifty_dec _ _ _ (Zle_0_nat (depth t)) (fun d => adv_value t no_tags d) (IH Hs no_tags) _ _ _ _ E1) as B. cbn [left] in *. change (data s1) with (data s) in *. nia.
    + pose proof (thrifty_dec _ _ _ (Zle_0_nat (depth t)) (fun d => adv_value t no_tags d) (IH Hs no_tags) _ _ _ _ E1) as B. cbn [left] in *. change (data s1) with (data s) in *. nia.
    + pose proof (thrifty_dec _ _ _ (Zle_0_nat (depth t)) (fun d => adv_value t no_tags d) (IH Hs no_tags) _ _ _ _ E1) as B. cbn [left] in *. change (data s1) with (data s) in *. nia.
  - rewrite value_struct. change (solid_fields fs) in Hs. change (depth (TStruct fs)) with (depth_fields fs).
    apply thrifty_bind; [lia|apply adv_fields| |intros; apply thrifty_ret; lia]. generalize (elems_of dst). clear dst.
    induction IH as [|(tag & t) fs Ht Hfs IHfs]; intros dsts; cbn [value_fields depth_fields solid_fields] in *; [apply thrifty_ret; lia|].
    destruct Hs as (Hs1 & Hs2). apply thrifty_bind; [lia|apply adv_fail|apply thrifty_fail; lia|]. intros ts0.
    apply thrifty_bind; [lia|apply adv_value|apply (thrifty_weaken (Z.of_nat (depth t))); [lia|apply adv_value|apply Ht, Hs1]|]. intros v.
    apply thrifty_bind; [lia|apply adv_fields|apply (thrifty_weaken (Z.of_nat (depth_fields fs))); [lia|apply adv_fields|apply IHfs, Hs2]|]. intros vs. apply thrifty_ret. lia.
  - apply thrifty_fail. lia.
  - apply thrifty_call. lia.
Qed.
