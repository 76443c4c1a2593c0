(** Decoding into memory does what decoding of values does, in fresh memory. *)
From Coq Require Import ZArith List Lia Bool.
Import ListNotations.
From Verif.Model Require Import Base Address Beserial DecodeMemory.
From Verif.Spec Require Import BeserialSpec OwnershipSpec.
From Verif.Proofs Require Import BaseFacts BeserialFacts DecodeMemFacts.
Open Scope Z_scope.

(** ** The input *)
Definition valid (s : dec) : Prop :=
  (d_cell s < length (d_mem s))%nat /\ (d_off s + d_len s <= length (cell (d_mem s) (d_cell s)))%nat /\ bytes_ok (rest s).
Lemma rest_length s : valid s -> length (rest s) = d_len s.
Proof. intros (_ & H & _). unfold rest, bytes_in, elems_at. rewrite map_length, firstn_length, skipn_length. lia. Qed.
Lemma valid_cell s m : valid s -> cell m (d_cell s) = cell (d_mem s) (d_cell s) -> (d_cell s < length m)%nat -> valid (with_mem s m) /\ rest (with_mem s m) = rest s.
Proof.
  intros (H1 & H2 & H3) Ec Hl.
  assert (Er : rest (with_mem s m) = rest s) by (unfold rest, bytes_in, elems_at; cbn [with_mem d_mem d_cell d_off d_len]; rewrite Ec; reflexivity).
  split; [|exact Er]. split; [exact Hl|]. split; [cbn [with_mem d_mem d_cell d_off d_len]; rewrite Ec; exact H2|rewrite Er; exact H3].
Qed.
Lemma valid_mem s m : valid s -> ext (d_mem s) m -> valid (with_mem s m) /\ rest (with_mem s m) = rest s.
Proof.
  intros Hv He. pose proof Hv as (H1 & _). apply valid_cell; [exact Hv|exact (ext_cell _ _ _ He H1)|]. pose proof (ext_length _ _ He). lia.
Qed.
Lemma firstn_firstn_le {A} n k (l : list A) : (n <= k)%nat -> firstn n (firstn k l) = firstn n l.
Proof. intros H. rewrite firstn_firstn. f_equal. lia. Qed.
Lemma skipn_add {A} a b (l : list A) : skipn a (skipn b l) = skipn (b + a) l.
Proof. revert l. induction b as [|b IH]; intros l; [reflexivity|]. destruct l; [rewrite !skipn_nil; reflexivity|]. apply IH. Qed.
Lemma advance_ok s n : valid s -> (n <= d_len s)%nat -> valid (advance s n) /\ rest (advance s n) = skipn n (rest s).
Proof.
  intros (H1 & H2 & H3) Hn.
  assert (Er : rest (advance s n) = skipn n (rest s)) by (unfold rest, bytes_in, elems_at; cbn [advance d_mem d_cell d_off d_len]; rewrite skipn_map, skipn_firstn_comm, skipn_add; reflexivity).
  split; [|exact Er]. split; [exact H1|]. split; [cbn [advance d_mem d_cell d_off d_len]; lia|]. rewrite Er. apply bytes_ok_skipn. exact H3.
Qed.
Lemma pop_sim n s ps : valid s -> 0 <= n -> data ps = rest s ->
  match pop n ps with
  | (Ok b, ps') => mpop n s = (Ok (d_off s), advance s (Z.to_nat n)) /\ b = bytes_in (d_mem s) (d_cell s) (d_off s) (Z.to_nat n) /\
                   data ps' = rest (advance s (Z.to_nat n)) /\ valid (advance s (Z.to_nat n)) /\ length b = Z.to_nat n
  | (Err e, ps') => mpop n s = (Err e, s) /\ ps' = ps
  | _ => False
  end.
Proof.
  intros Hv Hn Hd. pose proof (rest_length s Hv) as Hl. unfold pop, mpop. rewrite Hd. unfold zlen. rewrite Hl.
  destruct (Z.ltb_spec (Z.of_nat (d_len s)) n) as [Hlt|Hge]; [split; reflexivity|].
  destruct (advance_ok s (Z.to_nat n) Hv ltac:(lia)) as (Hv' & Hr'). split; [reflexivity|]. split; [|split; [cbn [data]; exact (eq_sym Hr')|split; [exact Hv'|rewrite firstn_length; lia]]].
  unfold rest, bytes_in, elems_at. rewrite firstn_map. rewrite firstn_firstn_le by lia. reflexivity.
Qed.

(** Steps that only read. *)
Definition scalar {A} (P : A -> Prop) (s : dec) (o : res A * dec) (p : res A * dstate) : Prop :=
  fst o = fst p /\ (forall a, fst p = Ok a -> P a) /\
  d_mem (snd o) = d_mem s /\ d_cell (snd o) = d_cell s /\ valid (snd o) /\ data (snd p) = rest (snd o).
Lemma number_sim k s ps : valid s -> data ps = rest s ->
  scalar (fun z => signed k = false -> 0 <= z) s (mnumber k s) (number k ps).
Proof.
  intros Hv Hd. unfold mnumber, number, mbind. pose proof (pop_sim (Z.of_nat (width k)) s ps Hv ltac:(lia) Hd) as P.
  assert (Hb : forall b, (exists ps', pop (Z.of_nat (width k)) ps = (Ok b, ps')) -> bytes_ok b).
  { intros b (ps' & E). unfold pop in E. destruct (zlen (data ps) <? Z.of_nat (width k)); [discriminate|]. injection E as <- _.
    apply bytes_ok_firstn. rewrite Hd. apply Hv. }
  destruct (pop (Z.of_nat (width k)) ps) as ([b|e| |] & ps'); try contradiction.
  - specialize (Hb b (ex_intro _ ps' eq_refl)). destruct P as (-> & Eb & Hd' & Hv' & _). rewrite Nat2Z.id in *. cbn [d_mem d_cell advance]. rewrite <- Eb. unfold ret.
    split; [reflexivity|]. split; [|split; [reflexivity|split; [reflexivity|split; [exact Hv'|exact Hd']]]].
    intros a Ha Hk. cbn [fst] in Ha. injection Ha as <-. pose proof (be_get_bound b Hb) as B. destruct k; try discriminate Hk; apply B.
  - destruct P as (-> & ->). split; [reflexivity|]. split; [discriminate|]. split; [reflexivity|]. split; [reflexivity|]. split; [exact Hv|exact Hd].
Qed.
Lemma read_len_sim ts s ps : valid s -> data ps = rest s -> scalar (fun z => 0 <= z) s (mread_len ts s) (read_len ts ps).
Proof.
  intros Hv Hd. unfold mread_len, read_len. destruct (lenTag ts) as [k|].
  2: { split; [reflexivity|]. split; [discriminate|]. split; [reflexivity|]. split; [reflexivity|]. split; [exact Hv|exact Hd]. }
  pose proof (number_sim k s ps Hv Hd) as (E & HP & Em & Ec & Hv' & Hd'). unfold mbind.
  destruct (mnumber k s) as (r & s1), (number k ps) as (pr & ps1). cbn [fst snd] in *. subst r.
  destruct pr as [u|e| |]; try (split; [reflexivity|]; split; [discriminate|]; split; [exact Em|]; split; [exact Ec|]; split; [exact Hv'|exact Hd']).
  specialize (HP u eq_refl).
  assert (G : forall (r : res Z), (forall a, r = Ok a -> 0 <= a) -> scalar (fun z => 0 <= z) s (r, s1) (r, ps1)).
  { intros r Hr. split; [reflexivity|]. split; [exact Hr|]. split; [exact Em|]. split; [exact Ec|]. split; [exact Hv'|exact Hd']. }
  destruct (signed k) eqn:Hk; cbn [andb].
  - destruct (Z.ltb_spec u 0); [apply G; discriminate|]. destruct (maxInt <? u); apply G; [discriminate|]. intros a Ha. injection Ha as <-. assumption.
  - destruct (maxInt <? u); apply G; [discriminate|]. intros a Ha. injection Ha as <-. apply HP. reflexivity.
Qed.

(** ** Steps that write a variable *)
Definition agrees {A V} (R : mem -> A -> option V) (C : mem -> A -> list nat) (x0 : A) (s0 : dec) (o : outcome A) (p : res V * dstate) : Prop :=
  let '(r, y, s) := o in let '(pr, ps) := p in
  (ext (d_mem s0) (d_mem s) /\ d_cell s = d_cell s0 /\ valid s /\ data ps = rest s) /\
  (exists w, R (d_mem s) y = Some w) /\
  Forall (fun c => In c (C (d_mem s0) x0) \/ (length (d_mem s0) <= c)%nat) (C (d_mem s) y) /\
  match pr with
  | Ok v => r = Ok tt /\ R (d_mem s) y = Some v /\ fresh_list (length (d_mem s0)) (length (d_mem s)) (C (d_mem s) y)
  | Err e => r = Err e
  | Panic => r = Panic
  | OutOfFuel => r = OutOfFuel
  end.
Lemma fresh_old n n' l (old : list nat) : fresh_list n n' l -> Forall (fun c => In c old \/ (n <= c)%nat) l.
Proof. intros (_ & F). eapply Forall_impl; [|exact F]. cbn. intros c Hc. right. lia. Qed.
Lemma old_old (l : list nat) n : Forall (fun c => In c l \/ (n <= c)%nat) l.
Proof. apply Forall_forall. auto. Qed.

(** The variable keeps its contents and the outcome is not [Ok]. *)
Lemma agrees_fail {A V} (R : mem -> A -> option V) C x0 s0 s1 w (pr : res V) ps :
  R (d_mem s0) x0 = Some w -> d_mem s1 = d_mem s0 -> d_cell s1 = d_cell s0 -> valid s1 -> data ps = rest s1 -> (forall v, pr <> Ok v) ->
  agrees R C x0 s0 (lost pr, x0, s1) (pr, ps).
Proof.
  intros Hw Em Ec Hv Hd Hf. unfold agrees. rewrite Em. split; [split; [apply ext_refl|]; split; [exact Ec|]; split; assumption|].
  split; [eauto|]. split; [apply old_old|]. destruct pr; cbn; try reflexivity. destruct (Hf a eq_refl).
Qed.
(** The variable is overwritten with something that holds no memory. *)
Lemma agrees_flat {A V} (R : mem -> A -> option V) C x0 s0 s1 y v ps :
  R (d_mem s1) y = Some v -> C (d_mem s1) y = [] -> d_mem s1 = d_mem s0 -> d_cell s1 = d_cell s0 -> valid s1 -> data ps = rest s1 ->
  agrees R C x0 s0 (Ok tt, y, s1) (Ok v, ps).
Proof.
  intros Hr Hc Em Ec Hv Hd. unfold agrees. split; [split; [rewrite Em; apply ext_refl|]; split; [exact Ec|]; split; assumption|].
  split; [eauto|]. rewrite Hc. split; [constructor|]. split; [reflexivity|]. split; [exact Hr|apply fresh_nil].
Qed.

Lemma dec_sim t f g : (forall x dv s ps, valid s -> data ps = rest s -> read t (d_mem s) x = Some dv -> agrees (read t) (cells t) x s (f x s) (g dv ps)) ->
  forall l dvs s ps, valid s -> data ps = rest s -> all_some (map (read t (d_mem s)) l) = Some dvs ->
  agrees (fun m l => all_some (map (read t m) l)) (fun m l => flat_map (cells t m) l) l s (mdec_n f l s) (dec_n g (length l) dvs ps) /\
  (let '(_, ys, _) := mdec_n f l s in length ys = length l).
Proof.
  intros Hfg. induction l as [|x l IH]; intros dvs s ps Hv Hd E; cbn [map all_some length mdec_n dec_n] in *.
  - split; [|reflexivity]. apply agrees_flat; try reflexivity; try exact Hv. exact Hd.
  - destruct (read t (d_mem s) x) as [dv|] eqn:Ex; [|discriminate]. destruct (all_some (map (read t (d_mem s)) l)) as [dvs'|] eqn:El; [|discriminate].
    injection E as <-. cbn [hd_val List.tl]. unfold mbind. specialize (Hfg x dv s ps Hv Hd Ex). unfold agrees in Hfg.
    destruct (f x s) as ((r & y) & s1), (g dv ps) as (pr & ps1). destruct Hfg as ((He & Ec & Hv1 & Hd1) & (w & Hw) & Ho & Hr).
    destruct (map_keeps t _ _ l dvs' He El) as (El1 & Cl1).
    destruct pr as [v| | |]; [destruct Hr as (-> & Hr & Hf)|..].
    + specialize (IH dvs' s1 ps1 Hv1 Hd1 El1). destruct IH as (IH & IHl). unfold agrees in IH.
      destruct (mdec_n f l s1) as ((r2 & ys) & s2), (dec_n g (length l) dvs' ps1) as (pr2 & ps2). destruct IH as ((He2 & Ec2 & Hv2 & Hd2) & (ws & Hws) & Ho2 & Hr2).
      destruct (ext_keeps t _ _ y v He2 Hr) as (Hr' & Hc'). split; [|cbn; congruence].
      pose proof (ext_length _ _ He) as L1. pose proof (ext_length _ _ He2) as L2.
      assert (F : Forall (fun c => In c (flat_map (cells t (d_mem s)) (x :: l)) \/ (length (d_mem s) <= c)%nat) (flat_map (cells t (d_mem s2)) (y :: ys))).
      { cbn [flat_map]. rewrite Hc'. apply Forall_app. split.
        - eapply Forall_impl; [|exact Ho]. cbn. intros c [Hc|Hc]; [left; apply in_or_app; left; exact Hc|right; exact Hc].
        - eapply Forall_impl; [|exact Ho2]. cbn. intros c [Hc|Hc]; [left; apply in_or_app; right; rewrite <- Cl1; exact Hc|right; lia]. }
      assert (B : ext (d_mem s) (d_mem s2) /\ d_cell s2 = d_cell s /\ valid s2 /\ data ps2 = rest s2) by (split; [eapply ext_trans; eassumption|]; split; [congruence|]; split; assumption).
      assert (W : exists w0, all_some (map (read t (d_mem s2)) (y :: ys)) = Some w0) by (cbn [map all_some]; rewrite Hr', Hws; eauto).
      destruct pr2 as [vs| | |]; unfold ret; (split; [exact B|]; split; [exact W|]; split; [exact F|]); try exact Hr2.
      destruct Hr2 as (-> & Hr2 & Hf2). split; [reflexivity|]. cbn [map all_some flat_map]. rewrite Hr', Hr2, Hc'. split; [reflexivity|].
      eapply fresh_app; [|exact Hf|exact Hf2]. lia.
    + subst r. split; [|reflexivity].
      split; [split; [exact He|]; split; [exact Ec|]; split; assumption|]. split; [cbn [map all_some]; rewrite Hw, El1; eauto|]. split; [|reflexivity].
      cbn [flat_map]. rewrite Cl1. apply Forall_app. split.
      * eapply Forall_impl; [|exact Ho]. cbn. intros c [Hc|Hc]; [left; apply in_or_app; left; exact Hc|right; exact Hc].
      * apply Forall_forall. intros c Hc. left. apply in_or_app. right. exact Hc.
    + subst r. split; [|reflexivity].
      split; [split; [exact He|]; split; [exact Ec|]; split; assumption|]. split; [cbn [map all_some]; rewrite Hw, El1; eauto|]. split; [|reflexivity].
      cbn [flat_map]. rewrite Cl1. apply Forall_app. split.
      * eapply Forall_impl; [|exact Ho]. cbn. intros c [Hc|Hc]; [left; apply in_or_app; left; exact Hc|right; exact Hc].
      * apply Forall_forall. intros c Hc. left. apply in_or_app. right. exact Hc.
    + subst r. split; [|reflexivity].
      split; [split; [exact He|]; split; [exact Ec|]; split; assumption|]. split; [cbn [map all_some]; rewrite Hw, El1; eauto|]. split; [|reflexivity].
      cbn [flat_map]. rewrite Cl1. apply Forall_app. split.
      * eapply Forall_impl; [|exact Ho]. cbn. intros c [Hc|Hc]; [left; apply in_or_app; left; exact Hc|right; exact Hc].
      * apply Forall_forall. intros c Hc. left. apply in_or_app. right. exact Hc.
Qed.
Lemma fields_keeps m m' fs : forall l vs, ext m m' -> read_fields m fs l = Some vs -> read_fields m' fs l = Some vs /\ cells_fields m' fs l = cells_fields m fs l.
Proof.
  induction fs as [|(g & t) fs IH]; intros [|y l] vs He E; cbn [read_fields cells_fields] in *; try discriminate; [split; [exact E|reflexivity]|].
  destruct (read t m y) as [w|] eqn:Ey; [|discriminate]. destruct (read_fields m fs l) as [ws|] eqn:El; [|discriminate].
  destruct (ext_keeps t m m' y w He Ey) as (-> & ->). destruct (IH l ws He El) as (-> & ->). split; [exact E|reflexivity].
Qed.
Lemma fields_sim fs : Forall (fun f => plain (snd f) -> forall ts x dv s ps, valid s -> data ps = rest s -> read (snd f) (d_mem s) x = Some dv ->
    agrees (read (snd f)) (cells (snd f)) x s (mvalue (snd f) ts x s) (value (snd f) ts dv ps)) fs -> plain_fields fs ->
  forall l dvs s ps, valid s -> data ps = rest s -> read_fields (d_mem s) fs l = Some dvs ->
  agrees (fun m l => read_fields m fs l) (fun m l => cells_fields m fs l) l s (mfields fs l s) (value_fields fs dvs ps).
Proof.
  induction 1 as [|(g & t) fs Ht Hfs IH]; intros Hp [|x l] dvs s ps Hv Hd E; cbn [read_fields] in E; try discriminate; cbn [mfields value_fields snd] in *.
  - injection E as <-. apply agrees_flat; try reflexivity; try exact Hv. exact Hd.
  - destruct Hp as (Hp1 & Hp2). destruct (read t (d_mem s) x) as [dv|] eqn:Ex; [|discriminate]. destruct (read_fields (d_mem s) fs l) as [dvs'|] eqn:El; [|discriminate].
    injection E as <-. cbn [hd_val List.tl]. unfold mbind, fail.
    assert (RF : forall pr : res (list val), (forall v, pr <> Ok v) -> agrees (fun m l => read_fields m ((g, t) :: fs) l) (fun m l => cells_fields m ((g, t) :: fs) l) (x :: l) s (lost pr, x :: l, s) (pr, ps)).
    { intros pr Hpr. eapply agrees_fail; try reflexivity; try exact Hv; try exact Hd; [|exact Hpr]. cbn [read_fields]. rewrite Ex, El. reflexivity. }
    destruct (field_tags g) as [ts0|e| |]; [|apply (RF (Err e)); discriminate|apply (RF Panic); discriminate|apply (RF OutOfFuel); discriminate].
    specialize (Ht Hp1 ts0 x dv s ps Hv Hd Ex). unfold agrees in Ht.
    destruct (mvalue t ts0 x s) as ((r & y) & s1), (value t ts0 dv ps) as (pr & ps1). destruct Ht as ((He & Ec & Hv1 & Hd1) & (w & Hw) & Ho & Hr).
    destruct (fields_keeps _ _ fs l dvs' He El) as (El1 & Cl1).
    assert (FAIL : forall (pr : res (list val)), (forall v, pr <> Ok v) -> agrees (fun m l => read_fields m ((g, t) :: fs) l) (fun m l => cells_fields m ((g, t) :: fs) l) (x :: l) s (lost pr, y :: l, s1) (pr, ps1)).
    { intros pr0 Hf. split; [split; [exact He|]; split; [exact Ec|]; split; assumption|]. split; [cbn [read_fields]; rewrite Hw, El1; eauto|]. split.
      - cbn [cells_fields]. rewrite Cl1. apply Forall_app. split.
        + eapply Forall_impl; [|exact Ho]. cbn. intros c [Hc|Hc]; [left; apply in_or_app; left; exact Hc|right; exact Hc].
        + apply Forall_forall. intros c Hc. left. apply in_or_app. right. exact Hc.
      - destruct pr0; cbn; try reflexivity. destruct (Hf a eq_refl). }
    destruct pr as [v|e| |]; [destruct Hr as (-> & Hr & Hf)|subst r; apply (FAIL (Err e)); discriminate|subst r; apply (FAIL Panic); discriminate|subst r; apply (FAIL OutOfFuel); discriminate].
    specialize (IH Hp2 l dvs' s1 ps1 Hv1 Hd1 El1). unfold agrees in IH.
    destruct (mfields fs l s1) as ((r2 & ys) & s2), (value_fields fs dvs' ps1) as (pr2 & ps2). destruct IH as ((He2 & Ec2 & Hv2 & Hd2) & (ws & Hws) & Ho2 & Hr2).
    destruct (ext_keeps t _ _ y v He2 Hr) as (Hr' & Hc'). pose proof (ext_length _ _ He) as L1. pose proof (ext_length _ _ He2) as L2.
    assert (F : Forall (fun c => In c (cells_fields (d_mem s) ((g, t) :: fs) (x :: l)) \/ (length (d_mem s) <= c)%nat) (cells_fields (d_mem s2) ((g, t) :: fs) (y :: ys))).
    { cbn [cells_fields]. rewrite Hc'. apply Forall_app. split.
      - eapply Forall_impl; [|exact Ho]. cbn. intros c [Hc|Hc]; [left; apply in_or_app; left; exact Hc|right; exact Hc].
      - eapply Forall_impl; [|exact Ho2]. cbn. intros c [Hc|Hc]; [left; apply in_or_app; right; rewrite <- Cl1; exact Hc|right; lia]. }
    assert (B : ext (d_mem s) (d_mem s2) /\ d_cell s2 = d_cell s /\ valid s2 /\ data ps2 = rest s2) by (split; [eapply ext_trans; eassumption|]; split; [congruence|]; split; assumption).
    assert (W : exists w0, read_fields (d_mem s2) ((g, t) :: fs) (y :: ys) = Some w0) by (cbn [read_fields]; rewrite Hr', Hws; eauto).
    destruct pr2 as [vs| | |]; unfold ret; (split; [exact B|]; split; [exact W|]; split; [exact F|]); try exact Hr2.
    destruct Hr2 as (-> & Hr2 & Hf2). split; [reflexivity|]. cbn [read_fields cells_fields]. rewrite Hr', Hr2, Hc'. split; [reflexivity|].
    eapply fresh_app; [|exact Hf|exact Hf2]. lia.
Qed.

(** ** The decoder *)
Lemma bytes_flat t m b : is_u8 t = true -> all_some (map (read t m) (map (fun z => MNum z) b)) = Some (map VNum b) /\ flat_map (cells t m) (map (fun z => MNum z) b) = [].
Proof.
  intros Ht. assert (H : forall z, read t m (MNum z) = Some (VNum z) /\ cells t m (MNum z) = []).
  { intros z. unfold is_u8 in Ht. induction t using ty_ind'; cbn [num_kind] in Ht; try discriminate; [split; reflexivity|]. cbn [read cells]. apply IHt. exact Ht. }
  induction b as [|z b (IH1 & IH2)]; [split; reflexivity|]. cbn [map all_some flat_map]. destruct (H z) as (-> & ->). rewrite IH1, IH2. split; reflexivity.
Qed.
Lemma call_sim c t x dv s ps : (forall v0 d v n, cd_unmarshal c v0 d = Ok (v, n) -> shaped t v) ->
  valid s -> data ps = rest s -> read t (d_mem s) x = Some dv -> agrees (read t) (cells t) x s (call_own c t x s) (call_unmarshal c dv ps).
Proof.
  intros Hc Hv Hd Ex. unfold call_own, call_unmarshal. rewrite Ex, Hd.
  assert (F : forall pr : res val, (forall v, pr <> Ok v) -> agrees (read t) (cells t) x s (lost pr, x, s) (pr, ps)).
  { intros pr Hpr. eapply agrees_fail; try reflexivity; try exact Hv; try exact Hd; [exact Ex|exact Hpr]. }
  destruct (cd_unmarshal c dv (rest s)) as [(v & n)|e| |] eqn:E; [|apply (F (Err e)); discriminate|apply (F Panic); discriminate|apply (F OutOfFuel); discriminate].
  destruct (Z.ltb_spec n 0) as [|Hn]; [apply (F Panic); discriminate|].
  destruct (Z.ltb_spec (zlen (rest s)) n) as [|Hl]; [apply (F Panic); discriminate|].
  pose proof (place_ok t v (d_mem s) (Hc _ _ _ _ E)) as P. destruct (place t v (d_mem s)) as (y & m). destruct P as (He & Hr & Hf).
  destruct (valid_mem s m Hv He) as (Hv1 & Er1). unfold zlen in Hl. rewrite (rest_length s Hv) in Hl.
  destruct (advance_ok (with_mem s m) (Z.to_nat n) Hv1 ltac:(cbn [with_mem d_len]; lia)) as (Hv2 & Er2).
  split; [split; [exact He|]; split; [reflexivity|]; split; [exact Hv2|cbn [data]; rewrite Er2, Er1; reflexivity]|].
  split; [exists v; exact Hr|]. split; [eapply fresh_old; exact Hf|]. split; [reflexivity|]. split; [exact Hr|exact Hf].
Qed.
Lemma set_new m l e y : set_cell ((m ++ [l]) ++ e) (length m) y = (m ++ [y]) ++ e.
Proof. rewrite <- !app_assoc. apply set_cell_app. Qed.
(** Replacing a cell below those that are reached. *)
Lemma swap_keeps t (m : mem) l l' e x v : read t ((m ++ [l]) ++ e) x = Some v -> Forall (fun c => length m + 1 <= c)%nat (cells t ((m ++ [l]) ++ e) x) ->
  read t ((m ++ [l']) ++ e) x = Some v /\ cells t ((m ++ [l']) ++ e) x = cells t ((m ++ [l]) ++ e) x.
Proof.
  intros Hr Hc. destruct (frame t ((m ++ [l]) ++ e) ((m ++ [l']) ++ e) x) as (-> & ->); [|split; [exact Hr|reflexivity]].
  intros c Hin. rewrite Forall_forall in Hc. specialize (Hc c Hin). rewrite !nth_error_app2 by (rewrite app_length; cbn; lia). rewrite !app_length. reflexivity.
Qed.
Lemma swap_keeps_list t (m : mem) l l' e xs vs : all_some (map (read t ((m ++ [l]) ++ e)) xs) = Some vs -> Forall (fun c => length m + 1 <= c)%nat (flat_map (cells t ((m ++ [l]) ++ e)) xs) ->
  all_some (map (read t ((m ++ [l']) ++ e)) xs) = Some vs /\ flat_map (cells t ((m ++ [l']) ++ e)) xs = flat_map (cells t ((m ++ [l]) ++ e)) xs.
Proof.
  revert vs. induction xs as [|x xs IH]; intros vs Hr Hc; [split; [exact Hr|reflexivity]|]. cbn [map all_some flat_map] in *.
  apply Forall_app in Hc as (H1 & H2). destruct (read t ((m ++ [l]) ++ e) x) as [v|] eqn:Ex; [|discriminate].
  destruct (all_some (map (read t ((m ++ [l]) ++ e)) xs)) as [ws|]; [|discriminate].
  destruct (swap_keeps t m l l' e x v Ex H1) as (-> & ->). destruct (IH ws eq_refl H2) as (-> & ->). split; [exact Hr|reflexivity].
Qed.
Lemma swap_valid s (m : mem) l l' e : valid s -> d_mem s = (m ++ [l]) ++ e -> (d_cell s < length m)%nat -> valid (with_mem s ((m ++ [l']) ++ e)) /\ rest (with_mem s ((m ++ [l']) ++ e)) = rest s.
Proof.
  intros Hv Em Hc. apply valid_cell; [exact Hv| |rewrite !app_length; lia]. rewrite Em. unfold cell. rewrite <- !app_assoc. rewrite !app_nth1 by exact Hc. reflexivity.
Qed.
Lemma above_new (m : mem) l n (xs : list nat) : n = length (m ++ [l]) -> Forall (fun c => In c [] \/ (n <= c)%nat) xs -> Forall (fun c => length m + 1 <= c)%nat xs.
Proof. intros ->. apply Forall_impl. intros c [[]|H]. rewrite app_length in H. cbn in H. lia. Qed.

Lemma zeros_read t (m : mem) k : all_some (map (read t m) (repeat (mzero t) k)) = Some (repeat (zero t) k) /\ flat_map (cells t m) (repeat (mzero t) k) = [].
Proof.
  induction k as [|k (IH1 & IH2)]; [split; reflexivity|]. cbn [repeat map all_some flat_map]. rewrite read_zero, cells_zero, IH1, IH2. split; reflexivity.
Qed.
Lemma value_sim t : plain t -> forall ts x dv s ps, valid s -> data ps = rest s -> read t (d_mem s) x = Some dv ->
  agrees (read t) (cells t) x s (mvalue t ts x s) (value t ts dv ps).
Proof.
  induction t as [|k| |t IH|n t IH|t IH|fs IH| |c t IH] using ty_ind'; intros Hp ts x dv s ps Hv Hd Ex.
  all: match goal with |- agrees (read ?T) _ _ _ _ _ =>
    assert (F : forall s1 ps1 (pr : res val), d_mem s1 = d_mem s -> d_cell s1 = d_cell s -> valid s1 -> data ps1 = rest s1 -> (forall v, pr <> Ok v) -> agrees (read T) (cells T) x s (lost pr, x, s1) (pr, ps1))
      by (intros s1 ps1 pr E1 E2 E3 E4 E5; eapply agrees_fail; eassumption) end.
  - (* bool *)
    cbn [mvalue value]. unfold mbind. pose proof (pop_sim 1 s ps Hv ltac:(lia) Hd) as P. destruct (pop 1 ps) as ([b|e| |] & ps1); try contradiction.
    + destruct P as (-> & Eb & Hd1 & Hv1 & Hl). cbn [d_mem d_cell advance]. change (Z.to_nat 1) with 1%nat in *. rewrite <- Eb.
      destruct b as [|z [|]]; try discriminate Hl.
      destruct z as [|[p|p|]|p]; try (apply (F _ _ (Err EBadBool)); try reflexivity; [exact Hv1|exact Hd1|discriminate]);
        (apply agrees_flat; try reflexivity; [exact Hv1|exact Hd1]).
    + destruct P as (-> & ->). apply (F _ _ (Err e)); try reflexivity; [exact Hv|exact Hd|discriminate].
  - (* num *)
    cbn [mvalue value]. unfold mbind. destruct (number_sim k s ps Hv Hd) as (E & _ & Em & Ec & Hv1 & Hd1).
    destruct (mnumber k s) as (r & s1), (number k ps) as (pr & ps1). cbn [fst snd] in *. subst r. destruct pr as [z|e| |].
    + apply agrees_flat; try reflexivity; assumption.
    + apply (F _ _ (Err e)); try assumption; discriminate.
    + apply (F _ _ Panic); try assumption; discriminate.
    + apply (F _ _ OutOfFuel); try assumption; discriminate.
  - (* string *)
    cbn [mvalue value]. unfold mbind. destruct (read_len_sim ts s ps Hv Hd) as (E & HP & Em & Ec & Hv1 & Hd1).
    destruct (mread_len ts s) as (r & s1), (read_len ts ps) as (pr & ps1). cbn [fst snd] in *. subst r. destruct pr as [u|e| |].
    2: apply (F _ _ (Err e)); try assumption; discriminate. 2: apply (F _ _ Panic); try assumption; discriminate. 2: apply (F _ _ OutOfFuel); try assumption; discriminate.
    pose proof (pop_sim u s1 ps1 Hv1 (HP u eq_refl) Hd1) as P. destruct (pop u ps1) as ([b|e| |] & ps2); try contradiction.
    + destruct P as (-> & Eb & Hd2 & Hv2 & Hl). cbn [d_mem d_cell advance] in *. rewrite <- Eb.
      apply agrees_flat; try reflexivity; assumption.
    + destruct P as (-> & ->). apply (F _ _ (Err e)); try assumption; discriminate.
  - (* pointer *)
    destruct Hp as (Hc & Hp). specialize (IH Hp).
    set (mgo := fun s => let '(m1, p) := alloc (d_mem s) [mzero t] in
            let '(r, y, s1) := mvalue t ts (mzero t) (with_mem s m1) in
            (r, MPtr (Some p), with_mem s1 (set_cell (d_mem s1) p [y]))).
    set (pgo := do v <- value t ts (zero t); ret (VPtr (Some v))).
    assert (GO : forall s0 ps0, d_mem s0 = d_mem s -> d_cell s0 = d_cell s -> valid s0 -> data ps0 = rest s0 -> agrees (read (TPtr t)) (cells (TPtr t)) x s (mgo s0) (pgo ps0)).
    { intros s0 ps0 Em Ec Hv0 Hd0. unfold mgo, pgo, alloc, mbind. rewrite Em. set (m1 := d_mem s ++ [[mzero t]]).
      assert (He1 : ext (d_mem s0) m1) by (rewrite Em; apply ext_alloc).
      destruct (valid_mem s0 m1 Hv0 He1) as (Hv1 & Er1).
      specialize (IH ts (mzero t) (zero t) (with_mem s0 m1) ps0 Hv1 ltac:(rewrite Er1; exact Hd0) (read_zero t _)). unfold agrees in IH.
      destruct (mvalue t ts (mzero t) (with_mem s0 m1)) as ((r & y) & s1), (value t ts (zero t) ps0) as (pr & ps1).
      destruct IH as ((He & Ec1 & Hv2 & Hd2) & (w & Hw) & Ho & Hr). cbn [with_mem d_mem d_cell] in *. rewrite cells_zero in Ho.
      destruct He as (e & Ee). unfold m1 in Ee.
      assert (Ho' : Forall (fun c => length (d_mem s) + 1 <= c)%nat (cells t (d_mem s1) y)) by (eapply above_new; [reflexivity|exact Ho]).
      rewrite Ee in Hw, Ho'. destruct (swap_keeps t (d_mem s) [mzero t] [y] e y w Hw Ho') as (Hw' & Hc'). rewrite <- Ee in Hc'.
      set (m' := (d_mem s ++ [[y]]) ++ e) in *. assert (Es : set_cell (d_mem s1) (length (d_mem s)) [y] = m') by (rewrite Ee; apply set_new). rewrite Es.
      assert (Hcell : (d_cell s1 < length (d_mem s))%nat) by (rewrite Ec1, <- Em; apply Hv0).
      destruct (swap_valid s1 (d_mem s) [mzero t] [y] e Hv2 Ee Hcell) as (Hv3 & Er3). fold m' in Hv3, Er3.
      assert (Hn : nth_error m' (length (d_mem s)) = Some [y]) by (unfold m'; rewrite <- app_assoc; rewrite nth_error_app2, Nat.sub_diag by lia; reflexivity).
      assert (Hlen : length m' = length (d_mem s1)) by (rewrite Ee; unfold m'; rewrite !app_length; cbn; lia).
      rewrite <- Ee in Ho'.
      assert (B : ext (d_mem s) m' /\ d_cell s1 = d_cell s /\ valid (with_mem s1 m') /\ data ps1 = rest (with_mem s1 m')).
      { split; [exists ([y] :: e); unfold m'; rewrite <- app_assoc; reflexivity|]. split; [congruence|]. split; [exact Hv3|congruence]. }
      assert (R : read (TPtr t) m' (MPtr (Some (length (d_mem s)))) = Some (VPtr (Some w))) by (cbn [read]; rewrite Hn, Hw'; reflexivity).
      assert (C : cells (TPtr t) m' (MPtr (Some (length (d_mem s)))) = length (d_mem s) :: cells t (d_mem s1) y) by (cbn [cells]; rewrite Hn, Hc'; reflexivity).
      assert (O : Forall (fun c => In c (cells (TPtr t) (d_mem s) x) \/ (length (d_mem s) <= c)%nat) (length (d_mem s) :: cells t (d_mem s1) y)).
      { constructor; [right; lia|]. eapply Forall_impl; [|exact Ho']. cbn. intros c H. right. lia. }
      assert (G : forall (q : res val), match q with Ok v => r = Ok tt /\ v = VPtr (Some w) /\ fresh_list (length (d_mem s)) (length m') (length (d_mem s) :: cells t (d_mem s1) y)
        | Err e => r = Err e | Panic => r = Panic | OutOfFuel => r = OutOfFuel end ->
        agrees (read (TPtr t)) (cells (TPtr t)) x s (r, MPtr (Some (length (d_mem s))), with_mem s1 m') (q, ps1)).
      { intros q Hq. unfold agrees. cbn [with_mem d_mem d_cell]. rewrite R, C. split; [exact B|]. split; [eauto|]. split; [exact O|].
        destruct q; try exact Hq. destruct Hq as (? & -> & ?). repeat split; assumption || apply H0. }
      destruct pr as [v| | |]; try (apply G; exact Hr). unfold ret. apply G. destruct Hr as (-> & Hr & (Nd & Fo)). rewrite Ee in Hr. split; [reflexivity|]. split; [congruence|].
      split.
      - constructor; [|exact Nd]. intros Hin. rewrite Forall_forall in Ho'. specialize (Ho' _ Hin). lia.
      - constructor; [rewrite Hlen, Ee, !app_length; cbn; lia|]. eapply Forall_impl; [|exact Fo]. cbn. intros c H. unfold m1 in H. rewrite app_length in H. lia. }
    assert (E1 : mvalue (TPtr t) ts x s = if optional ts then
            match mpop 1 s with
            | (Ok off, s1) =>
                match bytes_in (d_mem s1) (d_cell s1) off 1 with
                | [0] => (Ok tt, MPtr None, s1)
                | [1] => mgo s1
                | _ => (Err EBadOptionalFlag, x, s1)
                end
            | (r, s1) => (lost r, x, s1)
            end else mgo s) by (destruct t; try reflexivity; discriminate Hc).
    assert (E2 : value (TPtr t) ts dv ps = (if optional ts then
            do flag <- pop 1;
            match flag with
            | [0] => ret (VPtr None)
            | [1] => pgo
            | _ => err EBadOptionalFlag
            end else pgo) ps) by (destruct t; try reflexivity; discriminate Hc).
    rewrite E1, E2. destruct (optional ts); [|apply GO; try reflexivity; assumption].
    unfold mbind at 1. pose proof (pop_sim 1 s ps Hv ltac:(lia) Hd) as P. destruct (pop 1 ps) as ([b|e| |] & ps1); try contradiction.
    + destruct P as (-> & Eb & Hd1 & Hv1 & Hl). cbn [d_mem d_cell advance]. change (Z.to_nat 1) with 1%nat in *. rewrite <- Eb.
      destruct b as [|z [|]]; try discriminate Hl.
      destruct z as [|[p|p|]|p]; try (apply (F _ _ (Err EBadOptionalFlag)); try reflexivity; [exact Hv1|exact Hd1|discriminate]).
      * apply agrees_flat; try reflexivity; [exact Hv1|exact Hd1].
      * apply GO; try reflexivity; assumption.
    + destruct P as (-> & ->). apply (F _ _ (Err e)); try reflexivity; [exact Hv|exact Hd|discriminate].
  - (* array *)
    destruct x as [| | | |l| | |]; try discriminate. cbn [mvalue value]. cbn [plain] in Hp. destruct (is_u8 t) eqn:Hu.
    + pose proof (pop_sim (Z.of_nat n) s ps Hv ltac:(lia) Hd) as P. destruct (is_custom t) eqn:Hcu; unfold mbind.
      * destruct (pop (Z.of_nat n) ps) as ([b|e| |] & ps1); try contradiction.
        -- destruct P as (-> & _ & Hd1 & Hv1 & _). apply (F _ _ Panic); try reflexivity; [exact Hv1|exact Hd1|discriminate].
        -- destruct P as (-> & ->). apply (F _ _ (Err e)); try reflexivity; [exact Hv|exact Hd|discriminate].
      * destruct (pop (Z.of_nat n) ps) as ([b|e| |] & ps1); try contradiction.
        -- destruct P as (-> & Eb & Hd1 & Hv1 & _). cbn [d_mem d_cell advance]. rewrite Nat2Z.id in *. rewrite <- Eb.
           destruct (bytes_flat t (d_mem s) b Hu) as (B1 & B2).
           apply agrees_flat; try reflexivity; [cbn [read advance d_mem]; rewrite Hu; cbn [orb]; rewrite B1; reflexivity|exact B2|exact Hv1|exact Hd1].
        -- destruct P as (-> & ->). apply (F _ _ (Err e)); try reflexivity; [exact Hv|exact Hd|discriminate].
    + cbn [read] in Ex. rewrite Hu in Ex. cbn [orb] in Ex. destruct (Nat.eqb_spec (length l) n) as [Hl|]; [|discriminate].
      destruct (all_some (map (read t (d_mem s)) l)) as [dvs|] eqn:El; [|discriminate]. injection Ex as <-. cbn [elems_of].
      destruct (dec_sim t (mvalue t no_tags) (value t no_tags) ltac:(intros; apply IH; assumption) l dvs s ps Hv Hd El) as (D & DL). rewrite Hl in D. unfold mbind, agrees in *.
      destruct (mdec_n (mvalue t no_tags) l s) as ((r & ys) & s1), (dec_n (value t no_tags) n dvs ps) as (pr & ps1). cbn [read cells].
      destruct D as (B & (w & W) & O & D). rewrite DL, Hl, Nat.eqb_refl, orb_true_r.
      destruct pr as [vs| | |]; unfold ret; (split; [exact B|]; split; [rewrite W; eexists; reflexivity|]; split; [exact O|]); try exact D.
      destruct D as (-> & D1 & D2). rewrite D1. repeat split; try exact (proj1 D2); exact (proj2 D2).
  - (* slice *)
    cbn [mvalue value]. cbn [plain] in Hp. unfold mbind at 1. destruct (read_len_sim ts s ps Hv Hd) as (E & HP & Em & Ec & Hv1 & Hd1).
    destruct (mread_len ts s) as (r & s1), (read_len ts ps) as (pr & ps1). cbn [fst snd] in *. subst r. destruct pr as [u|e| |].
    2: apply (F _ _ (Err e)); try assumption; discriminate. 2: apply (F _ _ Panic); try assumption; discriminate. 2: apply (F _ _ OutOfFuel); try assumption; discriminate.
    specialize (HP u eq_refl). destruct (is_u8 t) eqn:Hu.
    + unfold mbind. pose proof (pop_sim u s1 ps1 Hv1 HP Hd1) as P. destruct (pop u ps1) as ([b|e| |] & ps2); try contradiction.
      * destruct P as (-> & Eb & Hd2 & Hv2 & Hl). cbn [d_mem d_cell advance alloc] in *. rewrite <- Eb. unfold alloc. rewrite Em.
        set (bs := map (fun b0 : Z => MNum b0) b). set (m' := d_mem s ++ [bs]).
        assert (Hlb : length bs = Z.to_nat u) by (unfold bs; rewrite map_length; exact Hl).
        assert (He : ext (d_mem (advance s1 (Z.to_nat u))) m') by (cbn [advance d_mem]; rewrite Em; apply ext_alloc).
        destruct (valid_mem _ m' Hv2 He) as (Hv3 & Er3). destruct (bytes_flat t m' b Hu) as (B1 & B2). fold bs in B1, B2.
        assert (Hel : elems_at m' (length (d_mem s)) 0 (Z.to_nat u) = bs) by (rewrite <- Hlb; apply elems_new).
        assert (R : read (TSlice t) m' (MSlice (length (d_mem s)) 0 (Z.to_nat u)) = Some (vbytes b)) by (cbn [read]; rewrite Hel, Hlb, Nat.eqb_refl, B1; reflexivity).
        assert (C : fresh_list (length (d_mem s)) (length m') (cells (TSlice t) m' (MSlice (length (d_mem s)) 0 (Z.to_nat u)))).
        { rewrite cells_slice, Hel, B2. destruct (Z.to_nat u =? 0)%nat; [apply fresh_nil|]. split; [repeat constructor; intros []|]. constructor; [unfold m'; rewrite app_length; cbn; lia|constructor]. }
        unfold agrees. cbn [with_mem d_mem d_cell advance data] in *. split; [split; [apply ext_alloc|]; split; [exact Ec|]; split; [exact Hv3|rewrite Er3; exact Hd2]|].
        split; [eexists; exact R|]. split; [eapply fresh_old; exact C|]. split; [reflexivity|]. split; [exact R|exact C].
      * destruct P as (-> & ->). apply (F _ _ (Err e)); try assumption; discriminate.
    + rewrite Hd1. unfold zlen. rewrite (rest_length s1 Hv1). destruct (Z.of_nat (d_len s1) <? u); [apply (F _ _ (Err ECannotAlloc)); try assumption; discriminate|].
      unfold mbind. cbn [alloc_elems]. unfold alloc. rewrite Em. set (z := repeat (mzero t) (Z.to_nat u)). set (m1 := d_mem s ++ [z]).
      assert (He1 : ext (d_mem s1) m1) by (rewrite Em; apply ext_alloc). destruct (valid_mem s1 m1 Hv1 He1) as (Hv2 & Er2).
      assert (Hz : all_some (map (read t m1) z) = Some (repeat (zero t) (Z.to_nat u)) /\ flat_map (cells t m1) z = []).
      { apply zeros_read. }
      destruct Hz as (Hz1 & Hz2).
      pose proof (dec_sim t (mvalue t no_tags) (value t no_tags) ltac:(intros; apply IH; assumption) z _ (with_mem s1 m1) (DState (data ps1) (allocs ps1 ++ [(u, zlen (data ps1))])) Hv2 ltac:(cbn [data]; rewrite Er2; exact Hd1) Hz1) as (D & DL).
      replace (length z) with (Z.to_nat u) in D, DL by (symmetry; apply repeat_length).
      unfold agrees in *. unfold ret.
      destruct (mdec_n (mvalue t no_tags) z (with_mem s1 m1)) as ((r & ys) & s2).
      destruct (dec_n (value t no_tags) (Z.to_nat u) (repeat (zero t) (Z.to_nat u)) (DState (data ps1) (allocs ps1 ++ [(u, zlen (data ps1))]))) as (pr & ps2).
      destruct D as ((He & Ec1 & Hv3 & Hd3) & (w & Hw) & Ho & Hr). cbn [with_mem d_mem d_cell] in *. rewrite Hz2 in Ho.
      destruct He as (e & Ee). unfold m1 in Ee.
      assert (Ho' : Forall (fun c => length (d_mem s) + 1 <= c)%nat (flat_map (cells t (d_mem s2)) ys)) by (eapply above_new; [reflexivity|exact Ho]).
      rewrite Ee in Hw, Ho'. destruct (swap_keeps_list t (d_mem s) z ys e ys w Hw Ho') as (Hw' & Hc'). rewrite <- Ee in Hc'.
      set (m' := (d_mem s ++ [ys]) ++ e) in *. assert (Es : set_cell (d_mem s2) (length (d_mem s)) ys = m') by (rewrite Ee; apply set_new). rewrite Es.
      assert (Hcell : (d_cell s2 < length (d_mem s))%nat) by (rewrite Ec1, <- Em; apply Hv1).
      destruct (swap_valid s2 (d_mem s) z ys e Hv3 Ee Hcell) as (Hv4 & Er4). fold m' in Hv4, Er4.
      assert (Hel : elems_at m' (length (d_mem s)) 0 (Z.to_nat u) = ys).
      { unfold elems_at, cell, m'. rewrite <- app_assoc, app_nth2, Nat.sub_diag by lia. cbn. rewrite <- DL. apply firstn_all. }
      assert (Hlen : length m' = length (d_mem s2)) by (rewrite Ee; unfold m'; rewrite !app_length; cbn; lia).
      rewrite <- Ee in Ho'.
      assert (R : read (TSlice t) m' (MSlice (length (d_mem s)) 0 (Z.to_nat u)) = Some (VList w)) by (cbn [read]; rewrite Hel, DL, Nat.eqb_refl, Hw'; reflexivity).
      assert (C : cells (TSlice t) m' (MSlice (length (d_mem s)) 0 (Z.to_nat u)) = if (Z.to_nat u =? 0)%nat then [] else length (d_mem s) :: flat_map (cells t (d_mem s2)) ys).
      { rewrite cells_slice, Hel, Hc'. reflexivity. }
      assert (O : Forall (fun c => In c (cells (TSlice t) (d_mem s) x) \/ (length (d_mem s) <= c)%nat) (cells (TSlice t) m' (MSlice (length (d_mem s)) 0 (Z.to_nat u)))).
      { rewrite C. destruct (Z.to_nat u =? 0)%nat; [constructor|]. constructor; [right; lia|]. eapply Forall_impl; [|exact Ho']. cbn. intros c H. right. lia. }
      assert (B : ext (d_mem s) m' /\ d_cell s2 = d_cell s /\ valid (with_mem s2 m') /\ data ps2 = rest (with_mem s2 m')).
      { split; [exists (ys :: e); unfold m'; rewrite <- app_assoc; reflexivity|]. split; [congruence|]. split; [exact Hv4|congruence]. }
      destruct pr as [vs| | |]; (split; [exact B|]; split; [eexists; exact R|]; split; [exact O|]); try exact Hr.
      destruct Hr as (-> & Hr & (Nd & Fo)). rewrite Ee in Hr. assert (vs = w) by congruence. subst vs. split; [reflexivity|]. split; [exact R|].
      rewrite C. destruct (Z.to_nat u =? 0)%nat; [apply fresh_nil|]. split.
      * constructor; [|exact Nd]. intros Hin. rewrite Forall_forall in Ho'. specialize (Ho' _ Hin). lia.
      * constructor; [rewrite Hlen, Ee, !app_length; cbn; lia|]. eapply Forall_impl; [|exact Fo]. cbn. intros c H. unfold m1 in H. rewrite app_length in H. lia.
  - (* struct *)
    destruct x as [| | | | | |l|]; try discriminate. rewrite mvalue_struct, value_struct. rewrite read_struct in Ex.
    destruct (read_fields (d_mem s) fs l) as [dvs|] eqn:El; [|discriminate]. injection Ex as <-. cbn [elems_of]. change (plain_fields fs) in Hp.
    pose proof (fields_sim fs IH Hp l dvs s ps Hv Hd El) as D. unfold mbind, agrees in *.
    destruct (mfields fs l s) as ((r & ys) & s1), (value_fields fs dvs ps) as (pr & ps1). rewrite read_struct, !cells_struct.
    destruct D as (B & (w & W) & O & D).
    destruct pr as [vs| | |]; unfold ret; (split; [exact B|]; split; [rewrite W; eexists; reflexivity|]; split; [exact O|]); try exact D.
    destruct D as (-> & D1 & D2). rewrite D1. repeat split; try exact (proj1 D2); exact (proj2 D2).
  - (* other *)
    apply (F _ _ (Err ECannotMarshal)); try reflexivity; [exact Hv|exact Hd|discriminate].
  - (* own method *)
    cbn [mvalue value]. apply (call_sim c t x dv s ps); assumption.
Qed.
