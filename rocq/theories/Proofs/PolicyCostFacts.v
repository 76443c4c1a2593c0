(** The counted functions compute the same, and what the counter says. *)
From Coq Require Import ZArith List Lia Bool.
Import ListNotations.
From Verif.Model Require Import Base Policy PolicyCost.
From Verif.Spec Require Import PolicySpec.
From Verif.Proofs Require Import PolicyFacts.
Open Scope Z_scope.

Lemma counted_loop_eq n : forall s i t, counted_loop n s i t = (supply_loop n s i, t + Z.of_nat n).
Proof.
  induction n as [|n IH]; intros s i t; cbn [counted_loop supply_loop]; [f_equal; lia|].
  rewrite IH. f_equal. lia.
Qed.
Lemma counted_between_eq s a b t : counted_between s a b t = (SupplyBetween s a b, t + Z.max 0 (b - a)).
Proof. unfold counted_between, SupplyBetween. rewrite counted_loop_eq. f_equal. lia. Qed.
Lemma counted_fill_eq n : forall s i c t, 0 <= i -> 5000 * (i + Z.of_nat n) < two32 ->
  counted_fill n s i c t = (fst (fill_loop n s i c), snd (fill_loop n s i c), t + 5000 * Z.of_nat n) /\
  zlen (snd (fill_loop n s i c)) = zlen c + Z.of_nat n.
Proof.
  induction n as [|n IH]; intros s i c t Hi Hb; cbn [counted_fill fill_loop].
  - cbn [fst snd]. split; [f_equal|]; lia.
  - cbv zeta. rewrite counted_between_eq. fold (fill_step s i). cbv beta iota zeta.
    destruct (IH (fill_step s i) (i + 1) (c ++ [fill_step s i]) (t + 5000)) as [E L]; [lia|lia|].
    unfold w32, SupplyCacheInterval. rewrite (Z.mod_small (i * 5000)) by lia. rewrite (Z.mod_small (i * 5000 + 5000)) by lia.
    replace (Z.max 0 (i * 5000 + 5000 - i * 5000)) with 5000 by lia. rewrite E. split; [f_equal; lia|].
    rewrite L. unfold zlen. rewrite app_length. cbn [length]. lia.
Qed.

Lemma SupplyAfter_count c h t : cache_ok c -> u32 h ->
  let fresh := Z.max 0 (h / 5000 - (zlen c - 1)) in
  counted_SupplyAfter c h t = (fst (SupplyAfter c h), snd (SupplyAfter c h), t + 5000 * fresh + (if h =? 2 ^ 32 - 1 then 0 else h mod 5000 + 1)) /\
  zlen (fst (SupplyAfter c h)) = zlen c + fresh.
Proof.
  intros Hc Hh fresh. unfold counted_SupplyAfter, SupplyAfter. pose proof Hh as Hh'. unfold u32 in Hh'. change (2^32) with two32 in Hh'.
  change (h / SupplyCacheInterval) with (h / 5000).
  assert (HendI : 0 <= h / 5000 < two32) by (split; [apply Z.div_pos; lia|apply Z.div_lt_upper_bound; lia]).
  assert (Hmul : 5000 * (h / 5000) <= h) by (apply Z.mul_div_le; lia).
  assert (Hfr : h / 5000 - start_index c (h / 5000) = fresh).
  { destruct Hc as (Hne & Hlen & _). assert (Hpos : 1 <= zlen c) by (destruct c; [contradiction|unfold zlen; cbn [length]; lia]).
    subst fresh. unfold start_index, w32. rewrite (Z.mod_small (zlen c - 1)) by lia.
    destruct (zlen c =? 0) eqn:H0; [lia|]. destruct (zlen c - 1 <? h / 5000) eqn:H1; lia. }
  pose proof (start_index_ok c (h / 5000) Hc HendI) as Hst. set (st := start_index c (h / 5000)) in *.
  destruct Hst as (Hr & _ & s & Hs & _). unfold index. rewrite Hs.
  destruct (counted_fill_eq (Z.to_nat (h / 5000 - st)) s st c t) as [E L]; [lia|lia|].
  rewrite E. destruct (fill_loop (Z.to_nat (h / 5000 - st)) s st c) as [s' c']. cbn [fst snd] in *. rewrite Hfr in *.
  rewrite counted_between_eq. rewrite L. split; [|subst fresh; lia]. f_equal.
  replace (Z.of_nat (Z.to_nat fresh)) with fresh by (subst fresh; lia).
  unfold w32, SupplyCacheInterval. rewrite (Z.mod_small (h / 5000 * 5000)) by lia.
  assert (Hm : h mod 5000 = h - 5000 * (h / 5000)) by (pose proof (Z.div_mod h 5000 ltac:(lia)); lia).
  destruct (Z.eqb_spec h (2 ^ 32 - 1)) as [Heq|Hne].
  - assert (E1 : (h + 1) mod two32 = 0) by (rewrite Heq; reflexivity). rewrite E1. lia.
  - rewrite (Z.mod_small (h + 1)) by (change (2 ^ 32) with two32 in Hne; lia). pose proof (Z.mod_pos_bound h 5000 ltac:(lia)). lia.
Qed.

(** Height up to which a call needs the supply. *)
Definition needed (o : policy_call) : Z := match o with CallSupplyAfter h => h | CallBlockReward h => Z.max 0 (h - 1) end.

Lemma step_count c o t : cache_ok c -> u32 (call_height o) ->
  let fresh := Z.max 0 (needed o / 5000 - (zlen c - 1)) in
  exists k, counted_step c o t = (fst (policy_step c o), snd (policy_step c o), t + 5000 * fresh + k) /\ 0 <= k <= 5001 /\
    (match o with CallSupplyAfter _ => k <= 5000 | _ => True end) /\
  zlen (fst (policy_step c o)) = zlen c + fresh.
Proof.
  intros Hc Ho fresh. destruct o as [h|h]; cbn [counted_step policy_step call_height needed] in *.
  - destruct (SupplyAfter_count c h t Hc Ho) as [E L]. exists (if h =? 2 ^ 32 - 1 then 0 else h mod 5000 + 1).
    split; [exact E|]. pose proof (Z.mod_pos_bound h 5000 ltac:(lia)). destruct (h =? 2 ^ 32 - 1); repeat split; try lia; exact L.
  - unfold counted_BlockReward, BlockReward. unfold u32 in Ho. destruct (Z.ltb_spec h 1).
    + exists 0. assert (Ef : fresh = 0).
      { subst fresh. replace (Z.max 0 (h - 1)) with 0 by lia. rewrite Z.div_0_l by lia.
        destruct Hc as (Hne & _). assert (1 <= zlen c) by (destruct c; [contradiction|unfold zlen; cbn [length]; lia]). lia. }
      rewrite Ef. cbn [fst snd]. split; [f_equal; lia|]. repeat split; try lia.
    + assert (Hw : w32 (h - 1) = h - 1) by (apply Z.mod_small; change two32 with (2^32); lia). rewrite Hw.
      assert (Hu : u32 (h - 1)) by (unfold u32; lia).
      destruct (SupplyAfter_count c (h - 1) t Hc Hu) as [E L]. destruct (SupplyAfter_ok c (h - 1) Hc Hu) as [_ Hr]. rewrite E, Hr.
      destruct (SupplyAfter c (h - 1)) as [c' r]. cbn [fst snd] in *. subst r.
      replace (Z.max 0 (h - 1)) with (h - 1) in fresh by lia.
      pose proof (Z.mod_pos_bound (h - 1) 5000 ltac:(lia)).
      exists ((if h - 1 =? 2 ^ 32 - 1 then 0 else (h - 1) mod 5000 + 1) + 1). cbn [bind]. split; [f_equal; subst fresh; lia|].
      destruct (h - 1 =? 2 ^ 32 - 1); repeat split; try lia; exact L.
Qed.

Lemma policy_step_ok c o : cache_ok c -> u32 (call_height o) -> cache_ok (fst (policy_step c o)).
Proof. intros Hc Ho. destruct o as [h|h]; cbn [policy_step call_height] in *; [apply SupplyAfter_ok|apply BlockReward_ok]; assumption. Qed.
Lemma cache_after_snoc hist o : cache_after (hist ++ [o]) = fst (policy_step (cache_after hist) o).
Proof. unfold cache_after. rewrite fold_left_app. reflexivity. Qed.
Lemma counted_history_snoc hist o : forall c t, counted_history c (hist ++ [o]) t =
  let '(c', t') := counted_history c hist t in let '(c'', _, t'') := counted_step c' o t' in (c'', t'').
Proof.
  induction hist as [|x hist IH]; intros c t; cbn [counted_history app]; [destruct (counted_step c o t) as [[? ?] ?]; reflexivity|].
  destruct (counted_step c x t) as [[c' r] t']. apply IH.
Qed.
