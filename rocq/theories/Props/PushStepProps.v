(** C127: reading accounts while a block is being applied. *)
From Coq Require Import ZArith List Lia Bool.
From stdpp Require Import gmap list.
From Verif.Model Require Import Base Address Beserial Wire Policy Account Nibbles Tree TreeCrash TreeSteps Accounts PushSteps.
From Verif.Spec Require Import AddressSpec TreeSpec TreeHistory StepSpec SharedHistory PolicySpec BeserialSpec WireSpec AccountSpec AccountsSpec PushSpec.
From Verif.Proofs Require Import BaseFacts PolicyFacts AccountFacts LedgerFacts PushFacts AccountsFacts TransferFacts TreeReach StepFacts PushLog.
From Verif.Props Require Import TreeProps WireProps AccountProps AccountsProps PartyProps TrialProps RootProps SharedProps.
Open Scope Z_scope.

(** The writes noted in a log. *)
Definition log_writes (L : plog) : list (list Z * list Z) := map fst L.

Section Log.
  Context (H : bytes -> bytes) (oob : float64 -> Z).

  (** A log of what happened from [s0] on. *)
  Definition log_ok (P : bytes -> Prop) (s0 : state) (L : plog) (s : state) : Prop :=
    run H s0 (log_writes L) = Ok s /\
    forall i k v us, L !! i = Some (k, v, us) -> P k /\
      exists t t' r, run H s0 (take i (log_writes L)) = Ok t /\ run H s0 (take (S i) (log_writes L)) = Ok t' /\
        PutEntry H t k v = Ok (t', r) /\ us = (t_PutEntry H t k v).1.
  Lemma log_ok_nil P s0 : log_ok P s0 [] s0.
  Proof. split; [reflexivity|]. intros i k v us E. discriminate. Qed.
  Lemma log_ok_put P s0 L s a v s' r : log_ok P s0 L s -> P a -> PutEntry H s a v = Ok (s', r) ->
    log_ok P s0 (L ++ [(a, v, (t_PutEntry H s a v).1)]) s'.
  Proof.
    intros (Er & HL) Ha E. unfold log_ok, log_writes in *. rewrite map_app. cbn [map fst].
    assert (Er' : run H s0 (map fst L ++ [(a, v)]) = Ok s').
    { rewrite run_app, Er. cbn [bind run]. rewrite E. reflexivity. }
    split; [exact Er'|]. intros i k w us Ei. apply lookup_app_Some in Ei as [Ei|(Hi & Ei)].
    - pose proof (lookup_lt_Some _ _ _ Ei) as Hlt. rewrite !take_app_le by (rewrite map_length; lia). exact (HL i k w us Ei).
    - apply list_lookup_singleton_Some in Ei as (Hj & Ei). injection Ei as <- <- <-. assert (i = length L) as -> by lia. split; [exact Ha|].
      exists s, s', r. rewrite take_app_alt by (rewrite map_length; reflexivity).
      rewrite take_ge by (rewrite app_length, map_length; cbn; lia). auto.
  Qed.

  Lemma log_put_related (P : bytes -> Prop) s0 (ls : plog * state) s a x :
    (ls.2 = s /\ log_ok P s0 ls.1 s) -> P a ->
    match log_put_account H ls a x, tree_put_account H s a x with
    | Ok ls', Ok s' => ls'.2 = s' /\ log_ok P s0 ls'.1 s'
    | Err e, Err e' => e = e'
    | Panic, Panic => True
    | OutOfFuel, OutOfFuel => True
    | _, _ => False
    end.
  Proof.
    intros (Es & HL) Ha. subst s.
    assert (G : forall v, match log_put_entry H ls a v, tree_put_entry H ls.2 a v with
      | Ok ls', Ok s' => ls'.2 = s' /\ log_ok P s0 ls'.1 s'
      | Err e, Err e' => e = e' | Panic, Panic => True | OutOfFuel, OutOfFuel => True | _, _ => False end).
    { intros v. unfold log_put_entry, tree_put_entry. cbv zeta. rewrite t_PutEntry_2.
      destruct (PutEntry H ls.2 a v) as [(s' & b)|e| |] eqn:E; cbn [bind]; auto. cbn [fst snd]. split; [reflexivity|].
      eapply log_ok_put; eassumption. }
    unfold log_put_account, tree_put_account, PutAccount. destruct x as [y|]; [|apply G].
    destruct (_ && _); [apply G|]. destruct (WrapAccount_Marshal (Some y) []) as [(buf & [e|])| | |]; auto. apply G.
  Qed.

  Lemma log_related s c b L s' o c' : log_Push H oob ([], s) c b = (o, (L, s'), c') ->
    tree_Push H oob s c b = (o, s', c') /\
    log_ok (fun a => exists body, bl_body b = Some body /\ is_party H body a) s L s'.
  Proof.
    intros E. set (P := fun a => exists body, bl_body b = Some body /\ is_party H body a).
    pose proof (Push_alike H oob (plog * state) state log_get_account (log_put_account H) tree_get_account (tree_put_account H)
      (fun ls t => ls.2 = t /\ log_ok P s ls.1 t) P) as G.
    specialize (G ltac:(intros s1 s2 a (<- & _) _; reflexivity) ltac:(intros s1 s2 a x Hr Ha; apply log_put_related; assumption) ([], s) s c b).
    specialize (G (conj eq_refl (log_ok_nil P s))).
    specialize (G ltac:(intros body Eb a Ha; exists body; auto)).
    change (Push H oob (plog * state) log_get_account (log_put_account H)) with (log_Push H oob) in G. rewrite E in G.
    change (Push H oob state tree_get_account (tree_put_account H)) with (tree_Push H oob) in G.
    destruct (tree_Push H oob s c b) as ((o2 & s2) & c2). destruct G as (-> & -> & Es & HL). cbn in Es, HL. subst s2.
    split; [reflexivity|exact HL].
  Qed.
End Log.

(** The noted calls are those of Push: outcome, final tree and memo table are the same, and
    the noted trees are those that the i-th write, to a party of the block, passes through. *)
Theorem C127_same_result : forall H oob s c b o L s' c',
  log_Push H oob ([], s) c b = (o, (L, s'), c') ->
  tree_Push H oob s c b = (o, s', c') /\ run H s (log_writes L) = Ok s' /\
  forall i k v us, L !! i = Some (k, v, us) ->
    (exists body, bl_body b = Some body /\ is_party H body k) /\
    exists t t' r, run H s (take i (log_writes L)) = Ok t /\ run H s (take (S i) (log_writes L)) = Ok t' /\
      PutEntry H t k v = Ok (t', r) /\ us = (t_PutEntry H t k v).1.
Proof. intros H oob s c b o L s' c' E. apply log_related, E. Qed.
Print Assumptions C127_same_result.

(** The trees between the writes hold accounts. *)
Lemma log_prefixes H oob s c b o L s' c' M : hash_fn H -> tree_holds H s M -> block_ok b ->
  log_Push H oob ([], s) c b = (o, (L, s'), c') ->
  forall i, exists t Mt, run H s (take i (log_writes L)) = Ok t /\ tree_holds H t Mt.
Proof.
  intros HH HM Hb E.
  set (R := fun (ls : plog * state) (M' : ledger) => tree_holds H ls.2 M' /\ run H s (log_writes ls.1) = Ok ls.2 /\
    forall i, exists t Mt, run H s (take i (log_writes ls.1)) = Ok t /\ tree_holds H t Mt).
  pose proof (sim_Push H oob HH (plog * state) log_get_account (log_put_account H) R) as G.
  assert (HR : R ([], s) M).
  { split; [exact HM|]. split; [reflexivity|]. intros i. exists s, M. split; [cbn; rewrite take_nil; reflexivity|exact HM]. }
  assert (Hput : forall ls M0 a x, R ls M0 -> array 20 a -> (forall y, x = Some y -> account_ok y) ->
    exists ls', log_put_account H ls a x = Ok ls' /\ R ls' (set_acct M0 a x)).
  { intros ls M0 a x (H0 & Er & Hi) Ha Hx. destruct (tree_put H ls.2 M0 a x H0 Ha Hx) as (t & Et & Ht).
    unfold tree_put_account in Et. rewrite PutAccount_ok in Et by exact Hx. unfold log_put_account. rewrite PutAccount_ok by exact Hx.
    set (v := match x with Some y => _ | None => _ end) in *. unfold tree_put_entry in Et. unfold log_put_entry. cbv zeta. rewrite t_PutEntry_2.
    destruct (PutEntry H ls.2 a v) as [(t2 & r)|e| |] eqn:Ep; cbn [bind] in Et |- *; try discriminate Et. injection Et as ->.
    eexists. split; [reflexivity|].
    assert (Er' : run H s (log_writes ls.1 ++ [(a, v)]) = Ok t) by (rewrite run_app, Er; cbn [bind run]; rewrite Ep; reflexivity).
    unfold R. unfold log_writes in *. cbn [fst snd]. rewrite map_app. cbn [map fst].
    split; [exact Ht|]. split; [exact Er'|]. intros i. destruct (decide (i <= length (map fst ls.1))%nat) as [Hle|Hgt].
    - rewrite take_app_le by exact Hle. apply Hi.
    - rewrite take_ge by (rewrite app_length; cbn; lia). eauto. }
  specialize (G (fun s0 M0 HR => tree_ok H s0.2 M0 (proj1 HR)) (fun s0 M0 a HR => tree_get H s0.2 M0 a (proj1 HR)) Hput ([], s) M c b HR Hb).
  change (Push H oob (plog * state) log_get_account (log_put_account H)) with (log_Push H oob) in G. rewrite E in G.
  destruct G as (M' & _ & (_ & _ & Hi)). exact Hi.
Qed.

(** What is read during a write is what is read after it. *)
Lemma during_reads H t M k v t' r u a : reach H t M -> addr20 k -> addr20 a -> PutEntry H t k v = Ok (t', r) -> u ∈ (t_PutEntry H t k v).1 ->
  exists x y, GetEntry u a = Ok x /\ GetEntry t' a = Ok y /\ default [] x = default [] y.
Proof.
  intros Hr Hk Ha E Hu. pose proof (reach_inv H t M Hr) as Hi. pose proof (steps_read H t M k v Hi Hk) as G.
  rewrite Forall_forall in G. destruct (G u Hu) as (Hoth & x & Ex & Hx).
  pose proof (inv_GetEntry H _ _ a (reach_inv H _ _ (reach_put H _ _ _ _ _ _ Hr Hk E)) Ha) as Et.
  destruct (decide (a = k)) as [->|Hne].
  - exists x, (spec_put M (k, v) !! k). split; [exact Ex|]. split; [exact Et|]. rewrite Hx. unfold spec_put. cbn [fst snd].
    destruct v; [rewrite lookup_delete|rewrite lookup_insert]; reflexivity.
  - exists (M !! a), (spec_put M (k, v) !! a). split; [apply Hoth; assumption|]. split; [exact Et|]. f_equal. unfold spec_put. cbn [fst snd].
    destruct v; [rewrite lookup_delete_ne|rewrite lookup_insert_ne]; congruence.
Qed.
Lemma same_account u t a x y : GetEntry u a = Ok x -> GetEntry t a = Ok y -> default [] x = default [] y -> tree_get_account u a = tree_get_account t a.
Proof. intros E1 E2 E. unfold tree_get_account, GetAccount. rewrite E1, E2. cbn [bind]. rewrite E. reflexivity. Qed.
Lemma run_other H a hist : forall s M t, reach H s M -> addr20 a -> Forall (fun kv => addr20 kv.1 /\ kv.1 <> a) hist ->
  run H s hist = Ok t -> GetEntry t a = GetEntry s a.
Proof.
  induction hist as [|(k & v) hist IH]; intros s M t Hr Ha Hh E; cbn [run] in E; [injection E as <-; reflexivity|].
  apply Forall_cons in Hh as ((Hk & Hne) & Hh). cbn [fst] in *. bind_ok E. destruct a0 as (s1 & r).
  pose proof (reach_put H _ _ _ _ _ _ Hr Hk E0) as Hr1. rewrite (IH s1 _ t Hr1 Ha Hh E).
  rewrite (inv_GetEntry H _ _ a (reach_inv H _ _ Hr1) Ha), (inv_GetEntry H _ _ a (reach_inv H _ _ Hr) Ha). f_equal. unfold spec_put. cbn [fst snd].
  destruct v; [rewrite lookup_delete_ne|rewrite lookup_insert_ne]; congruence.
Qed.

(** At every moment of Push, whatever its outcome: all accounts together are exactly those
    after one of the writes, so every GetAccount returns an account; accounts that are not
    party to the block are as before. *)
Theorem C127_snapshots : forall H oob s c b o L s' c',
  hash_fn H -> areach H oob s c -> block_ok b ->
  log_Push H oob ([], s) c b = (o, (L, s'), c') ->
  forall i k v us u, L !! i = Some (k, v, us) -> u ∈ us ->
    exists t, run H s (take (S i) (log_writes L)) = Ok t /\
    forall a, array 20 a ->
      (exists acc, tree_get_account u a = Ok acc) /\
      tree_get_account u a = tree_get_account t a /\
      (~ (exists body, bl_body b = Some body /\ is_party H body a) -> tree_get_account u a = tree_get_account s a).
Proof.
  intros H oob s c b o L s' c' HH Har Hb E i k v us u Ei Hu.
  destruct (areach_holds H oob s c HH Har) as ((M & HM) & _).
  destruct (log_related H oob s c b L s' o c' E) as (_ & (_ & HL)).
  destruct (HL i k v us Ei) as (Hparty & t & t' & r & Et & Et' & Ep & ->). exists t'. split; [exact Et'|].
  destruct (log_prefixes H oob s c b o L s' c' M HH HM Hb E i) as (t0 & Mt & Et0 & Ht). rewrite Et in Et0. injection Et0 as <-.
  destruct (log_prefixes H oob s c b o L s' c' M HH HM Hb E (S i)) as (t0 & Mt' & Et0 & Ht'). rewrite Et' in Et0. injection Et0 as <-.
  assert (H20 : forall a, (exists body, bl_body b = Some body /\ is_party H body a) -> addr20 a).
  { intros a (body & Eb & Ha). exact (party_20 H b body a HH Hb Eb Ha). }
  intros a Ha. destruct (during_reads H t _ k v t' r u a (proj1 Ht) (H20 k Hparty) Ha Ep Hu) as (x & y & Ex & Ey & Exy).
  pose proof (same_account u t' a x y Ex Ey Exy) as Eu. split; [|split].
  - rewrite Eu, (tree_get H t' Mt' a Ht' Ha). eauto.
  - exact Eu.
  - intros Hnot. rewrite Eu. unfold tree_get_account, GetAccount.
    rewrite (run_other H a (take (S i) (log_writes L)) s _ t' (proj1 HM) Ha); [reflexivity| |exact Et'].
    apply Forall_take. apply Forall_forall. intros (k' & v') Hin. cbn [fst]. unfold log_writes in Hin.
    apply elem_of_list_fmap in Hin as (((k2 & v2) & us2) & Heq & Hin). cbn in Heq. injection Heq as -> ->.
    apply elem_of_list_lookup in Hin as (j & Ej). destruct (HL j _ _ _ Ej) as (Hp & _). split; [exact (H20 _ Hp)|]. intros ->. contradiction.
Qed.
Print Assumptions C127_snapshots.

Lemma with_own T i s : tree_of T (Over i) = Some s -> with_tree T (Over i) s = T.
Proof.
  cbn. destruct (t_overlays T !! i) as [d|] eqn:Ei; [|discriminate]. intros E. injection E as <-. cbn. rewrite list_insert_id by exact Ei.
  destruct T; reflexivity.
Qed.
Lemma with_twice T i t u : tree_of (with_tree T (Over i) t) (Over i) = Some t ->
  tree_of (with_tree (with_tree T (Over i) t) (Over i) u) (Over i) = Some u ->
  with_tree (with_tree T (Over i) t) (Over i) u = with_tree T (Over i) u.
Proof.
  intros Et Eu. assert (Hform : forall T' x, tree_of T' (Over i) = Some x -> exists l d, sto x = OverlayStore l (Some d)).
  { intros T' x. cbn. destruct (t_overlays T' !! i); [|discriminate]. intros E. injection E as <-. cbn. eauto. }
  destruct (Hform _ _ Et) as (l1 & d1 & E1). destruct (Hform _ _ Eu) as (l2 & d2 & E2).
  unfold with_tree. rewrite E1, E2. cbn. rewrite list_insert_insert. reflexivity.
Qed.
(** All trees but [i]'s have the same entries. *)
Definition others_same (i : nat) (T T' : trees) : Prop :=
  forall w x, w <> Over i -> tree_of T w = Some x ->
    exists y, tree_of T' w = Some y /\ forall a, addr20 a -> GetEntry y a = GetEntry x a.
Lemma others_trans i T1 T2 T3 : others_same i T1 T2 -> others_same i T2 T3 -> others_same i T1 T3.
Proof.
  intros A B w x Hw Ex. destruct (A w x Hw Ex) as (y & Ey & Hy). destruct (B w y Hw Ey) as (z & Ez & Hz).
  exists z. split; [exact Ez|]. intros a Ha. rewrite Hz, Hy by exact Ha. reflexivity.
Qed.
Lemma others_run H i hist : forall T s t, Forall (fun kv => addr20 kv.1) hist -> shared H T -> tree_of T (Over i) = Some s ->
  run H s hist = Ok t ->
  shared H (with_tree T (Over i) t) /\ tree_of (with_tree T (Over i) t) (Over i) = Some t /\ others_same i T (with_tree T (Over i) t).
Proof.
  induction hist as [|(k & v) hist IH]; intros T s t Hh HT Es E; cbn [run] in E.
  - injection E as <-. rewrite (with_own T i s Es). split; [exact HT|]. split; [exact Es|]. intros w x _ Ex. eauto.
  - apply Forall_cons in Hh as (Hk & Hh). cbn [fst] in Hk. bind_ok E. destruct a as (s1 & r).
    destruct (C126_overlay_write_partial H T i s k v s1 HT Es Hk (or_intror (ex_intro _ r E0))) as (HT1 & Es1 & _ & _ & Ho).
    destruct (IH _ s1 t Hh HT1 Es1 E) as (A & B & C).
    pose proof (with_twice T i s1 t Es1 B) as W. rewrite W in A, B, C. split; [exact A|]. split; [exact B|]. eapply others_trans; [|exact C].
    intros w x Hw Ex. exact (Ho w x Hw Ex).
Qed.

(** While a block is tried on an overlay, whatever the outcome, all other trees over the same
    store (the one on the store itself and those on other overlays) go on reading the accounts
    they read before. *)
Theorem C127_other_trees : forall H oob T i s c b o L s' c',
  hash_fn H -> shared H T -> tree_of T (Over i) = Some s -> block_ok b ->
  log_Push H oob ([], s) c b = (o, (L, s'), c') ->
  forall u, u = s' \/ (exists k v us, (k, v, us) ∈ L /\ u ∈ us) ->
  forall w x, w <> Over i -> tree_of T w = Some x ->
    exists y, tree_of (with_tree T (Over i) u) w = Some y /\
      forall a, array 20 a -> tree_get_account y a = tree_get_account x a.
Proof.
  intros H oob T i s c b o L s' c' HH HT Es Hb E u Hu w x Hw Ex.
  destruct (log_related H oob s c b L s' o c' E) as (_ & (Erun & HL)).
  assert (H20 : forall a, (exists body, bl_body b = Some body /\ is_party H body a) -> addr20 a).
  { intros a (body & Eb & Ha). exact (party_20 H b body a HH Hb Eb Ha). }
  assert (Hwr : Forall (fun kv => addr20 kv.1) (log_writes L)).
  { apply Forall_forall. intros (k' & v') Hin. cbn [fst]. unfold log_writes in Hin.
    apply elem_of_list_fmap in Hin as (((k2 & v2) & us2) & Heq & Hin). cbn in Heq. injection Heq as -> ->.
    apply elem_of_list_lookup in Hin as (j & Ej). exact (H20 _ (proj1 (HL j _ _ _ Ej))). }
  assert (Hall : others_same i T (with_tree T (Over i) u)).
  { destruct Hu as [->|(k & v & us & Hin & Hu)].
    - exact (proj2 (proj2 (others_run H i _ T s s' Hwr HT Es Erun))).
    - apply elem_of_list_lookup in Hin as (j & Ej). destruct (HL j _ _ _ Ej) as (Hp & t & t' & r & Et & _ & _ & ->).
      destruct (others_run H i _ T s t (Forall_take _ j _ Hwr) HT Es Et) as (A & B & C).
      destruct (C126_overlay_write_partial H _ i t k v u A B (H20 _ Hp) (or_introl Hu)) as (_ & Eu & _ & _ & Ho). cbv zeta in Ho.
      rewrite (with_twice T i t u B Eu) in Ho. eapply others_trans; [exact C|]. intros w' x' Hw' Ex'. exact (Ho w' x' Hw' Ex'). }
  destruct (Hall w x Hw Ex) as (y & Ey & Hy). exists y. split; [exact Ey|]. intros a Ha.
  unfold tree_get_account, GetAccount. rewrite (Hy a Ha). reflexivity.
Qed.
Print Assumptions C127_other_trees.

(** ** A case: a block of transfers on [small_accounts], each write seen step by step; and the
    same block tried on an overlay. *)
Definition trial_trees : trees := one_more (Trees (heap (state_of small_accounts)) (next (state_of small_accounts)) (sto (state_of small_accounts)) []).
Example C127_case oob :
  areach toy_hash oob (state_of small_accounts) initial_cache /\ block_ok (transfer_block transfers) /\
  (let r := log_Push toy_hash oob ([], state_of small_accounts) initial_cache (transfer_block transfers) in
   r.1.1 = Ok tt /\ (2 <= length r.1.2.1)%nat /\ Forall (fun e => (2 <= length e.2)%nat) r.1.2.1) /\
  shared toy_hash trial_trees /\
  match tree_of trial_trees (Over 0) with
  | Some s =>
    let r := log_Push toy_hash oob ([], s) initial_cache (transfer_block half_applied) in
    r.1.1 = Err (EOverspend 50 51) /\
    tree_get_account r.1.2.2 (addr 1) = Ok (ABasic 900) /\
    (tree_of (with_tree trial_trees (Over 0) r.1.2.2) Base ≫= fun t => Some (tree_get_account t (addr 1))) = Some (Ok (ABasic 1000))
  | None => False
  end.
Proof.
  destruct (state_of_ok oob small_accounts small_accounts_ok) as (Hr & HL).
  split; [exact Hr|]. split; [apply transfer_block_ok; [apply transfers_ok|reflexivity]|].
  split. { cbv zeta. split; [vm_compute; reflexivity|]. split; [apply Nat.leb_le; vm_compute; reflexivity|].
    assert (T : forallb (fun e : bytes * bytes * list state => Nat.leb 2 (length e.2)) (log_Push toy_hash oob ([], state_of small_accounts) initial_cache (transfer_block transfers)).1.2.1 = true) by (vm_compute; reflexivity).
    revert T. generalize (log_Push toy_hash oob ([], state_of small_accounts) initial_cache (transfer_block transfers)).1.2.1. intros L T.
    rewrite forallb_forall in T. apply Forall_forall. intros e He. apply Nat.leb_le, T, elem_of_list_In, He. }
  split. { destruct (areach_holds toy_hash oob _ _ toy_hash_fn Hr) as ((M & HM) & _). apply shared_open. eapply shared_start, (proj1 HM). }
  vm_compute. auto.
Qed.
