(** Simulation between the model on account objects and the model on values. *)
From Coq Require Import ZArith List Lia Bool.
From stdpp Require Import gmap list.
From Verif.Model Require Import Base Beserial Wire Policy Account Nibbles Tree Accounts AccountObjects.
Open Scope Z_scope.

Definition same_res {X Y} (Q : X -> Y -> Prop) (r : res X) (r' : res Y) : Prop :=
  match r, r' with
  | Ok x, Ok y => Q x y
  | Err e, Err e' => e = e'
  | Panic, Panic => True
  | OutOfFuel, OutOfFuel => True
  | _, _ => False
  end.

Ltac fin := eexists _, _; split; [reflexivity|]; split; [reflexivity|]; cbn; auto; reflexivity.
Section Sim.
  Variable H : bytes -> bytes.
  Variable oob : float64 -> Z.
  Variable T : Type.
  Variable get_entry : T -> bytes -> res (option bytes).
  Variable put_entry : T -> bytes -> bytes -> res T.
  Notation get := (GetAccount T get_entry).
  Notation put := (PutAccount T put_entry).

  (** From every memory in which the initial account is intact, [om] does what
      [vm] does and changes no object there is. *)
  Definition simulates {X Y} (Q : objects -> X -> Y -> Prop) (om : step (objects * T) X) (vm : step T Y) : Prop :=
    forall m s, m !! 0%nat = Some InitialAccount ->
      exists r m', om (m, s) = (r, (m', snd (vm s))) /\ m `prefix_of` m' /\ same_res (Q m') r (fst (vm s)).

  Lemma sim_andthen {X Y X' Y'} (Q : objects -> X -> Y -> Prop) (Q' : objects -> X' -> Y' -> Prop) om vm of vf :
    simulates Q om vm ->
    (forall m x y, Q m x y -> forall m1 s, m `prefix_of` m1 -> m1 !! 0%nat = Some InitialAccount ->
      exists r m', of x (m1, s) = (r, (m', snd (vf y s))) /\ m1 `prefix_of` m' /\ same_res (Q' m') r (fst (vf y s))) ->
    simulates Q' (andthen _ om of) (andthen _ vm vf).
  Proof.
    intros S1 S2 m s Hm. destruct (S1 m s Hm) as (r & m1 & E & Hp & Hr). unfold andthen. rewrite E. destruct (vm s) as (v & s1). cbn [fst snd] in *.
    destruct r, v; cbn in Hr; try contradiction; cbn [fst snd].
    - assert (H1 : m1 !! 0%nat = Some InitialAccount) by (eapply prefix_lookup; eauto).
      destruct (S2 m1 _ _ Hr m1 s1 (reflexivity _) H1) as (r & m2 & E2 & Hp2 & Hr2). exists r, m2.
      split; [exact E2|]. split; [etrans; eauto|exact Hr2].
    - subst. eexists _, _. split; [reflexivity|]. split; [exact Hp|reflexivity].
    - eexists _, _. split; [reflexivity|]. split; [exact Hp|exact I].
    - eexists _, _. split; [reflexivity|]. split; [exact Hp|exact I].
  Qed.
  Lemma sim_seq {X Y X' Y'} (Q : objects -> X -> Y -> Prop) (Q' : objects -> X' -> Y' -> Prop) om vm of vf :
    simulates Q om vm -> (forall m x y, Q m x y -> simulates Q' (of x) (vf y)) ->
    simulates Q' (andthen _ om of) (andthen _ vm vf).
  Proof. intros S1 S2. eapply sim_andthen; [exact S1|]. intros m x y Hq m1 s _ Hm. apply (S2 m x y Hq m1 s Hm). Qed.
  Lemma sim_stop {X Y} (Q : objects -> X -> Y -> Prop) r v : (forall m, same_res (Q m) r v) -> simulates Q (stop _ r) (stop _ v).
  Proof. intros Hr m s Hm. exists r, m. split; [reflexivity|]. split; [reflexivity|apply Hr]. Qed.
  Lemma sim_done {X Y} (Q : objects -> X -> Y -> Prop) x y : (forall m, Q m x y) -> simulates Q (done _ x) (done _ y).
  Proof. intros Hr m s Hm. exists (Ok x), m. split; [reflexivity|]. split; [reflexivity|apply Hr]. Qed.

  Definition points (m : objects) (p : pointer) (x : Account) : Prop := m !! p = Some x.
  Definition same {X} (_ : objects) (x y : X) : Prop := x = y.
  Lemma same_refl {X} (r : res X) m : same_res (same m) r r.
  Proof. destruct r; reflexivity || exact I. Qed.

  Lemma sim_get a : simulates points (oGetAccount T get_entry a) (get_account T get a).
  Proof.
    intros m s Hm. unfold oGetAccount, get_account, GetAccount. cbn [fst snd].
    destruct (get_entry s a) as [buf|e| |]; cbn [bind]; try fin.
    destruct (default [] buf) as [|b0 b]; [eexists _, m; split; [reflexivity|]; split; [reflexivity|exact Hm]|].
    destruct (WrapAccount_Unmarshal None (b0 :: b)) as [[[x|] n]|e| |]; try fin.
    destruct (n =? zlen (b0 :: b)); [|fin].
    eexists _, _. split; [reflexivity|]. split; [apply prefix_app_r; reflexivity|].
    cbn. unfold points. rewrite lookup_app_r, Nat.sub_diag by lia. reflexivity.
  Qed.
  (** Reading an object in the middle of a sequence. *)
  Lemma sim_put a p x m s : (forall q, p = Some q -> exists y, x = Some y /\ points m q y) -> (p = None -> x = None) ->
    exists r, oPutAccount T put_entry a p (m, s) = (r, (m, snd (put_account T put a x s))) /\ same_res (same m) r (fst (put_account T put a x s)).
  Proof.
    intros H1 H2. unfold oPutAccount, put_account. destruct p as [q|].
    - destruct (H1 q eq_refl) as (y & -> & Hy). unfold andthen, deref, done. cbn [fst snd]. rewrite Hy. cbn [fst snd].
      destruct (put s a (Some y)); eexists; (split; [reflexivity|]); cbn; auto; reflexivity.
    - rewrite H2 by reflexivity. unfold andthen, done. cbn [fst snd].
      destruct (put s a None); eexists; (split; [reflexivity|]); cbn; auto; reflexivity.
  Qed.
  Lemma points_mono m m1 p x : m `prefix_of` m1 -> points m p x -> points m1 p x.
  Proof. intros Hp Hx. eapply prefix_lookup; eauto. Qed.

  Definition sim_op (oop : pointer -> Tx -> Z -> step (objects * T) pointer) (op : Account -> Tx -> Z -> res Account) : Prop :=
    forall m s p x t h, points m p x -> exists r m', oop p t h (m, s) = (r, (m', s)) /\ m `prefix_of` m' /\ same_res (points m') r (op x t h).
  Lemma sim_out : sim_op (oApplyOutgoingTx H oob T) (ApplyOutgoingTx H oob).
  Proof.
    intros m s p x t h Hp. unfold oApplyOutgoingTx, andthen, deref, stop, new_object. cbn [fst snd]. rewrite Hp.
    destruct (ApplyOutgoingTx H oob x t h) as [y|e| |]; cbn [fst snd]; eexists _, _; (split; [reflexivity|]); (split; [try apply prefix_app_r; reflexivity|]); cbn; auto.
    unfold points. rewrite lookup_app_r, Nat.sub_diag by lia. reflexivity.
  Qed.
  Lemma sim_in : sim_op (oApplyIncomingTx T) ApplyIncomingTx.
  Proof.
    intros m s p x t h Hp. unfold oApplyIncomingTx, andthen, deref, stop, new_object. cbn [fst snd]. rewrite Hp.
    destruct (ApplyIncomingTx x t h) as [y|e| |]; cbn [fst snd]; eexists _, _; (split; [reflexivity|]); (split; [try apply prefix_app_r; reflexivity|]); cbn; auto.
    unfold points. rewrite lookup_app_r, Nat.sub_diag by lia. reflexivity.
  Qed.
  Lemma sim_pushTx a ty t h oop op : sim_op oop op ->
    simulates same (opushTx T get_entry put_entry a ty t h oop) (pushTx T get put a ty t h op).
  Proof.
    intros Sop. eapply sim_andthen; [apply sim_get|]. intros m p x Hp m1 s Hm Hi. pose proof (points_mono _ _ _ _ Hm Hp) as Hp1.
    unfold andthen at 1, deref. cbn [fst]. rewrite Hp1.
    destruct (_ && _); [fin|].
    destruct (Sop m1 s p x t h Hp1) as (r & m2 & E & Hm2 & Hr). unfold andthen. rewrite E. unfold stop.
    destruct r as [q|e| |], (op x t h) as [y|e'| |]; cbn in Hr; try contradiction; try (subst; eexists _, m2; split; [reflexivity|]; split; [exact Hm2|]; cbn; auto; fail).
    destruct (sim_put a (Some q) (Some y) m2 s) as (r & E2 & Hr2); [intros q' Eq; injection Eq as <-; eauto|discriminate|].
    exists r, m2. rewrite E2. split; [reflexivity|]. split; [exact Hm2|exact Hr2].
  Qed.
  Lemma sim_for_txs f g txs : (forall t, simulates same (f t) (g t)) -> simulates same (for_txs _ f txs) (for_txs _ g txs).
  Proof.
    intros Hf. induction txs as [|[t|] txs IH]; cbn [for_txs].
    - apply sim_done. reflexivity.
    - eapply sim_seq; [apply Hf|]. intros _ [] [] _. exact IH.
    - apply sim_stop. intros. exact I.
  Qed.
  Lemma sim_create t h : simulates same (ocreate_step H T get_entry put_entry h t) (create_step H T get put h t).
  Proof.
    unfold ocreate_step, create_step. destruct (creates_contract _) eqn:Ec; [|apply sim_done; reflexivity].
    unfold ocreateContract, createContract. rewrite Ec. cbn [negb].
    eapply sim_andthen; [apply sim_get|]. intros m p x Hp m1 s Hm Hi. pose proof (points_mono _ _ _ _ Hm Hp) as Hp1.
    destruct (_ =? 0); [fin|]. destruct (_ || _); [|fin].
    unfold andthen, new_object, deref, stop. cbn [fst snd]. set (z := zero_contract _).
    assert (Hp2 : (m1 ++ [z]) !! p = Some x) by (apply lookup_app_l_Some; exact Hp1). rewrite Hp2.
    destruct (Account_Init _ t h (Balance x)) as [y|e| |]; cbn [fst snd];
      try (eexists _, (m1 ++ [z]); (split; [reflexivity|]); split; [apply prefix_app_r; reflexivity|cbn; auto]; fail).
    unfold set_object. cbn [fst snd]. assert (E : <[length m1 := y]> (m1 ++ [z]) = m1 ++ [y]).
    { rewrite insert_app_r_alt, Nat.sub_diag by lia. reflexivity. }
    rewrite E. destruct (sim_put (c_recipient (AsTxContent H t)) (Some (length m1)) (Some y) (m1 ++ [y]) s) as (r & E2 & Hr2).
    { intros q Eq. injection Eq as <-. exists y. split; [reflexivity|]. unfold points. rewrite lookup_app_r, Nat.sub_diag by lia. reflexivity. }
    { discriminate. }
    exists r, (m1 ++ [y]). rewrite E2. split; [reflexivity|]. split; [apply prefix_app_r; reflexivity|exact Hr2].
  Qed.
  Lemma sim_prune txs : forall pruned, simulates same (oprune_txs H T get_entry put_entry txs pruned) (prune_txs H T get put txs pruned).
  Proof.
    induction txs as [|[t|] txs IH]; intros pruned; cbn [oprune_txs prune_txs].
    - apply sim_done. reflexivity.
    - eapply sim_andthen; [apply sim_get|]. intros m p x Hp m1 s Hm Hi. pose proof (points_mono _ _ _ _ Hm Hp) as Hp1.
      unfold andthen at 1, deref. cbn [fst]. rewrite Hp1. destruct (_ || _); [apply (IH pruned m1 s Hi)|].
      destruct (pruned !! _) as [pa|]; [|fin]. destruct (negb _); [fin|].
      destruct (sim_put (fst (GetSender H t)) None None m1 s) as (r & E & Hr); [discriminate|reflexivity|].
      unfold andthen. rewrite E. destruct (put_account T put _ None s) as (v & s2). cbn [fst snd] in *.
      destruct r as [[]|e| |], v as [[]|e'| |]; cbn in Hr; try contradiction; try (subst; fin).
      apply (IH _ m1 s2 Hi).
    - apply sim_stop. intros. exact I.
  Qed.
  Lemma sim_push_body body h : simulates same (opush_body H oob T get_entry put_entry body h) (push_body H oob T get put body h).
  Proof.
    unfold opush_body, push_body, pushSenders, pushRecipients, createContracts.
    eapply sim_seq; [apply sim_for_txs; intros t; apply sim_pushTx, sim_out|]. intros _ [] [] _.
    eapply sim_seq; [apply sim_for_txs; intros t; apply sim_pushTx, sim_in|]. intros _ [] [] _.
    eapply sim_seq; [apply sim_for_txs; intros t; apply sim_create|]. intros _ [] [] _.
    unfold opruneAccounts, pruneAccounts. eapply sim_seq; [apply sim_prune|]. intros m1 pr pr' Hpr. unfold same in Hpr. subst pr'.
    destruct (decide _); [apply sim_done; reflexivity|apply sim_stop; reflexivity].
  Qed.
  Lemma sim_Push m s c b : m !! 0%nat = Some InitialAccount ->
    match Push H oob T get put s c b with
    | (r, s', c') => exists m', oPush H oob T get_entry put_entry (m, s) c b = (r, (m', s'), c') /\ m `prefix_of` m'
    end.
  Proof.
    intros Hm. unfold Push, oPush. destruct (bl_body b) as [body|]; [|exists m; split; reflexivity].
    destruct (sim_push_body body (bh_height (bl_header b)) m s Hm) as (r & m1 & E & Hp & Hr). rewrite E.
    destruct (push_body _ _ _ _ _ _ _ s) as (v & s1). cbn [fst snd] in *.
    destruct r as [[]|e| |], v as [[]|e'| |]; cbn in Hr; try contradiction; try (subst; exists m1; split; auto; fail).
    destruct (BlockReward c _) as (c' & base).
    assert (S : simulates same (andthen _ (stop _ base) (fun base => opushInherents T get_entry put_entry body (bh_height (bl_header b)) base))
      (andthen _ (stop _ base) (fun base => pushInherents T get put body (bh_height (bl_header b)) base))).
    { apply (sim_seq same same); [apply sim_stop; intros; apply same_refl|]. intros m3 x y E1. unfold same in E1. subst y. unfold opushInherents, pushInherents.
      apply (sim_seq same same); [apply sim_stop; intros; apply same_refl|]. intros m4 x2 y2 E2. unfold same in E2. subst y2. apply sim_pushTx, sim_in. }
    assert (Hm1 : m1 !! 0%nat = Some InitialAccount) by (eapply prefix_lookup; eauto).
    destruct (S m1 s1 Hm1) as (r & m2 & E2 & Hp2 & Hr2). rewrite E2. destruct (andthen _ _ _ s1) as (v2 & s2). cbn [fst snd] in *.
    exists m2. split; [|transitivity m1; assumption]. destruct r as [[]|e| |], v2 as [[]|e'| |]; cbn in Hr2; try contradiction; subst; reflexivity.
  Qed.
End Sim.
