(** C103: the account objects that GetAccount hands out. *)
From Coq Require Import ZArith List Lia Bool.
From stdpp Require Import gmap list.
From Verif.Model Require Import Base Beserial Wire Policy Account Nibbles Tree Accounts AccountObjects.
From Verif.Spec Require Import TreeSpec TreeHistory WireSpec AccountSpec AccountsSpec ObjectHistory.
From Verif.Proofs Require Import TreeSim TreeReach TreeCollide AccountsFacts ObjectSim.
From Verif.Props Require Import TreeProps AccountsProps.
Open Scope Z_scope.

Lemma oreach_areach H oob m s c : oreach H oob m s c -> areach H oob s c /\ m !! 0%nat = Some InitialAccount.
Proof.
  induction 1 as [|m s c x _ (R & I)|m s c p y m' _ (R & I) Hp (x & Ex & _ & ->)|m s c a o m' s' _ (R & I) Ha E|m s c a p o m' s' _ (R & I) Ha Hp E
    |m s c b o m' s' c' _ (R & I) Hb E|m s c _ (R & I)|m s c lower d order st _ (R & I) Es Ho E|m s c lower d order n st _ (R & I) Es Ho E|m s c lower _ (R & I) Es].
  - split; [constructor|reflexivity].
  - split; [exact R|]. apply lookup_app_l_Some. exact I.
  - split; [exact R|]. unfold initial_pointer in Hp. rewrite list_lookup_insert_ne by congruence. exact I.
  - destruct (sim_get state GetEntry a m s I) as (r & m1 & E1 & Hm & _). unfold tree_oGetAccount in E. rewrite E1 in E. injection E as <- <- <-.
    split; [exact R|eapply prefix_lookup; eauto].
  - destruct (sim_put state (tree_put_entry H) a p (p ≫= fun q => m !! q) m s) as (r & E1 & _).
    { intros q ->. destruct (Hp q eq_refl) as (x & Ex & _). exists x. split; exact Ex. }
    { intros ->. reflexivity. }
    unfold tree_oPutAccount in E. rewrite E1 in E. injection E as <- <- <-. split; [|exact I]. unfold put_account.
    change (PutAccount state (tree_put_entry H) s a) with (tree_put_account H s a).
    destruct (tree_put_account H s a (p ≫= fun q => m !! q)) as [s'|e| |] eqn:Ep; try exact R. cbn. eapply areach_put; eauto.
    intros y Ey. destruct p as [q|]; [|discriminate]. destruct (Hp q eq_refl) as (x & Ex & Hx). cbn in Ey. rewrite Ex in Ey. injection Ey as <-. exact Hx.
  - pose proof (sim_Push H oob state GetEntry (tree_put_entry H) m s c b I) as G.
    destruct (Push H oob state _ _ s c b) as ((r & s1) & c1) eqn:Ep. destruct G as (m1 & E1 & Hm).
    unfold tree_oPush in E. rewrite E1 in E. injection E as <- <- <- <-. split; [eapply areach_push; eauto|eapply prefix_lookup; eauto].
  - split; [apply areach_open, R|exact I].
  - split; [eapply areach_flush; eauto|exact I].
  - split; [eapply areach_interrupted; eauto|exact I].
  - split; [eapply areach_close; eauto|exact I].
Qed.

(** GetAccount returns a pointer to an account equal to the stored one.  Either it
    points to a new object, that nothing else refers to, or the address has no
    entry and it points to the global variable wire.InitialAccount.  No object changes. *)
Theorem C103_get_partial H oob m s c a :
  hash_fn H -> oreach H oob m s c -> array 20 a ->
  exists p m' x, tree_oGetAccount a (m, s) = (Ok p, (m', s)) /\ tree_get_account s a = Ok x /\ m' !! p = Some x /\
    m `prefix_of` m' /\ (p = length m \/ p = initial_pointer /\ x = ABasic 0 /\ m' = m).
Proof.
  intros HH Hr Ha. destruct (oreach_areach _ _ _ _ _ Hr) as (R & I). destruct (C52_get_returns H oob s c a HH R Ha) as (x & Ex & _).
  destruct (sim_get state GetEntry a m s I) as (r & m1 & E1 & Hm & Q). cbn [get_account fst snd] in E1, Q.
  change (GetAccount state GetEntry s a) with (tree_get_account s a) in Q. rewrite Ex in Q. destruct r as [p|e| |]; try contradiction. cbn in Q.
  exists p, m1, x. split; [exact E1|]. split; [exact Ex|]. split; [exact Q|]. split; [exact Hm|].
  unfold oGetAccount in E1. cbn [fst snd] in E1. destruct (GetEntry s a) as [buf|e| |]; try discriminate.
  destruct (default [] buf) as [|b0 b].
  - right. injection E1 as <- <-. unfold points, initial_pointer in Q. rewrite I in Q. injection Q as <-. auto.
  - destruct (WrapAccount_Unmarshal None _) as [[[y|] n]|e| |]; try discriminate. destruct (_ =? _); [|discriminate]. injection E1 as <- _. left. reflexivity.
Qed.
Print Assumptions C103_get_partial.

(** Push does to the tree, and answers, what it does on account values, whatever
    the program did to account objects before, and changes no account object:
    accounts obtained earlier are snapshots. *)
Theorem C103_push_partial H oob m s c b o s' c' :
  oreach H oob m s c -> tree_Push H oob s c b = (o, s', c') ->
  exists m', tree_oPush H oob (m, s) c b = (o, (m', s'), c') /\ m `prefix_of` m'.
Proof.
  intros Hr E. destruct (oreach_areach _ _ _ _ _ Hr) as (R & I).
  pose proof (sim_Push H oob state GetEntry (tree_put_entry H) m s c b I) as G. change (Push H oob state _ _ s c b) with (tree_Push H oob s c b) in G.
  rewrite E in G. exact G.
Qed.
Print Assumptions C103_push_partial.

(** PutAccount stores the object's present contents, so later assignments to it
    do not matter (for the initial account: as long as nobody assigns to it). *)
Theorem C103_put_partial H oob m s c a p x :
  hash_fn H -> oreach H oob m s c -> array 20 a -> m !! p = Some x -> account_ok x ->
  exists s', tree_oPutAccount H a (Some p) (m, s) = (Ok tt, (m, s')) /\
    forall m' y q, assigns m q y m' -> q <> initial_pointer ->
      exists r m'', tree_oGetAccount a (m', s') = (Ok r, (m'', s')) /\ m'' !! r = Some x.
Proof.
  intros HH Hr Ha Hp Hx. destruct (oreach_areach _ _ _ _ _ Hr) as (R & I).
  destruct (C52_read_back H oob s c a (Some x) HH R Ha) as (s' & E & Eg & _); [intros y Ey; injection Ey as <-; exact Hx|].
  destruct (sim_put state (tree_put_entry H) a (Some p) (Some x) m s) as (r & E1 & Q); [intros q Eq; injection Eq as <-; eauto|discriminate|].
  unfold put_account in E1, Q. change (PutAccount state (tree_put_entry H) s a) with (tree_put_account H s a) in E1, Q. rewrite E in E1, Q. cbn [fst snd] in E1, Q.
  destruct r as [[]|e| |]; try contradiction. exists s'. split; [exact E1|]. intros m' y q Hq Hne.
  pose proof (oreach_put H oob m s c a (Some p) (Ok tt) m s' Hr Ha) as R1. specialize (R1 ltac:(intros q' Eq; injection Eq as <-; eauto) E1).
  pose proof (oreach_assign H oob m s' c q y m' R1 Hne Hq) as R2. destruct (C103_get_partial H oob m' s' c a HH R2 Ha) as (r & m'' & x' & E2 & Ex & Hr2 & _).
  exists r, m''. split; [exact E2|]. rewrite Hr2. congruence.
Qed.
Print Assumptions C103_put_partial.

(** C103 is false of the code: for every address without an entry GetAccount
    returns the address of the global variable.  A program that assigns to the
    account it got changes the balance of every address without an entry, in
    this and in every other accounts tree of the process. *)
Theorem C103_initial_account_refuted H oob m s c a p m1 v :
  hash_fn H -> oreach H oob m s c -> array 20 a -> tree_get_account s a = Ok (ABasic 0) ->
  tree_oGetAccount a (m, s) = (Ok p, (m1, s)) ->
  let m2 := <[p := ABasic v]> m1 in
  assigns m1 p (ABasic v) m2 /\
  forall s2 c2 a2, areach H oob s2 c2 -> array 20 a2 -> tree_get_account s2 a2 = Ok (ABasic 0) ->
    exists q, tree_oGetAccount a2 (m2, s2) = (Ok q, (m2, s2)) /\ m2 !! q = Some (ABasic v).
Proof.
  intros HH Hr Ha Eg E m2. destruct (oreach_areach _ _ _ _ _ Hr) as (R & I).
  assert (G : forall s c a, areach H oob s c -> array 20 a -> tree_get_account s a = Ok (ABasic 0) ->
    forall m, tree_oGetAccount a (m, s) = (Ok initial_pointer, (m, s))).
  { clear - HH. intros s c a R Ha Eg m. unfold tree_oGetAccount, oGetAccount. cbn [fst snd].
    destruct (areach_holds H oob s c HH R) as ((M & Hr & HM) & _). rewrite (tree_get H s M a (conj Hr HM) Ha) in Eg.
    rewrite (inv_GetEntry H s (enc_ledger M) a (reach_inv H s _ Hr) Ha). unfold enc_ledger. rewrite lookup_fmap.
    unfold acct in Eg. destruct (M !! a) as [x|] eqn:EM; [|reflexivity]. destruct (HM a x EM) as (_ & _ & Hne). cbn in Eg. congruence. }
  rewrite (G s c a R Ha Eg) in E. injection E as <- <-. split; [exists InitialAccount; auto|].
  intros s2 c2 a2 R2 Ha2 Eg2. exists initial_pointer. split; [apply (G s2 c2 a2 R2 Ha2 Eg2)|].
  apply list_lookup_insert. apply lookup_lt_Some in I. exact I.
Qed.
Print Assumptions C103_initial_account_refuted.

(** A history that meets the hypotheses: the program makes an account, stores it
    and changes its own copy; then it reads the account (into object 2) and changes
    that copy too.  A block that pays from the stored account leaves both alone. *)
Definition stored : state := snd (snd (tree_oPutAccount toy_hash (addr 1) (Some 1%nat) (initial_objects ++ [ABasic 1000], new_tree))).
Lemma stored_reach oob : oreach toy_hash oob [ABasic 0; ABasic 7; ABasic 8] stored initial_cache.
Proof.
  pose proof (oreach_make toy_hash oob _ _ _ (ABasic 1000) (oreach_new toy_hash oob)) as R1.
  assert (E2 : exists o m, tree_oPutAccount toy_hash (addr 1) (Some 1%nat) (initial_objects ++ [ABasic 1000], new_tree) = (o, (m, stored)) /\ m = [ABasic 0; ABasic 1000]).
  { unfold stored. destruct (tree_oPutAccount _ _ _ _) as (o & m & s) eqn:E. exists o, m. split; [reflexivity|].
    assert (Em : fst (snd (tree_oPutAccount toy_hash (addr 1) (Some 1%nat) (initial_objects ++ [ABasic 1000], new_tree))) = [ABasic 0; ABasic 1000]) by (vm_compute; reflexivity).
    rewrite E in Em. exact Em. }
  destruct E2 as (o & m & E2 & Em).
  assert (R2 : oreach toy_hash oob m stored initial_cache).
  { eapply oreach_put; [exact R1|apply addr_ok| |exact E2]. intros q Eq. injection Eq as <-. exists (ABasic 1000). split; [reflexivity|]. cbn. unfold u64. lia. }
  subst m. assert (R3 : oreach toy_hash oob [ABasic 0; ABasic 7] stored initial_cache).
  { eapply (oreach_assign _ _ _ _ _ 1%nat (ABasic 7)); [exact R2|discriminate|]. exists (ABasic 1000). repeat split. }
  assert (E4 : exists o m s, tree_oGetAccount (addr 1) ([ABasic 0; ABasic 7], stored) = (o, (m, s)) /\ m = [ABasic 0; ABasic 7; ABasic 1000] /\ s = stored).
  { destruct (C103_get_partial toy_hash oob _ _ _ (addr 1) toy_hash_fn R3 (addr_ok 1)) as (p & m' & x & E & Ex & Hp & (t & Hm) & Hc).
    assert (Ex' : tree_get_account stored (addr 1) = Ok (ABasic 1000)) by (vm_compute; reflexivity). rewrite Ex in Ex'. injection Ex' as ->.
    assert (Em : fst (snd (tree_oGetAccount (addr 1) ([ABasic 0; ABasic 7], stored))) = [ABasic 0; ABasic 7; ABasic 1000]) by (vm_compute; reflexivity).
    rewrite E in Em. cbn [fst snd] in Em. exists (Ok p), m', stored. split; [exact E|]. split; [exact Em|reflexivity]. }
  destruct E4 as (o4 & m4 & s4 & E4 & -> & ->).
  pose proof (oreach_get _ _ _ _ _ _ _ _ _ R3 (addr_ok 1) E4) as R4.
  eapply (oreach_assign _ _ _ _ _ 2%nat (ABasic 8)); [exact R4|discriminate|]. exists (ABasic 1000). repeat split.
Qed.
Example C103_nonvacuous oob :
  oreach toy_hash oob [ABasic 0; ABasic 7; ABasic 8] stored initial_cache /\
  match tree_oPush toy_hash oob ([ABasic 0; ABasic 7; ABasic 8], stored) initial_cache (transfer_block [pay 1 (addr 2) 100 5]) with
  | (Ok _, (m, s'), _) => take 3 m = [ABasic 0; ABasic 7; ABasic 8] /\ tree_get_account s' (addr 1) = Ok (ABasic 895)
  | _ => False
  end.
Proof. split; [apply stored_reach|]. vm_compute. split; reflexivity. Qed.
(** And what the defect leads to: in an empty tree, after one account was looked
    up and set to 1000, anybody can spend 1000. *)
Example C103_example oob :
  match tree_oGetAccount (addr 9) (initial_objects, new_tree) with
  | (Ok p, (m, s)) =>
      fst (fst (tree_oPush toy_hash oob (m, s) initial_cache (transfer_block [pay 1 (addr 2) 100 5]))) = Err (EOverspend 0 105) /\
      match tree_oPush toy_hash oob (<[p := ABasic 1000]> m, s) initial_cache (transfer_block [pay 1 (addr 2) 100 5]) with
      | (Ok _, (_, s'), _) => tree_get_account s' (addr 1) = Ok (ABasic 895)
      | _ => False
      end
  | _ => False
  end.
Proof. vm_compute. split; reflexivity. Qed.
