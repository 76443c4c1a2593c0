(** Accounts over a ledger: the reference instance of the state, and the
    simulation of any other instance by it. *)
From Coq Require Import ZArith List Lia Bool.
From stdpp Require Import gmap list.
From Verif.Model Require Import Base Address Beserial Wire Policy Account Accounts.
From Verif.Spec Require Import BeserialSpec WireSpec AccountSpec AccountsSpec.
From Verif.Proofs Require Import BaseFacts AccountFacts.
Open Scope Z_scope.

Global Instance Hash_dec : EqDecision Hash.
Proof. solve_decision. Defined.
Global Instance Vesting_dec : EqDecision Vesting.
Proof. solve_decision. Defined.
Global Instance HTLC_dec : EqDecision HTLC.
Proof. solve_decision. Defined.
Global Instance Account_dec : EqDecision Account.
Proof. solve_decision. Defined.

(** ** The ledger as a state *)
Definition set_acct (M : ledger) (a : bytes) (x : option Account) : ledger :=
  let y := default (ABasic 0) x in
  if decide (y = ABasic 0) then delete a M else <[a := y]> M.
Definition L_get (M : ledger) (a : bytes) : res Account := Ok (acct M a).
Definition L_put (M : ledger) (a : bytes) (x : option Account) : res ledger := Ok (set_acct M a x).

Lemma acct_set M a x b : acct (set_acct M a x) b = if decide (b = a) then default (ABasic 0) x else acct M b.
Proof.
  unfold acct, set_acct. cbv zeta. set (y := default (ABasic 0) x). destruct (decide (y = ABasic 0)) as [E|E]; destruct (decide (b = a)) as [->|Hne].
  - rewrite lookup_delete. symmetry. exact E.
  - rewrite lookup_delete_ne by congruence. reflexivity.
  - rewrite lookup_insert. reflexivity.
  - rewrite lookup_insert_ne by congruence. reflexivity.
Qed.
Lemma acct_set_eq M a x : acct (set_acct M a x) a = default (ABasic 0) x.
Proof. rewrite acct_set. destruct (decide (a = a)); congruence. Qed.
Lemma acct_set_ne M a x b : b <> a -> acct (set_acct M a x) b = acct M b.
Proof. intros Hne. rewrite acct_set. destruct (decide (b = a)); congruence. Qed.
Lemma ledger_ok_empty : ledger_ok ∅.
Proof. intros a x E. rewrite lookup_empty in E. discriminate E. Qed.
Lemma acct_ok M a : ledger_ok M -> account_ok (acct M a).
Proof.
  intros HM. unfold acct. destruct (M !! a) as [x|] eqn:E; [apply (HM a x E)|]. cbn. unfold u64. lia.
Qed.
Lemma ledger_ok_set M a x : ledger_ok M -> array 20 a -> (forall y, x = Some y -> account_ok y) -> ledger_ok (set_acct M a x).
Proof.
  intros HM Ha Hx b y. unfold set_acct. cbv zeta. destruct (decide (default (ABasic 0) x = ABasic 0)) as [E|E].
  - destruct (decide (b = a)) as [->|Hne]; [rewrite lookup_delete; discriminate|]. rewrite lookup_delete_ne by congruence. apply HM.
  - destruct (decide (b = a)) as [->|Hne].
    + rewrite lookup_insert. intros [= <-]. split; [exact Ha|]. split; [|exact E]. destruct x as [z|]; [apply Hx; reflexivity|contradiction E; reflexivity].
    + rewrite lookup_insert_ne by congruence. apply HM.
Qed.
(** The accounts determine the ledger. *)
Lemma ledger_ext M N : ledger_ok M -> ledger_ok N -> (forall a, array 20 a -> acct M a = acct N a) -> M = N.
Proof.
  intros HM HN HE. apply map_eq. intros a.
  assert (Hd : forall M a x, ledger_ok M -> M !! a = Some x -> acct M a = x /\ x <> ABasic 0 /\ array 20 a).
  { intros M0 a0 x H0 E. destruct (H0 _ _ E) as (Ha & _ & Hx). unfold acct. rewrite E. auto. }
  destruct (M !! a) as [x|] eqn:EM, (N !! a) as [y|] eqn:EN; try reflexivity.
  - destruct (Hd M a x HM EM) as (E1 & _ & Ha). destruct (Hd N a y HN EN) as (E2 & _). specialize (HE a Ha). congruence.
  - destruct (Hd M a x HM EM) as (E1 & H1 & Ha). specialize (HE a Ha). unfold acct at 2 in HE. rewrite EN in HE. cbn in HE. congruence.
  - destruct (Hd N a y HN EN) as (E1 & H1 & Ha). specialize (HE a Ha). unfold acct at 1 in HE. rewrite EM in HE. cbn in HE. congruence.
Qed.

(** ** Parts of transactions *)
Lemma content_sender H t : c_sender (AsTxContent H t) = tx_sender H t.
Proof. destruct t; reflexivity. Qed.
Lemma content_sender_type H t : c_sender_type (AsTxContent H t) = tx_sender_type t.
Proof. destruct t; reflexivity. Qed.
Lemma content_recipient H t : c_recipient (AsTxContent H t) = tx_recipient t.
Proof. destruct t; reflexivity. Qed.
Lemma content_recipient_type H t : c_recipient_type (AsTxContent H t) = tx_recipient_type t.
Proof. destruct t; reflexivity. Qed.
Lemma get_sender H t : fst (GetSender H t) = tx_sender H t.
Proof. destruct t; reflexivity. Qed.
Lemma amount_ok t : Amount t = (tx_value t, tx_fee t).
Proof. destruct t; reflexivity. Qed.
Lemma creates_ok H t : creates_contract (AsTxContent H t) = tx_creates t.
Proof.
  destruct t as [b|x]; cbn [AsTxContent creates_contract c_flags tx_creates]; unfold creates_contract; cbn [c_flags]; [reflexivity|].
  change 1 with (Z.ones 1). rewrite Z.land_ones by lia. change (2 ^ 1) with 2. rewrite Zmod_odd. destruct (Z.odd (x_flags x)); reflexivity.
Qed.
Lemma sender_20 H t : hash_fn H -> tx_ok t -> array 20 (tx_sender H t).
Proof.
  intros HH. destruct t as [b|x]; cbn [tx_sender]; [|cbn; tauto].
  intros _. destruct (HH (b_pubkey b)) as (Hl & Hb). split; [rewrite firstn_length, Hl; reflexivity|apply bytes_ok_firstn; exact Hb].
Qed.
Lemma recipient_20 t : tx_ok t -> array 20 (tx_recipient t).
Proof. destruct t; cbn; tauto. Qed.
Lemma value_64 t : tx_ok t -> u64 (tx_value t) /\ u64 (tx_fee t).
Proof. destruct t; cbn; tauto. Qed.
Definition all_ok (l : list (option Tx)) : Prop := Forall (fun t => exists x, t = Some x /\ tx_ok x) l.

Lemma incoming_ok a t h a' : ApplyIncomingTx a t h = Ok a' -> account_ok a'.
Proof. destruct a; cbn; try discriminate. intros [= <-]. cbn. apply Z.mod_pos_bound. reflexivity. Qed.
Lemma outgoing_ok H oob a t h a' : account_ok a -> tx_ok t -> ApplyOutgoingTx H oob a t h = Ok a' -> account_ok a'.
Proof. intros Ha Ht E. pose proof (outgoing_outcome H oob a t h Ha Ht) as Ho. rewrite E in Ho. apply Ho. Qed.
Lemma init_result_ok typ t h b a : tx_ok t -> u64 b -> typ = 1 \/ typ = 2 -> Account_Init typ t h b = Ok a -> account_ok a.
Proof.
  intros Ht Hb Htyp E. destruct t as [x|x].
  - destruct Htyp as [->| ->]; discriminate E.
  - destruct (init_spec x typ h b Ht Hb Htyp) as [(a' & E' & _ & Ha)|(e & E')]; rewrite E' in E; [|discriminate E]. injection E as <-. exact Ha.
Qed.
Lemma balance_64 a : account_ok a -> u64 (Balance a).
Proof. destruct a; cbn; tauto. Qed.

(** ** Simulation *)
Section Sim.
  Context (H : bytes -> bytes) (oob : float64 -> Z) (HH : hash_fn H).
  Context (T : Type) (get : T -> bytes -> res Account) (put : T -> bytes -> option Account -> res T).
  Context (R : T -> ledger -> Prop).
  Context (Rok : forall s M, R s M -> ledger_ok M).
  Context (Rget : forall s M a, R s M -> array 20 a -> get s a = Ok (acct M a)).
  Context (Rput : forall s M a x, R s M -> array 20 a -> (forall y, x = Some y -> account_ok y) ->
             exists s', put s a x = Ok s' /\ R s' (set_acct M a x)).

  Definition sim {X} (P : X -> Prop) (f : step T X) (g : step ledger X) : Prop :=
    forall s M, R s M -> fst (f s) = fst (g M) /\ R (snd (f s)) (snd (g M)) /\ (forall x, fst (g M) = Ok x -> P x).
  Lemma sim_then {X Y} (P : X -> Prop) (Q : Y -> Prop) (f : step T X) (g : step ledger X) (k : X -> step T Y) (k' : X -> step ledger Y) :
    sim P f g -> (forall x, P x -> sim Q (k x) (k' x)) -> sim Q (andthen T f k) (andthen ledger g k').
  Proof.
    intros Hf Hk s M HR. destruct (Hf s M HR) as (E & HR' & HP). unfold andthen.
    destruct (f s) as (r & s'), (g M) as (r' & M'). cbn [fst snd] in *. subst r'.
    destruct r; cbn [fst snd]; [|split; [reflexivity|split; [exact HR'|discriminate]]..]. apply Hk; [apply HP; reflexivity|exact HR'].
  Qed.
  Lemma sim_stop {X} (P : X -> Prop) (r : res X) : (forall x, r = Ok x -> P x) -> sim P (stop T r) (stop ledger r).
  Proof. intros HP s M HR. cbn. auto. Qed.
  Lemma sim_done {X} (P : X -> Prop) (x : X) : P x -> sim P (done T x) (done ledger x).
  Proof. intros HP s M HR. cbn. split; [reflexivity|]. split; [exact HR|]. intros y [= <-]. exact HP. Qed.
  Lemma sim_get a : array 20 a -> sim account_ok (get_account T get a) (get_account ledger L_get a).
  Proof.
    intros Ha s M HR. cbn. rewrite (Rget s M a HR Ha). split; [reflexivity|]. split; [exact HR|]. intros x [= <-]. apply acct_ok, (Rok s M HR).
  Qed.
  Lemma sim_put a x : array 20 a -> (forall y, x = Some y -> account_ok y) -> sim (fun _ => True) (put_account T put a x) (put_account ledger L_put a x).
  Proof.
    intros Ha Hx s M HR. unfold put_account. destruct (Rput s M a x HR Ha Hx) as (s' & -> & HR'). cbn. auto.
  Qed.
  Lemma sim_for (f : Tx -> step T unit) (g : Tx -> step ledger unit) l : all_ok l -> (forall t, tx_ok t -> sim (fun _ => True) (f t) (g t)) -> sim (fun _ => True) (for_txs T f l) (for_txs ledger g l).
  Proof.
    intros Hl Hf. induction Hl as [|t l (x & -> & Hx) _ IH]; cbn [for_txs]; [apply sim_done; exact I|].
    apply (sim_then (fun _ => True)); [apply Hf, Hx|]. intros _ _. exact IH.
  Qed.
  Lemma sim_pushTx a typ t h op : array 20 a -> (forall x x', account_ok x -> op x t h = Ok x' -> account_ok x') ->
    sim (fun _ => True) (pushTx T get put a typ t h op) (pushTx ledger L_get L_put a typ t h op).
  Proof.
    intros Ha Hop. unfold pushTx. apply (sim_then account_ok); [apply sim_get, Ha|]. intros x Hx.
    destruct (negb (typ =? AccountUnknown) && negb (typ =? AccountType x)); [apply sim_stop; discriminate|].
    apply (sim_then account_ok); [apply sim_stop; intros y; apply Hop, Hx|]. intros y Hy. apply sim_put; [exact Ha|]. intros z [= <-]. exact Hy.
  Qed.
  Lemma sim_senders l h : all_ok l -> sim (fun _ => True) (pushSenders H oob T get put l h) (pushSenders H oob ledger L_get L_put l h).
  Proof.
    intros Hl. apply sim_for; [exact Hl|]. intros t Ht. unfold push_sender. cbv zeta. rewrite content_sender. apply sim_pushTx; [apply sender_20; assumption|].
    intros x x' Hx. apply outgoing_ok; assumption.
  Qed.
  Lemma sim_recipients l h : all_ok l -> sim (fun _ => True) (pushRecipients H T get put l h) (pushRecipients H ledger L_get L_put l h).
  Proof.
    intros Hl. apply sim_for; [exact Hl|]. intros t Ht. unfold push_recipient. cbv zeta. rewrite content_recipient. apply sim_pushTx; [apply recipient_20; assumption|].
    intros x x' Hx. apply incoming_ok.
  Qed.
  Lemma sim_create l h : all_ok l -> sim (fun _ => True) (createContracts H T get put l h) (createContracts H ledger L_get L_put l h).
  Proof.
    intros Hl. apply sim_for; [exact Hl|]. intros t Ht. unfold create_step, createContract. cbv zeta.
    destruct (creates_contract (AsTxContent H t)) eqn:Ec; [|apply sim_done; exact I]. cbn [negb]. rewrite content_recipient, content_recipient_type.
    apply (sim_then account_ok); [apply sim_get, recipient_20, Ht|]. intros x Hx.
    destruct (tx_recipient_type t =? 0); [apply sim_stop; discriminate|].
    destruct ((tx_recipient_type t =? 1) || (tx_recipient_type t =? 2)) eqn:E12; [|apply sim_stop; discriminate].
    apply (sim_then account_ok).
    - apply sim_stop. intros y. apply init_result_ok; [exact Ht|apply balance_64, Hx|]. apply orb_true_iff in E12 as [E|E]; apply Z.eqb_eq in E; auto.
    - intros y Hy. apply sim_put; [apply recipient_20, Ht|]. intros z [= <-]. exact Hy.
  Qed.
  Lemma sim_prune_txs l : forall m, all_ok l -> sim (fun _ => True) (prune_txs H T get put l m) (prune_txs H ledger L_get L_put l m).
  Proof.
    intros m Hl. revert m. induction Hl as [|t l (x & -> & Hx) _ IH]; intros m; cbn [prune_txs]; [apply sim_done; exact I|]. rewrite get_sender.
    apply (sim_then account_ok); [apply sim_get, sender_20; assumption|]. intros y Hy.
    destruct (negb (IsEmpty y) || (AccountType y =? 0)); [apply IH|]. destruct (m !! tx_sender H x) as [p|]; [|apply sim_stop; discriminate].
    destruct (negb (AccountEq p (Some y))); [apply sim_stop; discriminate|].
    apply (sim_then (fun _ => True)); [apply sim_put; [apply sender_20; assumption|discriminate]|]. intros _ _. apply IH.
  Qed.
  Lemma sim_prune b : all_ok (bb_txs b) -> sim (fun _ => True) (pruneAccounts H T get put b) (pruneAccounts H ledger L_get L_put b).
  Proof.
    intros Hl. unfold pruneAccounts. apply (sim_then (fun _ => True)); [apply sim_prune_txs, Hl|]. intros m _.
    destruct (decide (m = ∅)); [apply sim_done; exact I|apply sim_stop; discriminate].
  Qed.
  Lemma sim_inherents b h base : array 20 (bb_miner b) -> sim (fun _ => True) (pushInherents T get put b h base) (pushInherents ledger L_get L_put b h base).
  Proof.
    intros Hm. unfold pushInherents. apply (sim_then (fun _ => True)); [apply sim_stop; auto|]. intros r _. apply sim_pushTx; [exact Hm|]. intros x x' _. apply incoming_ok.
  Qed.
  Lemma sim_body b h : all_ok (bb_txs b) -> sim (fun _ => True) (push_body H oob T get put b h) (push_body H oob ledger L_get L_put b h).
  Proof.
    intros Hl. unfold push_body.
    apply (sim_then (fun _ => True)); [apply sim_senders, Hl|]. intros _ _.
    apply (sim_then (fun _ => True)); [apply sim_recipients, Hl|]. intros _ _.
    apply (sim_then (fun _ => True)); [apply sim_create, Hl|]. intros _ _. apply sim_prune, Hl.
  Qed.
  Theorem sim_Push s M c b : R s M -> block_ok b ->
    let '(o, s', c') := Push H oob T get put s c b in
    exists M', Push H oob ledger L_get L_put M c b = (o, M', c') /\ R s' M'.
  Proof.
    intros HR (Hh & Hb). unfold Push. cbv zeta. destruct (bl_body b) as [body|]; [|eauto].
    destruct (Hb body eq_refl) as (Hm & _ & _ & _ & Hl & _).
    destruct (sim_body body (bh_height (bl_header b)) Hl s M HR) as (E & HR1 & _).
    destruct (push_body H oob T get put body _ s) as (r & s1), (push_body H oob ledger L_get L_put body _ M) as (r' & M1). cbn [fst snd] in *. subst r'.
    destruct r as [[]| | |]; [|eauto..]. destruct (BlockReward c (bh_height (bl_header b))) as (c' & base).
    assert (Hs : sim (fun _ => True) (andthen T (stop T base) (fun base => pushInherents T get put body (bh_height (bl_header b)) base))
                 (andthen ledger (stop ledger base) (fun base => pushInherents ledger L_get L_put body (bh_height (bl_header b)) base))).
    { apply (sim_then (fun _ => True)); [apply sim_stop; auto|]. intros x _. apply sim_inherents, Hm. }
    destruct (Hs s1 M1 HR1) as (E2 & HR2 & _).
    destruct (andthen T _ _ s1) as (o & s2), (andthen ledger _ _ M1) as (o' & M2). cbn [fst snd] in *. subst o'. eauto.
  Qed.
End Sim.
