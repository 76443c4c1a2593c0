(** The states of the program: trees and maps that hold a ledger; outcomes and
    frame of Push; sums. *)
From Coq Require Import ZArith List Lia Bool.
From stdpp Require Import gmap list.
From Verif.Model Require Import Base Address Beserial Wire Policy Account Tree Accounts.
From Verif.Spec Require Import AddressSpec TreeSpec TreeHistory PolicySpec BeserialSpec WireSpec AccountSpec AccountsSpec.
From Verif.Proofs Require Import BaseFacts PolicyFacts TreeReach WireFacts LayoutFacts AccountFacts LedgerFacts PushFacts.
From Verif.Props Require Import TreeProps WireProps.
Open Scope Z_scope.

(** ** GetAccount and PutAccount over stores of byte strings *)
Lemma account_bytes_nonnil a : account_bytes a <> [].
Proof. destruct a; discriminate. Qed.
Lemma wrap_round_trip a : account_ok a ->
  WrapAccount_Marshal (Some a) [] = Ok (account_bytes a, None) /\
  forall x, WrapAccount_Unmarshal x (account_bytes a) = Ok (Some a, zlen (account_bytes a)).
Proof.
  intros Ha. destruct (account_layout a Ha) as (e & E & He). destruct (enc_marshal _ _ _ He) as (Hm & Hu). rewrite E. split.
  - unfold WrapAccount_Marshal. rewrite Hm. reflexivity.
  - intros x. unfold WrapAccount_Unmarshal. specialize (Hu (zero (ty_account (AccountType a))) []). rewrite app_nil_r in Hu.
    assert (Et : (AccountType a =? 0) || (AccountType a =? 1) || (AccountType a =? 2) = true) by (destruct a; reflexivity).
    rewrite Et, Hu. cbn [bind]. rewrite zlen_cons, account_of_v. reflexivity.
Qed.
Lemma GetAccount_ok T (ge : T -> bytes -> res (option bytes)) s M a : ledger_ok M -> ge s a = Ok (enc_ledger M !! a) -> GetAccount T ge s a = Ok (acct M a).
Proof.
  intros HM E. unfold GetAccount. rewrite E. cbn [bind]. unfold enc_ledger. rewrite lookup_fmap. unfold acct.
  destruct (M !! a) as [x|] eqn:Ex; cbn [fmap option_fmap option_map from_option id]; [|reflexivity].
  destruct (HM _ _ Ex) as (_ & Hx & _). destruct (wrap_round_trip x Hx) as (_ & Hu).
  destruct (account_bytes x) as [|y d] eqn:Eb; [destruct (account_bytes_nonnil _ Eb)|]. rewrite Hu, Z.eqb_refl. reflexivity.
Qed.
Lemma enc_set M a x : (forall y, x = Some y -> account_ok y) ->
  enc_ledger (set_acct M a x) =
  spec_put (enc_ledger M) (a, match x with Some y => if (AccountType y =? 0) && IsEmpty y then [] else account_bytes y | None => [] end).
Proof.
  intros Hx. unfold enc_ledger, set_acct, spec_put. cbv zeta. cbn [fst snd]. destruct x as [y|]; cbn [from_option id].
  - destruct (decide (y = ABasic 0)) as [->|Hne]; [cbn; apply fmap_delete|].
    assert ((AccountType y =? 0) && IsEmpty y = false) as ->.
    { destruct y as [v| |]; [|reflexivity..]. cbn. unfold IsEmpty. cbn. destruct (Z.eqb_spec v 0); [congruence|reflexivity]. }
    destruct (account_bytes y) as [|z d] eqn:Eb; [destruct (account_bytes_nonnil _ Eb)|]. rewrite fmap_insert, Eb. reflexivity.
  - rewrite decide_True by reflexivity. apply fmap_delete.
Qed.
Lemma PutAccount_ok T (pe : T -> bytes -> bytes -> res T) s a x : (forall y, x = Some y -> account_ok y) ->
  PutAccount T pe s a x = pe s a (match x with Some y => if (AccountType y =? 0) && IsEmpty y then [] else account_bytes y | None => [] end).
Proof.
  intros Hx. unfold PutAccount. destruct x as [y|]; [|reflexivity]. destruct ((AccountType y =? 0) && IsEmpty y); [reflexivity|].
  destruct (wrap_round_trip y (Hx y eq_refl)) as (-> & _). reflexivity.
Qed.

(** ** Trees that hold a ledger *)
Definition tree_holds (H : bytes -> bytes) (s : state) (M : ledger) : Prop := reach H s (enc_ledger M) /\ ledger_ok M.
Lemma tree_ok H s M : tree_holds H s M -> ledger_ok M.
Proof. intros (_ & HM). exact HM. Qed.
Lemma tree_get H s M a : tree_holds H s M -> array 20 a -> tree_get_account s a = Ok (acct M a).
Proof.
  intros (Hr & HM) Ha. apply GetAccount_ok; [exact HM|]. apply (inv_GetEntry H s); [apply reach_inv, Hr|exact Ha].
Qed.
Lemma tree_put H s M a x : tree_holds H s M -> array 20 a -> (forall y, x = Some y -> account_ok y) ->
  exists s', tree_put_account H s a x = Ok s' /\ tree_holds H s' (set_acct M a x).
Proof.
  intros (Hr & HM) Ha Hx. unfold tree_put_account. rewrite PutAccount_ok by exact Hx. unfold tree_put_entry.
  destruct (inv_PutEntry H s (enc_ledger M) a (match x with Some y => if (AccountType y =? 0) && IsEmpty y then [] else account_bytes y | None => [] end) (reach_inv H s _ Hr) Ha)
    as (s' & E & _). rewrite E. cbn [bind]. exists s'. split; [reflexivity|]. split; [|apply ledger_ok_set; assumption].
  rewrite enc_set by exact Hx. eapply reach_put; [exact Hr|exact Ha|exact E].
Qed.
Definition map_holds (m : gmap bytes bytes) (M : ledger) : Prop := m = enc_ledger M /\ ledger_ok M.
Lemma map_get m M a : map_holds m M -> array 20 a -> map_get_account m a = Ok (acct M a).
Proof. intros (-> & HM) _. apply GetAccount_ok; [exact HM|]. reflexivity. Qed.
Lemma map_put m M a x : map_holds m M -> array 20 a -> (forall y, x = Some y -> account_ok y) ->
  exists m', map_put_account m a x = Ok m' /\ map_holds m' (set_acct M a x).
Proof.
  intros (-> & HM) Ha Hx. unfold map_put_account. rewrite PutAccount_ok by exact Hx. eexists. split; [reflexivity|].
  split; [|apply ledger_ok_set; assumption]. rewrite enc_set by exact Hx. reflexivity.
Qed.
Notation ledger_Push H oob := (Push H oob ledger L_get L_put).
Lemma tree_sim H oob s M c b : hash_fn H -> tree_holds H s M -> block_ok b ->
  let '(o, s', c') := tree_Push H oob s c b in exists M', ledger_Push H oob M c b = (o, M', c') /\ tree_holds H s' M'.
Proof.
  intros HH HR Hb. apply (sim_Push H oob HH state tree_get_account (tree_put_account H) (tree_holds H)); try assumption.
  - intros s0 M0. apply tree_ok.
  - intros s0 M0 a. apply (tree_get H).
  - intros s0 M0 a x. apply tree_put.
Qed.
Lemma map_sim H oob m M c b : hash_fn H -> map_holds m M -> block_ok b ->
  let '(o, m', c') := map_Push H oob m c b in exists M', ledger_Push H oob M c b = (o, M', c') /\ map_holds m' M'.
Proof.
  intros HH HR Hb. apply (sim_Push H oob HH _ map_get_account map_put_account map_holds); try assumption.
  - intros m0 M0 (_ & HM). exact HM.
  - intros m0 M0 a. apply map_get.
  - intros m0 M0 a x. apply map_put.
Qed.
Lemma Push_cache H oob M c b o M' c' : cache_ok c -> block_ok b -> ledger_Push H oob M c b = (o, M', c') -> cache_ok c'.
Proof.
  intros Hc (Hh & _). unfold Push. cbv zeta. destruct (bl_body b) as [body|]; [|intros [= _ _ <-]; exact Hc].
  destruct (push_body H oob ledger L_get L_put body _ M) as ([[]| | |] & M1); try (intros [= _ _ <-]; exact Hc).
  destruct (BlockReward_ok c (bh_height (bl_header b)) Hc) as (Hc' & _); [apply Hh|]. destruct (BlockReward c _) as (c1 & base). cbn [fst] in Hc'.
  destruct (andthen ledger _ _ M1) as (o2 & M2). intros [= _ _ <-]. exact Hc'.
Qed.

Lemma areach_holds H oob s c : hash_fn H -> areach H oob s c -> (exists M, tree_holds H s M) /\ cache_ok c.
Proof.
  intros HH. induction 1 as [|s c a x s' _ ((M & HM) & Hc) Ha Hx E|s c b o s' c' _ ((M & HM) & Hc) Hb E|s c call h _ ((M & HM) & Hc) Hh Hcall
    |s c _ ((M & HM) & Hc)|s c lower d order st _ ((M & HM) & Hc) Es Ho Ef|s c lower d order n st _ ((M & HM) & Hc) Es Ho Ef|s c lower _ ((M & HM) & Hc) Es].
  - split; [|apply cache_ok_initial]. exists ∅. split; [|apply ledger_ok_empty]. unfold enc_ledger. rewrite fmap_empty. constructor.
  - split; [|exact Hc]. destruct (tree_put H s M a x HM Ha Hx) as (s1 & E1 & HM1). rewrite E1 in E. injection E as <-. eauto.
  - pose proof (tree_sim H oob s M c b HH HM Hb) as Hs. rewrite E in Hs. destruct Hs as (M' & EM & HM'). split; [eauto|]. eapply Push_cache; eauto.
  - split; [eauto|]. destruct Hcall as [->| ->]; cbn [policy_step]; [apply SupplyAfter_ok|apply BlockReward_ok]; assumption.
  - split; [|exact Hc]. exists M. destruct HM as (Hr & HM). split; [apply reach_open, Hr|exact HM].
  - split; [|exact Hc]. exists M. destruct HM as (Hr & HM). split; [eapply reach_flush; eauto|exact HM].
  - split; [|exact Hc]. exists M. destruct HM as (Hr & HM). split; [eapply reach_interrupted; eauto|exact HM].
  - split; [|exact Hc]. exists M. destruct HM as (Hr & HM). split; [eapply reach_close; eauto|exact HM].
Qed.
Lemma holds_lists H s M : tree_holds H s M -> lists s M.
Proof. intros HR. split; [apply (tree_ok _ _ _ HR)|]. intros a. apply (tree_get H s M a HR). Qed.
Lemma lists_unique s M N : lists s M -> lists s N -> M = N.
Proof. intros (H1 & H2) (H3 & H4). apply ledger_ext; [exact H1|exact H3|]. intros a Ha. specialize (H2 a Ha). specialize (H4 a Ha). congruence. Qed.
Lemma lists_holds H oob s c M : hash_fn H -> areach H oob s c -> lists s M -> tree_holds H s M /\ cache_ok c.
Proof.
  intros HH Hr HL. destruct (areach_holds H oob s c HH Hr) as ((N & HN) & Hc). split; [|exact Hc].
  rewrite (lists_unique s M N HL (holds_lists H s N HN)). exact HN.
Qed.

(** ** Frame *)
Section Frame.
  Context (H : bytes -> bytes) (oob : float64 -> Z).
  Definition touches {X : Type} (P : bytes -> Prop) (m : step ledger X) : Prop := forall M a, ~ P a -> acct (snd (m M)) a = acct M a.
  Lemma touches_then {X Y : Type} (P : bytes -> Prop) (m : step ledger X) (k : X -> step ledger Y) : touches P m -> (forall x, touches P (k x)) -> touches P (andthen ledger m k).
  Proof.
    intros Hm Hk M a Ha. unfold andthen. specialize (Hm M a Ha). destruct (m M) as ([x| | |] & M1); cbn [snd] in *; [|exact Hm..].
    rewrite (Hk x M1 a Ha). exact Hm.
  Qed.
  Lemma touches_stop {X : Type} (P : bytes -> Prop) (r : res X) : touches P (stop ledger r).
  Proof. intros M a _. reflexivity. Qed.
  Lemma touches_put (P : bytes -> Prop) a x : P a -> touches P (put_account ledger L_put a x).
  Proof. intros Ha M b Hb. cbn. apply acct_set_ne. congruence. Qed.
  Lemma touches_pushTx (P : bytes -> Prop) a typ t h op : P a -> touches P (pushTx ledger L_get L_put a typ t h op).
  Proof.
    intros Ha M b Hb. rewrite Lpush_eq. destruct (negb _ && negb _); [reflexivity|]. destruct (op (acct M a) t h); try reflexivity.
    cbn [snd]. apply acct_set_ne. congruence.
  Qed.
  Lemma touches_for (P : bytes -> Prop) (f : Tx -> step ledger unit) l : (forall t, t ∈ present l -> touches P (f t)) -> touches P (for_txs ledger f l).
  Proof.
    induction l as [|[t|] l IH]; intros Hf; cbn [for_txs]; [intros M a _; reflexivity| |intros M a _; reflexivity].
    apply touches_then; [apply Hf; constructor|]. intros _. apply IH. intros u Hu. apply Hf. constructor. exact Hu.
  Qed.
  Lemma touches_prune (P : bytes -> Prop) l : (forall t, t ∈ present l -> P (tx_sender H t)) -> forall m, touches P (prune_txs H ledger L_get L_put l m).
  Proof.
    induction l as [|[t|] l IH]; intros Hf m; cbn [prune_txs]; [intros M a _; reflexivity| |intros M a _; reflexivity].
    assert (IH' : forall m, touches P (prune_txs H ledger L_get L_put l m)) by (apply IH; intros u Hu; apply Hf; constructor; exact Hu).
    apply touches_then; [intros M a _; reflexivity|]. intros y. rewrite get_sender. destruct (negb (IsEmpty y) || (AccountType y =? 0)); [apply IH'|].
    destruct (m !! tx_sender H t) as [p|]; [|apply touches_stop]. destruct (negb (AccountEq p (Some y))); [apply touches_stop|].
    apply touches_then; [apply touches_put, Hf; constructor|]. intros _. apply IH'.
  Qed.
  Lemma push_frame M c b o M' c' a : ledger_Push H oob M c b = (o, M', c') ->
    (forall body, bl_body b = Some body -> ~ is_party H body a) -> acct M' a = acct M a.
  Proof.
    unfold Push. cbv zeta. destruct (bl_body b) as [body|]; [|intros [= _ <- _] _; reflexivity]. intros E Ha. specialize (Ha body eq_refl).
    set (P := is_party H body). assert (Hs : forall t, t ∈ present (bb_txs body) -> P (tx_sender H t)) by (intros t Ht; right; exists t; auto).
    assert (Hr : forall t, t ∈ present (bb_txs body) -> P (tx_recipient t)) by (intros t Ht; right; exists t; auto).
    assert (Hb : touches P (push_body H oob ledger L_get L_put body (bh_height (bl_header b)))).
    { unfold push_body. apply touches_then; [|intros _; apply touches_then; [|intros _; apply touches_then; [|intros _; apply touches_then]]].
      - apply touches_for. intros t Ht. unfold push_sender. cbv zeta. rewrite content_sender. apply touches_pushTx, Hs, Ht.
      - apply touches_for. intros t Ht. unfold push_recipient. cbv zeta. rewrite content_recipient. apply touches_pushTx, Hr, Ht.
      - apply touches_for. intros t Ht. unfold create_step, createContract. cbv zeta. destruct (creates_contract (AsTxContent H t)); [|intros N x _; reflexivity].
        cbn [negb]. rewrite content_recipient. apply touches_then; [intros N x _; reflexivity|]. intros y. destruct (_ =? 0); [apply touches_stop|].
        destruct (_ || _); [|apply touches_stop]. apply touches_then; [apply touches_stop|]. intros z. apply touches_put, Hr, Ht.
      - apply touches_prune. exact Hs.
      - intros m. destruct (decide (m = ∅)); [intros N x _; reflexivity|apply touches_stop]. }
    specialize (Hb M a Ha). destruct (push_body H oob ledger L_get L_put body _ M) as ([[]| | |] & M1); cbn [snd] in Hb;
      [|injection E as _ <- _; exact Hb..]. rewrite <- Hb. clear Hb.
    destruct (BlockReward c _) as (c1 & base).
    assert (Hi : touches P (andthen ledger (stop ledger base) (fun base => pushInherents ledger L_get L_put body (bh_height (bl_header b)) base))).
    { apply touches_then; [apply touches_stop|]. intros x. unfold pushInherents. apply touches_then; [apply touches_stop|]. intros r. apply touches_pushTx. left. reflexivity. }
    specialize (Hi M1 a Ha). destruct (andthen ledger _ _ M1) as (o2 & M2). injection E as _ <- _. exact Hi.
  Qed.
End Frame.

(** ** Panics *)
(** The outcome is not out-of-fuel, and a panic only if [Q]. *)
Definition panics_if {X : Type} (r : res X) (Q : Prop) : Prop :=
  match r with Panic => Q | OutOfFuel => False | _ => True end.
Section Panics.
  Context (H : bytes -> bytes) (oob : float64 -> Z) (HH : hash_fn H).
  Lemma panics_then {X Y : Type} (m : step ledger X) (k : X -> step ledger Y) M (Q : Prop) :
    panics_if (fst (m M)) Q -> (forall x, fst (m M) = Ok x -> panics_if (fst (k x (snd (m M)))) Q) -> panics_if (fst (andthen ledger m k M)) Q.
  Proof. unfold andthen. destruct (m M) as ([x| | |] & M1); cbn [fst snd]; auto. Qed.
  (** Sender and recipient phases keep the type of every account. *)
  Definition same_types (M N : ledger) : Prop := ledger_ok N /\ forall a, AccountType (acct N a) = AccountType (acct M a).
  Lemma same_refl M : ledger_ok M -> same_types M M.
  Proof. intros HM. split; auto. Qed.
  Lemma for_inv (Inv : ledger -> Prop) (Q : Tx -> Prop) (f : Tx -> step ledger unit) l :
    (forall t M, tx_ok t -> Inv M -> Inv (snd (f t M)) /\ panics_if (fst (f t M)) (Q t)) ->
    forall M, all_ok l -> Inv M -> Inv (snd (for_txs ledger f l M)) /\ panics_if (fst (for_txs ledger f l M)) (exists t, t ∈ present l /\ Q t).
  Proof.
    intros Hf M Hl. revert M. induction Hl as [|t l (x & -> & Hx) _ IH]; intros M HM; cbn [for_txs]; [split; [exact HM|exact I]|].
    destruct (Hf x M Hx HM) as (H1 & H2). unfold andthen. destruct (f x M) as ([[]| | |] & M1); cbn [fst snd] in *.
    - destruct (IH M1 H1) as (H3 & H4). split; [exact H3|]. destruct (fst (for_txs ledger f l M1)); cbn in *; try exact H4.
      destruct H4 as (u & Hu & Hq). exists u. split; [|exact Hq]. constructor. exact Hu.
    - split; [exact H1|exact I].
    - split; [exact H1|]. exists x. split; [constructor|exact H2].
    - split; [exact H1|exact H2].
  Qed.
  Definition huge_proof (t : Tx) : Prop := exists x, t = TExtended x /\ 8065 <= zlen (x_proof x).
  Lemma senders_inv M l h : forall N, all_ok l -> same_types M N ->
    same_types M (snd (pushSenders H oob ledger L_get L_put l h N)) /\
    panics_if (fst (pushSenders H oob ledger L_get L_put l h N)) (exists t, t ∈ present l /\ (huge_proof t /\ ~ is_basic (acct M (tx_sender H t)))).
  Proof.
    unfold pushSenders. apply for_inv. intros t N Ht (HN & HT). unfold push_sender. cbv zeta. rewrite content_sender, content_sender_type, Lpush_eq.
    set (a := tx_sender H t). pose proof (outgoing_outcome H oob (acct N a) t h (acct_ok N a HN) Ht) as Ho.
    destruct (negb (tx_sender_type t =? AccountUnknown) && negb (tx_sender_type t =? AccountType (acct N a))) eqn:Et; [split; [split; assumption|exact I]|].
    destruct (ApplyOutgoingTx H oob (acct N a) t h) as [x|e| |] eqn:Ex; cbn [fst snd].
    - destruct Ho as (Eb & Hx). split; [|exact I]. split.
      + apply ledger_ok_set; [exact HN|apply sender_20; assumption|]. intros y [= <-]. exact Hx.
      + intros b. rewrite acct_set. destruct (decide (b = a)) as [->|]; [|apply HT]. cbn [from_option id]. rewrite Eb, type_with. apply HT.
    - split; [split; assumption|exact I].
    - split; [split; assumption|]. destruct Ho as [(b & -> & Hb)|(x & -> & Hx)].
      + exfalso. cbn [tx_sender_type] in Et. rewrite basic_type in Hb. destruct (Z.eqb_spec 0 (AccountType (acct N a))) as [E|E]; [congruence|]. discriminate Et.
      + split; [exists x; auto|]. intros Hba. apply basic_type in Hba. fold a in Hba. rewrite <- HT in Hba. apply basic_type in Hba as (v & Ev). rewrite Ev in Ex.
        cbn [ApplyOutgoingTx] in Ex. unfold Basic_Outgoing in Ex. destruct (Amount (TExtended x)). destruct (v <? _) in Ex; discriminate Ex.
    - contradiction.
  Qed.
  Lemma recipients_inv M l h : forall N, all_ok l -> same_types M N ->
    same_types M (snd (pushRecipients H ledger L_get L_put l h N)) /\
    panics_if (fst (pushRecipients H ledger L_get L_put l h N)) (exists t, t ∈ present l /\ ~ is_basic (acct M (tx_recipient t))).
  Proof.
    unfold pushRecipients. apply for_inv. intros t N Ht (HN & HT). unfold push_recipient. cbv zeta. rewrite content_recipient, Lpush_eq.
    set (a := tx_recipient t). destruct (negb _ && negb _); [split; [split; assumption|exact I]|].
    destruct (ApplyIncomingTx (acct N a) t h) as [x|e| |] eqn:Ex; cbn [fst snd].
    - pose proof (incoming_ok _ _ _ _ Ex) as Hx. apply incoming_balance in Ex as (Hb & Ex). split; [|exact I]. split.
      + apply ledger_ok_set; [exact HN|apply recipient_20; assumption|]. intros y [= <-]. exact Hx.
      + intros b. rewrite acct_set. destruct (decide (b = a)) as [->|]; [|apply HT]. cbn [from_option id]. rewrite Ex, type_with. apply HT.
    - split; [split; assumption|exact I].
    - split; [split; assumption|]. intros Hb. apply basic_type in Hb. fold a in Hb. rewrite <- HT in Hb. apply basic_type in Hb as (v & Ev). rewrite Ev in Ex. discriminate Ex.
    - destruct (acct N a); discriminate Ex.
  Qed.
  Lemma create_inv l h : forall N, all_ok l -> ledger_ok N ->
    ledger_ok (snd (createContracts H ledger L_get L_put l h N)) /\ panics_if (fst (createContracts H ledger L_get L_put l h N)) (exists t, t ∈ present l /\ False).
  Proof.
    unfold createContracts. apply for_inv. intros t N Ht HN. unfold create_step, createContract. cbv zeta. rewrite creates_ok.
    destruct (tx_creates t) eqn:Ec; [|split; [exact HN|exact I]]. cbn [negb].
    rewrite content_recipient, content_recipient_type. unfold andthen at 1 3. cbn [get_account L_get fst snd].
    destruct (tx_recipient_type t =? 0); [split; [exact HN|exact I]|].
    destruct ((tx_recipient_type t =? 1) || (tx_recipient_type t =? 2)) eqn:E12; [|split; [exact HN|exact I]].
    assert (H12 : tx_recipient_type t = 1 \/ tx_recipient_type t = 2) by (apply orb_true_iff in E12 as [E|E]; apply Z.eqb_eq in E; auto).
    destruct t as [x|x]; [discriminate Ec|]. pose proof (balance_64 _ (acct_ok N (tx_recipient (TExtended x)) HN)) as Hb.
    unfold andthen, stop. destruct (init_spec x _ h _ Ht Hb H12) as [(a & -> & _ & Ha)|(e & ->)]; cbn [fst snd].
    - cbn [put_account L_put fst snd]. split; [|exact I]. apply ledger_ok_set; [exact HN|apply recipient_20, Ht|]. intros y [= <-]. exact Ha.
    - split; [exact HN|exact I].
  Qed.
  Lemma prune_not_bad l : forall m N, all_ok l -> panics_if (fst (prune_txs H ledger L_get L_put l m N)) False.
  Proof.
    intros m N Hl. revert m N. induction Hl as [|t l (x & -> & Hx) _ IH]; intros m N; cbn [prune_txs]; [exact I|].
    unfold andthen at 1. cbn [get_account L_get fst snd]. destruct (negb (IsEmpty _) || _); [apply IH|].
    destruct (m !! _) as [p|]; [|exact I]. destruct (negb (AccountEq p _)); [exact I|].
    unfold andthen at 1. cbn [put_account L_put fst snd]. apply IH.
  Qed.
  Lemma panics_weaken {X : Type} (r : res X) (P Q : Prop) : (P -> Q) -> panics_if r P -> panics_if r Q.
  Proof. destruct r; cbn; auto. Qed.
  Theorem push_panics M c b : ledger_ok M -> cache_ok c -> block_ok b ->
    panics_if (fst (fst (ledger_Push H oob M c b)))
    (bl_body b = None \/ bh_height (bl_header b) = 0 \/
     exists body t, bl_body b = Some body /\ t ∈ txs_of body /\
       (~ is_basic (acct M (tx_recipient t)) \/ (huge_proof t /\ ~ is_basic (acct M (tx_sender H t))))).
  Proof.
    intros HM Hc (Hh & Hb). unfold Push. cbv zeta. destruct (bl_body b) as [body|]; [|left; reflexivity].
    destruct (Hb body eq_refl) as (Hm & _ & _ & _ & Hl & _). set (h := bh_height (bl_header b)) in *.
    set (Q := Some body = None \/ _).
    assert (Hbody : panics_if (fst (push_body H oob ledger L_get L_put body h M)) Q).
    { unfold push_body. destruct (senders_inv M (bb_txs body) h M Hl (same_refl M HM)) as (I1 & P1).
      apply panics_then; [|intros [] _].
      { eapply panics_weaken; [|exact P1]. intros (t & Ht & Hq). right. right. exists body, t. auto. }
      destruct (recipients_inv M (bb_txs body) h _ Hl I1) as (I2 & P2).
      apply panics_then; [|intros [] _].
      { eapply panics_weaken; [|exact P2]. intros (t & Ht & Hq). right. right. exists body, t. auto. }
      destruct (create_inv (bb_txs body) h _ Hl (proj1 I2)) as (I3 & P3).
      apply panics_then; [|intros [] _].
      { eapply panics_weaken; [|exact P3]. intros (t & Ht & []). }
      unfold pruneAccounts. apply panics_then.
      { eapply panics_weaken; [|apply prune_not_bad, Hl]. intros []. }
      intros m _. destruct (decide (m = ∅)); exact I. }
    destruct (push_body H oob ledger L_get L_put body h M) as (r & M1). cbn [fst] in Hbody. destruct r as [[]| | |]; try exact Hbody.
    destruct (BlockReward_ok c h Hc ltac:(apply Hh)) as (_ & Er). destruct (BlockReward c h) as (c1 & base). cbn [snd] in Er. subst base.
    destruct (Z.eqb_spec h 0) as [E0|_]; [right; left; exact E0|]. unfold andthen at 1. unfold stop at 1. rewrite inherents_eq by (assumption || apply block_reward_bound).
    destruct (acct M1 (bb_miner body)); exact I.
  Qed.
End Panics.
