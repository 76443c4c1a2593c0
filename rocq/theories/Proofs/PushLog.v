(** Push over two kinds of state at once. *)
From Coq Require Import ZArith List Lia Bool.
From stdpp Require Import gmap list.
From Verif.Model Require Import Base Beserial Wire Policy Account Nibbles Tree Accounts.
From Verif.Spec Require Import BeserialSpec WireSpec AccountSpec AccountsSpec PushSpec.
From Verif.Proofs Require Import BaseFacts BeserialFacts WireFacts LayoutFacts AccountFacts AccountsFacts LedgerFacts PushFacts.
Open Scope Z_scope.

Section Related.
  Context (H : bytes -> bytes) (oob : float64 -> Z) (T1 T2 : Type).
  Context (get1 : T1 -> bytes -> res Account) (put1 : T1 -> bytes -> option Account -> res T1).
  Context (get2 : T2 -> bytes -> res Account) (put2 : T2 -> bytes -> option Account -> res T2).
  Context (R : T1 -> T2 -> Prop) (P : bytes -> Prop).
  Hypothesis Rget : forall s1 s2 a, R s1 s2 -> P a -> get1 s1 a = get2 s2 a.
  Hypothesis Rput : forall s1 s2 a x, R s1 s2 -> P a ->
    match put1 s1 a x, put2 s2 a x with
    | Ok s1', Ok s2' => R s1' s2'
    | Err e, Err e' => e = e'
    | Panic, Panic => True
    | OutOfFuel, OutOfFuel => True
    | _, _ => False
    end.

  Definition alike {X} (m1 : step T1 X) (m2 : step T2 X) : Prop :=
    forall s1 s2, R s1 s2 -> fst (m1 s1) = fst (m2 s2) /\ R (snd (m1 s1)) (snd (m2 s2)).
  Lemma alike_stop {X} (r : res X) : alike (stop T1 r) (stop T2 r).
  Proof. intros s1 s2 Hr. auto. Qed.
  Lemma alike_then {X Y} (m1 : step T1 X) m2 (f1 : X -> step T1 Y) f2 :
    alike m1 m2 -> (forall x, alike (f1 x) (f2 x)) -> alike (andthen T1 m1 f1) (andthen T2 m2 f2).
  Proof.
    intros Hm Hf s1 s2 Hr. destruct (Hm s1 s2 Hr) as (E & Hr'). unfold andthen.
    destruct (m1 s1) as (o1 & t1), (m2 s2) as (o2 & t2). cbn [fst snd] in *. subst o2.
    destruct o1 as [x|e| |]; [apply Hf, Hr'| | |]; auto.
  Qed.
  Lemma alike_get a : P a -> alike (get_account T1 get1 a) (get_account T2 get2 a).
  Proof. intros Ha s1 s2 Hr. unfold get_account. cbn. rewrite (Rget s1 s2 a Hr Ha). auto. Qed.
  Lemma alike_put a x : P a -> alike (put_account T1 put1 a x) (put_account T2 put2 a x).
  Proof.
    intros Ha s1 s2 Hr. pose proof (Rput s1 s2 a x Hr Ha) as Hx. unfold put_account.
    destruct (put1 s1 a x), (put2 s2 a x); try contradiction; cbn; auto. subst. auto.
  Qed.
  Lemma alike_pushTx a typ t h op : P a -> alike (pushTx T1 get1 put1 a typ t h op) (pushTx T2 get2 put2 a typ t h op).
  Proof.
    intros Ha. unfold pushTx. apply alike_then; [apply alike_get, Ha|]. intros acc.
    destruct (negb _ && negb _); [apply alike_stop|]. apply alike_then; [apply alike_stop|]. intros y. apply alike_put, Ha.
  Qed.
  Lemma alike_for f1 f2 l : (forall t, t ∈ present l -> alike (f1 t) (f2 t)) -> alike (for_txs T1 f1 l) (for_txs T2 f2 l).
  Proof.
    induction l as [|[t|] l IH]; intros Hf; cbn [for_txs]; [apply alike_stop| |apply alike_stop].
    apply alike_then; [apply Hf; cbn; constructor|]. intros _. apply IH. intros t' Ht'. apply Hf. cbn. constructor. exact Ht'.
  Qed.
  Lemma alike_prune l : (forall t, t ∈ present l -> P (tx_sender H t)) ->
    forall m, alike (prune_txs H T1 get1 put1 l m) (prune_txs H T2 get2 put2 l m).
  Proof.
    induction l as [|[t|] l IH]; intros Hs m; cbn [prune_txs]; [apply alike_stop| |apply alike_stop]. cbv zeta.
    assert (Ht : P (fst (GetSender H t))) by (specialize (Hs t); destruct t; apply Hs; cbn; constructor).
    assert (IH' : forall m, alike (prune_txs H T1 get1 put1 l m) (prune_txs H T2 get2 put2 l m)).
    { apply IH. intros t' Ht'. apply Hs. cbn. constructor. exact Ht'. }
    apply alike_then; [apply alike_get, Ht|]. intros acc.
    destruct (negb _ || _); [apply IH'|]. destruct (m !! _) as [p|]; [|apply alike_stop]. destruct (negb _); [apply alike_stop|].
    apply alike_then; [apply alike_put, Ht|]. intros _. apply IH'.
  Qed.

  Lemma Push_alike s1 s2 c b : R s1 s2 -> (forall body, bl_body b = Some body -> forall a, is_party H body a -> P a) ->
    let '(o1, s1', c1) := Push H oob T1 get1 put1 s1 c b in
    let '(o2, s2', c2) := Push H oob T2 get2 put2 s2 c b in
    o1 = o2 /\ c1 = c2 /\ R s1' s2'.
  Proof.
    intros Hr Hp. unfold Push. cbv zeta. destruct (bl_body b) as [body|] eqn:Eb; [|auto].
    specialize (Hp body eq_refl). set (h := bh_height (bl_header b)).
    assert (Hs : forall t, t ∈ present (bb_txs body) -> P (tx_sender H t)) by (intros t Ht; apply Hp; right; exists t; auto).
    assert (Hq : forall t, t ∈ present (bb_txs body) -> P (tx_recipient t)) by (intros t Ht; apply Hp; right; exists t; auto).
    assert (Hb : alike (push_body H oob T1 get1 put1 body h) (push_body H oob T2 get2 put2 body h)).
    { unfold push_body. apply alike_then; [|intros _; apply alike_then; [|intros _; apply alike_then; [|intros _]]].
      - apply alike_for. intros t Ht. unfold push_sender. cbv zeta. rewrite content_sender. apply alike_pushTx, Hs, Ht.
      - apply alike_for. intros t Ht. unfold push_recipient. cbv zeta. rewrite content_recipient. apply alike_pushTx, Hq, Ht.
      - apply alike_for. intros t Ht. unfold create_step, createContract. cbv zeta. rewrite creates_ok.
        destruct (tx_creates t); [|apply alike_stop]. cbn [negb]. rewrite content_recipient.
        apply alike_then; [apply alike_get, Hq, Ht|]. intros acc.
        destruct (_ =? 0); [apply alike_stop|]. destruct (_ || _); [|apply alike_stop].
        apply alike_then; [apply alike_stop|]. intros y. apply alike_put, Hq, Ht.
      - unfold pruneAccounts. apply alike_then; [apply alike_prune, Hs|]. intros m. destruct (decide (m = ∅)); apply alike_stop. }
    destruct (Hb s1 s2 Hr) as (E & Hr'). destruct (push_body H oob T1 get1 put1 body h s1) as (o1 & t1), (push_body H oob T2 get2 put2 body h s2) as (o2 & t2).
    cbn [fst snd] in *. subst o2. destruct o1 as [[]|e| |]; try (auto; fail).
    destruct (BlockReward c h) as (c' & base).
    assert (Hi : alike (andthen T1 (stop T1 base) (fun base => pushInherents T1 get1 put1 body h base))
                       (andthen T2 (stop T2 base) (fun base => pushInherents T2 get2 put2 body h base))).
    { apply alike_then; [apply alike_stop|]. intros r. unfold pushInherents. apply alike_then; [apply alike_stop|]. intros y.
      apply alike_pushTx, Hp. left. reflexivity. }
    destruct (Hi t1 t2 Hr') as (E & Hr2). destruct (andthen T1 _ _ t1) as (o1 & u1), (andthen T2 _ _ t2) as (o2 & u2). cbn [fst snd] in *. auto.
  Qed.
End Related.
