(** Which errors decoding can return. *)
From Coq Require Import ZArith List Lia Bool.
From stdpp Require Import list.
From Verif.Model Require Import Base Beserial Wire Account.
From Verif.Spec Require Import BeserialSpec WireSpec FaultSpec.
From Verif.Proofs Require Import BaseFacts BeserialFacts WireFacts.
Open Scope Z_scope.

Ltac is_decode := unfold decode_error; repeat first [apply elem_of_list_here | apply elem_of_list_further].
Definition within {A} (r : res A) : Prop := forall e, r = Err e -> decode_error e.
Definition codec_within (c : codec) : Prop := forall dst d, within (cd_unmarshal c dst d).
Ltac fine := solve [let E := fresh in intros ? E; discriminate E | intros ? [= <-]; is_decode].
Lemma mbind_within {A B} (x : M A) (f : A -> M B) s :
  (forall s, within (fst (x s))) -> (forall a s, within (fst (f a s))) -> within (fst (mbind x f s)).
Proof.
  intros Hx Hf. unfold mbind. specialize (Hx s). destruct (x s) as ([a|e| |] & s'); cbn [fst] in *; [apply Hf|intros e' E; apply Hx; congruence|fine|fine].
Qed.
Lemma pop_within n s : within (fst (pop n s)).
Proof. unfold pop. destruct (zlen (data s) <? n); fine. Qed.
Lemma number_within k s : within (fst (number k s)).
Proof. unfold number. apply mbind_within; [apply pop_within|]. intros; fine. Qed.
Lemma read_len_within ts s : within (fst (read_len ts s)).
Proof.
  unfold read_len. destruct (lenTag ts) as [k|]; [|fine]. apply mbind_within; [apply number_within|]. intros a s'.
  destruct (signed k && (a <? 0)); [fine|]. destruct (maxInt <? a); fine.
Qed.
Lemma dec_n_within f n : (forall d s, within (fst (f d s))) -> forall dsts s, within (fst (dec_n f n dsts s)).
Proof.
  intros Hf. induction n as [|n IH]; intros dsts s; cbn [dec_n]; [fine|]. apply mbind_within; [apply Hf|]. intros v s1.
  apply mbind_within; [apply IH|]. intros; fine.
Qed.
Lemma value_within t : well_declared codec_within t -> forall ts dst s, within (fst (value t ts dst s)).
Proof.
  induction t as [|k| |t IH|m t IH|t IH|fs IH| |c t IH] using ty_ind'; intros Hw ts dst s.
  - cbn [value]. apply mbind_within; [apply pop_within|]. intros b s'. repeat (destruct b as [|[|[| |]|] b]; try fine).
  - cbn [value]. apply mbind_within; [apply number_within|]. intros; fine.
  - cbn [value]. apply mbind_within; [apply read_len_within|]. intros u s'. apply mbind_within; [apply pop_within|]. intros; fine.
  - destruct Hw as (Hc & Hw). rewrite value_ptr by exact Hc. cbv zeta.
    assert (HG : forall s, within (fst (mbind (value t ts (zero t)) (fun v => ret (VPtr (Some v))) s))) by (intros s0; apply mbind_within; [intros; apply (IH Hw)|intros; fine]).
    destruct (optional ts); [|apply HG]. apply mbind_within; [apply pop_within|]. intros b s'.
    destruct b as [|[|[| |]|] [|]]; try fine; apply HG.
  - destruct Hw as (Hc & Hw). cbn [value]. destruct (is_u8 t).
    + destruct (is_custom t); (apply mbind_within; [apply pop_within|]; intros; fine).
    + apply mbind_within; [apply dec_n_within; intros; apply (IH Hw)|]. intros; fine.
  - destruct Hw as (Hc & Hw). cbn [value]. apply mbind_within; [apply read_len_within|]. intros u s'. destruct (is_u8 t).
    + apply mbind_within; [apply pop_within|]. intros; fine.
    + destruct (zlen (data s') <? u); [fine|]. apply mbind_within; [intros; fine|]. intros _ s2.
      apply mbind_within; [apply dec_n_within; intros; apply (IH Hw)|]. intros; fine.
  - rewrite value_struct. apply mbind_within; [|intros; fine]. clear s. change (all_declared codec_within fs) in Hw.
    generalize (elems_of dst). induction IH as [|(tag & t) fs Ht Hfs IHfs]; intros dsts s; cbn [value_fields]; [fine|].
    destruct Hw as ((ts0 & Et) & Hw1 & Hw2). apply mbind_within; [intros; rewrite Et; fine|]. intros ts1 s1. apply mbind_within; [intros; apply (Ht Hw1)|]. intros v s2.
    apply mbind_within; [intros; apply (IHfs Hw2)|]. intros; fine.
  - fine.
  - cbn [value]. unfold call_unmarshal. specialize (Hw dst (data s)). destruct (cd_unmarshal c dst (data s)) as [(v & n)|e| |]; cbn [fst]; try fine.
    + destruct (n <? 0); [fine|]. destruct (zlen (data s) <? n); fine.
    + intros e' E. apply Hw. congruence.
Qed.
Lemma read_full_within t d : well_declared codec_within t -> within (read_full t d).
Proof.
  intros Hw. unfold read_full, UnmarshalFull, Unmarshal. pose proof (value_within t Hw no_tags (zero t) (DState d [])) as HV.
  destruct (value t no_tags (zero t) (DState d [])) as ([w|e| |] & s); cbn [fst bind] in *; try fine.
  - destruct (_ <? _); cbn [bind]; fine.
  - intros e' E. apply HV. congruence.
Qed.
Lemma hash_within : codec_within hash_codec.
Proof. intros dst d. unfold hash_codec, typed_codec. cbn [cd_unmarshal]. unfold Hash_Unmarshal. destruct d as [|x0 d]; [fine|]. destruct (zlen d <? 32); fine. Qed.
Lemma path_within : codec_within path_codec.
Proof. intros dst d. unfold path_codec, typed_codec. cbn [cd_unmarshal]. destruct (path_unm_total (path_of dst) d) as [(bs & n & ->)| ->]; cbn [bind]; fine. Qed.
