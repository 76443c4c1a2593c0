(** C110: the hashes of a decoded interlink are pointers. *)
From Coq Require Import ZArith List Lia Bool.
Import ListNotations.
From Verif.Model Require Import Base Wire InterlinkRefs.
From Verif.Spec Require Import WireSpec.
From Verif.Proofs Require Import BaseFacts BeserialFacts WireFacts InterlinkFacts RefsFacts.
Open Scope Z_scope.

(** [f], read through the pointers, is the plain value [il]. *)
Definition same_fields (il : BlockInterlink) (f : fields) : Prop :=
  f_repeats f = il_repeats il /\ f_hashes f = map Some (il_hashes il) /\ f_prev f = il_prev il /\ f_compressed f = il_compressed il.
(** The bits of an interlink: true repeats the hash before. *)
Definition repeat_bits (f : fields) : list bool := first_bits (Z.to_nat (Len (f_repeats f))) (Bits (f_repeats f)).
(** [c] neither decodes into [o] nor assigns to it. *)
Definition leaves (o : nat) (c : call) : Prop :=
  match c with Decoding o' _ => o' <> o | Assign d _ => d <> o | _ => True end.
Definition no_copy (c : call) : Prop := match c with Assign _ _ => False | _ => True end.
(** The object that a call names. *)
Definition names (c : call) : option nat :=
  match c with New => None | Decoding o _ | SetPrev o _ | SetSlot o _ _ | Assign o _ => Some o end.

(** Decoding through pointers accepts, rejects and returns what the decoder of
    Model/Wire.v does, whatever else is in memory. *)
Theorem C110_decode m o f b hs :
  read m o = Some f ->
  let il0 := MkInterlink (f_repeats f) hs (f_prev f) (f_compressed f) in
  match Interlink_Unmarshal il0 b with
  | Ok (il, n) => exists m' f', Decode m o b = (m', Ok n) /\ read m' o = Some f' /\ same_fields il f'
  | Err e => snd (Decode m o b) = Err e
  | Panic => snd (Decode m o b) = Panic
  | OutOfFuel => snd (Decode m o b) = OutOfFuel
  end.
Proof.
  intros Hf il0. unfold read in Hf. destruct (object_at m o) as [x|] eqn:Hx; [|discriminate]. injection Hf as <-. cbn [f_repeats f_prev f_compressed] in il0.
  pose proof (decode_fails m o x b il0 Hx eq_refl eq_refl) as F.
  destruct (Interlink_Unmarshal il0 b) as [(il & n)|e| |] eqn:E; try exact F. clear F.
  assert (Hp : il_prev il = x_prev x).
  { unfold Interlink_Unmarshal in E. destruct (BitSet_Unmarshal (il_repeats il0) b) as [(bs & k)| | |]; try discriminate. cbn [bind] in E.
    destruct (interlink_loop bs (Z.to_nat (Len bs)) 0 (skipn (Z.to_nat k) b) (il_prev il0) (Z.to_nat (compressed_count (Bits bs)))) as [((h & c) & b')| | |]; try discriminate.
    cbn [bind] in E. injection E as <- _. reflexivity. }
  destruct (decode_spec m o x b il0 (il, n) Hx) as (m' & Hd & _ & Hr); try reflexivity.
  { rewrite E. destruct il. reflexivity. }
  exists m', (MkFields (il_repeats il) (map Some (il_hashes il)) (x_prev x) (il_compressed il)). split; [exact Hd|]. split; [exact Hr|].
  repeat split. cbn. symmetry. exact Hp.
Qed.
Print Assumptions C110_decode.

Lemma decode_whole m o b m' n : Decode m o b = (m', Ok n) -> whole m' o.
Proof.
  intros E. destruct (object_at m o) as [x|] eqn:Hx; [|unfold Decode in E; rewrite Hx in E; discriminate].
  pose proof (decode_fails m o x b (MkInterlink (x_repeats x) [] (x_prev x) []) Hx eq_refl eq_refl) as F. rewrite E in F. cbn [snd] in F.
  destruct (Interlink_Unmarshal (MkInterlink (x_repeats x) [] (x_prev x) []) b) as [(il & k)|e| |] eqn:Ei; try discriminate.
  destruct (decode_spec m o x b _ (il, k) Hx ltac:(rewrite Ei; destruct il; reflexivity) eq_refl eq_refl) as (m2 & Hd & W & _).
  rewrite E in Hd. injection Hd as <- _. exact W.
Qed.
Lemma whole_kept m m' o x : whole m o -> object_at m o = Some x ->
  (exists x', object_at m' o = Some x' /\ x_repeats x' = x_repeats x /\ x_hashes x' = x_hashes x /\ x_compressed x' = x_compressed x) ->
  (length (arrays m) <= length (arrays m'))%nat -> length (array_at m' (x_compressed x)) = length (array_at m (x_compressed x)) ->
  whole m' o.
Proof.
  intros (y & Hy & Ha & Hh & Hz) Hx (x' & Hx' & E1 & E2 & E3) Hl Hlen. assert (y = x) by congruence. subst y.
  exists x'. split; [exact Hx'|]. rewrite E1, E2, E3. split; [lia|]. split; [exact Hh|]. unfold zlen in *. rewrite Hlen. exact Hz.
Qed.
Lemma step_whole m o c m' : whole m o -> leaves o c -> step m c = Some m' ->
  whole m' o /\ (exists f f', read m o = Some f /\ read m' o = Some f' /\ f_repeats f' = f_repeats f).
Proof.
  intros W Hc E. pose proof W as (x & Hx & Ha & Hh & Hz).
  assert (G : forall m', (exists x', object_at m' o = Some x' /\ x_repeats x' = x_repeats x /\ x_hashes x' = x_hashes x /\ x_compressed x' = x_compressed x) ->
    (length (arrays m) <= length (arrays m'))%nat -> length (array_at m' (x_compressed x)) = length (array_at m (x_compressed x)) ->
    whole m' o /\ (exists f f', read m o = Some f /\ read m' o = Some f' /\ f_repeats f' = f_repeats f)).
  { intros m1 X L1 L2. split; [exact (whole_kept m m1 o x W Hx X L1 L2)|]. destruct X as (x' & Hx' & Er & _).
    unfold read. rewrite Hx, Hx'. do 2 eexists. repeat split. exact Er. }
  destruct c as [|o' b|o' p|o' i h|d s]; cbn [step leaves] in *.
  - injection E as <-. apply G; [|reflexivity|reflexivity]. exists x. repeat split. unfold object_at. cbn. rewrite nth_error_app1; [exact Hx|exact (object_bound _ _ _ Hx)].
  - destruct (decode_kept m o' b) as (_ & H2 & H3 & H4 & _).
    assert (Em : m' = fst (Decode m o' b)) by (destruct (Decode m o' b) as (m1 & [n|e| |]); try discriminate; injection E as <-; reflexivity).
    subst m'. apply G; [|exact H2|rewrite H4 by exact Ha; reflexivity]. exists x. repeat split. rewrite H3 by congruence. exact Hx.
  - destruct (object_at m o') as [y|] eqn:Ey; [|discriminate]. injection E as <-. apply G; [|reflexivity|reflexivity].
    destruct (Nat.eq_dec o' o) as [->|Hne].
    + rewrite Hx in Ey. injection Ey as <-. eexists. split; [apply object_put; exact (object_bound _ _ _ Hx)|]. repeat split.
    + exists x. repeat split. rewrite <- Hx. apply update_other. exact Hne.
  - destruct (object_at m o') as [y|] eqn:Ey; [|discriminate]. destruct (i <? length (array_at m (x_compressed y)))%nat; [|discriminate]. injection E as <-.
    apply G; [exists x; repeat split; exact Hx|cbn; rewrite update_length; lia|].
    unfold put_slot, array_at at 1. cbn [arrays]. destruct (Nat.eq_dec (x_compressed y) (x_compressed x)) as [Ec|Hne].
    + rewrite Ec, update_nth_here by exact Ha. apply update_length.
    + rewrite update_nth_other by exact Hne. reflexivity.
  - destruct (object_at m d) as [y|]; [|discriminate]. destruct (object_at m s) as [z|]; [|discriminate]. injection E as <-.
    apply G; [|reflexivity|reflexivity]. exists x. repeat split. rewrite <- Hx. apply update_other. exact Hc.
Qed.
Lemma run_whole o cs : forall m m', whole m o -> Forall (leaves o) cs -> run m cs = Some m' ->
  whole m' o /\ (exists f f', read m o = Some f /\ read m' o = Some f' /\ f_repeats f' = f_repeats f).
Proof.
  induction cs as [|c cs IH]; intros m m' W Hc E; cbn [run] in E.
  - injection E as <-. split; [exact W|]. destruct W as (x & Hx & _). unfold read. rewrite Hx. do 2 eexists. repeat split.
  - destruct (step m c) as [m1|] eqn:Es; [|discriminate]. inversion Hc as [|? ? H1 H2]; subst.
    destruct (step_whole m o c m1 W H1 Es) as (W1 & f & f1 & Hf & Hf1 & E1). destruct (IH m1 m' W1 H2 E) as (W2 & f1' & f2 & Hf1' & Hf2 & E2).
    split; [exact W2|]. exists f, f2. rewrite Hf1 in Hf1'. injection Hf1' as <-. repeat split; congruence.
Qed.

(** From a decode that succeeded until the next decode or assignment into the
    same object, its hashes are those its other fields describe at the time of
    reading: PrevHash and Compressed may be set before or after. *)
Theorem C110_hashes_follow m o b m1 n cs m2 :
  Decode m o b = (m1, Ok n) -> run m1 cs = Some m2 -> Forall (leaves o) cs ->
  exists f1 f2, read m1 o = Some f1 /\ read m2 o = Some f2 /\ f_repeats f2 = f_repeats f1 /\
    f_hashes f2 = map Some (expand (repeat_bits f2) (f_compressed f2) (f_prev f2)).
Proof.
  intros Hd Hr Hc. apply decode_whole in Hd. destruct (run_whole o cs m1 m2 Hd Hc Hr) as (W & f & f' & H1 & H2 & H3).
  destruct (whole_read m2 o W) as (g & Hg & Hh). rewrite H2 in Hg. injection Hg as <-. exists f, f'. repeat split; assumption.
Qed.
Print Assumptions C110_hashes_follow.

(** Setting PrevHash after the decode gives what setting it before gives. *)
Theorem C110_prev_later m o b m1 n p f :
  read m o = Some f -> Decode m o b = (m1, Ok n) ->
  exists m2 g il, step m1 (SetPrev o p) = Some m2 /\ read m2 o = Some g /\
    Interlink_Unmarshal (MkInterlink (f_repeats f) [] p []) b = Ok (il, n) /\ same_fields il g.
Proof.
  intros Hf Hd. pose proof (C110_decode m o f b [] Hf) as D. cbv zeta in D.
  destruct (step m1 (SetPrev o p)) as [m2|] eqn:Es.
  2: { exfalso. apply decode_whole in Hd as (x & Hx & _). cbn [step] in Es. rewrite Hx in Es. discriminate. }
  destruct (C110_hashes_follow m o b m1 n [SetPrev o p] m2 Hd) as (f1 & g & H1 & H2 & H3 & H4); [cbn [run]; rewrite Es; reflexivity|repeat constructor|].
  assert (P : f_prev g = p /\ f_compressed g = f_compressed f1).
  { cbn [step] in Es. unfold read in H1, H2. destruct (object_at m1 o) as [x|] eqn:Hx; [|discriminate]. injection Es as <-. injection H1 as <-.
    rewrite object_put in H2 by exact (object_bound _ _ _ Hx). injection H2 as <-. split; reflexivity. }
  destruct P as (P1 & P2).
  unfold Interlink_Unmarshal in D |- *. cbn [il_repeats il_prev] in D |- *.
  destruct (BitSet_Unmarshal (f_repeats f) b) as [(bs & k)|e| |]; [|rewrite Hd in D; discriminate..]. cbn [bind] in D |- *.
  set (nb := Z.to_nat (Len bs)) in *. set (cnt := Z.to_nat (compressed_count (Bits bs))) in *. set (b1 := skipn (Z.to_nat k) b) in *.
  assert (L : forall n i b sl h h', match interlink_loop bs n i b h sl with
    | Ok (hs, cs, b') => exists hs', interlink_loop bs n i b h' sl = Ok (hs', cs, b')
    | Err e => interlink_loop bs n i b h' sl = Err e | Panic => interlink_loop bs n i b h' sl = Panic | OutOfFuel => interlink_loop bs n i b h' sl = OutOfFuel end).
  { clear. induction n as [|n IH]; intros i b sl h h'; cbn [interlink_loop]; [eauto|].
    destruct (bit bs i) as [[]| | |]; cbn [bind]; try reflexivity.
    - specialize (IH (i + 1) b sl h h'). destruct (interlink_loop bs n (i + 1) b h sl) as [((hs & cs) & b')| | |]; cbn [bind]; [|rewrite IH; reflexivity..].
      destruct IH as (hs' & ->). cbn [bind]. eauto.
    - destruct sl as [|sl]; [reflexivity|]. destruct (zlen b <? 32); [reflexivity|].
      destruct (interlink_loop bs n (i + 1) (skipn 32 b) (copy32 (skipn 32 b)) sl) as [((hs & cs) & b')| | |]; cbn [bind]; eauto. }
  specialize (L nb 0 b1 cnt (f_prev f) p).
  destruct (interlink_loop bs nb 0 b1 (f_prev f) cnt) as [((hs & cs) & b')|e| |] eqn:El; [|rewrite Hd in D; discriminate..]. cbn [bind] in D.
  destruct D as (m1' & f1' & D1 & D2 & D3 & D4 & D5 & D6). cbn [il_repeats il_hashes il_prev il_compressed] in *.
  rewrite Hd in D1. injection D1 as <- ->. rewrite H1 in D2. injection D2 as <-.
  destruct L as (hs' & L). rewrite L. cbn [bind]. exists m2, g. eexists. split; [reflexivity|]. split; [exact H2|]. split; [reflexivity|].
  destruct (loop_expand bs nb 0 b1 p cnt hs' cs b' L) as (-> & _ & _).
  unfold same_fields. cbn [il_repeats il_hashes il_prev il_compressed]. split; [congruence|]. split; [|split; congruence].
  rewrite H4. unfold repeat_bits. rewrite H3, D3, P2, D6, P1. reflexivity.
Qed.
Print Assumptions C110_prev_later.

(** ** Without copies of structs, objects are independent *)
Definition own (o a : nat) (r : option ref) : Prop :=
  match r with None => True | Some (RPrev o') => o' = o | Some (RSlot a' _) => a' = a end.
Definition inv (m : memory) : Prop :=
  array_at m 0 = [] /\ (0 < length (arrays m))%nat /\
  (forall o x, object_at m o = Some x -> (x_compressed x < length (arrays m))%nat /\ Forall (own o (x_compressed x)) (x_hashes x)) /\
  (forall o o' x x', o <> o' -> object_at m o = Some x -> object_at m o' = Some x' -> x_compressed x = x_compressed x' -> x_compressed x = 0%nat).
Lemma update_Forall {A} (P : A -> Prop) l : forall i x, Forall P l -> P x -> Forall P (update l i x).
Proof. induction l as [|y l IH]; intros [|i] x Hl Hx; cbn; inversion Hl; subst; constructor; auto. Qed.
Lemma loop_own o a bs n : forall m i b hash used x, object_at m o = Some x -> x_compressed x = a -> Forall (own o a) (x_hashes x) -> own o a (Some hash) ->
  exists x', object_at (fst (decode_loop m o a bs n i b hash used)) o = Some x' /\ x_compressed x' = a /\ Forall (own o a) (x_hashes x').
Proof.
  induction n as [|n IH]; intros m i b hash used x Hx Hc Hh Ho; cbn [decode_loop]; [eauto|].
  destruct (bit bs (Z.of_nat i)) as [[]| | |]; try (exists x; auto; fail).
  - rewrite (put_hash_is _ _ _ _ _ Hx). eapply IH; [apply object_put; exact (object_bound _ _ _ Hx)|exact Hc| |exact Ho].
    apply update_Forall; assumption.
  - destruct (used <? length (array_at m a))%nat; [|exists x; auto]. destruct (zlen b <? 32); [exists x; auto|].
    erewrite put_hash_is by exact Hx. eapply IH; [apply object_put; exact (object_bound _ _ _ Hx)|exact Hc| |reflexivity].
    apply update_Forall; [exact Hh|reflexivity].
Qed.
Lemma loop_arrays o a bs n : forall m i b hash used, length (arrays (fst (decode_loop m o a bs n i b hash used))) = length (arrays m).
Proof.
  assert (PH : forall m i r, length (arrays (put_hash m o i r)) = length (arrays m)) by (intros m i r; unfold put_hash; destruct (object_at m o); reflexivity).
  induction n as [|n IH]; intros m i b hash used; cbn [decode_loop]; [reflexivity|].
  destruct (bit bs (Z.of_nat i)) as [[]| | |]; try reflexivity.
  - rewrite IH. apply PH.
  - destruct (used <? length (array_at m a))%nat; [|reflexivity]. destruct (zlen b <? 32); [reflexivity|]. rewrite IH, PH. cbn. apply update_length.
Qed.
Lemma decode_own m o b x : inv m -> object_at m o = Some x ->
  exists x', object_at (fst (Decode m o b)) o = Some x' /\ Forall (own o (x_compressed x')) (x_hashes x') /\
    (x_compressed x' = x_compressed x \/ x_compressed x' = length (arrays m)) /\ (x_compressed x' < length (arrays (fst (Decode m o b))))%nat.
Proof.
  intros (_ & _ & Hi & _) Hx. destruct (Hi o x Hx) as (Hlt & Hown). pose proof (object_bound _ _ _ Hx) as Hb. unfold Decode. rewrite Hx.
  destruct (BitSet_Unmarshal (x_repeats x) b) as [(bs & n)|e| |].
  - unfold make_array. set (x2 := MkObject _ _ _ _). set (m2 := put_object _ o x2).
    assert (Hx2 : object_at m2 o = Some x2) by (apply object_put; exact Hb).
    destruct (loop_own o (length (arrays m)) bs (Z.to_nat (Len bs)) m2 0 (skipn (Z.to_nat n) b) (RPrev o) 0 x2 Hx2 eq_refl) as (x' & Hx' & Hc & Hh); [|reflexivity|].
    { cbn. apply Forall_forall. intros r Hr. apply repeat_spec in Hr. subst. exact I. }
    pose proof (loop_arrays o (length (arrays m)) bs (Z.to_nat (Len bs)) m2 0 (skipn (Z.to_nat n) b) (RPrev o) 0) as Hl.
    destruct (decode_loop m2 o (length (arrays m)) bs (Z.to_nat (Len bs)) 0 (skipn (Z.to_nat n) b) (RPrev o) 0) as (m3 & r). cbn [fst] in *.
    exists x'. split; [exact Hx'|]. rewrite Hc. split; [exact Hh|]. split; [right; reflexivity|]. cbn in Hl. rewrite app_length in Hl. cbn in Hl. lia.
  - cbn [fst]. eexists. split; [apply object_put; exact Hb|]. cbn. auto.
  - exists x. auto.
  - exists x. auto.
Qed.
Lemma step_inv m c m' : inv m -> no_copy c -> step m c = Some m' -> inv m'.
Proof.
  intros I Hc E. pose proof I as (I0 & I1 & I2 & I3). destruct c as [|o b|o p|o i h|d s]; cbn [step no_copy] in *; [..|destruct Hc].
  - injection E as <-. assert (X : forall o x, object_at (MkMemory (objects m ++ [MkObject (MkBitSet 0 []) [] zero32 0]) (arrays m)) o = Some x ->
      object_at m o = Some x \/ (o = length (objects m) /\ x_compressed x = 0%nat /\ x_hashes x = [])).
    { intros o x H. unfold object_at in *. cbn [objects] in H. destruct (Nat.ltb_spec o (length (objects m))) as [Hl|Hl].
      - rewrite nth_error_app1 in H by exact Hl. left. exact H.
      - rewrite nth_error_app2 in H by exact Hl. destruct (o - length (objects m))%nat as [|k] eqn:Ek; cbn in H.
        + injection H as <-. right. repeat split. lia.
        + destruct k; discriminate. }
    split; [exact I0|]. split; [exact I1|]. split.
    + intros o x H. destruct (X o x H) as [H'|(_ & -> & ->)]; [exact (I2 o x H')|]. split; [exact I1|constructor].
    + intros o o' x x' Hne H H' Ec. destruct (X o x H) as [G|(-> & G & _)]; [|exact G]. destruct (X o' x' H') as [G'|(-> & G' & _)]; [|congruence].
      exact (I3 o o' x x' Hne G G' Ec).
  - destruct (decode_kept m o b) as (K1 & K2 & K3 & K4 & _).
    assert (Em : m' = fst (Decode m o b) /\ exists x, object_at m o = Some x).
    { destruct (object_at m o) as [x|] eqn:Hx; [|unfold Decode in E; rewrite Hx in E; discriminate].
      destruct (Decode m o b) as (m1 & [n|e| |]); try discriminate; injection E as <-; eauto. }
    destruct Em as (-> & x & Hx). destruct (decode_own m o b x I Hx) as (x' & Hx' & Hh & Hcc & Hlt).
    split; [rewrite K4 by exact I1; exact I0|]. split; [lia|]. split.
    + intros o1 y Hy. destruct (Nat.eq_dec o1 o) as [->|Hne].
      * rewrite Hx' in Hy. injection Hy as <-. split; assumption.
      * rewrite K3 in Hy by exact Hne. destruct (I2 o1 y Hy) as (? & ?). split; [lia|assumption].
    + assert (S : forall o1 y, o1 <> o -> object_at (fst (Decode m o b)) o1 = Some y -> x_compressed y = x_compressed x' -> x_compressed x' = 0%nat).
      { intros o1 y Hne Hy Ec. rewrite K3 in Hy by exact Hne. destruct Hcc as [Hcc|Hcc].
        - rewrite Hcc in *. assert (Hc0 : x_compressed y = 0%nat) by exact (I3 o1 o y x Hne Hy Hx Ec). congruence.
        - destruct (I2 o1 y Hy) as (? & _). lia. }
      intros o1 o2 y1 y2 Hne H1 H2 Ec. destruct (Nat.eq_dec o1 o) as [->|N1].
      * rewrite Hx' in H1. injection H1 as <-. eapply S; [|exact H2|congruence]. congruence.
      * destruct (Nat.eq_dec o2 o) as [->|N2].
        -- rewrite Hx' in H2. injection H2 as <-. rewrite Ec. eapply S; [exact N1|exact H1|exact Ec].
        -- rewrite K3 in H1, H2 by assumption. exact (I3 o1 o2 y1 y2 Hne H1 H2 Ec).
  - destruct (object_at m o) as [y|] eqn:Ey; [|discriminate]. injection E as <-. pose proof (object_bound _ _ _ Ey) as Hb.
    set (y' := MkObject (x_repeats y) (x_hashes y) p (x_compressed y)).
    assert (X : forall o1 x, object_at (put_object m o y') o1 = Some x -> exists x0, object_at m o1 = Some x0 /\ x_compressed x = x_compressed x0 /\ x_hashes x = x_hashes x0).
    { intros o1 x H. destruct (Nat.eq_dec o o1) as [<-|Hne].
      - rewrite object_put in H by exact Hb. injection H as <-. exists y. repeat split. exact Ey.
      - exists x. repeat split. rewrite <- H. symmetry. apply update_other. exact Hne. }
    split; [exact I0|]. split; [exact I1|]. split.
    + intros o1 x H. destruct (X o1 x H) as (x0 & H0 & -> & ->). exact (I2 o1 x0 H0).
    + intros o1 o2 x1 x2 Hne H1 H2 Ec. destruct (X o1 x1 H1) as (z1 & G1 & E1 & _), (X o2 x2 H2) as (z2 & G2 & E2 & _). rewrite E1.
      apply (I3 o1 o2 z1 z2 Hne G1 G2). congruence.
  - destruct (object_at m o) as [y|] eqn:Ey; [|discriminate]. destruct (Nat.ltb_spec i (length (array_at m (x_compressed y)))) as [Hi|]; [|discriminate]. injection E as <-.
    assert (Hne : x_compressed y <> 0%nat) by (intros E0; rewrite E0, I0 in Hi; cbn in Hi; lia).
    split; [unfold array_at, put_slot; cbn [arrays]; rewrite update_nth_other by exact Hne; exact I0|]. split; [cbn; rewrite update_length; exact I1|]. split; [|exact I3].
    intros o1 x H. destruct (I2 o1 x H) as (? & ?). split; [cbn; rewrite update_length; assumption|assumption].
Qed.
Lemma run_inv cs : forall m m', inv m -> Forall no_copy cs -> run m cs = Some m' -> inv m'.
Proof.
  induction cs as [|c cs IH]; intros m m' I Hc E; cbn [run] in E; [injection E as <-; exact I|].
  inversion Hc as [|? ? H1 H2]; subst. destruct (step m c) as [m1|] eqn:Es; [|discriminate]. exact (IH m1 m' (step_inv m c m1 I H1 Es) H2 E).
Qed.
Lemma start_inv : inv start.
Proof.
  split; [reflexivity|]. split; [cbn; lia|]. split.
  - intros [|o] x H; discriminate.
  - intros [|o] o' x x' _ H; discriminate.
Qed.
Lemma read_kept m m' o : inv m -> (object_at m' o = object_at m o) ->
  (forall x, object_at m o = Some x -> array_at m' (x_compressed x) = array_at m (x_compressed x)) -> read m' o = read m o.
Proof.
  intros (_ & _ & I2 & _) Ho Ha. unfold read. rewrite Ho. destruct (object_at m o) as [x|] eqn:Hx; [|reflexivity].
  destruct (I2 o x Hx) as (_ & Hown). rewrite (Ha x eq_refl). do 2 f_equal. apply map_ext_in. intros r Hr.
  rewrite Forall_forall in Hown. specialize (Hown r Hr). destruct r as [[o'|a i]|]; cbn in *; [subst o'; rewrite Ho, Hx; reflexivity| |reflexivity].
  subst a. rewrite (Ha x eq_refl). reflexivity.
Qed.

(** In a program that never copies the struct, a call that names one object
    changes nothing that can be read from another. *)
Theorem C110_separate_partial cs m c m' o f :
  run start cs = Some m -> Forall no_copy cs -> no_copy c -> names c <> Some o ->
  step m c = Some m' -> read m o = Some f -> read m' o = Some f.
Proof.
  intros Hr Hcs Hc Hn E Hf. pose proof (run_inv cs start m start_inv Hcs Hr) as I. rewrite <- Hf.
  destruct c as [|o1 b|o1 p|o1 i h|d s]; cbn [step names no_copy] in *; [..|destruct Hc].
  - injection E as <-. apply read_kept; [exact I| |reflexivity]. unfold read in Hf. destruct (object_at m o) as [x|] eqn:Hx; [|discriminate].
    unfold object_at in *. cbn. rewrite nth_error_app1; [exact Hx|exact (object_bound _ _ _ Hx)].
  - destruct (decode_kept m o1 b) as (_ & _ & K3 & K4 & _).
    assert (Em : m' = fst (Decode m o1 b)) by (destruct (Decode m o1 b) as (m1 & [n|e| |]); try discriminate; injection E as <-; reflexivity). subst m'.
    apply read_kept; [exact I|apply K3; congruence|]. intros x Hx. apply K4. destruct I as (_ & _ & I2 & _). apply (I2 o x Hx).
  - destruct (object_at m o1) as [y|]; [|discriminate]. injection E as <-. apply read_kept; [exact I|apply update_other; congruence|reflexivity].
  - destruct (object_at m o1) as [y|] eqn:Ey; [|discriminate]. destruct (Nat.ltb_spec i (length (array_at m (x_compressed y)))) as [Hi|]; [|discriminate]. injection E as <-.
    apply read_kept; [exact I|reflexivity|]. intros x Hx. unfold array_at, put_slot. cbn [arrays]. apply update_nth_other. intros Ec.
    destruct I as (I0 & _ & _ & I3). assert (Hne : o1 <> o) by congruence.
    pose proof (I3 o1 o y x Hne Ey Hx Ec) as E0. rewrite E0, I0 in Hi. cbn in Hi. lia.
Qed.
Print Assumptions C110_separate_partial.

(** With a copy they are not: when the first bit repeats the previous hash, the
    copy's first hash is the PrevHash of the object it was copied from, and
    follows that one instead of its own. *)
Theorem C110_copy_refuted m s d b m1 n f fd p :
  d <> s -> Decode m s b = (m1, Ok n) -> read m1 s = Some f -> read m1 d = Some fd -> nth_error (repeat_bits f) 0 = Some true ->
  (exists m' g, run m1 [Assign d s; SetPrev d p] = Some m' /\ read m' d = Some g /\
     f_prev g = p /\ nth_error (f_hashes g) 0 = Some (Some (f_prev f))) /\
  (exists m' g, run m1 [Assign d s; SetPrev s p] = Some m' /\ read m' d = Some g /\
     f_prev g = f_prev f /\ nth_error (f_hashes g) 0 = Some (Some p)).
Proof.
  intros Hne Hd Hf Hfd Hbit. apply decode_whole in Hd as (x & Hx & Ha & Hh & Hz). unfold read in Hf, Hfd. rewrite Hx in Hf. injection Hf as <-.
  destruct (object_at m1 d) as [y|] eqn:Hy; [|discriminate]. pose proof (object_bound _ _ _ Hx) as Bs. pose proof (object_bound _ _ _ Hy) as Bd.
  unfold repeat_bits in Hbit. cbn [f_repeats f_prev] in *. fold (bits_of (x_repeats x)) in Hbit.
  destruct (bits_of (x_repeats x)) as [|b0 l] eqn:El; [discriminate|]. cbn in Hbit. injection Hbit as ->. cbn [refs map] in Hh.
  set (m2 := put_object m1 d x). assert (Hd2 : object_at m2 d = Some x) by (apply object_put; exact Bd).
  assert (Hs2 : object_at m2 s = Some x) by (rewrite <- Hx; apply update_other; exact Hne).
  assert (B2 : length (objects m2) = length (objects m1)) by apply update_length.
  cbn [run step]. rewrite Hy, Hx. fold m2. rewrite Hd2, Hs2. split.
  - set (m3 := put_object m2 d _). assert (Hd3 : object_at m3 d = Some (MkObject (x_repeats x) (x_hashes x) p (x_compressed x))) by (apply object_put; lia).
    assert (Hs3 : object_at m3 s = Some x) by (rewrite <- Hs2; apply update_other; exact Hne).
    exists m3. eexists. split; [reflexivity|]. unfold read. rewrite Hd3. split; [reflexivity|]. cbn. split; [reflexivity|].
    rewrite Hh. cbn. rewrite Hs3. reflexivity.
  - set (m3 := put_object m2 s _). assert (Hs3 : object_at m3 s = Some (MkObject (x_repeats x) (x_hashes x) p (x_compressed x))) by (apply object_put; lia).
    assert (Hd3 : object_at m3 d = Some x) by (rewrite <- Hd2; apply update_other; congruence).
    exists m3. eexists. split; [reflexivity|]. unfold read. rewrite Hd3. split; [reflexivity|]. cbn. split; [reflexivity|].
    rewrite Hh. cbn. rewrite Hs3. reflexivity.
Qed.
Print Assumptions C110_copy_refuted.

(** The hypotheses are met: two objects, one bit that repeats PrevHash. *)
Example C110_example :
  exists m1 m2 f fd, run start [New; New] = Some m1 /\ Decode m1 0 [1; 128] = (m2, Ok 2) /\ read m2 0 = Some f /\ read m2 1 = Some fd /\
    nth_error (repeat_bits f) 0 = Some true /\ f_hashes f = [Some zero32] /\ length (f_compressed f) = 7%nat.
Proof. do 4 eexists. split; [reflexivity|]. split; [reflexivity|]. split; [reflexivity|]. split; [reflexivity|]. repeat split. Qed.
(** One that reads a hash too (its bytes are the 32 behind the first 32, C42). *)
Example C110_example_two :
  exists m1 m2 f, run start [New; SetPrev 0 (repeat 9 32)] = Some m1 /\ Decode m1 0 ([2; 128] ++ repeat 1 32 ++ repeat 2 32) = (m2, Ok 34) /\
    read m2 0 = Some f /\ f_hashes f = [Some (repeat 9 32); Some (repeat 2 32)].
Proof. do 3 eexists. split; [reflexivity|]. split; [reflexivity|]. split; [reflexivity|]. reflexivity. Qed.
