(** Lemmas about interlinks with pointers (Model/InterlinkRefs.v). *)
From Coq Require Import ZArith List Lia Bool.
Import ListNotations.
From Verif.Model Require Import Base Wire InterlinkRefs.
From Verif.Spec Require Import WireSpec.
From Verif.Proofs Require Import BaseFacts BeserialFacts WireFacts InterlinkFacts.
Open Scope Z_scope.

(** ** Lists *)
Lemma update_length {A} (l : list A) : forall i x, length (update l i x) = length l.
Proof. induction l as [|y l IH]; intros [|i] x; cbn; try reflexivity. rewrite IH. reflexivity. Qed.
Lemma update_same {A} (l : list A) : forall i x, (i < length l)%nat -> nth_error (update l i x) i = Some x.
Proof. induction l as [|y l IH]; intros [|i] x H; cbn in *; try lia; [reflexivity|]. apply IH. lia. Qed.
Lemma update_other {A} (l : list A) : forall i j x, i <> j -> nth_error (update l i x) j = nth_error l j.
Proof. induction l as [|y l IH]; intros [|i] [|j] x H; cbn; try reflexivity; [lia|]. apply IH. lia. Qed.
Lemma update_beyond {A} (l : list A) : forall i x, (length l <= i)%nat -> update l i x = l.
Proof. induction l as [|y l IH]; intros [|i] x H; cbn in *; try reflexivity; [lia|]. rewrite IH; [reflexivity|lia]. Qed.
Lemma update_twice {A} (l : list A) : forall i x y, update (update l i x) i y = update l i y.
Proof. induction l as [|z l IH]; intros [|i] x y; cbn; try reflexivity. rewrite IH. reflexivity. Qed.
Lemma update_app {A} (l : list A) y r x : update (l ++ y :: r) (length l) x = l ++ x :: r.
Proof. induction l as [|z l IH]; cbn; [reflexivity|]. rewrite IH. reflexivity. Qed.
Lemma update_nth_same {A} (l : list A) : forall i d, update l i (nth i l d) = l.
Proof. induction l as [|z l IH]; intros [|i] d; cbn; try reflexivity. rewrite IH. reflexivity. Qed.
Lemma nth_nth_error {A} (l : list A) : forall i d, nth i l d = match nth_error l i with Some x => x | None => d end.
Proof. induction l as [|y l IH]; intros [|i] d; cbn; try reflexivity. apply IH. Qed.
Lemma update_nth_other {A} (l : list A) i j x d : i <> j -> nth j (update l i x) d = nth j l d.
Proof. intros H. rewrite !nth_nth_error. rewrite update_other by exact H. reflexivity. Qed.
Lemma update_nth_here {A} (l : list A) i x d : (i < length l)%nat -> nth i (update l i x) d = x.
Proof. intros H. rewrite nth_nth_error, update_same by exact H. reflexivity. Qed.
Lemma update_split {A} (l : list A) i x : (i < length l)%nat -> firstn (S i) (update l i x) = firstn i l ++ [x].
Proof. revert i. induction l as [|y l IH]; intros [|i] H; cbn in *; try lia; [reflexivity|]. rewrite IH by lia. reflexivity. Qed.
Lemma update_after {A} (l : list A) i x : skipn (S i) (update l i x) = skipn (S i) l.
Proof. revert i. induction l as [|y l IH]; intros [|i]; cbn [update skipn]; try reflexivity. apply IH. Qed.

(** ** The pointers that a run of bits makes *)
Fixpoint refs (l : list bool) (cur : ref) (a k : nat) : list ref :=
  match l with
  | [] => []
  | true :: l' => cur :: refs l' cur a k
  | false :: l' => RSlot a k :: refs l' (RSlot a k) a (S k)
  end.
Lemma refs_read m a : forall l cur k, (k <= length (array_at m a))%nat -> zeros l <= zlen (skipn k (array_at m a)) ->
  map (deref m) (refs l cur a k) = expand l (skipn k (array_at m a)) (deref m cur).
Proof.
  induction l as [|[] l IH]; intros cur k Hk Hz; [reflexivity|..]; rewrite zeros_cons in Hz; cbn [refs map expand].
  - rewrite IH by (try exact Hk; lia). reflexivity.
  - pose proof (zeros_nonneg l). destruct (skipn k (array_at m a)) as [|h us] eqn:E; [change (zlen (@nil bytes)) with 0 in Hz; lia|].
    assert (Hn : nth k (array_at m a) [] = h /\ skipn (S k) (array_at m a) = us /\ (S k <= length (array_at m a))%nat).
    { clear -E. revert E. generalize (array_at m a) as arr. intros arr. revert k.
      induction arr as [|y arr IH]; intros [|k] E; cbn [skipn nth length] in *; try discriminate.
      - injection E as -> ->. repeat split. lia.
      - destruct (IH k E) as (? & ? & ?). repeat split; [assumption|assumption|lia]. }
    destruct Hn as (Hn & Hs & Hl). change (deref m (RSlot a k)) with (nth k (array_at m a) []). rewrite Hn. f_equal.
    rewrite IH; [|exact Hl|rewrite Hs; rewrite zlen_cons in Hz; lia]. rewrite Hs.
    change (deref m (RSlot a k)) with (nth k (array_at m a) []). rewrite Hn. reflexivity.
Qed.
Lemma refs_length l : forall cur a k, length (refs l cur a k) = length l.
Proof. induction l as [|[] l IH]; intros; cbn; try rewrite IH; reflexivity. Qed.

(** ** The loop *)
Lemma bit_is bs i r : bit bs (Z.of_nat i) = Ok r -> r = bit_at (Bits bs) i.
Proof.
  intros E. destruct (Nat.ltb_spec (i / 8) (length (Bits bs))) as [H|H].
  - rewrite bit_ok in E by exact H. congruence.
  - rewrite bit_panic in E; [discriminate|lia|]. unfold zlen. change 8 with (Z.of_nat 8). rewrite <- Nat2Z.inj_div. lia.
Qed.
Lemma loop_expand bs n : forall i b h slots hs cs b',
  interlink_loop bs n (Z.of_nat i) b h slots = Ok (hs, cs, b') ->
  let l := map (bit_at (Bits bs)) (seq i n) in hs = expand l cs h /\ length cs = slots /\ zeros l <= Z.of_nat slots.
Proof.
  induction n as [|n IH]; intros i b h slots hs cs b' E; cbn [interlink_loop seq map] in *; cbv zeta.
  - injection E as <- <- <-. cbn [expand]. rewrite repeat_length. change (zeros []) with 0. repeat split. lia.
  - destruct (bit bs (Z.of_nat i)) as [r| | |] eqn:Eb; try discriminate. cbn [bind] in E. apply bit_is in Eb. rewrite <- Eb.
    replace (Z.of_nat i + 1) with (Z.of_nat (S i)) in E by lia. rewrite zeros_cons.
    destruct r.
    + destruct (interlink_loop bs n (Z.of_nat (S i)) b h slots) as [((hs1 & cs1) & b1)| | |] eqn:El; try discriminate. cbn [bind] in E.
      injection E as <- <- <-. destruct (IH _ _ _ _ _ _ _ El) as (-> & Hc & Hz). cbn [expand]. repeat split; [exact Hc|lia].
    + destruct slots as [|slots]; [discriminate|]. destruct (zlen b <? 32); [discriminate|].
      destruct (interlink_loop bs n (Z.of_nat (S i)) (skipn 32 b) (copy32 (skipn 32 b)) slots) as [((hs1 & cs1) & b1)| | |] eqn:El; try discriminate.
      cbn [bind] in E. injection E as <- <- <-. destruct (IH _ _ _ _ _ _ _ El) as (-> & Hc & Hz). cbn [expand length]. repeat split; lia.
Qed.

Definition with_hashes (x : object) (hs : list (option ref)) : object := MkObject (x_repeats x) hs (x_prev x) (x_compressed x).
Lemma put_hash_is m o i r x : object_at m o = Some x ->
  put_hash m o i r = put_object m o (with_hashes x (update (x_hashes x) i (Some r))).
Proof. intros E. unfold put_hash. rewrite E. reflexivity. Qed.

Lemma object_put m o x : (o < length (objects m))%nat -> object_at (put_object m o x) o = Some x.
Proof. intros H. apply update_same. exact H. Qed.
Lemma object_bound m o x : object_at m o = Some x -> (o < length (objects m))%nat.
Proof. intros H. apply nth_error_Some. unfold object_at in H. congruence. Qed.

Lemma loop_refs bs o a n : forall m x i b hash hv used pre,
  object_at m o = Some x -> x_hashes x = pre ++ repeat None n -> length pre = i -> (a < length (arrays m))%nat ->
  (used <= length (array_at m a))%nat -> skipn used (array_at m a) = repeat zero32 (length (array_at m a) - used) ->
  match interlink_loop bs n (Z.of_nat i) b hv (length (array_at m a) - used) with
  | Ok (_, cs, b') =>
      decode_loop m o a bs n i b hash used =
      (MkMemory (update (objects m) o (with_hashes x (pre ++ map Some (refs (map (bit_at (Bits bs)) (seq i n)) hash a used))))
         (update (arrays m) a (firstn used (array_at m a) ++ cs)), Ok b')
  | Err e => snd (decode_loop m o a bs n i b hash used) = Err e
  | Panic => snd (decode_loop m o a bs n i b hash used) = Panic
  | OutOfFuel => False
  end.
Proof.
  induction n as [|n IH]; intros m x i b hash hv used pre Hx Hh Hp Ha Hu Hz; cbn [interlink_loop decode_loop].
  - cbn [seq map refs repeat] in *. rewrite !app_nil_r in *. f_equal. rewrite <- Hh.
    replace (with_hashes x (x_hashes x)) with x by (destruct x; reflexivity).
    rewrite <- Hz, firstn_skipn. destruct m as [os ars]. cbn [objects arrays] in *. f_equal.
    + unfold object_at in Hx. cbn [objects] in Hx. rewrite <- (nth_error_nth os o x Hx) at 1. symmetry. apply update_nth_same.
    + symmetry. apply update_nth_same.
  - assert (Hbit : bit bs (Z.of_nat i) = Panic \/ exists r, bit bs (Z.of_nat i) = Ok r).
    { unfold bit, index. destruct (nth_error (Bits bs) (Z.to_nat (Z.of_nat i / 8))); cbn; eauto. }
    destruct Hbit as [E|(r & E)]; rewrite E; cbn [bind]; [reflexivity|]. apply bit_is in E.
    replace (Z.of_nat i + 1) with (Z.of_nat (S i)) by lia. cbn [repeat seq map] in *.
    pose proof (object_bound _ _ _ Hx) as Ho.
    assert (Hup : forall v, update (pre ++ None :: repeat None n) i v = pre ++ v :: repeat None n) by (intros v; rewrite <- Hp; apply update_app).
    destruct r.
    + rewrite (put_hash_is _ _ _ _ _ Hx), Hh. rewrite Hup.
      set (m1 := put_object m o (with_hashes x (pre ++ Some hash :: repeat None n))).
      assert (Hm1 : object_at m1 o = Some (with_hashes x (pre ++ Some hash :: repeat None n))) by (apply object_put; exact Ho).
      specialize (IH m1 _ (S i) b hash hv used (pre ++ [Some hash]) Hm1).
      assert (Harr : array_at m1 a = array_at m a) by reflexivity. rewrite Harr in IH.
      assert (Hh1 : x_hashes (with_hashes x (pre ++ Some hash :: repeat None n)) = (pre ++ [Some hash]) ++ repeat None n) by (cbn; rewrite <- app_assoc; reflexivity).
      specialize (IH Hh1). assert (Hp1 : length (pre ++ [Some hash]) = S i) by (rewrite app_length; cbn; lia).
      specialize (IH Hp1 Ha Hu Hz).
      destruct (interlink_loop bs n (Z.of_nat (S i)) b hv (length (array_at m a) - used)) as [((hs & cs) & b')|e| |]; cbn [bind]; try exact IH.
      rewrite IH. f_equal. unfold m1, put_object. cbn [objects arrays]. rewrite update_twice. rewrite <- E. cbn [refs map]. rewrite <- app_assoc. reflexivity.
    + destruct (Nat.ltb_spec used (length (array_at m a))) as [Hlt|Hge].
      2: { replace (length (array_at m a) - used)%nat with 0%nat by lia. reflexivity. }
      destruct (length (array_at m a) - used)%nat as [|slots] eqn:Es; [lia|].
      destruct (zlen b <? 32); [reflexivity|].
      set (h := copy32 (skipn 32 b)). set (m1 := put_slot m a used h).
      assert (Hx1 : object_at m1 o = Some x) by exact Hx.
      rewrite (put_hash_is _ _ _ _ _ Hx1), Hh. rewrite Hup.
      set (x2 := with_hashes x (pre ++ Some (RSlot a used) :: repeat None n)). set (m2 := put_object m1 o x2).
      assert (Hx2 : object_at m2 o = Some x2) by (apply object_put; exact Ho).
      assert (Harr : array_at m2 a = update (array_at m a) used h).
      { unfold array_at at 1, m2, put_object, m1, put_slot. cbn [arrays]. apply update_nth_here. exact Ha. }
      specialize (IH m2 x2 (S i) (skipn 32 b) (RSlot a used) h (S used) (pre ++ [Some (RSlot a used)]) Hx2).
      rewrite Harr, update_length in IH. replace (length (array_at m a) - S used)%nat with slots in IH by lia.
      assert (Hh2 : x_hashes x2 = (pre ++ [Some (RSlot a used)]) ++ repeat None n) by (cbn; rewrite <- app_assoc; reflexivity).
      assert (Hp2 : length (pre ++ [Some (RSlot a used)]) = S i) by (rewrite app_length; cbn; lia).
      assert (Ha2 : (a < length (arrays m2))%nat) by (cbn; rewrite update_length; exact Ha).
      assert (Hz2 : skipn (S used) (update (array_at m a) used h) = repeat zero32 slots).
      { rewrite update_after. change (S used) with (1 + used)%nat. rewrite Nat.add_comm, <- skipn_skipn, Hz. reflexivity. }
      specialize (IH Hh2 Hp2 Ha2 ltac:(lia) Hz2).
      destruct (interlink_loop bs n (Z.of_nat (S i)) (skipn 32 b) h slots) as [((hs & cs) & b')|e| |]; cbn [bind]; try exact IH.
      rewrite IH. f_equal. unfold m2, m1, put_object, put_slot. cbn [objects arrays]. rewrite !update_twice. rewrite <- E. cbn [refs map].
      rewrite update_split by exact Hlt. rewrite <- !app_assoc. reflexivity.
Qed.

(** ** What a decode leaves alone *)
(** everything but object [o]; its PrevHash; arrays that are there already *)
Definition kept (o : nat) (m m' : memory) : Prop :=
  length (objects m') = length (objects m) /\ (length (arrays m) <= length (arrays m'))%nat /\
  (forall o', o' <> o -> object_at m' o' = object_at m o') /\
  (forall a, (a < length (arrays m))%nat -> array_at m' a = array_at m a) /\
  (forall x, object_at m o = Some x -> exists x', object_at m' o = Some x' /\ x_prev x' = x_prev x).
Lemma loop_kept o a bs n : forall m i b hash used m0, kept o m0 m -> (length (arrays m0) <= a)%nat ->
  kept o m0 (fst (decode_loop m o a bs n i b hash used)).
Proof.
  assert (PH : forall m0 m i r, kept o m0 m -> kept o m0 (put_hash m o i r)).
  { intros m0 m i r K. pose proof K as (H1 & H2 & H3 & H4 & H5). unfold put_hash. destruct (object_at m o) as [y|] eqn:E; [|exact K].
    split; [|split; [|split; [|split]]].
    - cbn. rewrite update_length. exact H1.
    - exact H2.
    - intros o' Ho. rewrite <- (H3 o' Ho). apply update_other. congruence.
    - exact H4.
    - intros x Hx. destruct (H5 x Hx) as (x' & Hx' & Hp). injection Hx' as <-.
      eexists. split; [apply object_put; exact (object_bound _ _ _ E)|]. exact Hp. }
  assert (PS : forall m0 m i h, kept o m0 m -> (length (arrays m0) <= a)%nat -> kept o m0 (put_slot m a i h)).
  { intros m0 m i h (H1 & H2 & H3 & H4 & H5) Ha. split; [exact H1|]. split; [cbn; rewrite update_length; exact H2|]. split; [exact H3|]. split; [|exact H5].
    intros a' Ha'. rewrite <- (H4 a' Ha'). unfold array_at, put_slot. cbn [arrays]. apply update_nth_other. lia. }
  induction n as [|n IH]; intros m i b hash used m0 K Ha; cbn [decode_loop]; [exact K|].
  destruct (bit bs (Z.of_nat i)) as [[]| | |]; try exact K.
  - apply IH; [|exact Ha]. apply PH. exact K.
  - destruct (used <? length (array_at m a))%nat; [|exact K]. destruct (zlen b <? 32); [exact K|].
    apply IH; [|exact Ha]. apply PH. apply PS; assumption.
Qed.
Lemma decode_kept m o b : kept o m (fst (Decode m o b)).
Proof.
  assert (K0 : kept o m m) by (split; [|split; [|split; [|split]]]; eauto).
  unfold Decode. destruct (object_at m o) as [x|] eqn:Ex; [|exact K0]. pose proof (object_bound _ _ _ Ex) as Hb.
  destruct (BitSet_Unmarshal (x_repeats x) b) as [(bs & n)|e| |]; try exact K0.
  - unfold make_array.
    set (m2 := put_object _ o _).
    assert (K : kept o m m2).
    { unfold m2. split; [|split; [|split; [|split]]].
      - cbn. apply update_length.
      - cbn. rewrite app_length. lia.
      - intros o' Ho. apply update_other. congruence.
      - intros a Ha. unfold array_at. cbn [put_object arrays]. apply app_nth1. exact Ha.
      - intros x0 Hx0. eexists. split; [apply object_put; exact Hb|]. rewrite Ex in Hx0. injection Hx0 as <-. reflexivity. }
    pose proof (loop_kept o (length (arrays m)) bs (Z.to_nat (Len bs)) m2 0 (skipn (Z.to_nat n) b) (RPrev o) 0 m K ltac:(lia)) as H.
    destruct (decode_loop m2 o (length (arrays m)) bs (Z.to_nat (Len bs)) 0 (skipn (Z.to_nat n) b) (RPrev o) 0) as (m3 & r). exact H.
  - split; [cbn; apply update_length|]. split; [reflexivity|]. split; [intros o' Ho; apply update_other; congruence|]. split; [reflexivity|].
    intros x0 Hx0. eexists. split; [apply object_put; exact Hb|]. rewrite Ex in Hx0. injection Hx0 as <-. reflexivity.
Qed.

(** ** Objects whose Hashes point where they should *)
Definition bits_of (bs : BitSet) : list bool := first_bits (Z.to_nat (Len bs)) (Bits bs).
Definition whole (m : memory) (o : nat) : Prop :=
  exists x, object_at m o = Some x /\ (x_compressed x < length (arrays m))%nat /\
    x_hashes x = map Some (refs (bits_of (x_repeats x)) (RPrev o) (x_compressed x) 0) /\
    zeros (bits_of (x_repeats x)) <= zlen (array_at m (x_compressed x)).
Lemma whole_read m o : whole m o -> exists f, read m o = Some f /\ f_hashes f = map Some (expand (bits_of (f_repeats f)) (f_compressed f) (f_prev f)).
Proof.
  intros (x & Hx & Ha & Hh & Hz). unfold read. rewrite Hx. eexists. split; [reflexivity|]. cbn [f_repeats f_hashes f_prev f_compressed].
  rewrite Hh, map_map. cbn [option_map]. rewrite <- (map_map (deref m) Some). f_equal.
  rewrite refs_read; [|lia|exact Hz]. cbn [deref skipn]. rewrite Hx. reflexivity.
Qed.

Lemma decode_spec m o x b il n : object_at m o = Some x ->
  Interlink_Unmarshal il b = Ok (MkInterlink (il_repeats (fst n)) (il_hashes (fst n)) (il_prev (fst n)) (il_compressed (fst n)), snd n) ->
  il_prev il = x_prev x -> il_repeats il = x_repeats x ->
  exists m', Decode m o b = (m', Ok (snd n)) /\ whole m' o /\
    read m' o = Some (MkFields (il_repeats (fst n)) (map Some (il_hashes (fst n))) (x_prev x) (il_compressed (fst n))).
Proof.
  intros Hx E Hp Hr. pose proof (object_bound _ _ _ Hx) as Hb. unfold Interlink_Unmarshal in E. unfold Decode. rewrite Hx, <- Hr.
  destruct (BitSet_Unmarshal (il_repeats il) b) as [(bs & k)|e| |]; try discriminate. cbn [bind] in E.
  unfold make_array. set (cnt := Z.to_nat (compressed_count (Bits bs))) in *.
  set (x2 := MkObject bs (repeat None (Z.to_nat (Len bs))) (x_prev x) (length (arrays m))).
  set (m2 := put_object (MkMemory (objects m) (arrays m ++ [repeat zero32 cnt])) o x2).
  assert (Hx2 : object_at m2 o = Some x2) by (apply object_put; exact Hb).
  assert (Harr : array_at m2 (length (arrays m)) = repeat zero32 cnt) by (unfold array_at; cbn; rewrite app_nth2, Nat.sub_diag by lia; reflexivity).
  assert (Ha : (length (arrays m) < length (arrays m2))%nat) by (cbn; rewrite app_length; cbn; lia).
  pose proof (loop_refs bs o (length (arrays m)) (Z.to_nat (Len bs)) m2 x2 0 (skipn (Z.to_nat k) b) (RPrev o) (il_prev il) 0 [] Hx2 eq_refl eq_refl Ha) as L.
  rewrite Harr, repeat_length in L. specialize (L ltac:(lia) ltac:(rewrite Nat.sub_0_r; reflexivity)). rewrite Nat.sub_0_r in L. change (Z.of_nat 0) with 0 in L.
  destruct (interlink_loop bs (Z.to_nat (Len bs)) 0 (skipn (Z.to_nat k) b) (il_prev il) cnt) as [((hs & cs) & b')|e| |] eqn:El; try discriminate.
  cbn [bind] in E. destruct n as (r & n). cbn [fst snd] in *. injection E as E1 E2 E3 E4 E5.
  rewrite L. cbn [firstn app] in *. fold (first_bits (Z.to_nat (Len bs)) (Bits bs)). fold (bits_of bs).
  destruct (loop_expand bs _ 0 _ _ _ _ _ _ El) as (Hhs & Hcs & Hz). fold (first_bits (Z.to_nat (Len bs)) (Bits bs)) in Hhs, Hz. fold (bits_of bs) in Hhs, Hz.
  set (m3 := MkMemory _ _). exists m3. split; [cbn [bind]; rewrite E5; reflexivity|].
  assert (W : whole m3 o).
  { eexists. split; [apply update_same; cbn; rewrite update_length; exact Hb|]. cbn [with_hashes x_compressed x_repeats x_hashes x2].
    split; [cbn; rewrite update_length; exact Ha|]. split; [reflexivity|].
    assert (Hcs' : array_at m3 (length (arrays m)) = cs) by (apply update_nth_here; exact Ha). rewrite Hcs'. unfold zlen. lia. }
  split; [exact W|]. destruct (whole_read m3 o W) as (f & Hf & Hfh). rewrite Hf. f_equal.
  unfold read in Hf. assert (Ho3 : object_at m3 o = Some (with_hashes x2 (map Some (refs (bits_of bs) (RPrev o) (length (arrays m)) 0)))) by (apply update_same; cbn; rewrite update_length; exact Hb).
  rewrite Ho3 in Hf. injection Hf as <-. cbn [f_repeats f_hashes f_prev f_compressed with_hashes x_repeats x_hashes x_prev x_compressed x2] in *.
  assert (Hcs' : array_at m3 (length (arrays m)) = cs) by (apply update_nth_here; exact Ha). rewrite Hcs' in *.
  rewrite Hfh. rewrite <- E1, <- E2, <- E4, Hhs, Hp. reflexivity.
Qed.
Lemma decode_fails m o x b il : object_at m o = Some x -> il_prev il = x_prev x -> il_repeats il = x_repeats x ->
  match Interlink_Unmarshal il b with
  | Ok _ => True
  | Err e => snd (Decode m o b) = Err e
  | Panic => snd (Decode m o b) = Panic
  | OutOfFuel => snd (Decode m o b) = OutOfFuel
  end.
Proof.
  intros Hx Hp Hr. pose proof (object_bound _ _ _ Hx) as Hb. unfold Interlink_Unmarshal, Decode. rewrite Hx, <- Hr.
  destruct (BitSet_Unmarshal (il_repeats il) b) as [(bs & k)|e| |]; cbn [bind]; try reflexivity.
  unfold make_array. set (cnt := Z.to_nat (compressed_count (Bits bs))) in *.
  set (x2 := MkObject bs (repeat None (Z.to_nat (Len bs))) (x_prev x) (length (arrays m))).
  set (m2 := put_object (MkMemory (objects m) (arrays m ++ [repeat zero32 cnt])) o x2).
  assert (Hx2 : object_at m2 o = Some x2) by (apply object_put; exact Hb).
  assert (Harr : array_at m2 (length (arrays m)) = repeat zero32 cnt) by (unfold array_at; cbn; rewrite app_nth2, Nat.sub_diag by lia; reflexivity).
  assert (Ha : (length (arrays m) < length (arrays m2))%nat) by (cbn; rewrite app_length; cbn; lia).
  pose proof (loop_refs bs o (length (arrays m)) (Z.to_nat (Len bs)) m2 x2 0 (skipn (Z.to_nat k) b) (RPrev o) (il_prev il) 0 [] Hx2 eq_refl eq_refl Ha) as L.
  rewrite Harr, repeat_length in L. specialize (L ltac:(lia) ltac:(rewrite Nat.sub_0_r; reflexivity)). rewrite Nat.sub_0_r in L. change (Z.of_nat 0) with 0 in L.
  destruct (interlink_loop bs (Z.to_nat (Len bs)) 0 (skipn (Z.to_nat k) b) (il_prev il) cnt) as [((hs & cs) & b')|e| |]; cbn [bind]; [exact I|..].
  - destruct (decode_loop m2 o _ bs _ 0 _ _ 0) as (m3 & r). cbn [snd] in *. rewrite L. reflexivity.
  - destruct (decode_loop m2 o _ bs _ 0 _ _ 0) as (m3 & r). cbn [snd] in *. rewrite L. reflexivity.
  - destruct L.
Qed.
