(** Property C109: what Marshal writes (beserial/encode.go). *)
From Coq Require Import ZArith List Lia Bool.
From stdpp Require Import gmap list.
From Verif.Model Require Import Base Address Beserial TreeSlices Wire Messages MarshalSlices.
From Verif.Spec Require Import BeserialSpec SliceHistory BufferSpec.
From Verif.Proofs Require Import BaseFacts BeserialFacts SliceSim BufferFacts.
Open Scope Z_scope.

(** Whatever the capacity of the buffer, however append grows it and in whatever
    pieces custom encoders write: Marshal returns what it returns on a plain list of
    bytes (Model/Beserial.v: C27-C33), and every slice the caller holds, the buffer
    included, keeps its contents, except where it reaches into the unused capacity
    behind the buffer. *)
Theorem C109_marshal_memory :
  forall grow pieces t v A x, every_codec (pieces_ok pieces) t -> valid A x ->
  match Marshal (content A x) (APtr t v) with
  | Ok (b, e) => exists A' y, s_Marshal grow pieces A x (APtr t v) = Ok (A', y, e) /\ valid A' y /\ content A' y = b /\
      forall z, valid A z -> apart z x -> valid A' z /\ content A' z = content A z
  | r => s_Marshal grow pieces A x (APtr t v) = match r with Panic => Panic | OutOfFuel => OutOfFuel | Err e => Err e | Ok _ => Panic end
  end.
Proof.
  intros grow pieces t v A x Hc Hv. cbn [Marshal s_Marshal]. pose proof (simulation grow pieces t Hc no_tags v A x Hv) as H.
  destruct (marshal t v (content A x) no_tags) as [(b, e)|e| |]; cbn in H; try exact H.
  destruct H as (A' & y & E & V & C & S & _). exists A', y. split; [exact E|]. split; [exact V|]. split; [exact C|].
  intros z Vz Hz. split; [eapply spare_valid; eauto|eapply spare_content; eauto].
Qed.
Print Assumptions C109_marshal_memory.

Lemma apart_self x : apart x x.
Proof. right. left. lia. Qed.

(** Encodings made on buffers without unused capacity (nil, for one) stay as they are
    when more is encoded. *)
Theorem C109_results_stay :
  forall grow pieces t1 v1 t2 v2 A x1 x2 A1 y1 A2 y2, every_codec (pieces_ok pieces) t1 -> every_codec (pieces_ok pieces) t2 ->
    valid A x1 -> valid A x2 -> s_len x2 = s_cap x2 ->
    s_Marshal grow pieces A x1 (APtr t1 v1) = Ok (A1, y1, None) ->
    s_Marshal grow pieces A1 x2 (APtr t2 v2) = Ok (A2, y2, None) ->
    content A2 y1 = content A1 y1.
Proof.
  intros grow pieces t1 v1 t2 v2 A x1 x2 A1 y1 A2 y2 H1 H2 V1 V2 Hfull E1 E2.
  pose proof (C109_marshal_memory grow pieces t1 v1 A x1 H1 V1) as M1. rewrite E1 in M1.
  destruct (Marshal (content A x1) (APtr t1 v1)) as [(b1, e1)|er| |]; try discriminate M1. destruct M1 as (A1' & y1' & E & W1 & _ & K1). injection E as <- <- <-.
  assert (V2' : valid A1 x2).
  { pose proof (simulation grow pieces t1 H1 no_tags v1 A x1 V1) as S1. cbn [s_Marshal] in E1. rewrite E1 in S1.
    destruct (marshal t1 v1 (content A x1) no_tags) as [(b1', e1)|er| |]; cbn in S1; try discriminate S1. destruct S1 as (? & ? & E & _ & _ & S & _). injection E as <- <- <-.
    eapply spare_valid; eauto. }
  pose proof (C109_marshal_memory grow pieces t2 v2 A1 x2 H2 V2') as M2. rewrite E2 in M2.
  destruct (Marshal (content A1 x2) (APtr t2 v2)) as [(b2, e2)|er| |]; try discriminate M2. destruct M2 as (A2' & y2' & E & _ & _ & K2). injection E as <- <- <-.
  apply K2; [exact W1|]. right. right. right. exact Hfull.
Qed.
Print Assumptions C109_results_stay.

(** Two encodings made on one buffer with room for both share its memory: the second
    replaces the first as far as it reaches. *)
Theorem C109_second_replaces_first :
  forall grow pieces t1 v1 t2 v2 e1 e2 A x,
    well_declared codec_total t1 -> every_codec (pieces_ok pieces) t1 -> typed t1 v1 -> parts_ok t1 no_tags v1 ->
    well_declared codec_total t2 -> every_codec (pieces_ok pieces) t2 -> typed t2 v2 -> parts_ok t2 no_tags v2 ->
    Marshal [] (APtr t1 v1) = Ok (e1, None) -> Marshal [] (APtr t2 v2) = Ok (e2, None) ->
    valid A x -> (s_len x + length e1 <= s_cap x)%nat -> (s_len x + length e2 <= s_cap x)%nat ->
  exists A1 y1 A2 y2,
    s_Marshal grow pieces A x (APtr t1 v1) = Ok (A1, y1, None) /\ content A1 y1 = content A x ++ e1 /\
    s_Marshal grow pieces A1 x (APtr t2 v2) = Ok (A2, y2, None) /\ content A2 y2 = content A x ++ e2 /\
    content A2 y1 = content A x ++ firstn (length e1) e2 ++ skipn (length e2) e1.
Proof.
  intros grow pieces t1 v1 t2 v2 e1 e2 A x W1 C1 T1 P1 W2 C2 T2 P2 M1 M2 V F1 F2.
  assert (Hu : tags_unsigned no_tags) by (intros ? ?; discriminate).
  assert (Hall : forall t v e, well_declared codec_total t -> typed t v -> parts_ok t no_tags v -> Marshal [] (APtr t v) = Ok (e, None) ->
    forall b, marshal t v b no_tags = Ok (b ++ e, None)).
  { intros t v e W T P M b. destruct (parts_append t W no_tags v Hu T P) as (e' & He). cbn in M. rewrite He in M. injection M as <-. apply He. }
  assert (Hstep : forall t v e A, well_declared codec_total t -> every_codec (pieces_ok pieces) t -> typed t v -> parts_ok t no_tags v ->
    Marshal [] (APtr t v) = Ok (e, None) -> valid A x -> (s_len x + length e <= s_cap x)%nat ->
    exists A' y, s_Marshal grow pieces A x (APtr t v) = Ok (A', y, None) /\ valid A' y /\ content A' y = content A x ++ e /\ only_spare x A A' /\
      in_place x y /\ s_len y = (s_len x + length e)%nat /\ forall i, (s_off y + s_len y <= i)%nat -> array A' (s_arr x) !! i = array A (s_arr x) !! i).
  { intros t v e A0 W C T P M V0 F. pose proof (simulation grow pieces t C no_tags v A0 x V0) as S. rewrite (Hall t v e W T P M) in S. cbn in S.
    destruct S as (A' & y & E & V' & Ec & S & _). destruct (fits grow pieces t W C no_tags v Hu T P) as (n & Hn). destruct (Hn A0 x V0) as (A'' & y' & E' & _ & L & Q).
    rewrite E in E'. injection E' as <- <-. assert (Ln : n = length e).
    { apply (f_equal length) in Ec. rewrite app_length, !content_length in Ec by assumption. lia. }
    subst n. destruct (Q F) as (Q1 & Q2). exists A', y. cbn [s_Marshal]. auto 10. }
  destruct (Hstep t1 v1 e1 A W1 C1 T1 P1 M1 V F1) as (A1 & y1 & E1 & V1 & K1 & S1 & I1 & L1 & R1).
  pose proof (spare_valid _ _ _ _ S1 V) as Vx1. pose proof (spare_content _ _ _ _ S1 V (apart_self x)) as Kx1.
  destruct (Hstep t2 v2 e2 A1 W2 C2 T2 P2 M2 Vx1 F2) as (A2 & y2 & E2 & V2 & K2 & S2 & I2 & L2 & R2). rewrite Kx1 in K2.
  exists A1, y1, A2, y2. do 4 (split; [assumption|]).
  destruct I1 as (a1 & o1 & _ & c1). destruct I2 as (a2 & o2 & _ & c2).
  assert (Vy : valid A2 y1) by (eapply spare_valid; eauto). pose proof (content_length A x V) as Lx.
  apply list_eq. intros i. destruct (decide (i < s_len y1)%nat) as [Hi|Hi].
  2:{ rewrite lookup_ge_None_2 by (rewrite content_length by exact Vy; lia). symmetry. apply lookup_ge_None_2. rewrite !app_length, Lx, firstn_length, skipn_length. lia. }
  assert (Hread : forall B z j, (j < s_len z)%nat -> content B z !! j = array B (s_arr z) !! (s_off z + j)%nat).
  { intros B z j Hj. unfold content. rewrite lookup_take, lookup_drop by exact Hj. reflexivity. }
  rewrite Hread by exact Hi. rewrite a1, o1. destruct (decide (i < s_len y2)%nat) as [Hi2|Hi2].
  - (* within the second encoding *)
    transitivity (content A2 y2 !! i); [rewrite Hread by exact Hi2; rewrite a2, o2; reflexivity|]. rewrite K2.
    destruct (decide (i < s_len x)%nat) as [Hx|Hx]; [rewrite !lookup_app_l by lia; reflexivity|]. rewrite (lookup_app_r _ e2), (lookup_app_r (content A x)) by lia.
    rewrite lookup_app_l by (rewrite firstn_length; lia). symmetry. apply lookup_take. lia.
  - (* behind it: the first encoding *)
    rewrite R2 by lia. transitivity (content A1 y1 !! i); [rewrite Hread by exact Hi; rewrite a1, o1; reflexivity|]. rewrite K1.
    rewrite !(lookup_app_r (content A x)) by lia. rewrite lookup_app_r by (rewrite firstn_length; lia). rewrite firstn_length, Nat.min_r by lia.
    rewrite lookup_drop. f_equal. lia.
Qed.
Print Assumptions C109_second_replaces_first.

(** Encoders that append satisfy the hypothesis on pieces; those of package wire do. *)
Definition one_piece (c : codec) (v : val) (b : bytes) : list bytes :=
  match cd_marshal c v b with Ok (r, None) => [skipn (length b) r] | _ => [] end.
Lemma one_piece_ok c : appending c -> pieces_ok one_piece c.
Proof.
  intros Ht v b r E. unfold one_piece. rewrite E. cbn. rewrite app_nil_r. destruct (Ht v b r E) as (e & ->).
  rewrite drop_app. reflexivity.
Qed.
Lemma snoc_appending (b r : bytes) x : (exists e, r = (b ++ [x]) ++ e) -> exists e, r = b ++ e.
Proof. intros (e & ->). exists (x :: e). rewrite <- app_assoc. reflexivity. Qed.
Lemma hash_appending : appending hash_codec.
Proof. intros v b r E. cbn in E. injection E as <-. apply snoc_appending with (x := Algorithm (hash_of v)). eauto. Qed.
Lemma bitset_appending : appending bitset_codec.
Proof. intros v b r E. cbn in E. injection E as <-. apply snoc_appending with (x := Len (bitset_of v)). eauto. Qed.
Lemma path_appending : appending path_codec.
Proof. intros v b r E. cbn in E. injection E as <-. eexists. rewrite <- !app_assoc. reflexivity. Qed.
Lemma interlink_appending : appending interlink_codec.
Proof. intros v b r E. cbn in E. injection E as <-. eexists. rewrite <- !app_assoc. reflexivity. Qed.
Lemma netaddr_appending : appending netaddr_codec.
Proof. intros v b r E. cbn in E. injection E as <-. eexists. rewrite <- !app_assoc. reflexivity. Qed.
Lemma ping_appending : appending ping_codec.
Proof. intros v b r E. cbn in E. injection E as <-. eauto. Qed.
Lemma wrap_account_appending : appending wrap_account_codec.
Proof.
  intros v b r E. cbn [cd_marshal wrap_account_codec typed_codec] in E. unfold WrapAccount_Marshal in E. destruct (wrap_account_of v) as [a|]; [|discriminate E].
  eapply snoc_appending. eapply marshal_appending; [| |exact E]; unfold ty_account; destruct (_ =? 0); try destruct (_ =? 1); cbn; auto 20 using hash_appending.
Qed.
Lemma wrap_tx_appending : appending wrap_tx_codec.
Proof.
  intros v b r E. cbn [cd_marshal wrap_tx_codec typed_codec] in E. unfold WrapTx_Marshal in E. destruct (wrap_tx_of v) as [a|]; [|discriminate E].
  eapply snoc_appending. eapply marshal_appending; [| |exact E]; unfold ty_tx; destruct (_ =? 0); cbn; auto 20 using hash_appending.
Qed.
Lemma peer_appending : appending peer_codec.
Proof.
  intros v b r E. cbn [cd_marshal peer_codec typed_codec] in E. unfold PeerAddress_Marshal, m_then in E.
  destruct (Marshal b _) as [(b1, [er|])|er| |]; discriminate E.
Qed.
Theorem C109_wire_types :
  every_codec (pieces_ok one_piece) ty_wrap_account /\ every_codec (pieces_ok one_piece) ty_wrap_tx /\
  every_codec (pieces_ok one_piece) ty_proof /\ every_codec (pieces_ok one_piece) ty_block /\ every_codec (pieces_ok one_piece) ty_staking /\
  every_codec (pieces_ok one_piece) ty_chunk /\ every_codec (pieces_ok one_piece) ty_peer /\
  forall k, every_codec (pieces_ok one_piece) (ty_message k).
Proof.
  pose proof (one_piece_ok _ hash_appending). pose proof (one_piece_ok _ bitset_appending). pose proof (one_piece_ok _ path_appending).
  pose proof (one_piece_ok _ interlink_appending). pose proof (one_piece_ok _ netaddr_appending). pose proof (one_piece_ok _ ping_appending).
  pose proof (one_piece_ok _ wrap_account_appending). pose proof (one_piece_ok _ wrap_tx_appending). pose proof (one_piece_ok _ peer_appending).
  repeat split; try assumption. intros []; repeat split; assumption.
Qed.
Print Assumptions C109_wire_types.

(** Non-vacuity: a buffer of 2 bytes with room for 6 more, a number and a string. *)
Example C109_example :
  let grow := fun _ _ _ => 3%nat in
  let A := [[]; [9; 8; 0; 0; 0; 0; 0; 0; 7]] in let x := Sl 1 0 2 8 in
  valid A x /\ content A x = [9; 8] /\
  exists A1 y1 A2 y2,
    s_Marshal grow one_piece A x (APtr (TNum U32) (VNum 16909060)) = Ok (A1, y1, None) /\ content A1 y1 = [9; 8; 1; 2; 3; 4] /\
    s_Marshal grow one_piece A1 x (APtr (TNum U16) (VNum 1286)) = Ok (A2, y2, None) /\
    content A2 y2 = [9; 8; 5; 6] /\ content A2 y1 = [9; 8; 5; 6; 3; 4] /\ content A2 (Sl 1 8 1 1) = [7].
Proof.
  cbn zeta. split; [repeat split; cbn; lia|]. split; [reflexivity|]. do 4 eexists. split; [reflexivity|]. split; [reflexivity|]. split; [reflexivity|].
  repeat split; reflexivity.
Qed.
