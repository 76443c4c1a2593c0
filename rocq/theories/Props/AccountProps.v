(** Properties C59-C64: what a single account may do. *)
From Coq Require Import ZArith List Lia Bool.
Import ListNotations.
From Verif.Model Require Import Base Address Beserial Wire Account.
From Verif.Spec Require Import AddressSpec BeserialSpec WireSpec AccountSpec.
From Verif.Proofs Require Import BaseFacts WireFacts AccountFacts FloatFacts.
Open Scope Z_scope.

(** ** C59: vesting steps *)
(** The property is false of the code, for every contract with steps of at least two
    blocks: one block after the start, when no step is complete, money is unlocked. *)
Theorem C59_stepwise_refuted oob c :
  account_ok (AVesting c) -> v_start c + 1 < 2 ^ 32 -> 2 <= v_step_blocks c -> 2 * v_step_blocks c <= v_step_amount c ->
  vested_by_steps c (v_start c + 1) = 0 /\ 0 < amountUnlocked oob c (v_start c + 1).
Proof.
  intros Hc Hl Hs Ha. split; [|apply unlocked_early; try assumption; lia].
  unfold vested_by_steps. destruct (Z.leb_spec (v_start c + 1) (v_start c)); [lia|].
  rewrite (proj2 (Z.eqb_neq _ _)), (proj2 (Z.eqb_neq _ _)) by lia. cbn [orb].
  rewrite Z.div_small by lia. reflexivity.
Qed.
Print Assumptions C59_stepwise_refuted.
(** Up to the start nothing is unlocked; without steps everything is. *)
Theorem C59_no_steps_partial oob c height :
  (height <= v_start c -> amountUnlocked oob c height = 0) /\
  (v_start c < height -> v_step_blocks c = 0 \/ v_step_amount c = 0 -> amountUnlocked oob c height = v_value c).
Proof.
  unfold amountUnlocked. split.
  - intros Hl. destruct (Z.leb_spec height (v_start c)); [reflexivity|lia].
  - intros Hl H0. destruct (Z.leb_spec height (v_start c)); [lia|].
    assert (E : (v_step_blocks c =? 0) || (v_step_amount c =? 0) = true) by (apply orb_true_iff; rewrite !Z.eqb_eq; exact H0).
    rewrite E. reflexivity.
Qed.
Print Assumptions C59_no_steps_partial.
(** The unlocked amount lies between that of the completed steps and one step more, and
    is exact at the end of a step (amounts up to 2^53, which float64 represents exactly). *)
Theorem C59_between_steps_partial oob c height :
  account_ok (AVesting c) -> u32 height -> v_start c < height -> v_step_blocks c <> 0 -> v_step_amount c <> 0 ->
  vested_by_steps c height + v_step_amount c <= 2 ^ 53 ->
  vested_by_steps c height <= amountUnlocked oob c height <= vested_by_steps c height + v_step_amount c /\
  ((height - v_start c) mod v_step_blocks c = 0 -> amountUnlocked oob c height = vested_by_steps c height).
Proof.
  intros Hc Hh Hl Hs Ha. unfold vested_by_steps. destruct (Z.leb_spec height (v_start c)); [lia|].
  rewrite (proj2 (Z.eqb_neq _ _) Hs), (proj2 (Z.eqb_neq _ _) Ha). cbn [orb]. intros Hr.
  destruct (unlocked_between oob c Hc Hs Ha height Hh Hl) as (H1 & H2); [lia|]. split; [lia|exact H2].
Qed.
Print Assumptions C59_between_steps_partial.
(** What the code computes is the linear share, up to 1 (amounts up to 2^51, more
    than all money there is). *)
Theorem C59_linear_partial oob c height :
  account_ok (AVesting c) -> u32 height -> v_start c < height -> v_step_blocks c <> 0 -> v_step_amount c <> 0 ->
  (height - v_start c) * v_step_amount c <= 2 ^ 51 * v_step_blocks c ->
  let linear := (height - v_start c) * v_step_amount c / v_step_blocks c in
  linear - 1 <= amountUnlocked oob c height <= linear + 1.
Proof. intros Hc Hh Hl Hs Ha Hr. apply unlocked_linear; assumption. Qed.
Print Assumptions C59_linear_partial.
(** It never decreases, as long as it stays below 2^63. *)
Theorem C59_monotone_partial oob c height height' :
  account_ok (AVesting c) -> u32 height' -> height <= height' ->
  (height' - v_start c) * v_step_amount c < 2 ^ 63 * v_step_blocks c \/ v_step_blocks c = 0 \/ v_step_amount c = 0 ->
  amountUnlocked oob c height <= amountUnlocked oob c height'.
Proof.
  intros Hc Hh Hl Hr. destruct (C59_no_steps_partial oob c height) as (A1 & A2). destruct (C59_no_steps_partial oob c height') as (B1 & B2).
  pose proof Hc as (Hv & _ & H1 & H2 & H3 & _). unfold u64, u32 in *.
  destruct (Z.le_gt_cases height (v_start c)) as [Hlo|Hlo].
  - rewrite A1 by exact Hlo. destruct (Z.le_gt_cases height' (v_start c)) as [Hlo'|Hlo']; [rewrite B1 by exact Hlo'; lia|].
    destruct (Z.eq_dec (v_step_blocks c) 0) as [E|E]; [rewrite B2 by auto; lia|].
    destruct (Z.eq_dec (v_step_amount c) 0) as [E'|E']; [rewrite B2 by auto; lia|].
    rewrite unlocked_fits; try assumption; try (unfold u32; lia).
    apply Raux.Zfloor_lub. apply (share_bound (height' - v_start c) (v_step_blocks c) (v_step_amount c)); lia.
  - destruct (Z.eq_dec (v_step_blocks c) 0) as [E|E]; [rewrite A2, B2 by (auto; lia); lia|].
    destruct (Z.eq_dec (v_step_amount c) 0) as [E'|E']; [rewrite A2, B2 by (auto; lia); lia|].
    apply unlocked_mono; try assumption; lia.
Qed.
Print Assumptions C59_monotone_partial.
Definition example_vesting : Vesting := MkVesting 90000 (repeat 3 20) 1000 100 30000 90000.
Example C59_example oob :
  account_ok (AVesting example_vesting) /\
  map (vested_by_steps example_vesting) [999; 1000; 1001; 1050; 1099; 1100; 1101; 1300; 1400] = [0; 0; 0; 0; 0; 30000; 30000; 90000; 120000] /\
  map (amountUnlocked oob example_vesting) [999; 1000; 1001; 1050; 1099; 1100; 1101; 1300; 1400] =
    [0; 0; 300; 15000; 29700; 30000; 30300; 90000; 120000].
Proof.
  split; [|split; reflexivity]. unfold example_vesting. cbn [account_ok]. unfold u64, u32, array. cbn.
  repeat split; try lia; repeat constructor; unfold is_byte; lia.
Qed.

(** ** C61: only the owner spends *)
Theorem C61_owner_spends H oob c x height a :
  tx_ok (TExtended x) ->
  ApplyOutgoingTx H oob (AVesting c) (TExtended x) height = Ok a ->
  (exists p, proof_ok p /\ signer_of H p = v_owner c /\ x_proof x = proof_bytes p) /\
  x_value x <= amountUnlocked oob c height /\
  exists balance, a = with_balance (AVesting c) balance.
Proof.
  intros Hx E. pose proof (tx_ok_ext _ Hx) as (_ & Hp & _). apply (vesting_spend H oob c x height a Hp) in E as (H1 & H2 & ->).
  split; [exact H2|]. split; [exact H1|]. eexists. reflexivity.
Qed.
Print Assumptions C61_owner_spends.
(** Conversely the owner can spend what is unlocked. *)
Theorem C61_owner_can_spend H oob c x height p :
  tx_ok (TExtended x) -> proof_ok p -> signer_of H p = v_owner c -> x_proof x = proof_bytes p ->
  x_value x <= amountUnlocked oob c height -> x_value x <= v_value c -> account_ok (AVesting c) ->
  ApplyOutgoingTx H oob (AVesting c) (TExtended x) height = Ok (with_balance (AVesting c) (v_value c - x_value x)).
Proof.
  intros Hx Hp Ho E Hv Hb Hc. pose proof (tx_ok_ext _ Hx) as (_ & Hpb & Hu & _). unfold u64 in *. pose proof (proj1 Hc) as Hcv. unfold u64 in *. apply vesting_spend; [exact Hpb|].
  split; [exact Hv|]. split; [eauto|]. rewrite Z.mod_small by lia. reflexivity.
Qed.
Print Assumptions C61_owner_can_spend.

(** ** C60: overdrawing a vesting contract *)
(** The property is false of the code: only the unlocked amount limits the value. A value
    above the balance wraps the balance around, and a fee is not deducted. *)
Theorem C60_overdraw_refuted H oob c x height p :
  account_ok (AVesting c) -> tx_ok (TExtended x) ->
  proof_ok p -> signer_of H p = v_owner c -> x_proof x = proof_bytes p ->
  v_value c < x_value x <= amountUnlocked oob c height ->
  ApplyOutgoingTx H oob (AVesting c) (TExtended x) height = Ok (with_balance (AVesting c) (v_value c - x_value x + 2 ^ 64)).
Proof.
  intros Hc Hx Hp Ho E Hv. pose proof (tx_ok_ext _ Hx) as (_ & Hpb & Hu & _). pose proof (proj1 Hc) as Hcv. unfold u64 in *.
  apply vesting_spend; [exact Hpb|]. split; [lia|]. split; [eauto|]. f_equal.
  rewrite <- (Z_mod_plus_full _ 1). rewrite Z.mod_small by lia. lia.
Qed.
Print Assumptions C60_overdraw_refuted.
(** The new balance, when the value does not exceed the old one: the fee is ignored. *)
Theorem C60_balance_partial H oob c x height a :
  account_ok (AVesting c) -> tx_ok (TExtended x) -> x_value x <= v_value c ->
  ApplyOutgoingTx H oob (AVesting c) (TExtended x) height = Ok a ->
  a = with_balance (AVesting c) (v_value c - x_value x).
Proof.
  intros Hc Hx Hb E. pose proof (tx_ok_ext _ Hx) as (_ & Hpb & Hu & _). pose proof (proj1 Hc) as Hcv. unfold u64 in *.
  apply vesting_spend in E as (_ & _ & ->); [|exact Hpb]. rewrite Z.mod_small by lia. reflexivity.
Qed.
Print Assumptions C60_balance_partial.

(** A proof without Merkle path, and who signs with it. *)
Definition plain_proof (key : bytes) : SignatureProof := MkProof key (MkMerklePath (MkBitSet 0 []) []) (repeat 9 64).
Lemma array_repeat n b : 0 <= b < 256 -> array n (repeat b n).
Proof. intros Hb. split; [apply repeat_length|]. unfold bytes_ok. apply Forall_forall. intros x Hx. apply repeat_spec in Hx as ->. exact Hb. Qed.
Lemma plain_proof_ok key : array 32 key -> proof_ok (plain_proof key).
Proof.
  intros Hk. unfold proof_ok, plain_proof. cbn [PublicKey Signature Path]. split; [exact Hk|]. split; [|apply array_repeat; lia].
  unfold path_ok, bitset_ok. cbn. unfold u8. repeat split; try lia; try constructor.
Qed.
Lemma plain_signer H key : signer_of H (plain_proof key) = firstn 20 (H key).
Proof. reflexivity. Qed.
Lemma plain_proof_len key : array 32 key -> zlen (proof_bytes (plain_proof key)) = 97.
Proof. intros (Hk & _). unfold proof_bytes, plain_proof. cbn [PublicKey Signature Path Branches Hashes]. unfold zlen. rewrite !app_length, Hk. reflexivity. Qed.
Definition spend_from (a : bytes) (typ value fee : Z) (proof : bytes) : ExtendedTx :=
  MkExtendedTx [] a typ (repeat 8 20) 0 value fee 1 42 0 proof.
Lemma spend_from_ok a typ value fee proof : array 20 a -> u8 typ -> u64 value -> u64 fee -> bytes_ok proof -> zlen proof < 65536 ->
  tx_ok (TExtended (spend_from a typ value fee proof)).
Proof.
  intros Ha Ht Hv Hf Hp Hl. unfold tx_ok, spend_from. cbn. unfold u8, u64, u16, u32 in *.
  repeat split; try assumption; try lia; try (apply Ha); try constructor; try (repeat constructor; lia).
Qed.
(** A contract holding 10, with 100 unlocked, pays 100: its balance becomes 2^64 - 90. *)
Example C60_example :
  let H := fun x => repeat (zlen x mod 256) 32 in
  let c := MkVesting 10 (firstn 20 (H (repeat 5 32))) 0 1 100 1000 in
  let x := spend_from (repeat 6 20) 1 100 7 (proof_bytes (plain_proof (repeat 5 32))) in
  account_ok (AVesting c) /\ tx_ok (TExtended x) /\
  forall oob, amountUnlocked oob c 1 = 100 /\
    ApplyOutgoingTx H oob (AVesting c) (TExtended x) 1 = Ok (with_balance (AVesting c) (2 ^ 64 - 90)).
Proof.
  cbv zeta. split; [|split].
  - cbn [account_ok]. unfold u64, u32. repeat split; try lia; cbn; repeat constructor; unfold is_byte; lia.
  - apply spend_from_ok; try (unfold u8, u64; lia); [apply array_repeat; lia| |rewrite plain_proof_len; [lia|apply array_repeat; lia]].
    unfold bytes_ok. cbn. repeat constructor; unfold is_byte; lia.
  - intros oob. split; [reflexivity|]. rewrite (C60_overdraw_refuted _ _ _ _ _ (plain_proof (repeat 5 32))); try reflexivity.
    + cbn [account_ok]. unfold u64, u32. repeat split; try lia; cbn; repeat constructor; unfold is_byte; lia.
    + apply spend_from_ok; try (unfold u8, u64; lia); [apply array_repeat; lia| |rewrite plain_proof_len; [lia|apply array_repeat; lia]].
      unfold bytes_ok. cbn. repeat constructor; unfold is_byte; lia.
    + apply plain_proof_ok, array_repeat; lia.
    + cbn [v_value x_value spend_from]. change (10 < 100 <= 100). lia.
Qed.

(** ** C62: HTLCs *)
Theorem C62_htlc_rules H oob h x height a :
  account_ok (AHTLC h) -> tx_ok (TExtended x) ->
  ApplyOutgoingTx H oob (AHTLC h) (TExtended x) height = Ok a <->
  x_value x <= h_value h /\
  (htlc_regular H h (x_proof x) height \/ htlc_early H h (x_proof x) \/ htlc_timeout H h (x_proof x) height) /\
  a = with_balance (AHTLC h) (h_value h - x_value x).
Proof. intros Hh Hx. apply (htlc_spend H oob h x height a Hh Hx). Qed.
Print Assumptions C62_htlc_rules.
(** Recipient and sender have disjoint times. *)
Theorem C62_exclusive H h proof proof' height :
  ~ (htlc_regular H h proof height /\ htlc_timeout H h proof' height).
Proof. intros ((d & pre & p & H1 & _) & (q & H2 & _)). lia. Qed.
Print Assumptions C62_exclusive.
Definition example_htlc (H : bytes -> bytes) (root : bytes) : HTLC :=
  MkHTLC 500 (firstn 20 (H (repeat 1 32))) (firstn 20 (H (repeat 2 32))) (MkHash 3 root) 4 1000 500.
Definition regular_proof (root pre : bytes) (depth : Z) (p : SignatureProof) : bytes := 1 :: 3 :: depth :: root ++ pre ++ proof_bytes p.
Lemma example_htlc_ok H root : hash_fn H -> array 32 root -> account_ok (AHTLC (example_htlc H root)).
Proof.
  intros HH Hr. cbn [account_ok]. unfold example_htlc. cbn. unfold u64, u8, u32, hash_ok. cbn.
  assert (G : forall k, array 20 (firstn 20 (H k))).
  { intros k. destruct (HH k) as (Hl & Hb). split; [rewrite firstn_length; lia|apply bytes_ok_firstn; exact Hb]. }
  repeat split; try lia; try apply G; apply Hr.
Qed.
Example C62_example H oob root pre :
  hash_fn H -> array 32 root -> array 32 pre ->
  let x := spend_from (repeat 6 20) 2 200 7 (regular_proof root pre 4 (plain_proof (repeat 2 32))) in
  tx_ok (TExtended x) /\
  ApplyOutgoingTx H oob (AHTLC (example_htlc H root)) (TExtended x) 1000 = Ok (with_balance (AHTLC (example_htlc H root)) 300) /\
  forall a, ApplyOutgoingTx H oob (AHTLC (example_htlc H root)) (TExtended x) 1001 <> Ok a.
Proof.
  intros HH Hr Hpre x.
  assert (Hx : tx_ok (TExtended x)).
  { apply spend_from_ok; try (unfold u8, u64; lia); [apply array_repeat; lia| |].
    - unfold regular_proof. unfold bytes_ok. do 3 (constructor; [unfold is_byte; lia|]). apply Forall_app; split; [apply Hr|]. apply Forall_app; split; [apply Hpre|].
      cbn. repeat constructor; unfold is_byte; lia.
    - unfold regular_proof, zlen. cbn [List.length]. rewrite !app_length. destruct Hr as (-> & _). destruct Hpre as (-> & _). cbn. lia. }
  split; [exact Hx|]. split.
  - apply C62_htlc_rules; [apply example_htlc_ok; assumption|exact Hx|]. split; [cbn; lia|]. split; [|reflexivity].
    left. exists 4, pre, (plain_proof (repeat 2 32)). split; [cbn; lia|]. split; [unfold u8; lia|]. split; [exact Hpre|].
    split; [apply plain_proof_ok, array_repeat; lia|]. split; reflexivity.
  - intros a E. pose proof (proj1 (C62_htlc_rules H oob _ _ _ a (example_htlc_ok H root HH Hr) Hx) E) as (_ & [R|[R|R]] & _).
    + destruct R as (d & q & p & Ht & _). cbn in Ht. lia.
    + destruct R as (p & q & _ & _ & _ & _ & Ep). discriminate Ep.
    + destruct R as (p & _ & _ & _ & Ep). discriminate Ep.
Qed.

(** ** C63: the pre-image *)
(** The property is false of the code: the recipient can claim, up to the timeout,
    with any 32 bytes as the pre-image and any depth. *)
Theorem C63_any_preimage H oob h x height p preimage depth :
  account_ok (AHTLC h) -> tx_ok (TExtended x) -> x_value x <= h_value h -> height <= h_timeout h ->
  proof_ok p -> signer_of H p = h_recipient h -> array 32 preimage -> u8 depth ->
  x_proof x = 1 :: Algorithm (h_hash h) :: depth :: Bytes (h_hash h) ++ preimage ++ proof_bytes p ->
  ApplyOutgoingTx H oob (AHTLC h) (TExtended x) height = Ok (with_balance (AHTLC h) (h_value h - x_value x)).
Proof.
  intros Hh Hx Hv Ht Hp Hs Hpre Hd E. apply C62_htlc_rules; [exact Hh|exact Hx|]. split; [exact Hv|]. split; [|reflexivity].
  left. exists depth, preimage, p. repeat (split; [assumption|]). exact E.
Qed.
Print Assumptions C63_any_preimage.
(** Whatever the iterated hash [hash_iter algorithm depth preimage] of the contracts is, acceptance
    does not imply that it yields the contract's hash. *)
Theorem C63_preimage_refuted H oob (hash_iter : Z -> Z -> bytes -> bytes) :
  hash_fn H ->
  ~ (forall h x height a depth preimage p,
       account_ok (AHTLC h) -> tx_ok (TExtended x) ->
       ApplyOutgoingTx H oob (AHTLC h) (TExtended x) height = Ok a ->
       array 32 preimage -> proof_ok p ->
       x_proof x = 1 :: Algorithm (h_hash h) :: depth :: Bytes (h_hash h) ++ preimage ++ proof_bytes p ->
       hash_iter (Algorithm (h_hash h)) depth preimage = Bytes (h_hash h)).
Proof.
  intros HH P.
  assert (G : forall b, 0 <= b < 256 -> hash_iter 3 4 (repeat 0 32) = repeat b 32).
  { intros b Hb. destruct (C62_example H oob (repeat b 32) (repeat 0 32) HH) as (Hx & Hok & _); [apply array_repeat; lia|apply array_repeat; lia|].
    apply (P (example_htlc H (repeat b 32)) _ 1000 _ 4 (repeat 0 32) (plain_proof (repeat 2 32)) ltac:(apply example_htlc_ok; [exact HH|apply array_repeat; lia]) Hx Hok);
      [apply array_repeat; lia|apply plain_proof_ok, array_repeat; lia|reflexivity]. }
  pose proof (G 1 ltac:(lia)) as G1. rewrite (G 2) in G1 by lia. discriminate.
Qed.
Print Assumptions C63_preimage_refuted.
(** What does hold: the proof names the contract's hash and the recipient's key. *)
Theorem C63_hash_named_partial H oob h x height a rest :
  account_ok (AHTLC h) -> tx_ok (TExtended x) -> x_proof x = 1 :: rest ->
  ApplyOutgoingTx H oob (AHTLC h) (TExtended x) height = Ok a ->
  height <= h_timeout h /\ exists depth preimage p, u8 depth /\ array 32 preimage /\ proof_ok p /\ signer_of H p = h_recipient h /\
    rest = Algorithm (h_hash h) :: depth :: Bytes (h_hash h) ++ preimage ++ proof_bytes p.
Proof.
  intros Hh Hx E Ea. pose proof (proj1 (C62_htlc_rules H oob h x height a Hh Hx) Ea) as (_ & R & _). rewrite E in R. destruct R as [R|[R|R]].
  - destruct R as (d & pre & p & Ht & Hd & Hpre & Hp & Hs & Ep). split; [exact Ht|]. exists d, pre, p. injection Ep as ->. auto.
  - destruct R as (p & q & _ & _ & _ & _ & Ep). discriminate.
  - destruct R as (p & _ & _ & _ & Ep). discriminate.
Qed.
Print Assumptions C63_hash_named_partial.

(** ** C64: basic accounts *)
(** The property is false of the code: value + fee is computed modulo 2^64. *)
Theorem C64_overdraw_refuted H oob balance t height :
  tx_ok t -> 2 ^ 64 <= tx_value t + tx_fee t -> tx_value t + tx_fee t - 2 ^ 64 <= balance -> u64 balance ->
  ApplyOutgoingTx H oob (ABasic balance) t height = Ok (ABasic (balance - (tx_value t + tx_fee t - 2 ^ 64))).
Proof.
  intros Ht Hw Hb Hu. assert (Hv : u64 (tx_value t) /\ u64 (tx_fee t)) by (destruct t; cbn in *; unfold u64 in *; intuition). unfold u64 in *.
  assert (Ha : Amount t = (tx_value t, tx_fee t)) by (destruct t; reflexivity).
  cbn [ApplyOutgoingTx]. unfold Basic_Outgoing. rewrite Ha. unfold w64, two64.
  assert (E : (tx_value t + tx_fee t) mod 2 ^ 64 = tx_value t + tx_fee t - 2 ^ 64).
  { rewrite <- (Z_mod_plus_full _ (-1)). rewrite Z.mod_small by lia. lia. }
  change 18446744073709551616 with (2 ^ 64) in *. rewrite E. destruct (Z.ltb_spec balance (tx_value t + tx_fee t - 2 ^ 64)); [lia|].
  rewrite Z.mod_small by lia. reflexivity.
Qed.
Print Assumptions C64_overdraw_refuted.
(** Without the overflow it holds. *)
Theorem C64_basic_partial H oob balance t height :
  tx_ok t -> u64 balance ->
  (tx_value t + tx_fee t < 2 ^ 64 ->
   (tx_value t + tx_fee t <= balance -> ApplyOutgoingTx H oob (ABasic balance) t height = Ok (ABasic (balance - tx_value t - tx_fee t))) /\
   (balance < tx_value t + tx_fee t -> ApplyOutgoingTx H oob (ABasic balance) t height = Err (EOverspend balance (tx_value t + tx_fee t)))) /\
  (balance + tx_value t < 2 ^ 64 -> ApplyIncomingTx (ABasic balance) t height = Ok (ABasic (balance + tx_value t))).
Proof.
  intros Ht Hu. assert (Hv : u64 (tx_value t) /\ u64 (tx_fee t)) by (destruct t; cbn in *; unfold u64 in *; intuition). unfold u64 in *.
  assert (Ha : Amount t = (tx_value t, tx_fee t)) by (destruct t; reflexivity).
  cbn [ApplyOutgoingTx ApplyIncomingTx]. unfold Basic_Outgoing. rewrite Ha. unfold w64. change two64 with (2 ^ 64). cbn [fst].
  split.
  - intros Hw. rewrite (Z.mod_small (tx_value t + tx_fee t)) by lia. destruct (Z.ltb_spec balance (tx_value t + tx_fee t)).
    + split; [lia|reflexivity].
    + split; [|lia]. intros _. rewrite Z.mod_small by lia. do 2 f_equal. lia.
  - intros Hw. rewrite Z.mod_small by lia. reflexivity.
Qed.
Print Assumptions C64_basic_partial.
Example C64_example H oob :
  let t := TBasic (MkBasicTx (repeat 1 32) (repeat 2 20) (2 ^ 64 - 5) 15 1 42 (repeat 3 64)) in
  let t' := TBasic (MkBasicTx (repeat 1 32) (repeat 2 20) 60 15 1 42 (repeat 3 64)) in
  tx_ok t /\ tx_ok t' /\
  ApplyOutgoingTx H oob (ABasic 100) t 1 = Ok (ABasic 90) /\
  ApplyOutgoingTx H oob (ABasic 100) t' 1 = Ok (ABasic 25) /\
  ApplyOutgoingTx H oob (ABasic 74) t' 1 = Err (EOverspend 74 75).
Proof.
  cbv zeta. split; [|split; [|repeat split; reflexivity]]; cbn; unfold u64, u32, u8, array; cbn;
    repeat split; try lia; repeat constructor; unfold is_byte; lia.
Qed.
