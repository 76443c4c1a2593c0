(** What a single account may do.  Uses only the data types of Model/Wire.v. *)
From Coq Require Import ZArith List Bool.
Import ListNotations.
From Verif.Model Require Import Base Wire.
From Verif.Spec Require Import WireSpec.
Open Scope Z_scope.

(** A hash function with 32-byte results. *)
Definition hash_fn (H : bytes -> bytes) : Prop := forall x, array 32 (H x).

(** The parts of a transaction. *)
Definition tx_value (t : Tx) : Z := match t with TBasic b => b_value b | TExtended x => x_value x end.
Definition tx_fee (t : Tx) : Z := match t with TBasic b => b_fee b | TExtended x => x_fee x end.
(** The sender of a basic transaction is the address of its public key. *)
Definition tx_sender (H : bytes -> bytes) (t : Tx) : bytes :=
  match t with TBasic b => firstn 20 (H (b_pubkey b)) | TExtended x => x_sender x end.
Definition tx_sender_type (t : Tx) : Z := match t with TBasic _ => 0 | TExtended x => x_sender_type x end.
Definition tx_recipient (t : Tx) : bytes := match t with TBasic b => b_recipient b | TExtended x => x_recipient x end.
Definition tx_recipient_type (t : Tx) : Z := match t with TBasic _ => 0 | TExtended x => x_recipient_type x end.
(** The contract creation flag is the lowest bit of the flags. *)
Definition tx_creates (t : Tx) : bool := match t with TBasic _ => false | TExtended x => Z.odd (x_flags x) end.

(** The same account with another balance. *)
Definition with_balance (a : Account) (v : Z) : Account :=
  match a with
  | ABasic _ => ABasic v
  | AVesting c => AVesting (MkVesting v (v_owner c) (v_start c) (v_step_blocks c) (v_step_amount c) (v_total c))
  | AHTLC h => AHTLC (MkHTLC v (h_sender h) (h_recipient h) (h_hash h) (h_count h) (h_timeout h) (h_total h))
  end.
Definition is_basic (a : Account) : Prop := exists v, a = ABasic v.

(** What a vesting contract has unlocked at a height: nothing up to its start;
    then one step amount for every full step (everything without steps). *)
Definition vested_by_steps (c : Vesting) (height : Z) : Z :=
  if height <=? v_start c then 0
  else if (v_step_blocks c =? 0) || (v_step_amount c =? 0) then v_value c
  else (height - v_start c) / v_step_blocks c * v_step_amount c.

(** An HTLC releases funds: with the hash (and a pre-image field) and the
    recipient's proof up to the timeout; with both parties' proofs; with the
    sender's proof after the timeout. *)
Definition htlc_regular (H : bytes -> bytes) (h : HTLC) (proof : bytes) (height : Z) : Prop :=
  exists depth preimage p,
    height <= h_timeout h /\ u8 depth /\ array 32 preimage /\ proof_ok p /\ signer_of H p = h_recipient h /\
    proof = 1 :: Algorithm (h_hash h) :: depth :: Bytes (h_hash h) ++ preimage ++ proof_bytes p.
Definition htlc_early (H : bytes -> bytes) (h : HTLC) (proof : bytes) : Prop :=
  exists p q,
    proof_ok p /\ proof_ok q /\ signer_of H p = h_recipient h /\ signer_of H q = h_sender h /\
    proof = 2 :: proof_bytes p ++ proof_bytes q.
Definition htlc_timeout (H : bytes -> bytes) (h : HTLC) (proof : bytes) (height : Z) : Prop :=
  exists p, h_timeout h < height /\ proof_ok p /\ signer_of H p = h_sender h /\ proof = 3 :: proof_bytes p.

(** Contract creation data: vesting in three sizes, HTLC. *)
Definition vesting_from (data : bytes) (value balance : Z) (c : Vesting) : Prop :=
  v_value c = balance /\ array 20 (v_owner c) /\ u32 (v_start c) /\ u32 (v_step_blocks c) /\ u64 (v_step_amount c) /\ u64 (v_total c) /\
  ((data = v_owner c ++ be 4 (v_step_blocks c) /\ v_start c = 0 /\ v_step_amount c = value /\ v_total c = value) \/
   (data = v_owner c ++ be 4 (v_start c) ++ be 4 (v_step_blocks c) ++ be 8 (v_step_amount c) /\ v_total c = value) \/
   (data = v_owner c ++ be 4 (v_start c) ++ be 4 (v_step_blocks c) ++ be 8 (v_step_amount c) ++ be 8 (v_total c))).
Definition htlc_from (data : bytes) (value balance : Z) (h : HTLC) : Prop :=
  h_value h = balance /\ array 20 (h_sender h) /\ array 20 (h_recipient h) /\ hash_ok (h_hash h) /\ u8 (h_count h) /\
  u32 (h_timeout h) /\ h_total h = value /\ h_count h <> 0 /\
  data = h_sender h ++ h_recipient h ++ (Algorithm (h_hash h) :: Bytes (h_hash h)) ++ be 1 (h_count h) ++ be 4 (h_timeout h).
(** [a] is a contract of type [typ] with the parameters in [data]. *)
Definition contract_from (typ : Z) (data : bytes) (value balance : Z) (a : Account) : Prop :=
  (typ = 1 /\ exists c, a = AVesting c /\ vesting_from data value balance c) \/
  (typ = 2 /\ exists h, a = AHTLC h /\ htlc_from data value balance h).
