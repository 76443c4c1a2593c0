(** What applying a block looks at: blocks that differ only in parts that are ignored.
    Uses only data types and the views of a transaction in Spec/AccountSpec.v. *)
From Coq Require Import ZArith List Bool.
Import ListNotations.
From Verif.Model Require Import Base Wire.
From Verif.Spec Require Import WireSpec AccountSpec.
Open Scope Z_scope.

Definition tx_data (t : Tx) : bytes := match t with TBasic _ => [] | TExtended x => x_data x end.

(** Proofs with the same key and path: the signature may be anything. *)
Definition resigned (p p' : SignatureProof) : Prop :=
  proof_ok p /\ proof_ok p' /\ PublicKey p = PublicKey p' /\ Path p = Path p'.
(** Proof fields of an extended transaction sent by an account of type [typ] that differ only in
    signatures (and, when an HTLC is claimed, in the pre-image and the depth). *)
Inductive same_keys : Z -> bytes -> bytes -> Prop :=
| keys_basic d d' : same_keys 0 d d'
| keys_same typ d : same_keys typ d d
| keys_vesting p p' : resigned p p' -> same_keys 1 (proof_bytes p) (proof_bytes p')
| keys_regular alg depth depth' root pre pre' p p' :
    u8 alg -> u8 depth -> u8 depth' -> array 32 root -> array 32 pre -> array 32 pre' -> resigned p p' ->
    same_keys 2 (1 :: alg :: depth :: root ++ pre ++ proof_bytes p) (1 :: alg :: depth' :: root ++ pre' ++ proof_bytes p')
| keys_early p p' q q' :
    resigned p p' -> resigned q q' -> same_keys 2 (2 :: proof_bytes p ++ proof_bytes q) (2 :: proof_bytes p' ++ proof_bytes q')
| keys_timeout p p' : resigned p p' -> same_keys 2 (3 :: proof_bytes p) (3 :: proof_bytes p').
Definition tx_same_keys (t t' : Tx) : Prop :=
  match t, t' with
  | TExtended x, TExtended x' => same_keys (x_sender_type x) (x_proof x) (x_proof x')
  | _, _ => True
  end.
(** Transactions that agree in parties, amounts, the creation flag, the data of a contract creation, and
    keys.  Their signatures, validity start heights, networks, other flags, data of transfers, and formats
    (basic or extended) may differ. *)
Definition same_effect (H : bytes -> bytes) (t t' : Tx) : Prop :=
  tx_sender H t = tx_sender H t' /\ tx_sender_type t = tx_sender_type t' /\
  tx_recipient t = tx_recipient t' /\ tx_recipient_type t = tx_recipient_type t' /\
  tx_value t = tx_value t' /\ tx_fee t = tx_fee t' /\ tx_creates t = tx_creates t' /\
  (tx_creates t = true -> tx_data t = tx_data t') /\ tx_same_keys t t'.
(** Blocks that agree in height, miner, prune list and, in this sense, transactions.  All other header fields
    (version, previous hash, interlink hash, body hash, accounts hash, difficulty, timestamp, nonce), the
    interlink and the extra data may differ. *)
Definition same_block (H : bytes -> bytes) (b b' : Block) : Prop :=
  bh_height (bl_header b) = bh_height (bl_header b') /\
  match bl_body b, bl_body b' with
  | Some d, Some d' =>
      bb_miner d = bb_miner d' /\ bb_pruned d = bb_pruned d' /\
      Forall2 (fun t t' => match t, t' with
                           | Some t, Some t' => same_effect H t t'
                           | None, None => True
                           | _, _ => False
                           end) (bb_txs d) (bb_txs d')
  | None, None => True
  | _, _ => False
  end.
