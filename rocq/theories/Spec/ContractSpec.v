(** What a contract does over its life.  Uses the data types of Model/Wire.v and
    the specifications of accounts and ledgers. *)
From Coq Require Import ZArith List Bool.
From stdpp Require Import gmap list.
From Verif.Model Require Import Base Wire.
From Verif.Spec Require Import WireSpec AccountSpec AccountsSpec.
Open Scope Z_scope.

(** The transactions of a block; none without a body. *)
Definition block_txs (b : Block) : list Tx :=
  match bl_body b with Some body => txs_of body | None => [] end.
(** The values the blocks take from address [a]. *)
Definition paid (H : bytes -> bytes) (bs : list Block) (a : bytes) : Z :=
  sum (map (fun b => sum (map (fun t => if decide (tx_sender H t = a) then tx_value t else 0) (block_txs b))) bs).

(** The terms of contract [x] let transaction [t] take money out at a height
    (the balance of [x] plays no role). *)
Definition under_terms (H : bytes -> bytes) (x : Account) (t : Tx) (height : Z) : Prop :=
  match x, t with
  | AVesting c, TExtended y => exists p, proof_ok p /\ signer_of H p = v_owner c /\ x_proof y = proof_bytes p
  | AHTLC h, TExtended y =>
      htlc_regular H h (x_proof y) height \/ htlc_early H h (x_proof y) \/ htlc_timeout H h (x_proof y) height
  | _, _ => False
  end.
(** The account removed at [a] according to the block's prune list. *)
Definition pruned_at (b : Block) (a : bytes) (x : Account) : Prop :=
  exists body, bl_body b = Some body /\ listed (bb_pruned body) a = Some (Some x).
