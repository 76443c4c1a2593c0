(** What a signature scheme is, what a wallet signs.  Uses only data types and the
    wire formats of WireSpec.v. *)
From Coq Require Import ZArith List Bool.
Import ListNotations.
From Verif.Model Require Import Base Beserial Wire Wallet.
From Verif.Spec Require Import BeserialSpec WireSpec AccountSpec.
Open Scope Z_scope.

(** A signature scheme: 32-byte public keys, 64-byte signatures; a private key is the
    seed followed by the public key; signatures made with it verify. *)
Definition scheme_ok (ed_public : bytes -> bytes) (ed_sign : bytes -> bytes -> bytes) (ed_verify : bytes -> bytes -> bytes -> bool) : Prop :=
  (forall seed, array 32 seed -> array 32 (ed_public seed)) /\
  (forall key m, array 64 (ed_sign key m)) /\
  (forall seed m, array 32 seed -> ed_verify (ed_public seed) m (ed_sign (seed ++ ed_public seed) m) = true).

Definition tx_data (t : Tx) : bytes := match t with TBasic _ => [] | TExtended x => x_data x end.
Definition tx_flags (t : Tx) : Z := match t with TBasic _ => 0 | TExtended x => x_flags x end.
Definition tx_start (t : Tx) : Z := match t with TBasic b => b_height b | TExtended x => x_height x end.
Definition tx_network (t : Tx) : Z := match t with TBasic b => b_network b | TExtended x => x_network x end.
(** The byte string that a transaction's signature is about. *)
Definition signed_bytes (H : bytes -> bytes) (t : Tx) : bytes :=
  be 2 (zlen (tx_data t)) ++ tx_data t ++ tx_sender H t ++ be 1 (tx_sender_type t) ++ tx_recipient t ++
  be 1 (tx_recipient_type t) ++ be 8 (tx_value t) ++ be 8 (tx_fee t) ++ be 4 (tx_start t) ++ be 1 (tx_network t) ++
  be 1 (tx_flags t).

Definition with_proof (x : ExtendedTx) (proof : bytes) : ExtendedTx :=
  MkExtendedTx (x_data x) (x_sender x) (x_sender_type x) (x_recipient x) (x_recipient_type x) (x_value x) (x_fee x)
    (x_height x) (x_network x) (x_flags x) proof.
Definition with_signature (b : BasicTx) (sig : bytes) : BasicTx :=
  MkBasicTx (b_pubkey b) (b_recipient b) (b_value b) (b_fee b) (b_height b) (b_network b) sig.

(** A peer address as announced: protocol, services and time stamp in range, 32-byte key, 64-byte signature. *)
Definition peer_ok (p : PeerAddress) : Prop :=
  let h := pa_header p in
  u8 (pa_protocol h) /\ u32 (pa_services h) /\ u64 (pa_timestamp h) /\ array 32 (pa_pubkey h) /\ array 64 (pa_signature h).

(** A wallet for [seed]: derived from it or generated with it, and then used. *)
Inductive wallet_for (H : bytes -> bytes) (ed_public : bytes -> bytes) (seed : bytes) : Basic -> Prop :=
| wallet_derived w : DeriveBasic ed_public seed = Ok w -> wallet_for H ed_public seed w
| wallet_generated w : GenerateBasic ed_public (Some seed) = Ok w -> wallet_for H ed_public seed w
| wallet_used w a w' : wallet_for H ed_public seed w -> GetAddress H w = Ok (a, w') -> wallet_for H ed_public seed w'.

(** A transaction as a Go program can build it: every field within its Go type, data and
    proof of any length. *)
Definition memory_tx (t : Tx) : Prop :=
  match t with
  | TBasic b => tx_ok (TBasic b)
  | TExtended x =>
      bytes_ok (x_data x) /\ array 20 (x_sender x) /\ u8 (x_sender_type x) /\ array 20 (x_recipient x) /\ u8 (x_recipient_type x) /\
      u64 (x_value x) /\ u64 (x_fee x) /\ u32 (x_height x) /\ u8 (x_network x) /\ u8 (x_flags x) /\ bytes_ok (x_proof x)
  end.
