(** Why a block is refused, and what it leaves behind.  Uses data types, the rules of
    Spec/RulesSpec.v and, for vesting contracts, the unlocked amount of account.go:254-265. *)
From Coq Require Import ZArith List Bool.
From stdpp Require Import gmap list.
From Verif.Model Require Import Base Wire Account.
From Verif.Spec Require Import WireSpec AccountSpec AccountsSpec RulesSpec.
Open Scope Z_scope.

(** The errors of Unmarshal and UnmarshalFull themselves. *)
Definition decode_error (e : error) : Prop :=
  e ∈ [EUnexpectedEOF; ENoLenTag; EBadOptionalFlag; EBadBool; ECannotMarshal; ENegativeLen; EBadLen; ECannotAlloc; ENotFull].

(** What an account has for a transaction, and what the transaction takes. *)
Definition available (oob : float64 -> Z) (x : Account) (height : Z) : Z :=
  match x with ABasic v => v | AVesting c => amountUnlocked oob c height | AHTLC k => h_value k end.
Definition wanted (x : Account) (t : Tx) : Z :=
  match x with ABasic _ => (tx_value t + tx_fee t) mod 2 ^ 64 | _ => tx_value t end.

(** The error [e] tells what is wrong with the proof of a transaction that spends from a contract. *)
Definition is_proof (d : bytes) (p : SignatureProof) : Prop := proof_ok p /\ d = proof_bytes p.
Definition proof_fault (H : bytes -> bytes) (x : Account) (d : bytes) (height : Z) (e : error) : Prop :=
  match x, d with
  | ABasic _, _ => False
  | AVesting c, _ =>
      (e = EBadSignature /\ exists p, is_proof d p /\ signer_of H p <> v_owner c) \/
      (decode_error e /\ ~ exists p, is_proof d p)
  | AHTLC _, [] => e = EMissingProof
  | AHTLC k, 1 :: d =>
      if h_timeout k <? height then e = EHTLCExpired
      else
        (exists alg depth root preimage rest,
           u8 alg /\ u8 depth /\ array 32 root /\ array 32 preimage /\ d = alg :: depth :: root ++ preimage ++ rest /\
           if bool_decide (alg = Algorithm (h_hash k) /\ root = Bytes (h_hash k))
           then e = EHTLCRecipientSig /\ exists p, is_proof rest p /\ signer_of H p <> h_recipient k
           else e = EHTLCHash) \/
        (decode_error e /\
         ~ exists alg depth root preimage p,
             u8 alg /\ u8 depth /\ array 32 root /\ array 32 preimage /\ proof_ok p /\ d = alg :: depth :: root ++ preimage ++ proof_bytes p)
  | AHTLC k, 2 :: d =>
      (exists p rest, proof_ok p /\ d = proof_bytes p ++ rest /\
         if bool_decide (signer_of H p = h_recipient k)
         then e = EHTLCSenderSig /\ exists q, is_proof rest q /\ signer_of H q <> h_sender k
         else e = EHTLCRecipientSig) \/
      (decode_error e /\ ~ exists p q, proof_ok p /\ proof_ok q /\ d = proof_bytes p ++ proof_bytes q)
  | AHTLC k, 3 :: d =>
      if height <=? h_timeout k then e = EHTLCNotExpired
      else
        (e = EHTLCSenderSig /\ exists p, is_proof d p /\ signer_of H p <> h_sender k) \/
        (decode_error e /\ ~ exists p, is_proof d p)
  | AHTLC _, _ :: _ => e = EHTLCProofType
  end.
(** The account [x] refuses the transaction [t] with the error [e]. *)
Definition refuses (H : bytes -> bytes) (oob : float64 -> Z) (x : Account) (t : Tx) (height : Z) (e : error) : Prop :=
  if available oob x height <? wanted x t then e = EOverspend (available oob x height) (wanted x t)
  else exists y, t = TExtended y /\ proof_fault H x (x_proof y) height e.
(** The contract creation [y] is refused with the error [e]: the data has the wrong length, or the hash
    count (after two addresses and the hash) is zero. *)
Definition creation_refused (y : ExtendedTx) (e : error) : Prop :=
  if x_recipient_type y =? 0 then e = ECreateBasic (x_recipient y)
  else if x_recipient_type y =? 1 then e = EBadVesting /\ ~ zlen (x_data y) ∈ [24; 36; 44]
  else if x_recipient_type y =? 2 then
    (zlen (x_data y) <> 78 /\ decode_error e) \/ (zlen (x_data y) = 78 /\ x_data y !! 73%nat = Some 0 /\ e = EBadHashCount)
  else e = ECreateBadType (x_recipient y) (x_recipient_type y).

(** After all debits of [l] and the credits of its part [pre]. *)
Definition after_credits (H : bytes -> bytes) (M : ledger) (l pre : list Tx) (a : bytes) : Account :=
  with_balance (acct M a) ((Balance (acct M a) - charged H l (acct M a) a + received pre a) mod 2 ^ 64).
(** After all debits and credits of [l] and the contract creations of its part [pre]; with [pre = l]
    this is [settled]. *)
Definition after_creations (H : bytes -> bytes) (M : ledger) (l pre : list Tx) (a : bytes) (x : Account) : Prop :=
  match last_creation pre a with
  | None => x = after_credits H M l l a
  | Some t => contract_from (x_recipient_type t) (x_data t) (x_value t) (Balance (after_credits H M l l a)) x
  end.
(** After all debits, credits and creations of [l] and the removal of the emptied contracts that sent one of [pre]. *)
Definition after_removals (H : bytes -> bytes) (M : ledger) (l pre : list Tx) (a : bytes) (y : Account) : Prop :=
  exists x, settled H M l a x /\ ((to_prune H pre a x /\ y = ABasic 0) \/ (~ to_prune H pre a x /\ y = x)).

(** [refused H oob M height body e M']: a block with the given height and body is refused with the error
    [e], for a fault that it has, and leaves behind the accounts [M']. *)
Inductive refused (H : bytes -> bytes) (oob : float64 -> Z) (M : ledger) (height : Z) (body : BlockBody) : error -> ledger -> Prop :=
| refused_sender_type pre t post M' :
    txs_of body = pre ++ t :: post ->
    tx_sender_type t <> 255 -> tx_sender_type t <> AccountType (acct M (tx_sender H t)) ->
    (forall a, acct M' a = after_debits H M pre a) ->
    refused H oob M height body (EAccountTypeMismatch (tx_sender_type t) (AccountType (acct M (tx_sender H t)))) M'
| refused_sender pre t post e M' :
    txs_of body = pre ++ t :: post ->
    refuses H oob (after_debits H M pre (tx_sender H t)) t height e ->
    (forall a, acct M' a = after_debits H M pre a) ->
    refused H oob M height body e M'
| refused_recipient_type pre t post M' :
    txs_of body = pre ++ t :: post ->
    tx_creates t = false -> tx_recipient_type t <> 255 -> tx_recipient_type t <> AccountType (acct M (tx_recipient t)) ->
    (forall a, acct M' a = after_credits H M (txs_of body) pre a) ->
    refused H oob M height body (EAccountTypeMismatch (tx_recipient_type t) (AccountType (acct M (tx_recipient t)))) M'
| refused_creation pre y post e M' :
    txs_of body = pre ++ TExtended y :: post ->
    tx_creates (TExtended y) = true -> creation_refused y e ->
    (forall a, after_creations H M (txs_of body) pre a (acct M' a)) ->
    refused H oob M height body e M'
| refused_prune_missing pre t post x M' :
    txs_of body = pre ++ t :: post ->
    settled H M (txs_of body) (tx_sender H t) x -> ~ is_basic x -> Balance x = 0 ->
    listed (bb_pruned body) (tx_sender H t) = None ->
    (forall a, after_removals H M (txs_of body) pre a (acct M' a)) ->
    refused H oob M height body (EPruneMissing (tx_sender H t)) M'
| refused_prune_altered pre t post x p M' :
    txs_of body = pre ++ t :: post ->
    settled H M (txs_of body) (tx_sender H t) x -> ~ is_basic x -> Balance x = 0 ->
    listed (bb_pruned body) (tx_sender H t) = Some p -> p <> Some x ->
    (forall a, after_removals H M (txs_of body) pre a (acct M' a)) ->
    refused H oob M height body (EPruneAltered (tx_sender H t)) M'
| refused_prune_early early M' :
    early <> [] ->
    (forall a, a ∈ early <-> listed (bb_pruned body) a <> None /\ forall x, settled H M (txs_of body) a x -> ~ to_prune H (txs_of body) a x) ->
    (forall a, after_removals H M (txs_of body) (txs_of body) a (acct M' a)) ->
    refused H oob M height body (EPruneEarly early) M'
| refused_miner x M' :
    after_removals H M (txs_of body) (txs_of body) (bb_miner body) x -> ~ is_basic x ->
    (forall a, after_removals H M (txs_of body) (txs_of body) a (acct M' a)) ->
    refused H oob M height body (EAccountTypeMismatch 0 (AccountType x)) M'.
