(** What applying a block answers, exactly: the first fault in the order in which the block is
    checked, and whether it is reported or crashes.  Uses data types and the specifications of accounts,
    rules and faults. *)
From Coq Require Import ZArith List Bool.
From stdpp Require Import gmap list.
From Verif.Model Require Import Base Wire Account.
From Verif.Spec Require Import WireSpec AccountSpec AccountsSpec RulesSpec FaultSpec.
Open Scope Z_scope.

(** A proof whose path has 249 to 255 nodes: such proofs are read, without the bits of the path. *)
Definition long_proof (d : bytes) : Prop :=
  exists pub nodes sig, array 32 pub /\ Forall (array 32) nodes /\ array 64 sig /\ 249 <= zlen nodes < 256 /\
    d = pub ++ zlen nodes :: List.concat nodes ++ sig.
Definition readable (d : bytes) : Prop := (exists p, is_proof d p) \/ long_proof d.
Definition undecodable (r : res unit) : Prop := exists e, decode_error e /\ r = Err e.

(** The answer [r] to the question whether [d] is a proof of [who]; [wrong] is the error for another signer. *)
Definition signed_by (H : bytes -> bytes) (d who : bytes) (wrong : error) (r : res unit) : Prop :=
  (exists p, is_proof d p /\ r = if decide (signer_of H p = who) then Ok tt else Err wrong) \/
  (long_proof d /\ r = Panic) \/
  (~ readable d /\ undecodable r).
(** The answer [r] of an HTLC to a proof. *)
Definition htlc_answer (H : bytes -> bytes) (k : HTLC) (proof : bytes) (height : Z) (r : res unit) : Prop :=
  match proof with
  | [] => r = Err EMissingProof
  | 1 :: d =>
      if h_timeout k <? height then r = Err EHTLCExpired
      else
        (exists alg depth root preimage rest,
           u8 alg /\ u8 depth /\ array 32 root /\ array 32 preimage /\ readable rest /\ d = alg :: depth :: root ++ preimage ++ rest /\
           if decide (alg = Algorithm (h_hash k) /\ root = Bytes (h_hash k)) then signed_by H rest (h_recipient k) EHTLCRecipientSig r
           else r = Err EHTLCHash) \/
        ((~ exists alg depth root preimage rest,
             u8 alg /\ u8 depth /\ array 32 root /\ array 32 preimage /\ readable rest /\ d = alg :: depth :: root ++ preimage ++ rest) /\
         undecodable r)
  | 2 :: d =>
      (exists d1 d2, readable d1 /\ readable d2 /\ d = d1 ++ d2 /\
         ((signed_by H d1 (h_recipient k) EHTLCRecipientSig r /\ r <> Ok tt) \/
          (signed_by H d1 (h_recipient k) EHTLCRecipientSig (Ok tt) /\ signed_by H d2 (h_sender k) EHTLCSenderSig r))) \/
      ((~ exists d1 d2, readable d1 /\ readable d2 /\ d = d1 ++ d2) /\ undecodable r)
  | 3 :: d =>
      if height <=? h_timeout k then r = Err EHTLCNotExpired
      else signed_by H d (h_sender k) EHTLCSenderSig r
  | _ :: _ => r = Err EHTLCProofType
  end.
(** The answer [r] of the account [x] to the transaction [t] that spends from it. *)
Definition spend_answer (H : bytes -> bytes) (oob : float64 -> Z) (x : Account) (t : Tx) (height : Z) (r : res unit) : Prop :=
  match x, t with
  | (AVesting _ | AHTLC _), TBasic _ => r = Panic
  | _, _ =>
      if available oob x height <? wanted x t then r = Err (EOverspend (available oob x height) (wanted x t))
      else
        match x, t with
        | AVesting c, TExtended y => signed_by H (x_proof y) (v_owner c) EBadSignature r
        | AHTLC k, TExtended y => htlc_answer H k (x_proof y) height r
        | _, _ => r = Ok tt
        end
  end.

(** The checks that precede a given one. *)
Definition senders_pass (H : bytes -> bytes) (oob : float64 -> Z) (M : ledger) (height : Z) (l : list Tx) : Prop :=
  forall pre t post, l = pre ++ t :: post ->
    (tx_sender_type t = 255 \/ tx_sender_type t = AccountType (acct M (tx_sender H t))) /\
    may_spend H oob (after_debits H M pre (tx_sender H t)) t height.
Definition recipients_pass (M : ledger) (l : list Tx) : Prop :=
  forall t, t ∈ l -> is_basic (acct M (tx_recipient t)) /\ (tx_creates t = true \/ tx_recipient_type t = 0 \/ tx_recipient_type t = 255).
Definition creations_pass (l : list Tx) : Prop :=
  forall y, TExtended y ∈ l -> tx_creates (TExtended y) = true ->
    exists balance x, contract_from (x_recipient_type y) (x_data y) (x_value y) balance x.
Definition removals_pass (H : bytes -> bytes) (M : ledger) (body : BlockBody) (l : list Tx) : Prop :=
  forall a x, settled H M (txs_of body) a x -> to_prune H l a x -> listed (bb_pruned body) a = Some (Some x).
Definition no_early_removals (H : bytes -> bytes) (M : ledger) (body : BlockBody) : Prop :=
  forall a x, settled H M (txs_of body) a x -> ~ to_prune H (txs_of body) a x -> listed (bb_pruned body) a = None.

(** [push_answer H oob M height body r]: with the accounts [M], a block with the given height and body is answered by [r]. *)
Inductive push_answer (H : bytes -> bytes) (oob : float64 -> Z) (M : ledger) (height : Z) (body : BlockBody) : res unit -> Prop :=
| answer_accept : acceptable H oob M height body -> push_answer H oob M height body (Ok tt)
| answer_sender_type pre t post :
    txs_of body = pre ++ t :: post -> senders_pass H oob M height pre ->
    tx_sender_type t <> 255 -> tx_sender_type t <> AccountType (acct M (tx_sender H t)) ->
    push_answer H oob M height body (Err (EAccountTypeMismatch (tx_sender_type t) (AccountType (acct M (tx_sender H t)))))
| answer_sender pre t post r :
    txs_of body = pre ++ t :: post -> senders_pass H oob M height pre ->
    tx_sender_type t = 255 \/ tx_sender_type t = AccountType (acct M (tx_sender H t)) ->
    spend_answer H oob (after_debits H M pre (tx_sender H t)) t height r -> r <> Ok tt ->
    push_answer H oob M height body r
| answer_recipient_type pre t post :
    senders_pass H oob M height (txs_of body) ->
    txs_of body = pre ++ t :: post -> recipients_pass M pre ->
    tx_creates t = false -> tx_recipient_type t <> 255 -> tx_recipient_type t <> AccountType (acct M (tx_recipient t)) ->
    push_answer H oob M height body (Err (EAccountTypeMismatch (tx_recipient_type t) (AccountType (acct M (tx_recipient t)))))
| answer_recipient pre t post :
    senders_pass H oob M height (txs_of body) ->
    txs_of body = pre ++ t :: post -> recipients_pass M pre ->
    tx_creates t = true \/ tx_recipient_type t = 255 \/ tx_recipient_type t = AccountType (acct M (tx_recipient t)) ->
    ~ is_basic (acct M (tx_recipient t)) ->
    push_answer H oob M height body Panic
| answer_creation pre y post e :
    senders_pass H oob M height (txs_of body) -> recipients_pass M (txs_of body) ->
    txs_of body = pre ++ TExtended y :: post -> creations_pass pre ->
    tx_creates (TExtended y) = true -> creation_refused y e ->
    push_answer H oob M height body (Err e)
| answer_prune_missing pre t post x :
    senders_pass H oob M height (txs_of body) -> recipients_pass M (txs_of body) -> creations_pass (txs_of body) ->
    txs_of body = pre ++ t :: post -> removals_pass H M body pre ->
    settled H M (txs_of body) (tx_sender H t) x -> ~ is_basic x -> Balance x = 0 -> listed (bb_pruned body) (tx_sender H t) = None ->
    push_answer H oob M height body (Err (EPruneMissing (tx_sender H t)))
| answer_prune_altered pre t post x p :
    senders_pass H oob M height (txs_of body) -> recipients_pass M (txs_of body) -> creations_pass (txs_of body) ->
    txs_of body = pre ++ t :: post -> removals_pass H M body pre ->
    settled H M (txs_of body) (tx_sender H t) x -> ~ is_basic x -> Balance x = 0 ->
    listed (bb_pruned body) (tx_sender H t) = Some p -> p <> Some x ->
    push_answer H oob M height body (Err (EPruneAltered (tx_sender H t)))
| answer_prune_early early :
    senders_pass H oob M height (txs_of body) -> recipients_pass M (txs_of body) -> creations_pass (txs_of body) ->
    removals_pass H M body (txs_of body) ->
    early <> [] ->
    (forall a, a ∈ early <-> listed (bb_pruned body) a <> None /\ forall x, settled H M (txs_of body) a x -> ~ to_prune H (txs_of body) a x) ->
    push_answer H oob M height body (Err (EPruneEarly early))
| answer_height :
    senders_pass H oob M height (txs_of body) -> recipients_pass M (txs_of body) -> creations_pass (txs_of body) ->
    removals_pass H M body (txs_of body) -> no_early_removals H M body ->
    height = 0 -> push_answer H oob M height body Panic
| answer_miner x :
    senders_pass H oob M height (txs_of body) -> recipients_pass M (txs_of body) -> creations_pass (txs_of body) ->
    removals_pass H M body (txs_of body) -> no_early_removals H M body -> height <> 0 ->
    settled H M (txs_of body) (bb_miner body) x -> ~ is_basic x -> ~ to_prune H (txs_of body) (bb_miner body) x ->
    push_answer H oob M height body (Err (EAccountTypeMismatch 0 (AccountType x))).

(** Which of the errors of the decoder is reported, and the order of a list of addresses, are left open. *)
Definition same_answer (r r' : res unit) : Prop :=
  r = r' \/ (undecodable r /\ undecodable r') \/
  exists l l', r = Err (EPruneEarly l) /\ r' = Err (EPruneEarly l') /\ forall a, a ∈ l <-> a ∈ l'.

(** [crashed H oob M height body M']: a block with the given height and body crashes, for a reason that it has, and leaves
    behind the accounts [M']. *)
Inductive crashed (H : bytes -> bytes) (oob : float64 -> Z) (M : ledger) (height : Z) (body : BlockBody) (M' : ledger) : Prop :=
| crashed_sender pre t post :
    txs_of body = pre ++ t :: post -> senders_pass H oob M height pre ->
    tx_sender_type t = 255 \/ tx_sender_type t = AccountType (acct M (tx_sender H t)) ->
    spend_answer H oob (after_debits H M pre (tx_sender H t)) t height Panic ->
    (forall a, acct M' a = after_debits H M pre a) ->
    crashed H oob M height body M'
| crashed_recipient pre t post :
    senders_pass H oob M height (txs_of body) ->
    txs_of body = pre ++ t :: post -> recipients_pass M pre ->
    tx_creates t = true \/ tx_recipient_type t = 255 \/ tx_recipient_type t = AccountType (acct M (tx_recipient t)) ->
    ~ is_basic (acct M (tx_recipient t)) ->
    (forall a, acct M' a = after_credits H M (txs_of body) pre a) ->
    crashed H oob M height body M'
| crashed_height :
    senders_pass H oob M height (txs_of body) -> recipients_pass M (txs_of body) -> creations_pass (txs_of body) ->
    removals_pass H M body (txs_of body) -> no_early_removals H M body -> height = 0 ->
    (forall a, after_removals H M (txs_of body) (txs_of body) a (acct M' a)) ->
    crashed H oob M height body M'.
