(** The rules by which a block is accepted.  Uses data types, the specifications of single accounts
    and of the effect of transactions, and, for vesting contracts, the unlocked amount of
    account.go:254-265 (property C59 says what it is). *)
From Coq Require Import ZArith List Bool.
From stdpp Require Import gmap list.
From Verif.Model Require Import Base Wire Account.
From Verif.Spec Require Import WireSpec AccountSpec AccountsSpec.
Open Scope Z_scope.

(** The account [x] lets the transaction [t] take out its amount. *)
Definition may_spend (H : bytes -> bytes) (oob : float64 -> Z) (x : Account) (t : Tx) (height : Z) : Prop :=
  match x, t with
  | ABasic v, _ => (tx_value t + tx_fee t) mod 2 ^ 64 <= v
  | AVesting c, TExtended y =>
      x_value y <= amountUnlocked oob c height /\
      exists p, proof_ok p /\ signer_of H p = v_owner c /\ x_proof y = proof_bytes p
  | AHTLC k, TExtended y =>
      x_value y <= h_value k /\
      (htlc_regular H k (x_proof y) height \/ htlc_early H k (x_proof y) \/ htlc_timeout H k (x_proof y) height)
  | _, TBasic _ => False
  end.
(** The account of [a] after the transactions [l] took their amounts out of it. *)
Definition after_debits (H : bytes -> bytes) (M : ledger) (l : list Tx) (a : bytes) : Account :=
  with_balance (acct M a) ((Balance (acct M a) - charged H l (acct M a) a) mod 2 ^ 64).

Record acceptable (H : bytes -> bytes) (oob : float64 -> Z) (M : ledger) (height : Z) (body : BlockBody) : Prop := {
  (** the genesis height has no reward *)
  rule_height : height <> 0;
  (** each sender can pay, after the transactions before; its type is as announced, or announced as 255 *)
  rule_senders pre t post :
    txs_of body = pre ++ t :: post ->
    (tx_sender_type t = 255 \/ tx_sender_type t = AccountType (acct M (tx_sender H t))) /\
    may_spend H oob (after_debits H M pre (tx_sender H t)) t height;
  (** each recipient is a basic account and announced as such, or announced as 255, or a contract is created *)
  rule_recipients t :
    t ∈ txs_of body ->
    is_basic (acct M (tx_recipient t)) /\ (tx_creates t = true \/ tx_recipient_type t = 0 \/ tx_recipient_type t = 255);
  (** contracts have valid parameters *)
  rule_creations y :
    TExtended y ∈ txs_of body -> tx_creates (TExtended y) = true ->
    exists balance x, contract_from (x_recipient_type y) (x_data y) (x_value y) balance x;
  (** the prune list names exactly the emptied contracts among the senders *)
  rule_prune a x :
    settled H M (txs_of body) a x ->
    (to_prune H (txs_of body) a x /\ listed (bb_pruned body) a = Some (Some x)) \/
    (~ to_prune H (txs_of body) a x /\ listed (bb_pruned body) a = None);
  (** the miner has a basic account *)
  rule_miner x :
    settled H M (txs_of body) (bb_miner body) x -> is_basic x \/ to_prune H (txs_of body) (bb_miner body) x
}.

(** Pushing the blocks [bs] one after the other, all accepted. *)
From Verif.Model Require Import Policy Tree Accounts.
Inductive chain (H : bytes -> bytes) (oob : float64 -> Z) : state -> cache -> list Block -> state -> cache -> Prop :=
| chain_nil s c : chain H oob s c [] s c
| chain_cons s c b bs s1 c1 s' c' :
    block_ok b -> tree_Push H oob s c b = (Ok tt, s1, c1) -> chain H oob s1 c1 bs s' c' -> chain H oob s c (b :: bs) s' c'.
(** Blocks with the heights h, h + 1, ... *)
Fixpoint heights_from (h : Z) (bs : list Block) : Prop :=
  match bs with
  | [] => True
  | b :: bs' => bh_height (bl_header b) = h /\ heights_from (h + 1) bs'
  end.
(** A transaction announced as sent by a basic account, or by an HTLC without fee; value + fee fits. *)
Definition fee_paid (t : Tx) : Prop :=
  no_wrap t /\ (tx_sender_type t = 0 \/ tx_sender_type t = 2 /\ tx_fee t = 0).
(** All fees of transactions announced as sent by contracts. *)
Definition contract_fees (bs : list Block) : Z :=
  sum (map (fun b => match bl_body b with
    | Some body => sum (map (fun t => if tx_sender_type t =? 0 then 0 else tx_fee t) (txs_of body))
    | None => 0
    end) bs).
(** Within no block does a vesting contract send more than it has at the start of the block. *)
Definition vesting_covered (H : bytes -> bytes) (oob : float64 -> Z) (s : state) (c : cache) (bs : list Block) : Prop :=
  forall before b after s1 c1 body a x,
    bs = before ++ b :: after -> chain H oob s c before s1 c1 -> bl_body b = Some body ->
    array 20 a -> tree_get_account s1 a = Ok (AVesting x) ->
    sum (map tx_value (filter (fun t => tx_sender H t = a) (txs_of body))) <= v_value x.
