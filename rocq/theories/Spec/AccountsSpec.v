(** The accounts as a ledger, what a block does to it, and histories of calls
    on an Accounts object.  The ledger part does not use the model's functions. *)
From Coq Require Import ZArith List Bool.
From stdpp Require Import gmap list.
From Verif.Model Require Import Base Wire Policy Account Tree Accounts TreeCrash.
From Verif.Spec Require Import TreeSpec TreeHistory WireSpec AccountSpec.
Open Scope Z_scope.

(** ** Ledgers *)
Notation ledger := (gmap bytes Account).
(** An address without an entry has the empty basic account. *)
Definition acct (M : ledger) (a : bytes) : Account := default (ABasic 0) (M !! a).
Definition ledger_ok (M : ledger) : Prop :=
  forall a x, M !! a = Some x -> array 20 a /\ account_ok x /\ x <> ABasic 0.
(** The sum of all balances. *)
Definition total (M : ledger) : Z := foldr Z.add 0 (map (fun kv => Balance kv.2) (map_to_list M)).

(** The entries of the state tree: the encoded accounts. *)
Definition enc_ledger (M : ledger) : entries := account_bytes <$> M.

(** ** The transactions of a block *)
Definition txs_of (b : BlockBody) : list Tx :=
  flat_map (fun t => match t with Some t => [t] | None => [] end) (bb_txs b).
Definition sum (l : list Z) : Z := foldr Z.add 0 l.
(** What the transactions [l] credit to address [a]; all their fees. *)
Definition received (l : list Tx) (a : bytes) : Z :=
  sum (map (fun t => if decide (tx_recipient t = a) then tx_value t else 0) l).
Definition fees (l : list Tx) : Z := sum (map tx_fee l).
(** What they debit with the sender's account being [x]: contracts pay no fees. *)
Definition charge (x : Account) (t : Tx) : Z :=
  match x with ABasic _ => tx_value t + tx_fee t | _ => tx_value t end.
Definition charged (H : bytes -> bytes) (l : list Tx) (x : Account) (a : bytes) : Z :=
  sum (map (fun t => if decide (tx_sender H t = a) then charge x t else 0) l).
(** Values plus fees sent by [a]. *)
Definition sent (H : bytes -> bytes) (l : list Tx) (a : bytes) : Z :=
  sum (map (fun t => if decide (tx_sender H t = a) then tx_value t + tx_fee t else 0) l).
(** The last contract-creating transaction to [a]. *)
Fixpoint last_creation (l : list Tx) (a : bytes) : option ExtendedTx :=
  match l with
  | [] => None
  | t :: l' =>
      match last_creation l' a with
      | Some x => Some x
      | None => match t with
                | TExtended x => if Z.odd (x_flags x) && bool_decide (x_recipient x = a) then Some x else None
                | TBasic _ => None
                end
      end
  end.

(** value + fee fits into a uint64. *)
Definition no_wrap (t : Tx) : Prop := tx_value t + tx_fee t < 2 ^ 64.
(** Fees that nobody pays: those of transactions sent by contracts. *)
Definition unpaid_fees (H : bytes -> bytes) (M : ledger) (l : list Tx) : Z :=
  sum (map (fun t => match acct M (tx_sender H t) with ABasic _ => 0 | _ => tx_fee t end) l).
(** A refusal because more was to be spent than available. *)
Definition overspends (o : res unit) : Prop := exists available spend, o = Err (EOverspend available spend) /\ available < spend.
(** A transfer between basic accounts. *)
Definition plain_transfer (H : bytes -> bytes) (M : ledger) (t : Tx) : Prop :=
  tx_sender_type t = 0 /\ tx_recipient_type t = 0 /\ tx_creates t = false /\ no_wrap t /\
  is_basic (acct M (tx_sender H t)) /\ is_basic (acct M (tx_recipient t)).

(** [settled H M l a x]: when the transactions [l] have been applied to [M], [a]
    has account [x] (uint64 arithmetic): the balance is the old one minus the debits
    plus the credits; a contract creation replaces the account by the contract. *)
Definition settled (H : bytes -> bytes) (M : ledger) (l : list Tx) (a : bytes) (x : Account) : Prop :=
  let balance := (Balance (acct M a) - charged H l (acct M a) a + received l a) mod 2 ^ 64 in
  match last_creation l a with
  | None => x = with_balance (acct M a) balance
  | Some t => contract_from (x_recipient_type t) (x_data t) (x_value t) balance x
  end.
(** A sender whose account is an empty contract has to be pruned. *)
Definition to_prune (H : bytes -> bytes) (l : list Tx) (a : bytes) (x : Account) : Prop :=
  (exists t, t ∈ l /\ tx_sender H t = a) /\ ~ is_basic x /\ Balance x = 0.
(** The account listed for [a] in a prune list: the last one. *)
Definition listed (l : list AccountPruned) (a : bytes) : option (option Account) :=
  foldl (fun r p => if decide (p_address p = a) then Some (p_account p) else r) None l.

(** The addresses a block mentions. *)
Definition is_party (H : bytes -> bytes) (b : BlockBody) (a : bytes) : Prop :=
  a = bb_miner b \/ exists t, t ∈ txs_of b /\ (tx_sender H t = a \/ tx_recipient t = a).

Definition block_ok (b : Block) : Prop :=
  header_ok (bl_header b) /\ forall body, bl_body b = Some body -> body_ok body.

(** ** Histories of an Accounts object over a Patricia-Merkle tree, including calls
    to package policy by others and changes of the tree's store. *)
Section History.
  Variable H : bytes -> bytes.
  Variable oob : float64 -> Z.
  Inductive areach : state -> cache -> Prop :=
  | areach_new : areach new_tree initial_cache
  | areach_put s c a x s' :
      areach s c -> array 20 a -> (forall y, x = Some y -> account_ok y) ->
      tree_put_account H s a x = Ok s' -> areach s' c
  | areach_push s c b o s' c' :
      areach s c -> block_ok b -> tree_Push H oob s c b = (o, s', c') -> areach s' c'
  | areach_policy s c call h :
      areach s c -> u32 h -> call = CallSupplyAfter h \/ call = CallBlockReward h -> areach s (fst (policy_step c call))
  | areach_open s c : areach s c -> areach (open_overlay s) c
  | areach_flush s c lower d order st :
      areach s c -> sto s = OverlayStore lower (Some d) -> order ≡ₚ map_to_list d ->
      Flush order (sto s) = Ok st -> areach (with_store s st) c
  | areach_interrupted s c lower d order n st :
      areach s c -> sto s = OverlayStore lower (Some d) -> order ≡ₚ map_to_list d ->
      FlushUpTo n order (sto s) = Ok st -> areach (with_store s st) c
  | areach_close s c lower :
      areach s c -> sto s = OverlayStore lower (Some ∅) -> areach (with_store s lower) c.
End History.

(** [M] lists the accounts of the tree [s]: what GetAccount returns. *)
Definition lists (s : state) (M : ledger) : Prop :=
  ledger_ok M /\ forall a, array 20 a -> tree_get_account s a = Ok (acct M a).

(** ** Calls on an Accounts object over any store *)
Inductive call := CGet (a : bytes) | CPut (a : bytes) (x : option Account) | CPush (b : Block).
Definition call_ok (o : call) : Prop :=
  match o with
  | CGet a => array 20 a
  | CPut a x => array 20 a /\ forall y, x = Some y -> account_ok y
  | CPush b => block_ok b
  end.
Inductive answer := AnGet (r : res Account) | AnPut (r : res unit) | AnPush (r : res unit).
Section Calls.
  Context {T : Type} (get : T -> bytes -> res Account) (put : T -> bytes -> option Account -> res T).
  Context (push : T -> cache -> Block -> res unit * T * cache).
  (** One call: its answer, and the state and policy memo it leaves. *)
  Definition do_call (s : T) (c : cache) (o : call) : answer * T * cache :=
    match o with
    | CGet a => (AnGet (get s a), s, c)
    | CPut a x => match put s a x with
                  | Ok s' => (AnPut (Ok tt), s', c)
                  | Err e => (AnPut (Err e), s, c) | Panic => (AnPut Panic, s, c) | OutOfFuel => (AnPut OutOfFuel, s, c)
                  end
    | CPush b => let '(r, s', c') := push s c b in (AnPush r, s', c')
    end.
  Fixpoint do_calls (s : T) (c : cache) (l : list call) : list answer * T * cache :=
    match l with
    | [] => ([], s, c)
    | o :: l' => let '(r, s', c') := do_call s c o in
                 let '(rs, s'', c'') := do_calls s' c' l' in (r :: rs, s'', c'')
    end.
End Calls.
