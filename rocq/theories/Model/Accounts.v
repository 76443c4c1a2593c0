(** Model of accounts/accounts.go.

    The methods are written over an abstract state [T] with the two operations
    they use, GetAccount and PutAccount; below, these are instantiated with a
    store of byte strings with GetEntry and PutEntry, and that with PMTree.
    All operations return the new state also when they fail: the code has no
    rollback.  The memo table of package policy is part of the state. *)
From Coq Require Import ZArith List Lia Bool.
From stdpp Require Import gmap list.
From Verif.Model Require Import Base Beserial Wire Policy Account Nibbles Tree.
Open Scope Z_scope.

(** wire/account.go:72 *)
Definition InitialAccount : Account := ABasic 0.
(** wire/account.go:28 *)
Definition AccountUnknown : Z := 255.
(** content.Flags & wire.TxFlagContractCreation != 0, wire/tx.go:33 *)
Definition creates_contract (c : TxContent) : bool := negb (Z.land (c_flags c) 1 =? 0).

Section Accounts.
  Variable H : bytes -> bytes.
  Variable oob : float64 -> Z.
  Variable T : Type.
  (** GetAccount; PutAccount ([None] is nil). *)
  Variable get : T -> bytes -> res Account.
  Variable put : T -> bytes -> option Account -> res T.

  (** A statement sequence: an outcome and the state it leaves. *)
  Definition step (X : Type) : Type := T -> res X * T.
  Definition done {X} (x : X) : step X := fun s => (Ok x, s).
  Definition stop {X} (r : res X) : step X := fun s => (r, s).
  Definition andthen {X Y} (m : step X) (f : X -> step Y) : step Y :=
    fun s => match m s with
             | (Ok x, s') => f x s'
             | (Err e, s') => (Err e, s')
             | (Panic, s') => (Panic, s')
             | (OutOfFuel, s') => (OutOfFuel, s')
             end.
  Notation "'do!' x '<-' e ';' k" := (andthen e (fun x => k))
    (at level 200, x pattern, e at level 100, k at level 200, right associativity).
  Definition get_account (a : bytes) : step Account := fun s => (get s a, s).
  (** If the store panics it is left as it was before the call. *)
  Definition put_account (a : bytes) (acc : option Account) : step unit := fun s =>
    match put s a acc with
    | Ok s' => (Ok tt, s')
    | Err e => (Err e, s)
    | Panic => (Panic, s)
    | OutOfFuel => (OutOfFuel, s)
    end.
  Fixpoint for_txs (f : Tx -> step unit) (txs : list (option Tx)) : step unit :=
    match txs with
    | [] => done tt
    | None :: _ => stop Panic (* method call on a nil interface *)
    | Some t :: txs' => do! _ <- f t; for_txs f txs'
    end.

  (** accounts.go:241-255 *)
  Definition pushTx (address : bytes) (accType : Z) (tx : Tx) (height : Z) (op : Account -> Tx -> Z -> res Account) : step unit :=
    do! account <- get_account address;
    if negb (accType =? AccountUnknown) && negb (accType =? AccountType account) then stop (Err (EAccountTypeMismatch accType (AccountType account)))
    else
      do! newAccount <- stop (op account tx height);
      put_account address (Some newAccount).
  (** accounts.go:101-109, 40-44 *)
  Definition push_sender (height : Z) (t : Tx) : step unit :=
    let content := AsTxContent H t in
    pushTx (c_sender content) (c_sender_type content) t height (ApplyOutgoingTx H oob).
  Definition pushSenders (txs : list (option Tx)) (height : Z) : step unit := for_txs (push_sender height) txs.
  (** accounts.go:111-123, 45-49 *)
  Definition push_recipient (height : Z) (t : Tx) : step unit :=
    let content := AsTxContent H t in
    let recipientType := if creates_contract content then AccountUnknown else c_recipient_type content in
    pushTx (c_recipient content) recipientType t height ApplyIncomingTx.
  Definition pushRecipients (txs : list (option Tx)) (height : Z) : step unit := for_txs (push_recipient height) txs.
  (** accounts.go:210-239 (the panic of 213-215 cannot happen, see 128) *)
  Definition createContract (t : Tx) (height : Z) : step unit :=
    let content := AsTxContent H t in
    if negb (creates_contract content) then stop Panic
    else
      do! acc <- get_account (c_recipient content);
      let typ := c_recipient_type content in
      if typ =? 0 then stop (Err (ECreateBasic (c_recipient content)))
      else if (typ =? 1) || (typ =? 2) then
        do! newAcc <- stop (Account_Init typ t height (Balance acc));
        put_account (c_recipient content) (Some newAcc)
      else stop (Err (ECreateBadType (c_recipient content) typ)).
  (** accounts.go:125-135 *)
  Definition create_step (height : Z) (t : Tx) : step unit :=
    if creates_contract (AsTxContent H t) then createContract t height else done tt.
  Definition createContracts (txs : list (option Tx)) (height : Z) : step unit := for_txs (create_step height) txs.

  (** accounts.go:164-167: the Go map; a later entry replaces an earlier one *)
  Definition prune_map (l : list AccountPruned) : gmap bytes (option Account) :=
    foldl (fun m p => <[p_address p := p_account p]> m) ∅ l.
  (** accounts.go:168-193 *)
  Fixpoint prune_txs (txs : list (option Tx)) (pruned : gmap bytes (option Account)) : step (gmap bytes (option Account)) :=
    match txs with
    | [] => done pruned
    | None :: _ => stop Panic
    | Some t :: txs' =>
        let senderAddr := fst (GetSender H t) in
        do! sender <- get_account senderAddr;
        if negb (IsEmpty sender) || (AccountType sender =? 0) then prune_txs txs' pruned
        else
          match pruned !! senderAddr with
          | None => stop (Err (EPruneMissing senderAddr))
          | Some prunedAcc =>
              if negb (AccountEq prunedAcc (Some sender)) then stop (Err (EPruneAltered senderAddr))
              else
                do! _ <- put_account senderAddr None;
                prune_txs txs' (delete senderAddr pruned)
          end
    end.
  (** accounts.go:161-208 *)
  Definition pruneAccounts (body : BlockBody) : step unit :=
    do! pruned <- prune_txs (bb_txs body) (prune_map (bb_pruned body));
    if decide (pruned = ∅) then done tt else stop (Err (EPruneEarly (map fst (map_to_list pruned)))).

  (** accounts.go:140-143: reward plus fees; uint64 arithmetic *)
  Fixpoint add_fees (txs : list (option Tx)) (reward : Z) : res Z :=
    match txs with
    | [] => Ok reward
    | None :: _ => Panic
    | Some t :: txs' => add_fees txs' (w64 (reward + snd (Amount t)))
    end.
  (** accounts.go:144-148 *)
  Definition coinbase (miner : bytes) (reward height : Z) : Tx :=
    TBasic (MkBasicTx (repeat 0 32) miner reward 0 height 0 (repeat 0 64)).
  (** accounts.go:137-153, after BlockReward has returned [base] *)
  Definition pushInherents (body : BlockBody) (height base : Z) : step unit :=
    do! reward <- stop (add_fees (bb_txs body) base);
    pushTx (bb_miner body) 0 (coinbase (bb_miner body) reward height) height ApplyIncomingTx.

  (** accounts.go:40-58 *)
  Definition push_body (body : BlockBody) (height : Z) : step unit :=
    do! _ <- pushSenders (bb_txs body) height;
    do! _ <- pushRecipients (bb_txs body) height;
    do! _ <- createContracts (bb_txs body) height;
    pruneAccounts body.
  (** accounts.go:39-60, 137-139.  A nil Body panics at its first use. *)
  Definition Push (s : T) (c : cache) (block : Block) : res unit * T * cache :=
    let height := bh_height (bl_header block) in
    match bl_body block with
    | None => (Panic, s, c)
    | Some body =>
        match push_body body height s with
        | (Ok _, s1) =>
            let '(c', base) := BlockReward c height in
            let '(o, s2) := (do! base <- stop base; pushInherents body height base) s1 in
            (o, s2, c')
        | (o, s1) => (o, s1, c)
        end
    end.
  (** accounts.go:64-66 *)
  Definition Revert (s : T) (block : Block) : res unit * T := (Panic, s).
End Accounts.

(** ** GetAccount and PutAccount over a store of byte strings *)
Section Store.
  Variable T : Type.
  Variable get_entry : T -> bytes -> res (option bytes).
  Variable put_entry : T -> bytes -> bytes -> res T.
  (** accounts.go:69-85 *)
  Definition GetAccount (s : T) (addr : bytes) : res Account :=
    let? buf := get_entry s addr in
    match default [] buf with
    | [] => Ok InitialAccount
    | buf =>
        match WrapAccount_Unmarshal None buf with
        | Ok (Some acc, n) => if n =? zlen buf then Ok acc else Panic
        | Ok (None, _) => Panic (* not returned *)
        | Err _ => Panic
        | Panic => Panic
        | OutOfFuel => OutOfFuel
        end
    end.
  (** accounts.go:87-99 *)
  Definition PutAccount (s : T) (addr : bytes) (acc : option Account) : res T :=
    match acc with
    | None => put_entry s addr []
    | Some a =>
        if (AccountType a =? 0) && IsEmpty a then put_entry s addr []
        else
          match WrapAccount_Marshal (Some a) [] with
          | Ok (buf, None) => put_entry s addr buf
          | Ok (_, Some _) => Panic
          | Err _ => Panic
          | Panic => Panic
          | OutOfFuel => OutOfFuel
          end
    end.
End Store.

(** ** The instance the program uses: a Patricia-Merkle tree *)
Section OverTree.
  Variable H : bytes -> bytes.
  Variable oob : float64 -> Z.
  Definition tree_put_entry (s : state) (k v : bytes) : res state := let? (s', _) := PutEntry H s k v in Ok s'.
  Definition tree_get_account : state -> bytes -> res Account := GetAccount state GetEntry.
  Definition tree_put_account : state -> bytes -> option Account -> res state := PutAccount state tree_put_entry.
  Definition tree_Push : state -> cache -> Block -> res unit * state * cache :=
    Push H oob state tree_get_account tree_put_account.
End OverTree.
(** ** An instance over a plain map, for comparison *)
Section OverMap.
  Variable H : bytes -> bytes.
  Variable oob : float64 -> Z.
  Definition map_get_entry (m : gmap bytes bytes) (k : bytes) : res (option bytes) := Ok (m !! k).
  Definition map_put_entry (m : gmap bytes bytes) (k v : bytes) : res (gmap bytes bytes) :=
    Ok (match v with [] => delete k m | _ => <[k := v]> m end).
  Definition map_get_account := GetAccount (gmap bytes bytes) map_get_entry.
  Definition map_put_account := PutAccount (gmap bytes bytes) map_put_entry.
  Definition map_Push := Push H oob (gmap bytes bytes) map_get_account map_put_account.
End OverMap.
