(** A second model of accounts/accounts.go, in which accounts are objects behind
    pointers, as in the code: GetAccount returns a pointer, the methods of an
    account read the object they are called on and allocate a new one for their
    result, PutAccount reads the object it is given.  Model/Accounts.v has the
    same functions on account values; Props/ObjectProps.v proves when the two agree.

    Simplification: the accounts in a block's prune list are values, as the
    code only reads them. *)
From Coq Require Import ZArith List Lia Bool.
From stdpp Require Import gmap list.
From Verif.Model Require Import Base Beserial Wire Policy Account Nibbles Tree Accounts.
Open Scope Z_scope.

(** All account objects ever allocated, in this order; a pointer is a position. *)
Notation objects := (list Account).
Notation pointer := nat.
(** wire/account.go:72: the global variable InitialAccount is object 0. *)
Definition initial_objects : objects := [InitialAccount].
Definition initial_pointer : pointer := 0%nat.

Notation "'do!' x '<-' e ';' k" := (andthen _ e (fun x => k))
  (at level 200, x pattern, e at level 100, k at level 200, right associativity).

(** new(wire.VestingAccount), new(wire.HTLCAccount) (accounts.go:224-227) *)
Definition zero_contract (typ : Z) : Account :=
  if typ =? 1 then AVesting (MkVesting 0 (repeat 0 20) 0 0 0 0)
  else AHTLC (MkHTLC 0 (repeat 0 20) (repeat 0 20) (MkHash 0 (repeat 0 32)) 0 0 0).

Section Objects.
  Variable H : bytes -> bytes.
  Variable oob : float64 -> Z.
  Variable T : Type.
  Variable get_entry : T -> bytes -> res (option bytes).
  Variable put_entry : T -> bytes -> bytes -> res T.
  (** Statements that use the objects and the tree. *)
  Notation ostep X := (step (objects * T) X).
  Notation done := (done (objects * T)).
  Notation stop := (stop (objects * T)).

  (** Read an object (method calls and comparisons; nil pointers panic). *)
  Definition deref (p : pointer) : ostep Account := fun ms =>
    match fst ms !! p with Some x => (Ok x, ms) | None => (Panic, ms) end.
  (** [new] and [&T{...}] *)
  Definition new_object (x : Account) : ostep pointer := fun ms =>
    (Ok (length (fst ms)), (fst ms ++ [x], snd ms)).
  (** Assignment to the fields of an object. *)
  Definition set_object (p : pointer) (x : Account) : ostep unit := fun ms =>
    (Ok tt, (<[p := x]> (fst ms), snd ms)).

  (** accounts.go:69-85, wire/account.go:36-57 (line 72 returns the global's address) *)
  Definition oGetAccount (addr : bytes) : ostep pointer := fun ms =>
    match get_entry (snd ms) addr with
    | Ok buf =>
        match default [] buf with
        | [] => (Ok initial_pointer, ms)
        | buf =>
            match WrapAccount_Unmarshal None buf with
            | Ok (Some acc, n) => if n =? zlen buf then new_object acc ms else (Panic, ms)
            | Ok (None, _) => (Panic, ms) (* not returned *)
            | Err _ => (Panic, ms)
            | Panic => (Panic, ms)
            | OutOfFuel => (OutOfFuel, ms)
            end
        end
    | Err e => (Err e, ms)
    | Panic => (Panic, ms)
    | OutOfFuel => (OutOfFuel, ms)
    end.
  (** accounts.go:87-99 *)
  Definition oPutAccount (addr : bytes) (acc : option pointer) : ostep unit :=
    do! x <- match acc with None => done None | Some p => do! x <- deref p; done (Some x) end;
    fun ms =>
      match PutAccount T put_entry (snd ms) addr x with
      | Ok s' => (Ok tt, (fst ms, s'))
      | Err e => (Err e, ms)
      | Panic => (Panic, ms)
      | OutOfFuel => (OutOfFuel, ms)
      end.

  (** wire/account.go:129-136, 226-247, 323-401: the result is a new object *)
  Definition oApplyOutgoingTx (acc : pointer) (tx : Tx) (height : Z) : ostep pointer :=
    do! x <- deref acc; do! y <- stop (ApplyOutgoingTx H oob x tx height); new_object y.
  (** wire/account.go:139-142, 250-252, 404-406 *)
  Definition oApplyIncomingTx (acc : pointer) (tx : Tx) (height : Z) : ostep pointer :=
    do! x <- deref acc; do! y <- stop (ApplyIncomingTx x tx height); new_object y.
  (** accounts.go:241-255 *)
  Definition opushTx (address : bytes) (accType : Z) (tx : Tx) (height : Z)
      (op : pointer -> Tx -> Z -> ostep pointer) : ostep unit :=
    do! account <- oGetAccount address;
    do! x <- deref account;
    if negb (accType =? AccountUnknown) && negb (accType =? AccountType x) then stop (Err (EAccountTypeMismatch accType (AccountType x)))
    else
      do! newAccount <- op account tx height;
      oPutAccount address (Some newAccount).
  (** accounts.go:101-109, 40-44 *)
  Definition opush_sender (height : Z) (t : Tx) : ostep unit :=
    let content := AsTxContent H t in
    opushTx (c_sender content) (c_sender_type content) t height oApplyOutgoingTx.
  (** accounts.go:111-123, 45-49 *)
  Definition opush_recipient (height : Z) (t : Tx) : ostep unit :=
    let content := AsTxContent H t in
    let recipientType := if creates_contract content then AccountUnknown else c_recipient_type content in
    opushTx (c_recipient content) recipientType t height oApplyIncomingTx.
  (** accounts.go:210-239.  Lines 224-227 allocate a zero account, line 234 fills it in
      (Init sets every field of the account, see Model/Account.v). *)
  Definition ocreateContract (t : Tx) (height : Z) : ostep unit :=
    let content := AsTxContent H t in
    if negb (creates_contract content) then stop Panic
    else
      do! acc <- oGetAccount (c_recipient content);
      let typ := c_recipient_type content in
      if typ =? 0 then stop (Err (ECreateBasic (c_recipient content)))
      else if (typ =? 1) || (typ =? 2) then
        do! newAcc <- new_object (zero_contract typ);
        do! x <- deref acc;
        do! y <- stop (Account_Init typ t height (Balance x));
        do! _ <- set_object newAcc y;
        oPutAccount (c_recipient content) (Some newAcc)
      else stop (Err (ECreateBadType (c_recipient content) typ)).
  (** accounts.go:125-135 *)
  Definition ocreate_step (height : Z) (t : Tx) : ostep unit :=
    if creates_contract (AsTxContent H t) then ocreateContract t height else done tt.
  (** accounts.go:168-193 *)
  Fixpoint oprune_txs (txs : list (option Tx)) (pruned : gmap bytes (option Account)) : ostep (gmap bytes (option Account)) :=
    match txs with
    | [] => done pruned
    | None :: _ => stop Panic
    | Some t :: txs' =>
        let senderAddr := fst (GetSender H t) in
        do! p <- oGetAccount senderAddr;
        do! sender <- deref p;
        if negb (IsEmpty sender) || (AccountType sender =? 0) then oprune_txs txs' pruned
        else
          match pruned !! senderAddr with
          | None => stop (Err (EPruneMissing senderAddr))
          | Some prunedAcc =>
              if negb (AccountEq prunedAcc (Some sender)) then stop (Err (EPruneAltered senderAddr))
              else
                do! _ <- oPutAccount senderAddr None;
                oprune_txs txs' (delete senderAddr pruned)
          end
    end.
  (** accounts.go:161-208 *)
  Definition opruneAccounts (body : BlockBody) : ostep unit :=
    do! pruned <- oprune_txs (bb_txs body) (prune_map (bb_pruned body));
    if decide (pruned = ∅) then done tt else stop (Err (EPruneEarly (map fst (map_to_list pruned)))).
  (** accounts.go:137-153, after BlockReward has returned [base] *)
  Definition opushInherents (body : BlockBody) (height base : Z) : ostep unit :=
    do! reward <- stop (add_fees (bb_txs body) base);
    opushTx (bb_miner body) 0 (coinbase (bb_miner body) reward height) height oApplyIncomingTx.
  (** accounts.go:40-58 *)
  Definition opush_body (body : BlockBody) (height : Z) : ostep unit :=
    do! _ <- for_txs _ (opush_sender height) (bb_txs body);
    do! _ <- for_txs _ (opush_recipient height) (bb_txs body);
    do! _ <- for_txs _ (ocreate_step height) (bb_txs body);
    opruneAccounts body.
  (** accounts.go:39-60, 137-139 *)
  Definition oPush (ms : objects * T) (c : cache) (block : Block) : res unit * (objects * T) * cache :=
    let height := bh_height (bl_header block) in
    match bl_body block with
    | None => (Panic, ms, c)
    | Some body =>
        match opush_body body height ms with
        | (Ok _, ms1) =>
            let '(c', base) := BlockReward c height in
            let '(o, ms2) := (do! base <- stop base; opushInherents body height base) ms1 in
            (o, ms2, c')
        | (o, ms1) => (o, ms1, c)
        end
    end.
End Objects.

(** ** The instance over a Patricia-Merkle tree *)
Definition tree_oGetAccount : bytes -> step (objects * state) pointer := oGetAccount state GetEntry.
Definition tree_oPutAccount (H : bytes -> bytes) : bytes -> option pointer -> step (objects * state) unit :=
  oPutAccount state (tree_put_entry H).
Definition tree_oPush (H : bytes -> bytes) (oob : float64 -> Z) : objects * state -> cache -> Block -> res unit * (objects * state) * cache :=
  oPush H oob state GetEntry (tree_put_entry H).
