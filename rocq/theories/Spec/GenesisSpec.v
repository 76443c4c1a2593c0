(** What initialising a ledger from a genesis profile and replaying blocks mean. *)
From Coq Require Import ZArith List Bool.
From stdpp Require Import gmap list.
From Verif.Model Require Import Base Beserial Wire Policy Account Tree Accounts Genesis.
From Verif.Spec Require Import TreeSpec TreeHistory WireSpec AccountSpec AccountsSpec.
Open Scope Z_scope.

(** A profile whose fields fit their Go types; the account of an entry may be missing (nil). *)
Definition profile_ok (p : Profile) : Prop :=
  block_ok (g_block p) /\
  Forall (fun e => array 20 (p_address e) /\ forall x, p_account e = Some x -> account_ok x) (g_accounts p).
(** The account at [a] when the entries of [l] have replaced those of [M]: the last entry
    for [a] counts; a missing account is the empty one. *)
Definition overwritten (M : ledger) (l : list GenesisAccount) (a : bytes) : Account :=
  match listed l a with
  | Some (Some x) => x
  | Some None => ABasic 0
  | None => acct M a
  end.
(** The file format of the list of accounts. *)
Definition accounts_bytes (l : list GenesisAccount) : bytes := be 2 (zlen l) ++ concat (map pruned_bytes l).

(** The files of an archive are the encodings of the blocks [bs] (with bodies), pushing them
    one after the other succeeds, and after each the root hash of the state is the one
    that the block announces. *)
Section Replay.
  Variable H : bytes -> bytes.
  Variable oob : float64 -> Z.
  Inductive replayed : state -> cache -> list entry -> list Block -> state -> cache -> Prop :=
  | replayed_nil s c : replayed s c [] [] s c
  | replayed_cons s c buf archive b body bs s1 c1 s' c' :
      decode_block buf = Ok (b, zlen buf) -> bl_body b = Some body ->
      tree_Push H oob s c b = (Ok tt, s1, c1) -> Hash H s1 = Ok (bh_accounts (bl_header b)) ->
      replayed s1 c1 archive bs s' c' ->
      replayed s c (File buf :: archive) (b :: bs) s' c'.
End Replay.
(** The number of transactions of a block. *)
Definition tx_count (b : Block) : Z := match bl_body b with Some body => zlen (bb_txs body) | None => 0 end.
