(** Model of genesis/genesis.go (from the contents of the profile's files on) and of the
    replay loop of cmd/gimiq/main.go.

    Not modelled: the file system, embedding and TOML decoding (genesis.go:54-83, 109-119:
    the configuration is not used by any code in the repository), flags, printing and
    timing (main.go:22-38, 52, 75-77, 86). *)
From Coq Require Import ZArith List Bool String.
Import ListNotations.
From Verif.Model Require Import Base Beserial Wire Policy Account Tree Accounts.
Open Scope Z_scope.

(** genesis.go:24-27: an address and a wrapped account, like wire.AccountPruned *)
Notation GenesisAccount := AccountPruned (only parsing).
Definition ty_genesis_account : ty := TStruct [field (bytesN 20); field ty_wrap_account].
(** genesis.go:99-101 *)
Definition ty_accounts_list : ty := TStruct [tagged "len_tag=uint16" (TSlice ty_genesis_account)].
(** genesis.go:17-21, without Config *)
Record Profile := MkProfile { g_block : Block; g_accounts : list GenesisAccount }.

(** genesis.go:84-107, given the contents of the two binary files *)
Definition openProfile (blockBuf accountsBuf : bytes) : res Profile :=
  let? v := UnmarshalFull blockBuf (APtr ty_block (zero ty_block)) in
  match v with
  | None => Panic
  | Some v =>
      let? w := UnmarshalFull accountsBuf (APtr ty_accounts_list (zero ty_accounts_list)) in
      match w with
      | None => Panic
      | Some w => Ok (MkProfile (block_of v) (map pruned_of (list_of (fld 0 w))))
      end
  end.

Section WithHash.
  Variable H : bytes -> bytes.
  Variable oob : float64 -> Z.
  (** genesis.go:41-43 *)
  Fixpoint put_accounts (l : list GenesisAccount) (s : state) : res unit * state :=
    match l with
    | [] => (Ok tt, s)
    | acc :: l' =>
        match tree_put_account H s (p_address acc) (p_account acc) with
        | Ok s' => put_accounts l' s'
        | Err e => (Err e, s)
        | Panic => (Panic, s)
        | OutOfFuel => (OutOfFuel, s)
        end
    end.
  (** genesis.go:40-52 *)
  Definition InitAccounts (i : Profile) (s : state) (c : cache) : res unit * state * cache :=
    match put_accounts (g_accounts i) s with
    | (Ok _, s1) =>
        let '(o, s2, c2) := tree_Push H oob s1 c (g_block i) in
        match o with
        | Ok _ =>
            match Hash H s2 with
            | Ok hash => (if bytes_eqb hash (bh_accounts (bl_header (g_block i))) then Ok tt else Err ETreeHash, s2, c2)
            | Err e => (Err e, s2, c2)
            | Panic => (Panic, s2, c2)
            | OutOfFuel => (OutOfFuel, s2, c2)
            end
        | o => (o, s2, c2)
        end
    | (o, s1) => (o, s1, c)
    end.

  (** main.go:57-66: what the tar reader gives: a file's contents, or an error of Next or ReadAll;
      EOF after the last *)
  Inductive entry := File (contents : bytes) | Broken.
  (** main.go:56-83, from the counters [blocks] and [txs] on *)
  Fixpoint replay_loop (archive : list entry) (s : state) (c : cache) (blocks txs : Z) : res (Z * Z) * state * cache :=
    match archive with
    | [] => (Ok (blocks, txs), s, c)
    | Broken :: _ => (Panic, s, c)
    | File buf :: archive' =>
        match UnmarshalFull buf (APtr ty_block (zero ty_block)) with
        | Ok (Some v) =>
            let block := block_of v in
            let '(o, s', c') := tree_Push H oob s c block in
            match o with
            | Ok _ =>
                match Hash H s' with
                | Ok hash =>
                    if negb (bytes_eqb (bh_accounts (bl_header block)) hash) then (Panic, s', c')
                    else match bl_body block with
                         | None => (Panic, s', c')
                         | Some body => replay_loop archive' s' c' (blocks + 1) (txs + zlen (bb_txs body))
                         end
                | _ => (Panic, s', c')
                end
            | OutOfFuel => (OutOfFuel, s', c')
            | _ => (Panic, s', c')
            end
        | OutOfFuel => (OutOfFuel, s, c)
        | _ => (Panic, s, c)
        end
    end.
  (** main.go:53-83: the first entry of the archive is skipped, whatever it is *)
  Definition replay (archive : list entry) (s : state) (c : cache) : res (Z * Z) * state * cache :=
    replay_loop (skipn 1 archive) s c 0 0.
  (** main.go:40-85: a new tree, the profile, the archive; what is printed.  Every error is a panic. *)
  Definition gimiq (blockBuf accountsBuf : bytes) (archive : list entry) : res (Z * Z) * state * cache :=
    match openProfile blockBuf accountsBuf with
    | Ok inf =>
        let '(o, s, c) := InitAccounts inf new_tree initial_cache in
        match o with
        | Ok _ => replay archive s c
        | OutOfFuel => (OutOfFuel, s, c)
        | _ => (Panic, s, c)
        end
    | OutOfFuel => (OutOfFuel, new_tree, initial_cache)
    | _ => (Panic, new_tree, initial_cache)
    end.
End WithHash.
