(** genesis/genesis_test.go, profile "main", on the model with a concrete Blake2b: the embedded files decode, the
    1000-odd accounts are inserted, the genesis block is applied, and the root hash is the one in its header.
    A test of the transcription, not a proof (it takes minutes; nothing is saved). *)
From Coq Require Import ZArith List.
Import ListNotations.
From Verif.Model Require Import Base Wire Policy Tree Account Accounts Genesis Blake2b GenesisFiles.
Open Scope Z_scope.
Goal let '(o, s, c) := match openProfile main_block_bin main_accounts_bin with
                       | Ok inf => InitAccounts blake2b_256 (fun _ => 0) inf new_tree initial_cache
                       | _ => (Panic, new_tree, initial_cache)
                       end in o = Ok tt.
Proof. vm_compute. reflexivity. Abort.
