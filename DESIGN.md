# Formal model of terorie/nimiq-go in Rocq (Coq 8.16.1)

(The first version of this file was committed before the proofs; this one is generated by `tools/design.py` from
`tools/design_head.md`, `properties.jsonl` and `MANIFEST.json`.)

## Layout

* `rocq/theories/Model/*.v` - executable Gallina transcription of the Go code, definitions only; each definition cites
  the file and lines it models, and says where it simplifies.
* `rocq/theories/Spec/*.v` - small specifications used in theorem statements: the meaning of the English properties.
  They use the data types of the model; where one uses a function of the model, its header says which.
* `rocq/theories/Proofs/*.v` - lemmas.
* `rocq/theories/Props/*.v` - the property theorems (`Cnn_...`), `Print Assumptions` after each, and beside each an
  `Example` showing that a concrete, non-trivial case meets the hypotheses.
* `Props/TestVectors.v`, `Props/GenesisMain.v` - the repository's own unit tests run on the model (`Goal ... Abort`:
  tests of the transcription, not proofs), see "Validation".
* `seeded/LOG.jsonl` - seeded wrong programs and the theorems that caught them; `tools/mutate.py` runs them.
* Suffixes: `_refuted` - the property as stated is false of the code and this theorem proves that it is (universally
  where possible, otherwise by a witness); `_partial` - the strongest part of it we prove; the manifest says what is
  missing.

## Trusted base

* Coq 8.16.1's kernel (and `coqchk`), including its `vm_compute`, which the kernel's checker re-checks by conversion.
* `Print Assumptions`: every theorem in the manifest prints "Closed under the global context", except the four
  theorems about float64 arithmetic: C59_stepwise_refuted, C59_between_steps_partial, C59_linear_partial and
  C59_monotone_partial. These go through Flocq to Coq's real numbers and use the axioms of the
  standard library that this needs: `ClassicalDedekindReals.sig_not_dec`, `ClassicalDedekindReals.sig_forall_dec`,
  `FunctionalExtensionality.functional_extensionality_dep` and `Classical_Prop.classic`. (Tools that list the axioms of all *loaded* files also
  see the sealed definitions of `Rdefinitions` and ssreflect's `Under_rel`; no theorem depends on them as axioms.)
  No axiom, parameter, hypothesis or functor of our own; nothing admitted; no kernel check switched off.
* std++ (finite maps, lists) and Flocq (binary64) are used as libraries; both are axiom-free in what we use.
* The faithfulness of the transcription Go -> Gallina (see "Validation").

## Modelling conventions

* Numbers are `Z`; every Go fixed-width operation that can wrap is written with an explicit `mod 2^n`.
* A byte is a `Z` in [0,256); byte strings are `list Z`; Go arrays are lists of the right length. Theorems assume
  inputs to be such lists (`bytes_ok`, `array n`), which Go's types guarantee.
* A Go call returns `res A`: `Ok a`, `Err e`, `Panic` (run-time panic, including explicit `panic(...)`) or
  `OutOfFuel`; the theorems show that the latter does not occur.
* Errors are modelled by their cause, one constructor per distinguishable cause; the context that
  `fmt.Errorf("...: %w", err)` adds is dropped.
* Blake2b-256 and Ed25519 are parameters: theorems quantify over them and say what they assume (`hash_fn H`: 32-byte
  results, which `blake2b_is_hash` proves of the concrete Blake2b-256 of `Model/Blake2b.v`; `scheme_ok`: key and signature lengths, and that made signatures verify). Collision resistance is never
  assumed: where it matters, the conclusion is a disjunction with an explicit collision.
* float64 is `SpecFloat` at (53, 1024); the conversion of an out-of-range float64 to uint64, which Go leaves to the
  implementation, is a parameter `oob` over which theorems quantify.
* Pointers: the tree model has an explicit heap because the code mutates shared `*Branch` objects in place and stores
  share them. Accounts and transactions are values: their methods return fresh copies. For
  accounts that this is right is C103, with a second model on account objects (Model/AccountObjects.v).
* Slices: nil and empty slices are identified. In Model/Tree.v nibble slices are immutable lists; that
  this is right is theorem C101: Model/TreeSlices.v has the same functions on slices with shared backing arrays and an
  arbitrary growth policy of append, and the two are proved to agree. What happens when the caller modifies
  the value slices passed to PutEntry or returned by GetEntry is C102.
* reflect: Go types are a deep embedding (`ty`), values are `val`; types with MarshalBESerial/UnmarshalBESerial are
  `TCustom` with their methods. Named types are identified with their underlying types; types
  with unexported fields, with names, or with only one of the methods are in Model/BeserialTypes.v (C129).
* Goroutines: only package policy has shared state with a lock; its model is a small-step machine. The wallet's memoised
  address has none; C104 has a machine for it. Packages tree and
  accounts are documented as not safe for concurrent use and are modelled sequentially.

## What is modelled and what is not

Modelled: all functions of `address`, `policy`, `beserial` (tags, encode, decode, size), `tree` (nodes, the memory and
overlay stores, the Patricia-Merkle tree), `wire` (all types with their codecs, accounts and contracts, transactions,
proofs, blocks, interlinks, messages, peer addresses, compact targets), `accounts`, `wallet`, `genesis` (from the
contents of the embedded files on), the replay loop of `cmd/gimiq`, and the loop of `scripts/export_blocks.py`.

Not modelled: the file system, embedding and TOML decoding of genesis profiles (the decoded configuration is not used
by any code); tar reading (an archive is the list of its entries: contents or a read error); flags, printing, timing;
error texts other than those of Push (C128); the JSON tags; argument parsing, HTTP, JSON and tar writing of the script; docs/. Python integers are `Z`. Go's runtime (scheduler fairness, memory limits,
stack overflow, garbage collection) is outside; the number of elements a decoder allocates is bounded by C34.

## Validation of the transcription

* `Model/Blake2b.v` is a concrete Blake2b. `Props/TestVectors.v` runs all unit tests of the repository on the model
  with it (addresses, supply, beserial tests, accounts, tree hashes, Push, wallet encodings, the "test" genesis), and `Props/GenesisMain.v`
  initialises the main network: 1396 accounts from the embedded file, root hash equal to the one in the genesis block.
* Every definition cites its lines; a script checks that the cited ranges cover the functions of the repository.
* `seeded/LOG.jsonl`: wrong programs made by editing the model; each breaks a theorem (or the theorem was tightened).

## Per property

| id | property | status | theorems (rocq/theories/Props) | how |
|---|---|---|---|---|
| C01 | SupplyAfter is independent of call history | proved | C01_supply_after_history_independent | memo table as a map in the state; invariant memo[j] = supply before height 5000 j; any list of earlier calls |
| C02 | SupplyAfter is correct under every interleaving of concurrent callers | proved | C02_supply_after_concurrent | small-step machine: one thread per caller, statement granularity, one mutex; invariant over all schedules; measure for termination |
| C03 | The supply stays within [InitialSupply, TotalSupply] and never decreases | proved | C03_supply_bounds_monotone | induction on the recurrence |
| C04 | Block rewards and supply agree | proved | C04_reward_supply_agree, C04_reward_zero_panics | from the recurrence |
| C05 | The emission curve is non-increasing and ends | proved | C05_rewards_never_increase, C05_emission_ends, C05_reward_defined | fixed-point powers bound the tail of the recurrence (no enumeration of heights) |
| C06 | Address decoding inverts encoding | proved | C06_decode_encode | base 32 as a positional system over byte lists; blockwise mod 97 = mod 97 of the digit string |
| C07 | Encoded addresses are well-formed | proved | C07_encode_well_formed, C07_encode_injective | same; injectivity from C06 |
| C08 | Exactly which strings Decode accepts | proved | C08_decode_exact, C08_decode_total | exact characterisation of accepted strings, both directions |
| C09 | Only addresses with country code NQ are accepted | partial | C09_country_code_partial, C09_country_code_refuted, C09_any_code_refuted | refuted by a witness; what `&&` does accept, exactly |
| C10 | Spaces are ignored when decoding | partial | C10_spaces_ignored_partial, C10_trailing_space_rejected, C10_spaces_ignored_refuted | induction on the string with spaces removed |
| C11 | The address checksum detects single typos and swaps | proved | C11_typo_substitution_detected, C11_typo_swap_detected, C11_mixed_typos_undetected | modular arithmetic: 10^k is a unit mod 97 and weights differ |
| C12 | Address keys and nibble paths are in bijection | proved | C12_key_nibbles_bijection, C12_nibbles_are_high_then_low | induction |
| C13 | PrefixOf and CommonPrefix compute the prefix order | proved | C13_prefix_order | induction; longest common prefix |
| C14 | Compress packs nibbles two per byte | partial | C14_compress_refuted, C14_compress_empty_partial, C14_loop_partial | refuted for all non-empty lists |
| C15 | The state tree behaves as a map | proved | C15_tree_is_a_map, C15_contents_last_write | heap + store simulate a canonical inductive trie (Proofs/TreeTrie, TreeSim, TreeUpdate), which simulates a map; all call histories |
| C16 | PutEntry reports whether anything changed | proved | C16_put_reports_change | same simulation |
| C17 | The root hash depends only on the contents | proved | C17_root_depends_on_contents_only | canonical tries are determined by their contents; hashes never stale by C18 |
| C18 | The root hash is the Merkle-Patricia hash of the contents (never stale) | proved | C18_root_is_merkle_root | invariant over all histories: stored child hashes are either all current, after updateHashes; Merkle root specified from the entries alone |
| C19 | Equal root hashes mean equal contents, up to hash collisions | proved | C19_equal_roots_equal_contents | injectivity of node serialisation, descent along both tries; disjunction with an explicit collision |
| C20 | The store contains exactly the canonical trie nodes | proved | C20_store_is_canonical | the store's key set equals the trie's node paths |
| C21 | Tree operations never panic | proved | C21_no_panic | fuel bound by key length; no panic branch reachable |
| C22 | Insert-then-delete restores the tree | proved | C22_insert_delete_restores | from C17/C20 |
| C23 | An overlay store reads its own writes and leaves the lower store's mapping alone | proved | C23_overlay_reads_own_writes | stack of stores; map laws |
| C24 | Flush writes the overlay down, in any iteration order | proved | C24_flush_any_order | fold over any permutation of the dirty map |
| C25 | A tree over an overlay does not affect the lower tree before Flush | partial | C25_lower_entries_untouched_partial, C25_lower_root_refuted, C25_lower_tree_refuted | heap shared between layers: refuted by execution for every H; lower mapping invariant |
| C26 | A tree over an overlay is itself correct | proved | C26_overlay_tree_correct, C15_tree_is_a_map, C18_root_is_merkle_root, C20_store_is_canonical, C21_no_panic | the simulation of C15 over any stack of stores |
| C27 | Decoding inverts encoding for every Go type beserial supports | proved | C27_decode_inverts_encode, C27_zero_size_elements_refuted | deep embedding of Go types; mutual induction on types; `enc` relation as independent format |
| C28 | Unmarshal is total and reads only what is there | proved | C28_unmarshal_total, C28_nil_destination | induction on types with fuel = input length |
| C29 | Encodings are self-delimiting and injective | proved | C29_self_delimiting | induction on types (prefix property of `enc`) |
| C30 | Encodings are canonical | proved | C30_canonical | induction; every accepted input is the encoding of the value read |
| C31 | Size is the exact encoded length | partial | C31_size_exact_partial, C31_custom_types_refuted, C31_non_pointer_arguments | induction; refuted for custom types |
| C32 | Marshal appends and never loses data or errors | partial | C32_marshal_appends_partial, C32_pointer_error_refuted, C32_non_pointer_arguments | induction; refuted behind pointers |
| C33 | Marshal never silently truncates a slice | partial | C33_no_truncation_partial, C33_truncation_refuted | refuted for every too long slice |
| C34 | Decoding allocates no more elements than input bytes | proved | C34_bounded_allocation | counting invariant in the decoder |
| C35 | Struct tags are parsed unambiguously | partial | C35_accepted_tags_partial, C35_combination_refuted | case analysis over all tag strings |
| C36 | Account encodings round-trip and are canonical | proved | C36_account_round_trip, C36_account_canonical | instances of the beserial theorems with the account codecs |
| C37 | Transaction encodings round-trip and are not malleable | proved | C37_tx_round_trip, C37_tx_not_malleable | same, with the transaction codecs |
| C38 | Bit sets decoded from the wire are safe to index | partial | C38_bits_readable_partial, C38_bit_panics_refuted | arithmetic of (len+7) mod 256 |
| C39 | Signature proofs round-trip and are canonical | proved | C39_proof_round_trip, C39_proof_canonical | codec proof |
| C40 | Computing a signer address never panics on received proofs | partial | C40_signer_address_partial, C40_signer_panics_refuted | length of the path vs. bits available |
| C41 | Merkle paths bind the leaf | proved | C41_merkle_path_binds | collision argument along the path |
| C42 | Block interlinks are decoded faithfully | partial | C42_interlink_structure_partial, C42_interlink_refuted | exact result of the decoder loop |
| C43 | Interlink decoding consumes exactly the interlink | proved | C43_interlink_length, C43_interlink_accepted, C43_long_interlink_panics | same |
| C44 | Network addresses round-trip | partial | C44_ipv4_partial, C44_ip_bytes_partial, C44_ipv6_refuted | codec proof, refuted for IPv6 |
| C45 | Ping messages round-trip and keep their kind | proved | C45_ping_decode, C45_ping_round_trip | codec proof |
| C46 | Messages survive MarshalMessage / UnmarshalMessage | partial | C46_round_trip_partial, C46_unsendable_refuted, C46_empty_refuted, C46_header_refuted, C46_receipts_refuted, C46_addresses_refuted | case analysis over the message types, each with its codec |
| C47 | UnmarshalMessage never panics on network input | partial | C47_returns_partial, C47_empty_panics_refuted, C47_block_panics_refuted | totality of every decoder (C28) + dispatch |
| C48 | Peer addresses can be exchanged | partial | C48_peer_addresses_refuted | interface pointers cannot be decoded: refuted for all |
| C49 | The views of a transaction agree | proved | C49_views_agree, C49_basic_view | case analysis |
| C50 | The extended form of a basic transaction carries a decodable proof | partial | C50_extended_signature_partial, C50_extended_proof_refuted | length argument |
| C51 | Compact targets keep the top bits of the target | proved | C51_compact_target, C51_small_target_panics, C51_difficulty | bit lengths of big integers |
| C52 | Stored accounts are read back | proved | C52_read_back, C52_get_returns, C52_ledger_exists | tree simulation composed with account codec round trip |
| C53 | Applying a block of basic transfers has exactly the specified effect | proved | C53_transfers | phases of Push as folds over a ledger; closed form of the result |
| C54 | Transaction order inside a block of basic transfers does not matter | proved | C54_order_irrelevant | closed form is permutation invariant; root by C17 |
| C55 | Push creates no money beyond the block reward | partial | C55_total_partial, C55_basic_senders_partial, C55_contract_fee_refuted, C55_money_refuted | sum over the ledger of the closed form, with wrap-around excluded explicitly |
| C56 | Push touches only the parties of the block | proved | C56_only_parties | frame lemma |
| C57 | A rejected block leaves the state unchanged | partial | C57_unchanged_partial, C57_not_atomic_refuted | exact partial effect |
| C58 | The prune list must match exactly | proved | C58_prune_list, C58_settled_exists | specification `listed`/`to_prune` |
| C59 | Vesting contracts unlock step by step | partial | C59_stepwise_refuted, C59_no_steps_partial, C59_between_steps_partial, C59_linear_partial, C59_monotone_partial | SpecFloat (binary64) related to Flocq reals: rounding error bounds |
| C60 | A vesting contract cannot spend more than its balance | partial | C60_balance_partial, C60_overdraw_refuted | closed form of the debit |
| C61 | Vesting contracts are only spent by their owner | proved | C61_owner_spends, C61_owner_can_spend | proof codec + signer |
| C62 | HTLC resolution rules | proved | C62_htlc_rules, C62_exclusive | equivalence with three declarative rules |
| C63 | Claiming an HTLC requires the pre-image | partial | C63_hash_named_partial, C63_any_preimage, C63_preimage_refuted | refuted for every iterated hash |
| C64 | Basic accounts are never overdrawn | partial | C64_basic_partial, C64_overdraw_refuted | wrap-around arithmetic |
| C65 | Creating a contract keeps the funds and the parameters | partial | C65_contract_created_partial, C65_single_creation_partial, C65_overwritten_refuted | last creation in the block |
| C66 | Push never panics on a decodable block | partial | C66_panics_partial, C66_contract_recipient_refuted, C66_long_path_refuted, C66_no_body, C131_panics_iff | panic cases collected through all phases |
| C67 | Accounts over the Merkle tree behave like accounts over a plain map | proved | C67_same_answers | simulation of call sequences |
| C68 | A wallet-signed extended transaction proves the wallet as signer | proved | C68_signed_extended, C68_wallet_address, C68_replaces_proof, C68_owner_spends | abstract signature scheme |
| C69 | A wallet signs basic transactions only for its own key | proved | C69_signed_basic | same |
| C70 | Distinct transaction contents have distinct signing payloads | proved | C70_payload_determines_content, C70_payload_exists, C70_payload_any_size, C70_any_size_determines_content | injectivity of the content encoding |
| C71 | Signed peer addresses verify | proved | C71_signed_peer_verifies, C71_message_determines_fields, C71_verify_checks_message, C71_address_not_covered | same |
| C72 | Genesis initialisation ends in the committed state | proved | C72_init_accounts, C72_root_commits, C72_empty_genesis_block, C72_same_root_same_accounts, C72_profile_decodes, C72_profile_accepted | induction over the account list; C19 for uniqueness |
| C73 | Block replay verifies every block | proved | C73_replay, C73_reports_or_panics, C73_program, C73_final_state | induction over the archive; equivalence with declarative replay |
| C74 | An overlay made through the public API can be written to | partial | C74_constructible_overlay_refuted | nil map writes panic |
| C75 | Size methods are exact | proved | C75_size_methods_exact, C75_pings_and_peers | induction / case analysis |
| C76 | Accounts-tree chunks can be exchanged | partial | C76_empty_chunk_partial, C76_chunk_refuted, C76_chunk_decode_refuted | inner slices have no length tag |
| C77 | Blocks as the network encodes them decode to their header and body | proved | C77_network_block_decodes, C77_accepted_blocks | composition of codec theorems |
| C78 | Staking data round-trips | proved | C78_staking_round_trip | codec proof |
| C79 | Push accepts exactly the blocks that follow the rules | proved | C79_accepts, C79_effect, C79_settled_unique | each phase of Push: succeeds iff its rule holds (inductions over the transactions), composed |
| C80 | Announced account types are checked | partial | C80_types_partial, C80_unknown_type_refuted | from C79 |
| C81 | Push accepts only signed transactions | partial | C81_signed_refuted, C81_signatures_ignored, C81_anyone_spends, C81_owner_named_partial, C81_htlc_partial | congruence of Push (Proofs/PushCong.v) and C53 |
| C82 | A transaction is applied at most once, in its validity window, on its network | partial | C82_window_refuted, C82_replay_refuted | congruence; C53 twice |
| C83 | Push checks the block against its header | partial | C83_header_refuted, C83_accounts_hash_refuted, C83_height_used_partial | congruence |
| C84 | The accounts hold exactly the supply | partial | C84_exact_partial, C84_supply_partial, C84_program_partial, C84_profile_partial, C84_main_network_partial, C84_test_network_partial, C84_supply_refuted | induction over the chain with C55, C80, C04, C73 |
| C85 | Revert undoes Push | partial | C85_revert_refuted | the method panics |
| C86 | Which payloads UnmarshalMessage accepts | proved | C86_accepts, C86_accepts_blocks, C86_blocks_accepted | per message kind: decoder accepts exactly the typed encodings (C30 canonicity both ways) |
| C87 | Unknown message numbers are reported as unknown | proved | C87_unknown, C87_number | induction on types: no decoder returns this error; dispatch by cases |
| C88 | A received message carries its number | partial | C88_type_partial, C88_header_type_refuted, C88_numbers | from C86 |
| C89 | Which messages MarshalMessage sends, and as what | proved | C89_sends | from C46 and the layouts |
| C90 | A cut-off encoding is never accepted | proved | C90_truncated, C90_objects, C90_blocks | mutual induction on the format relation `enc` (Proofs/CutFacts.v); the two errors separated by an induction on types |
| C91 | What is read does not depend on what follows | partial | C91_local, C91_objects, C91_block_refuted | from C27, C30 and encodability of decoded values; refuted by computing the decoder on all such blocks |
| C92 | Peer address headers and server addresses on the wire | proved | C92_header_sent, C92_header_read, C92_address_error, C92_server_address | field by field |
| C93 | A wallet's address is the address of its public key | partial | C93_address_partial, C93_stale_refuted, C68_wallet_address | case analysis on the memo |
| C94 | A refused block names a real fault | proved | C94_names_a_fault, C94_overspend | the first error of each phase splits the transactions (Proofs/FaultFacts.v); errors of the decoder classified by induction on types (Proofs/ErrorFacts.v) |
| C95 | A block tried on an overlay leaves no trace unless the overlay is flushed | partial | C95_accounts_untouched_partial, C95_commit, C95_root_refuted | Push is a sequence of PutEntry calls (relation from_run through sim_Push), then C25 and C26; the root object is the same for the life of a tree (Proofs/TreeRoot.v) |
| C96 | Wallets made from a seed never panic | proved | C96_derive, C96_public_key, C96_sign_extended, C96_sign_basic, C96_made_wallets_never_panic | case analysis on the keys; the message of a transaction of any size computed field by field |
| C97 | A node's peer ID is the beginning of its address | proved | C97_peer_id_begins_address, C97_signed_peer_identity | first bytes of one hash |
| C98 | Protocol numbers have schemes iff they are accepted | partial | C98_schemes, C98_received_protocols_partial, C98_rtc_refuted | case analysis, with C92 |
| C99 | Paths print as hexadecimal | proved | C99_text_reads_back, C99_address_text, C99_prefix_text | induction on the list |
| C100 | Decoding into a used object equals decoding into a new one | partial | C100_overwrites_partial, C100_wire_objects_partial, C100_blocks_partial, C100_interlink_refuted, C100_netaddress_refuted | induction on the type; case analysis of the methods |
| C101 | Sharing of path buffers is never visible | proved | C101_entries, C101_root, C101_put, C101_any_capacity | simulation between the slice and the list model of tree.go (Proofs/SliceSim.v): the array of a branch's prefix has no other branch's prefix in it and no other node's slice ends behind it |
| C102 | The tree is independent of the caller's buffers | partial | C102_buffers_not_written_partial, C102_free_buffers_partial, C102_held_buffers_refuted | the simulation of C101, with the caller's arrays as a set that path slices stay out of |
| C103 | Accounts obtained from GetAccount are the caller's own | partial | C103_get_partial, C103_push_partial, C103_put_partial, C103_initial_account_refuted | simulation between the models on account objects and on account values (Proofs/ObjectSim.v) |
| C104 | Concurrent GetAddress calls return the wallet's address | partial | C104_alone, C104_words_right_or_zero_partial, C104_memoised_partial, C104_concurrent_refuted | small-step machine with one caller per goroutine, one step per word access (Model/WalletRace.v); invariants over all schedules |
| C105 | An interrupted Flush loses nothing and can be repeated | proved | C105_uninterrupted, C105_interrupted, C105_written_down, C105_tree_interrupted, C105_lower_not_atomic | Flush as a list of statements of which the first n are executed (Model/TreeCrash.v); closed form for both layers by induction over the iteration order; reach/areach/oreach/sreach extended with interrupted flushes |
| C106 | A block export holds exactly the blocks asked for, in order | partial | C106_range_partial, C106_any_order_partial, C106_failures_partial, C106_last_refuted, C106_order_refuted | model of the export script as a loop producing events (Model/BlockExport.v); induction over the number of blocks left; server universally quantified |
| C107 | Replaying an export applies the exported blocks | partial | C107_replay_of_export_partial, C107_last_block_refuted | composition of C106 with C73 |
| C108 | The tree works over any storage engine | partial | C108_entries_partial, C108_root_refuted, C108_lost_entry_refuted, C15_tree_is_a_map, C18_root_is_merkle_root | a second model of the tree over stores that copy nodes (Model/TreeCopy.v); invariant: the root only refers to whole paths (Proofs/CopyFacts.v), induction over histories |
| C109 | Marshal writes only behind the buffer | proved | C109_marshal_memory, C109_results_stay, C109_second_replaces_first, C109_wire_types | second model of encode.go on Go slices (Model/MarshalSlices.v) with an arbitrary growth policy; simulation by induction on types (Proofs/BufferFacts.v) |
| C110 | The hashes of an interlink follow its PrevHash, and only its own | partial | C110_decode, C110_hashes_follow, C110_prev_later, C110_separate_partial, C110_copy_refuted | second model of the interlink decoder with pointers, objects and arrays in an explicit memory (Model/InterlinkRefs.v), shown to agree with the one on values; invariants over histories of calls |
| C111 | Decoded values own their memory | proved | C111_same_result, C111_old_memory, C111_earlier_values, C111_owns, C111_input_reused, C111_value_written, C111_failed, C111_fields, C111_elements, C111_wire_types, C111_pointer_codec_refuted | third model of the decoder (Model/DecodeMemory.v): variables hold cells of an explicit memory and the input is a slice of one; simulation of the decoder on values by induction on the type, carrying that all reached cells are new and distinct; a frame lemma turns that into statements about later writes. Spec/OwnershipSpec.v says which cells a value reaches |
| C112 | Decoding allocates in proportion to the input | proved | C112_total_allocation, C112_paid_by_read, C112_wire_types, C112_wire_bound, C112_empty_elements_refuted | the decoder model logs its allocations; potential argument by induction on the type: what is allocated is paid for by bytes read, and after a failure by all bytes left (Spec/AllocSpec.v: total, depth, solid) |
| C113 | A write touches only the path of its key | proved | C113_write_is_local, C113_no_change, C113_history_is_local, C113_lower_nodes_untouched | frame relation through update/prune/invalidatePath (only objects on the key's path are written), a second one through updateHashes (only hashes of existing children change), and C20 for the states before and after: equal contents below a node give equal hashes (Proofs/TreeLocal.v) |
| C114 | A contract keeps its terms for life | proved | C114_contract_life, C114_timeout_ends_claims | one block: C79's rules and effect for a non-basic account (no credits, debits under the terms); then induction over the chain of blocks (Spec/ContractSpec.v) |
| C115 | The store stays as small as its contents, and a write is bounded work | proved | C115_store_size, C115_mem_store_size, C115_write_cost, C115_history_cost | counting the branchings of a trie by induction over its entries (one more at most per entry); next-location arithmetic for objects created; the frame theorem C113 for objects changed |
| C116 | Push depends only on the accounts of the block's parties | proved | C116_only_parties_matter, C116_chain | relational induction over the steps of Push on two ledgers that agree on the parties (every step reads and writes only there); lifted to trees by the simulation of C67 |
| C117 | The order of transactions in a block does not matter | proved | C117_order_irrelevant, C117_creations_differ | C79's rules are invariant under permutation: the running checks of a sender's amounts are equivalent to one check of their sum (modulo uint64), all else depends on sums and membership |
| C118 | The root hash determines the accounts and their future | proved | C118_root_determines_accounts, C118_accounts_determine_root, C118_root_determines_future | C19 (roots determine entries up to collisions) and C18 for the converse, lifted to accounts; the future by C116 and C56 along the chain |
| C119 | Noted accounts undo a block | proved | C119_restore | the frame theorem C56 for all outcomes, then PutAccount for each noted address; root hash by C118 |
| C120 | Compact targets are ordered like targets and stable | proved | C120_compact_monotone, C120_compact_stable, C120_difficulty_order | uniqueness of the (exponent, mantissa) split with mantissa in [2^15, 2^23), from C51 |
| C121 | What SupplyAfter costs | proved | C121_counter_is_faithful, C121_table_size, C121_call_cost, C121_history_cost | policy.go once more with a counter of rewards (Model/PolicyCost.v), shown to compute the same; table length by induction on the history |
| C122 | What a block may cost | proved | C122_writes_of_a_block, C122_new_accounts, C122_chain_growth | Push decomposed into a run of PutEntry calls, counted per phase; growth by an invariant on empty accounts; the chain bounds add C115 |
| C123 | From a wallet over the wire to the accounts | proved | C123_payments, C123_payment, C123_contract_spend, C123_wire_contract_spend, C123_vesting_spend, C123_htlc_refund | C69/C68 (wallet signs) composed with C77 (network block decodes) and C53/C79 (exact acceptance and effect of Push) |
| C124 | Reading while a write is under way | proved | C124_same_result, C124_every_change, C124_reads_during_write | Model/TreeSteps.v: PutEntry with a log of all intermediate states; erasure to Model/Tree.v, each logged change is quiet for readers of 40-nibble paths except the first (Proofs/StepFacts.v); Proofs/StepWalk.v shows that the log is a path of single changes |
| C125 | An interrupted write can be repeated | partial | C125_hashing_resumed_partial, C125_other_value_partial, C125_repair_partial, C125_retry_entries_partial, C125_retry_refuted, C125_neighbour_refuted, C125_delete_refuted | Proofs/StepRepair.v: every state during hashing is 'lazy' (a hash is zero, or right with everything below right), and hashing from any lazy state completes; Proofs/StepAgain.v: any write on a lazy tree works, and in every state of an interrupted insertion or replacement the branches lead to the key or stop where the old tree stopped, so writing another value takes up the update again; Proofs/StepRetry.v: in all these states every link leads to a node, so hashing returns; the rest refuted by three concrete interrupted calls |
| C126 | Overlays on one store keep apart | partial | C126_reads_partial, C126_overlay_write_partial, C126_base_write_partial, C126_flush_partial, C126_root_refuted, C126_panic_refuted, C126_write_lost_refuted | Spec/SharedHistory.v: histories of several trees on one store; Proofs/SharedFacts.v: on any heap whose branches stay within 40 nibbles every step of PutEntry leaves the 40-nibble records alone or stores the one entry, whatever the shape of the tree |
| C127 | Reading accounts while a block is applied | proved | C127_same_result, C127_snapshots, C127_other_trees | Model/PushSteps.v: Push over a state that also logs every tree passed through; Proofs/PushLog.v relates Push over two state types; the log is a history of writes of parties, C125/C126 lemmas give the readings during each |
| C128 | The text of a refusal tells the fault | partial | C128_texts_partial, C128_readable_partial, C128_unwrap, C128_account_refuted | Model/ErrorText.v gives the text of every error of Push with Go's %d, %s, %x; C94 says which errors Push returns and with which fields; injectivity by cutting the texts at the first non-digit; reading back with Spec/TextSpec.v and address.Decode; a counterexample for the unnamed account |
| C129 | Declared types of any shape | partial | C129_ordinary_partial, C129_roundtrip_partial, C129_hidden_never_read, C129_hidden_written, C129_hidden_refuted, C129_named_bytes_refuted | Model/BeserialTypes.v repeats decode.go and encode.go over richer types (visibility, optional methods) with reflect's read-only flags; agreement with Model/Beserial.v on ordinary types by induction on the type; hidden data never decoded by induction; writing equals writing the type with everything exported and hidden methods dropped |
| C130 | Blocks are written and relayed faithfully | partial | C130_written, C130_relay_partial, C130_relay_refuted | Marshal of ty_block computed field by field with the layout lemmas of C77; relaying from C77_accepted_blocks and the exact result of interlink decoding |
| C131 | A block is answered by its first fault | proved | C131_answer, C131_only, C131_panics_iff, C131_first_sender | Spec/OutcomeSpec.v lists answers per check; each phase of Push on the ledger model is shown to stop exactly as listed (both directions), phases composed, transported to the tree by push_ledger |
| C132 | What a block that is not accepted leaves, in coins | proved | C132_crash_leaves, C132_coins, C132_no_new_coins | The phases of Push on the ledger model give the accounts at the crash (crashed, Spec/OutcomeSpec.v); sums over all addresses exchange with sums over transactions as in C55 |
| C133 | The root hash seen while a write is under way | partial | C133_hash_returns_partial, C133_third_hash_refuted | Proofs/StepAgain.v, StepRetry.v: in every state of an insertion or replacement each link leads to a node and the root is a branch, so its bytes can be computed; a concrete state with a third hash |
