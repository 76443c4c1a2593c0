# ---- policy
claim("C01", "proved", "C01_supply_after_history_independent")
claim("C02", "proved", "C02_supply_after_concurrent",
      "Interleavings of an arbitrary number of goroutines at statement granularity; mutual exclusion, results, no panic, no deadlock, termination.")
claim("C03", "proved", "C03_supply_bounds_monotone")
claim("C04", "proved", "C04_reward_supply_agree C04_reward_zero_panics")
claim("C05", "proved", "C05_rewards_never_increase C05_emission_ends C05_reward_defined")
# ---- address
claim("C06", "proved", "C06_decode_encode")
claim("C07", "proved", "C07_encode_well_formed C07_encode_injective")
claim("C08", "proved", "C08_decode_exact C08_decode_total")
claim("C09", "partial", "C09_country_code_partial C09_country_code_refuted C09_any_code_refuted",
      "The property is false of the code: address.go:36 uses && so one matching letter suffices. Refuted with a witness; proved what does hold.")
claim("C10", "partial", "C10_spaces_ignored_partial C10_trailing_space_rejected C10_spaces_ignored_refuted",
      "The property is false of the code for trailing spaces (refuted with a witness); proved for all other spaces, and that a trailing space is always rejected.")
claim("C11", "proved", "C11_typo_substitution_detected C11_typo_swap_detected C11_mixed_typos_undetected",
      "Proved for characters of the same class, as stated; C11_mixed_typos_undetected shows that the restriction is necessary.")
claim("C12", "proved", "C12_key_nibbles_bijection C12_nibbles_are_high_then_low")
claim("C13", "proved", "C13_prefix_order")
claim("C14", "partial", "C14_compress_refuted C14_compress_empty_partial C14_loop_partial",
      "The property is false of the code: Compress allocates (len-1)/2 bytes and panics on every non-empty list (proved). C14_loop_partial: its loop is right on a buffer of (len+1)/2 bytes.")
# ---- tree
claim("C15", "proved", "C15_tree_is_a_map C15_contents_last_write")
claim("C16", "proved", "C16_put_reports_change")
claim("C17", "proved", "C17_root_depends_on_contents_only")
claim("C18", "proved", "C18_root_is_merkle_root",
      "The specification merkle_root is defined from the entries alone (Spec/TreeSpec.v); reach covers overlays too.")
claim("C19", "proved", "C19_equal_roots_equal_contents",
      "Up to an explicit hash collision between two serialised nodes of the two trees; H is any function with 32-byte output.")
claim("C20", "proved", "C20_store_is_canonical")
claim("C21", "proved", "C21_no_panic")
claim("C22", "proved", "C22_insert_delete_restores")
# ---- overlay
claim("C23", "proved", "C23_overlay_reads_own_writes")
claim("C24", "proved", "C24_flush_any_order")
claim("C25", "partial", "C25_lower_entries_untouched_partial C25_lower_root_refuted C25_lower_tree_refuted",
      "The property is false of the code: Branch objects are shared by pointer and mutated in place. Refuted for every tree and every history of writes: the root hash read through the lower store is that of the overlay's contents; and a later write there can panic. Proved: the lower mapping and every GetEntry are unchanged.")
claim("C26", "proved", "C26_overlay_tree_correct C15_tree_is_a_map C18_root_is_merkle_root C20_store_is_canonical C21_no_panic",
      "C16-C22 are stated over reach, which includes overlays of any depth, flushes in any order and going back to the lower store.")
claim("C74", "partial", "C74_constructible_overlay_refuted",
      "The property is false of the code: there is no constructor and the map is nil, so every write panics; only reads work (proved).")
# ---- beserial
claim("C27", "proved", "C27_decode_inverts_encode C27_zero_size_elements_refuted",
      "Types with their own codec are covered if the codec round-trips the value. Slices of elements that take no bytes are excluded, as in the statement; C27_zero_size_elements_refuted shows that they fail.")
claim("C28", "proved", "C28_unmarshal_total C28_nil_destination",
      "Supported types: struct tags parse, no pointers to types with their own codec, no element type of kind uint8 with a codec; codecs are total (proved for the wire codecs separately).")
claim("C29", "proved", "C29_self_delimiting")
claim("C30", "proved", "C30_canonical")
claim("C31", "partial", "C31_size_exact_partial C31_custom_types_refuted C31_non_pointer_arguments",
      "False of the code for types with MarshalBESerial (Size never calls it; refuted for every codec and underlying type). Proved for all types without codecs.")
claim("C32", "partial", "C32_marshal_appends_partial C32_pointer_error_refuted C32_non_pointer_arguments",
      "False of the code behind pointers: encode.go:58-63 drops the error and the buffer (refuted for every value that cannot be encoded and all fields around it). Proved: appending for every encodable value of every type; error reporting for all types without pointers.")
claim("C33", "partial", "C33_no_truncation_partial C33_truncation_refuted",
      "False of the code: a too long slice is written with its length modulo the tag (refuted for every slice). Proved for all values whose slices fit.")
claim("C34", "proved", "C34_bounded_allocation")
claim("C35", "partial", "C35_accepted_tags_partial C35_combination_refuted",
      "False of the code: tags.go:24 tests the whole tag, so combinations panic (refuted). Proved: the exact set of accepted tags and that all others panic.")
# ---- wire
claim("C36", "proved", "C36_account_round_trip C36_account_canonical",
      "The layout account_bytes is spelled out in Spec/WireSpec.v.")
claim("C37", "proved", "C37_tx_round_trip C37_tx_not_malleable",
      "The layout tx_bytes is spelled out in Spec/WireSpec.v.")
claim("C38", "partial", "C38_bits_readable_partial C38_bit_panics_refuted",
      "False of the code for 249..255 bits: Len+7 overflows uint8 (refuted for every such input). Proved up to 248 bits.")
claim("C39", "proved", "C39_proof_round_trip C39_proof_canonical")
claim("C40", "partial", "C40_signer_address_partial C40_signer_panics_refuted",
      "False of the code for 249..255 path nodes (refuted for every such proof and hash function). Proved up to 248 nodes, with the address computed.")
claim("C41", "proved", "C41_merkle_path_binds",
      "The collision, if any, is between two strings hashed while evaluating the two paths.")
claim("C42", "partial", "C42_interlink_structure_partial C42_interlink_refuted",
      "False of the code: block.go:74-75 advances the input before copying, so hashes are shifted by one and the last is padding (refuted for every hash). Proved: exactly what is decoded.")
claim("C43", "proved", "C43_interlink_length C43_interlink_accepted C43_long_interlink_panics")
claim("C44", "partial", "C44_ipv4_partial C44_ip_bytes_partial C44_ipv6_refuted",
      "False of the code: the Type field is never assigned (refuted for every IPv6 address). Proved for IPv4, and that the IP bytes are always right.")
claim("C45", "proved", "C45_ping_decode C45_ping_round_trip")
claim("C46", "partial", "C46_round_trip_partial C46_unsendable_refuted C46_empty_refuted C46_header_refuted C46_receipts_refuted C46_addresses_refuted",
      "False of the code for most message types (each refuted for all values). Proved for the message types that work.")
claim("C47", "partial", "C47_returns_partial C47_empty_panics_refuted C47_block_panics_refuted",
      "False of the code: three type numbers always panic, and blocks with long interlinks (refuted universally). Proved that every other input returns.")
claim("C48", "partial", "C48_peer_addresses_refuted",
      "False of the code for every peer address: p2p.go passes a pointer to an interface (both directions refuted universally; nothing is left to prove).")
claim("C49", "proved", "C49_views_agree C49_basic_view")
claim("C50", "partial", "C50_extended_signature_partial C50_extended_proof_refuted",
      "False of the code for every basic transaction (refuted universally): the proof is the bare signature.")
claim("C51", "proved", "C51_compact_target C51_small_target_panics C51_difficulty")
# ---- accounts
claim("C52", "proved", "C52_read_back C52_get_returns C52_ledger_exists",
      "States: everything reachable from a new tree by PutAccount, Push, policy calls and overlay open/flush/close (areach).")
claim("C53", "proved", "C53_transfers")
claim("C54", "proved", "C54_order_irrelevant")
claim("C55", "partial", "C55_total_partial C55_basic_senders_partial C55_contract_fee_refuted C55_money_refuted",
      "False of the code: fees of transactions sent by contracts are paid to the miner but not charged (refuted for every such block). Proved: the exact new total, hence the property whenever contracts send no fees; overflows of value+fee and overdrawn vesting contracts (C64, C60) excluded.")
claim("C56", "proved", "C56_only_parties")
claim("C57", "partial", "C57_unchanged_partial C57_not_atomic_refuted",
      "False of the code: there is no rollback (C94 says what remains; refuted for every overspending block of transfers whose first transfer is covered). Proved: unchanged if the first debit is refused or there are no transactions.")
claim("C58", "proved", "C58_prune_list C58_settled_exists",
      "If an address is listed twice, its last entry is the one compared (listed).")
claim("C59", "partial", "C59_stepwise_refuted C59_no_steps_partial C59_between_steps_partial C59_linear_partial C59_monotone_partial",
      "False of the code: the division is by floats, so the amount grows linearly between steps (refuted). Proved about the float computation: never less than the completed steps and less than one step more, the linear value up to rounding, monotone in the height, everything without steps. Uses the standard library's real number axioms through Flocq.")
claim("C60", "partial", "C60_balance_partial C60_overdraw_refuted",
      "False of the code: the value is compared with the unlocked amount, not the balance, and the fee is not charged (refuted). Proved: new balance = old - value when value <= balance.")
claim("C61", "proved", "C61_owner_spends C61_owner_can_spend")
claim("C62", "proved", "C62_htlc_rules C62_exclusive")
claim("C63", "partial", "C63_hash_named_partial C63_any_preimage C63_preimage_refuted",
      "False of the code: the pre-image is never hashed, any one is accepted (refuted). Proved: the hash root itself must be named.")
claim("C64", "partial", "C64_basic_partial C64_overdraw_refuted",
      "False of the code when value + fee wraps around 2^64 (refuted). Proved exactly when it does not.")
claim("C65", "partial", "C65_contract_created_partial C65_single_creation_partial C65_overwritten_refuted",
      "False of the code when the same block creates another contract at the address: the last one wins (refuted). Proved for the last creation; exactly the property if the creation is the only transaction from or to its recipient.")
claim("C66", "partial", "C66_panics_partial C66_contract_recipient_refuted C66_long_path_refuted C66_no_body C131_panics_iff",
      "False of the code: paying to a contract panics, and so does a proof with a path of 249 to 255 nodes (both refuted). Proved: Push terminates, and these (and missing body, height 0) are the only causes; C131_panics_iff says exactly which blocks crash.")
claim("C67", "proved", "C67_same_answers")
claim("C68", "proved", "C68_signed_extended C68_wallet_address C68_replaces_proof C68_owner_spends",
      "Wallets: derived or generated, then used (wallet_for). Ed25519 and Blake2b are parameters; scheme_ok says what is assumed of the scheme (lengths, correctness).")
claim("C69", "proved", "C69_signed_basic")
claim("C70", "proved", "C70_payload_determines_content C70_payload_exists C70_payload_any_size C70_any_size_determines_content",
      "The last two also cover transactions whose data does not fit its length prefix.")
claim("C71", "proved", "C71_signed_peer_verifies C71_message_determines_fields C71_verify_checks_message C71_address_not_covered",
      "C71_address_not_covered: network address, distance, host and port are not protected by the signature.")
claim("C72", "proved", "C72_init_accounts C72_root_commits C72_empty_genesis_block C72_same_root_same_accounts C72_profile_decodes C72_profile_accepted",
      "From the contents of the profile's files on; reading files and TOML is not modelled.")
claim("C73", "proved", "C73_replay C73_reports_or_panics C73_program C73_final_state",
      "The tar reader is modelled as a list of entries (contents or error).")
claim("C75", "proved", "C75_size_methods_exact C75_pings_and_peers")
claim("C76", "partial", "C76_empty_chunk_partial C76_chunk_refuted C76_chunk_decode_refuted",
      "False of the code for every non-empty chunk: the inner slices have no length tag (refuted in both directions).")
claim("C77", "proved", "C77_network_block_decodes C77_accepted_blocks")
claim("C78", "proved", "C78_staking_round_trip")

# ---- what Push reads
claim("C79", "proved", "C79_accepts C79_effect C79_settled_unique",
      "The rules are Spec/RulesSpec.v; the amount a vesting contract has unlocked is the code's float computation (C59 says what it is).")
claim("C80", "partial", "C80_types_partial C80_unknown_type_refuted",
      "False of the code: announcing 255 skips the check (refuted: every accepted block is still accepted with all extended senders announced as 255). Proved for all other announcements.")
claim("C81", "partial", "C81_signed_refuted C81_signatures_ignored C81_anyone_spends C81_owner_named_partial C81_htlc_partial",
      "False of the code: no signature is ever verified (refuted for every hash function and verification predicate); anyone can spend from any basic account without a proof. Proved: contracts are spent only with proofs naming the required keys.")
claim("C82", "partial", "C82_window_refuted C82_replay_refuted",
      "False of the code in all three parts (each refuted for all blocks): nothing is left to prove.")
claim("C83", "partial", "C83_header_refuted C83_accounts_hash_refuted C83_height_used_partial",
      "False of the code: of the header only the height is read (refuted for all blocks). Proved: how the height is used. The replay program does compare the accounts hash (C73).")
claim("C84", "partial", "C84_exact_partial C84_supply_partial C84_program_partial C84_profile_partial C84_main_network_partial C84_test_network_partial C84_supply_refuted",
      "False of the code when contracts pay fees (refuted for every such block, see C55): for all chains without overdrawn vesting contracts the money in the end is the supply plus exactly the fees of the transactions sent by contracts (C84_exact_partial). So it is proved for all chains of any length whose transactions are sent by basic accounts, or by HTLCs without fee, and for the whole replay program, in particular on the main and test network profiles of the repository with Blake2b.")
claim("C85", "partial", "C85_revert_refuted", "False of the code: Revert is not implemented and panics.")

# ---- messages, exactly
claim("C86", "proved", "C86_accepts C86_accepts_blocks C86_blocks_accepted",
      "Payloads are specified byte by byte in Spec/MessageSpec.v.")
claim("C87", "proved", "C87_unknown C87_number")
claim("C88", "partial", "C88_type_partial C88_header_type_refuted C88_numbers",
      "False of the code for header messages: number 7 yields a message whose Type() is 6 (refuted for all headers). Proved for all other numbers.")
claim("C89", "proved", "C89_sends", "That most messages cannot be sent at all is C46.")

claim("C90", "proved", "C90_truncated C90_objects C90_blocks", "For types with their own codec: for every codec that reports cut-off input itself; those of accounts, transactions, proofs and blocks do.")
claim("C91", "partial", "C91_local C91_objects C91_block_refuted",
      "False of the code for blocks: interlink hashes are read from behind the interlink (refuted for all headers and hashes). Proved for all other types, for codecs that re-encode what they read.")
claim("C92", "proved", "C92_header_sent C92_header_read C92_address_error C92_server_address", "C92_header_read says what happens to NetAddress.Type; peer addresses themselves: C48.")
claim("C93", "partial", "C93_address_partial C93_stale_refuted C68_wallet_address",
      "False of the code: the address is remembered past a change of the exported PublicKey (refuted for all keys). Proved as long as the key is not reassigned.")
claim("C94", "proved", "C94_names_a_fault C94_overspend",
      "EPruneEarly carries all addresses left over; the Go error names one of them (map order).")
claim("C96", "proved", "C96_derive C96_public_key C96_sign_extended C96_sign_basic C96_made_wallets_never_panic",
      "A key slice is taken to have no spare capacity. Ed25519 is a parameter: only the 64-byte length of signatures is used.")
claim("C97", "proved", "C97_peer_id_begins_address C97_signed_peer_identity")
claim("C98", "partial", "C98_schemes C98_received_protocols_partial C98_rtc_refuted",
      "The second half is false of the code: WebRTC has a scheme but received WebRTC addresses are refused as unknown (refuted for every such address). Proved for all other protocols, and the first half.")
claim("C99", "proved", "C99_text_reads_back C99_address_text C99_prefix_text")
claim("C100", "partial", "C100_overwrites_partial C100_wire_objects_partial C100_blocks_partial C100_interlink_refuted C100_netaddress_refuted",
      "False of the code for network addresses (the old type stays: refuted for every accepted input) and interlinks (the old PrevHash stays and becomes the first hash). Proved for every type whose UnmarshalBESerial methods ignore their receiver, among them all other wire objects, and for blocks with equal PrevHash. What a failed decoding leaves behind is not modelled.")
claim("C95", "partial", "C95_accounts_untouched_partial C95_commit C95_root_refuted",
      "The property is false of the code for the root hash: for every tree and block the lower tree's root hash after the trial is that of the tried accounts (C95_root_refuted; in C95_example a later block then panics). Proved: every account reads as before, and the flushed trial equals the direct push.")
claim("C101", "proved", "C101_entries C101_root C101_put C101_any_capacity",
      "Stated for a second model of tree.go on slices with shared arrays (Model/TreeSlices.v), proved by simulation of the list model.")
claim("C102", "partial", "C102_buffers_not_written_partial C102_free_buffers_partial C102_held_buffers_refuted",
      "False of the code: the tree keeps the slice it is given and returns it. Refuted for every reachable tree and every entry: the caller's change to the buffer changes the entry and leaves the root hash. Proved: PutEntry writes to no buffer of the caller, and buffers that no entry is held in can be changed freely. PutAccount always passes a freshly encoded buffer (accounts.go:92-98), so accounts are not affected.")
claim("C103", "partial", "C103_get_partial C103_push_partial C103_put_partial C103_initial_account_refuted",
      "False of the code for addresses without an entry: GetAccount returns the address of the global wire.InitialAccount, and a caller that assigns to it changes the balance of all such addresses in all trees (refuted for every reachable state; in C103_example anybody can then spend the money). Proved for all histories in which nobody assigns to that object: the model on objects (Model/AccountObjects.v) agrees with the model on values that all other theorems about accounts use.")
claim("C104", "partial", "C104_alone C104_words_right_or_zero_partial C104_memoised_partial C104_concurrent_refuted",
      "False of the code: the memoised address is written without a lock, so a second first caller can be returned the first words followed by zeros (refuted for every address and every division of it into words with a non-zero first word and other non-zero words). Proved for all schedules: every returned word is the right one or zero; once memoised, all callers get the address; a single caller does what the sequential model does.")
claim("C105", "proved", "C105_uninterrupted C105_interrupted C105_written_down C105_tree_interrupted C105_lower_not_atomic",
  "Flush one statement at a time (Model/TreeCrash.v); the histories over which the tree and accounts properties are proved (reach, areach, oreach, sreach) now include interrupted flushes. C105_lower_not_atomic is the last sentence of the property.")
claim("C106", "partial", "C106_range_partial C106_any_order_partial C106_failures_partial C106_last_refuted C106_order_refuted",
      "False of the code twice: range() stops before --to, so the last block is never requested nor exported (refuted for all servers, ranges and batch sizes), and the sorted answer is dropped (refuted for every chain and every range and batch size that puts two blocks in a batch). Proved: exactly the blocks F to T-1, in order if the server answers in order, the same blocks otherwise; an initial part if a request fails or an answer is garbled. The tar format, HTTP and JSON are not modelled.")
claim("C107", "partial", "C107_replay_of_export_partial C107_last_block_refuted",
      "False of the code: block N is not in the export (refuted: the outcome does not depend on it). Proved: the replay of an export from F to T applies exactly the blocks F+1 to T-1; the first file is skipped.")

claim("C108", "partial", "C108_entries_partial C108_root_refuted C108_lost_entry_refuted C15_tree_is_a_map C18_root_is_merkle_root",
      "False of the code for engines that keep nodes by value: invalidatePath changes ancestors without putting them back, so a second write under a used first digit never reaches the root hash (refuted after every history, for every hash that is never all zero), and deleting one of two such entries leaves the root hash of the empty tree. Proved: entries read back as last written (a deleted one as missing or empty) and nothing panics over such engines; over the engines of the repository, which share node objects, C15 and C18 give the whole property.")

claim("C109", "proved", "C109_marshal_memory C109_results_stay C109_second_replaces_first C109_wire_types",
      "A second model of encode.go on slices with shared arrays and capacities, simulated by the one on byte lists for all types and values. The value itself is assumed to share no memory with the unused capacity of the buffer; a custom MarshalBESerial appends its result in arbitrary pieces, and C109_wire_types shows that those of package wire append.")

claim("C110", "partial", "C110_decode C110_hashes_follow C110_prev_later C110_separate_partial C110_copy_refuted",
      "False for copies of the struct (refuted for every input whose first bit repeats PrevHash): a copy's Hashes go on pointing to the PrevHash of the original, so they ignore the copy's own and change with the original's. Proved: the rest; C110_separate_partial is restricted to programs that never copy the struct, the other theorems are not.")

claim("C111", "proved", "C111_same_result C111_old_memory C111_earlier_values C111_owns C111_input_reused C111_value_written C111_failed C111_fields C111_elements C111_wire_types C111_pointer_codec_refuted",
      "A second model of decode.go with explicit memory, simulating the one on values for all types, inputs and contents. C111_wire_types lists the types of package wire it covers. C111_pointer_codec_refuted shows why pointers to self-decoding types are excepted: they are decoded in place, so copies of the pointer see the new value (no wire type has one). What a type's own UnmarshalBESerial returns is put in fresh memory by the model: by reading, those of package wire copy what they read.")

claim("C112", "proved", "C112_total_allocation C112_paid_by_read C112_wire_types C112_wire_bound C112_empty_elements_refuted",
      "C112_empty_elements_refuted shows that the proviso is needed: with elements of zero bytes 2N+2 input bytes make the decoder set up N*N elements. Counted are the slices and strings that package beserial itself allocates; what a type's own UnmarshalBESerial allocates (fixed amounts of at most 255 hashes, or through beserial again) and the objects behind pointers are not.")
claim("C113", "proved", "C113_write_is_local C113_no_change C113_history_is_local C113_lower_nodes_untouched",
      "Together with C25_lower_root_refuted this delimits what an overlay tree damages of the tree below: only branch objects on the paths of the keys written.")
claim("C114", "proved", "C114_contract_life C114_timeout_ends_claims",
      "The balance is given modulo 2^64: that a vesting contract may pay more than it holds (and its balance wrap) is C60's subject. Amounts are values; fees of contract transactions are not taken from the contract (C55).")
claim("C115", "proved", "C115_store_size C115_mem_store_size C115_write_cost C115_history_cost",
      "1 + m + (m-1) with truncated subtraction, that is 2m for m > 0 and 1 for m = 0; C115_case reaches the bound. Nodes are counted as paths at which the store finds one; an overlay also keeps one deletion marker per path deleted in it, which is not counted.")
claim("C116", "proved", "C116_only_parties_matter C116_chain", "For accepted, refused and panicking blocks alike.")
claim("C117", "proved", "C117_order_irrelevant C117_creations_differ",
      "Generalises C54 (plain transfers). C117_creations_differ shows that the exception is real. For refused blocks only that both orders are refused is claimed: the errors may differ, and so may the state that a refused block leaves (C57).")
claim("C118", "proved", "C118_root_determines_accounts C118_accounts_determine_root C118_root_determines_future",
      "The exception names the colliding nodes (nodes_collide): they are nodes of these two trees.")
claim("C119", "proved", "C119_restore", "The way around C57 and C85 (no rollback, Revert not implemented).")

claim("C120", "proved", "C120_compact_monotone C120_compact_stable C120_difficulty_order", "Below 2^16 TargetToCompact panics (C51_small_target_panics).")
claim("C121", "proved", "C121_counter_is_faithful C121_table_size C121_call_cost C121_history_cost", "Cost is the number of rewards computed (iterations of the innermost loop).")

claim("C122", "proved", "C122_writes_of_a_block C122_new_accounts C122_chain_growth", "C122_writes_of_a_block needs no assumption on the state or the block. A contract that is replaced in a block and one that is pruned do not make new accounts, so the bound on accounts is not always reached; C122_case reaches it.")
claim("C123", "proved", "C123_payments C123_payment C123_contract_spend C123_wire_contract_spend C123_vesting_spend C123_htlc_refund", "Signature scheme and hash are parameters. Push itself never checks the signatures (C81), so this is the completeness direction: honest users are served. In the contract theorems the contract keeps a positive rest; C123_contract_spend also covers the emptied contract with its prune list entry. The fee of a contract spend is credited to the miner although the contract does not lose it (C55).")
claim("C124", "proved", "C124_same_result C124_every_change C124_reads_during_write", "Model/TreeSteps.v records the state after every PutNode, DelNode and write to a branch object; a child record is written as a whole. The Go memory model gives no guarantee to unsynchronised readers, so this is about sequentially consistent interleavings and about what is left after a panic.")
claim("C125", "partial", "C125_hashing_resumed_partial C125_other_value_partial C125_repair_partial C125_retry_entries_partial C125_retry_refuted C125_neighbour_refuted C125_delete_refuted", "Holds for interruptions after the update and before the end of the hashing: the next write, whatever it is, completes it. Wherever a write of a non-empty value is stopped, writing any other non-empty value to the key works, and everything is then as if the stopped call had not been made (so another value and then the wanted one repairs the tree). Repeating a stopped write of a value always returns normally and leaves the right entries. Its root hash is wrong, though: once the leaf is stored (or deleted) a repeated call finds nothing to do and the root hash stays that of the old contents; deleting the half-stored entry instead leaves an entry with an empty value and a wrong root; a deletion interrupted after the branch above it is removed makes PutEntry on a neighbouring key, and on the deleted one, panic.")
claim("C126", "partial", "C126_reads_partial C126_overlay_write_partial C126_base_write_partial C126_flush_partial C126_root_refuted C126_panic_refuted C126_write_lost_refuted", "The statements about entries hold for every interleaved history, even with interrupted writes. False: the root hash of an overlay becomes that of another overlay's contents (branch objects are shared and changed in place), the next write through it can panic, and a write of the value the lower store already has is not recorded, so a later write to the lower store shows through.")
claim("C127", "proved", "C127_same_result C127_snapshots C127_other_trees", "Push instrumented with every change of the tree (Model/PushSteps.v over Model/TreeSteps.v) gives the same result as Push; the states it passes through are all in the log. Steps are those of the model: stores of the Go code, in program order (no claim under the Go memory model for unsynchronised readers).")
claim("C128", "partial", "C128_texts_partial C128_readable_partial C128_unwrap C128_account_refuted", "Proved for every refusal that does not wrap an error of package beserial (undecodable proofs and contract data; their texts are left out). Amounts, types and addresses can be read back; for several accounts pruned too early the text names one of them. False: the texts of an overspend and of an account type mismatch do not name the account. The formats %d, %s and %x of package fmt are modelled, not verified; %x of the *[20]byte in InvalidForRecipientError prints an ampersand before the digits. InvalidForSenderError is never made.")
claim("C129", "partial", "C129_ordinary_partial C129_roundtrip_partial C129_hidden_never_read C129_hidden_written C129_hidden_refuted C129_named_bytes_refuted", "Holds for types all of whose data is reached through exported fields (also of embedded unexported structs) and whose named types have both methods or none. False otherwise: data below an unexported field is written (without calling its methods) but Unmarshal can never read the type (it panics or fails on every input); an array of a named byte type is written and makes Unmarshal panic. Package reflect's access rules (Go 1.16) are modelled, not verified; named pointer types are left out.")
claim("C130", "partial", "C130_written C130_relay_partial C130_relay_refuted", "Writing is proved for every block whose Compressed hashes fit its bit set. Relaying is exact only if the bit set has no 0 bit; the theorem gives the exact length otherwise. False: a decoded block with a 0 bit in the padding of its bit set (any interlink whose length is not a multiple of 8, as the network writes it) is written as more bytes than were read (UnmarshalBESerial counts padding bits as hashes, and reads the hashes one place too late, see C42).")
claim("C131", "proved", "C131_answer C131_only C131_panics_iff C131_first_sender", "Left open by same_answer: which of the decoder's errors an unreadable proof or contract data gives, and the order of the addresses in the error about early removals (Go map iteration). The specification Spec/OutcomeSpec.v lists the checks and their answers; C131_only shows that it gives one answer.")
claim("C132", "proved", "C132_crash_leaves C132_coins C132_no_new_coins", "The state after a refusal is that of C94. A panic is taken to leave the effects of the completed statements (no deferred calls in this code).")
claim("C133", "partial", "C133_hash_returns_partial C133_third_hash_refuted", "Hash always returns while a value is being stored. False: the hash returned can be a third one, that of a root node with an all-zero child hash (the hashes on the way are reset before they are computed). Steps are those of the model, in program order; deletions are left out of the positive part (see C125).")
