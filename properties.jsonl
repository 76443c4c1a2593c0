{"id": "C01", "title": "SupplyAfter is independent of call history", "statement": "For every uint32 height h, SupplyAfter(h) returns the supply obtained by starting from InitialSupply and adding the block reward of every height 0..h in turn, whatever sequence of SupplyAfter/BlockReward calls was made before (i.e. whatever has been memoised).", "quantifier": "all heights and all finite histories of earlier calls", "why_tests_cant": "The memo table makes the answer depend on history; tests exercise a handful of heights in one order.", "anchors": ["policy/policy.go: SupplyAfter, BlockReward, SupplyBetween, supplyCache"]}
{"id": "C02", "title": "SupplyAfter is correct under every interleaving of concurrent callers", "statement": "Any number of goroutines may call SupplyAfter concurrently: in every interleaving at most one is inside the critical section, every finished call returned the history-free value for its height, and no call panics on an out-of-range memo index.", "quantifier": "all thread counts, all schedules, all uint32 heights", "why_tests_cant": "Schedules cannot be enumerated by tests.", "anchors": ["policy/policy.go: SupplyAfter, supplyCacheLock"]}
{"id": "C03", "title": "The supply stays within [InitialSupply, TotalSupply] and never decreases", "statement": "For all uint32 heights h <= h': InitialSupply <= SupplyAfter(h) <= SupplyAfter(h') <= TotalSupply; no uint64 wrap-around happens in the computation.", "quantifier": "all pairs of heights", "why_tests_cant": "2^32 heights, and the bound is an inductive fact about the emission recurrence.", "anchors": ["policy/policy.go: SupplyAfter, BlockRewardBySupply, TotalSupply, InitialSupply"]}
{"id": "C04", "title": "Block rewards and supply agree", "statement": "For every height 1 <= h: SupplyAfter(h) = SupplyAfter(h-1) + BlockReward(h). BlockReward(0) panics.", "quantifier": "all uint32 heights >= 1", "why_tests_cant": "Must hold for each of 2^32 heights; the last one is where the code's height+1 wraps.", "anchors": ["policy/policy.go: SupplyAfter, BlockReward"]}
{"id": "C05", "title": "The emission curve is non-increasing and ends", "statement": "BlockReward never increases with height, is never more than 440597534, is positive for all heights up to 52,888,000 and zero for all heights from 52,890,000 on.", "quantifier": "all uint32 heights from 1", "why_tests_cant": "Needs bounds on a 48-million-step recurrence for every height, including the hand-over to the constant tail emission.", "anchors": ["policy/policy.go: BlockRewardBySupply, EmissionTailStart, EmissionTailReward, EmissionSpeed"]}
{"id": "C06", "title": "Address decoding inverts encoding", "statement": "For every 20-byte address a, Decode(Encode(a)) succeeds and returns a.", "quantifier": "all 2^160 addresses", "why_tests_cant": "The checksum is computed by blockwise decimal arithmetic over a variable-length digit string; only a proof covers all addresses.", "anchors": ["address/address.go: Encode, Decode, addressCheck"]}
{"id": "C07", "title": "Encoded addresses are well-formed", "statement": "Encode(a) is always 44 bytes: 'NQ', two decimal check digits, then eight space-separated groups of four characters of the 32-character alphabet; different addresses have different encodings.", "quantifier": "all addresses", "why_tests_cant": "Input space is 2^160.", "anchors": ["address/address.go: Encode, Encoding"]}
{"id": "C08", "title": "Exactly which strings Decode accepts", "statement": "Decode(s) returns a without error iff s, with spaces removed, has exactly 36 bytes, s does not continue (even with spaces) after the 36th of them, byte 0 is 'N' or byte 1 is 'Q', all bytes are ASCII letters or digits, the last 32 are in the alphabet, the decimal expansion of bytes 4..35 followed by 0..3 is 1 modulo 97, and a is the base-32 value of the last 32.", "quantifier": "all byte strings of any length", "why_tests_cant": "Universal over unbounded strings, in both directions.", "anchors": ["address/address.go: Decode, truncateWhitespace, addressCheck"]}
{"id": "C09", "title": "Only addresses with country code NQ are accepted", "statement": "Every string accepted by Decode has first two non-space characters 'NQ'.", "quantifier": "all strings", "why_tests_cant": "An acceptance bug needs a particular malformed string that still satisfies the checksum.", "anchors": ["address/address.go: Decode (package doc: Characters 0-2 must be \"NQ\")"]}
{"id": "C10", "title": "Spaces are ignored when decoding", "statement": "Decode(s) depends only on s with all spaces removed.", "quantifier": "all strings", "why_tests_cant": "Unbounded placements of spaces.", "anchors": ["address/address.go: truncateWhitespace, Decode doc comment"]}
{"id": "C11", "title": "The address checksum detects single typos and swaps", "statement": "If s is a valid 36-character address then replacing one character by a different character of the same kind (digit by digit, letter by letter of another value), or exchanging two adjacent characters of the same kind and different value, gives a string that Decode rejects.", "quantifier": "all valid addresses, all positions, all replacement characters", "why_tests_cant": "All addresses x positions x characters.", "anchors": ["address/address.go: addressCheck, Decode"]}
{"id": "C12", "title": "Address keys and nibble paths are in bijection", "statement": "KeyToNibbles yields 40 nibbles, each below 16, ToKey(KeyToNibbles(k)) = k for every key and KeyToNibbles(ToKey(n)) = n for every list of 40 nibbles; ToKey panics on every other length.", "quantifier": "all keys and all nibble lists", "why_tests_cant": "2^160 keys.", "anchors": ["tree/store.go: KeyToNibbles, ToKey", "wire/nibbles.go: KeyToNibbles, ToKey"]}
{"id": "C13", "title": "PrefixOf and CommonPrefix compute the prefix order", "statement": "a.PrefixOf(b) is true iff b = a ++ r for some r; a.CommonPrefix(b) is the longest list that is a prefix of both.", "quantifier": "all pairs of nibble lists", "why_tests_cant": "Unbounded lists.", "anchors": ["tree/store.go: PrefixOf, CommonPrefix", "wire/nibbles.go"]}
{"id": "C14", "title": "Compress packs nibbles two per byte", "statement": "For every nibble list, Compress returns its packing (two nibbles per byte, high nibble first) without panicking.", "quantifier": "all nibble lists", "why_tests_cant": "All lengths.", "anchors": ["tree/store.go: Compress", "wire/nibbles.go: Compress"]}
{"id": "C15", "title": "The state tree behaves as a map", "statement": "After any sequence of PutEntry calls on a fresh tree, GetEntry(k) returns the value of the last PutEntry for k, or nil if there was none or it was empty (a deletion); in particular a PutEntry changes no other key.", "quantifier": "all finite sequences of PutEntry with arbitrary keys and values, all keys", "why_tests_cant": "Node splitting, branch insertion and pruning interact over histories of any length.", "anchors": ["tree/tree.go: PutEntry, GetEntry, update, prune", "tree/store_mem.go: MemStore"]}
{"id": "C16", "title": "PutEntry reports whether anything changed", "statement": "PutEntry returns true iff the entry's value before the call differs from the new one (absent counting as empty), and when it returns false the root hash and all entries are unchanged.", "quantifier": "all histories, keys, values", "why_tests_cant": "History-dependent.", "anchors": ["tree/tree.go: PutEntry, updateEntry"]}
{"id": "C17", "title": "The root hash depends only on the contents", "statement": "If two sequences of PutEntry calls leave the same key/value contents then the trees have the same root hash.", "quantifier": "all pairs of histories", "why_tests_cant": "All insertion/deletion orders; the test covers three.", "anchors": ["tree/tree.go: Hash, update, prune, updateHashes"]}
{"id": "C18", "title": "The root hash is the Merkle-Patricia hash of the contents (never stale)", "statement": "After every PutEntry the root hash equals the Merkle hash, computed bottom-up from scratch, of the path-compressed 16-ary trie holding exactly the current entries: leaves hash 0xFF,40,hex key,value; branches hash 0x00,len,hex prefix,count,(suffix len,hex suffix,child hash)*.", "quantifier": "all histories", "why_tests_cant": "Hash invalidation is incremental; staleness shows only for particular update paths.", "anchors": ["tree/tree.go: invalidatePath, updateHashes", "tree/node.go: Branch.Hash, Leaf.Hash"]}
{"id": "C19", "title": "Equal root hashes mean equal contents, up to hash collisions", "statement": "If two trees built by any histories have the same root hash, then either they hold exactly the same entries or a concrete pair of different byte strings with the same Blake2b hash is exhibited by them.", "quantifier": "all pairs of histories, any 32-byte hash function", "why_tests_cant": "Commitment soundness is a statement about all pairs of states.", "anchors": ["tree/node.go: Branch.Hash, Leaf.MarshalTo", "tree/tree.go: Hash"]}
{"id": "C20", "title": "The store contains exactly the canonical trie nodes", "statement": "After any history the store holds the root, one leaf per entry, and a branch at a non-empty prefix exactly when two entries diverge right after that prefix; no other key is present (no leaks, no dangling child).", "quantifier": "all histories, all store keys", "why_tests_cant": "Leaks appear only after particular delete patterns.", "anchors": ["tree/tree.go: update, prune", "tree/store_mem.go"]}
{"id": "C21", "title": "Tree operations never panic", "statement": "No sequence of PutEntry, GetEntry and Hash calls with 20-byte keys on a fresh tree panics (no failed type assertion, index out of range or endless recursion).", "quantifier": "all histories", "why_tests_cant": "Panics hide in corner cases of split/prune.", "anchors": ["tree/tree.go"]}
{"id": "C22", "title": "Insert-then-delete restores the tree", "statement": "If k has no entry, PutEntry(k, v) followed by PutEntry(k, nil) restores the previous root hash and exactly the previous entries.", "quantifier": "all reachable trees, keys, values", "why_tests_cant": "All reachable tree shapes.", "anchors": ["tree/tree.go: update, prune"]}
{"id": "C23", "title": "An overlay store reads its own writes and leaves the lower store's mapping alone", "statement": "For any sequence of PutNode/DelNode on an OverlayStore with an initialised map, GetNode returns the last node put, nil if last deleted, and otherwise what the lower store returns; the lower store's key-to-node mapping does not change.", "quantifier": "all operation sequences, all keys, any lower store (including another overlay)", "why_tests_cant": "All histories.", "anchors": ["tree/store_overlay.go: GetNode, PutNode, DelNode"]}
{"id": "C24", "title": "Flush writes the overlay down, in any iteration order", "statement": "For an overlay with an initialised map: after Flush the overlay is empty, GetNode on the overlay returns the same as before for every key, and the lower store now answers as the overlay did; this holds for every order in which Go iterates over the map.", "quantifier": "all overlays, lower stores and iteration orders", "why_tests_cant": "Go map iteration order is random.", "anchors": ["tree/store_overlay.go: Flush"]}
{"id": "C25", "title": "A tree over an overlay does not affect the lower tree before Flush", "statement": "PutEntry on a PMTree whose store is an overlay leaves every observation (GetEntry, Hash, further PutEntry) of a PMTree on the lower store unchanged.", "quantifier": "all lower trees and operation sequences", "why_tests_cant": "Nodes are shared by pointer between the layers; aliasing bugs need particular sharing patterns.", "anchors": ["tree/store_overlay.go: doc comments of PutNode/DelNode", "tree/tree.go: update, prune, invalidatePath"]}
{"id": "C26", "title": "A tree over an overlay is itself correct", "statement": "All map, hash and structure guarantees of the tree hold as well when its store is an overlay with an initialised map (of any depth) over a valid store, and Flush changes neither its entries nor its root hash.", "quantifier": "all stacks of overlays, all operation sequences", "why_tests_cant": "All layerings and histories.", "anchors": ["tree/tree.go", "tree/store_overlay.go"]}
{"id": "C27", "title": "Decoding inverts encoding for every Go type beserial supports", "statement": "For every type built from booleans, sized integers, strings, pointers (optional or not), arrays, slices with a length tag (of elements that take at least one byte) and structs, and every value of it whose slices fit their length tag and whose non-optional pointers are not nil, Marshal succeeds and Unmarshal of its output followed by arbitrary further bytes returns the same value and exactly the number of bytes written, whatever the destination held before.", "quantifier": "all types, all values, all trailing data", "why_tests_cant": "Infinitely many types and values.", "anchors": ["beserial/encode.go: Marshal, marshal", "beserial/decode.go: Unmarshal, value"]}
{"id": "C28", "title": "Unmarshal is total and reads only what is there", "statement": "On arbitrary input bytes and any supported type, Unmarshal returns a value or an error, never panics, and the count n satisfies 0 <= n <= len(data); UnmarshalFull succeeds iff Unmarshal does with n = len(data).", "quantifier": "all byte strings, all supported types", "why_tests_cant": "Adversarial input space.", "anchors": ["beserial/decode.go: Unmarshal, UnmarshalFull, pop, number"]}
{"id": "C29", "title": "Encodings are self-delimiting and injective", "statement": "No encoding of a value is a proper prefix of the encoding of another value of the same type, and equal encodings come from equal values.", "quantifier": "all pairs of values of one type", "why_tests_cant": "Quantifies over pairs.", "anchors": ["beserial/encode.go: marshal", "beserial/decode.go: value"]}
{"id": "C30", "title": "Encodings are canonical", "statement": "If Unmarshal accepts n bytes of data as value v then Marshal(v) is exactly those n bytes (no malleability).", "quantifier": "all byte strings, all supported types", "why_tests_cant": "All adversarial encodings.", "anchors": ["beserial/decode.go: value", "beserial/encode.go: marshal"]}
{"id": "C31", "title": "Size is the exact encoded length", "statement": "Whenever Size(v) returns n without error, Marshal(b, v) appends exactly n bytes.", "quantifier": "all supported types and values", "why_tests_cant": "All types and values.", "anchors": ["beserial/size.go: Size, valueSize (doc: exact size)", "beserial/encode.go: Marshaler.SizeBESerial"]}
{"id": "C32", "title": "Marshal appends and never loses data or errors", "statement": "If Marshal(b, v) returns without error its result starts with b and is b followed by the encoding of v; if some part of v cannot be encoded an error is returned.", "quantifier": "all buffers, types and values", "why_tests_cant": "All nested failure positions.", "anchors": ["beserial/encode.go: Marshal, marshal"]}
{"id": "C33", "title": "Marshal never silently truncates a slice", "statement": "If Marshal succeeds on a value, decoding the result gives the value back (in particular a slice longer than its length tag can express is rejected).", "quantifier": "all values", "why_tests_cant": "Boundary is at 2^8, 2^16, 2^32 elements.", "anchors": ["beserial/encode.go: marshalInt (TODO Bounds checks)"]}
{"id": "C34", "title": "Decoding allocates no more elements than input bytes", "statement": "While decoding, every slice or string allocated has at most as many elements as there are remaining input bytes, whatever length the input claims.", "quantifier": "all inputs, all supported types", "why_tests_cant": "Adversarial lengths up to 2^64-1.", "anchors": ["beserial/decode.go: value (slice case), pop"]}
{"id": "C35", "title": "Struct tags are parsed unambiguously", "statement": "Parsing a beserial struct tag accepts comma-separated options: 'optional' and 'len_tag=uintN' can be combined in any order; anything else panics.", "quantifier": "all tag strings", "why_tests_cant": "All strings.", "anchors": ["beserial/tags.go: parse"]}
{"id": "C36", "title": "Account encodings round-trip and are canonical", "statement": "Every account (basic, vesting, HTLC) with in-range fields encodes (type byte first) and decodes back to itself, consuming exactly its encoding, and any accepted account bytes re-encode to the same bytes.", "quantifier": "all accounts; all byte strings", "why_tests_cant": "All field values.", "anchors": ["wire/account.go: WrapAccount, BasicAccount, VestingAccount, HTLCAccount"]}
{"id": "C37", "title": "Transaction encodings round-trip and are not malleable", "statement": "Every basic transaction, and every extended transaction whose data and proof are shorter than 2^16 bytes, encodes and decodes to itself; any accepted transaction bytes re-encode to exactly the same bytes.", "quantifier": "all transactions; all byte strings", "why_tests_cant": "All field values and adversarial encodings.", "anchors": ["wire/tx.go: WrapTx", "wire/tx_basic.go", "wire/tx_extended.go"]}
{"id": "C38", "title": "Bit sets decoded from the wire are safe to index", "statement": "After BitSet.UnmarshalBESerial accepts, bit(i) can be read for every i < Len without panicking.", "quantifier": "all byte strings", "why_tests_cant": "Boundary at Len = 249 where the uint8 ceiling division wraps.", "anchors": ["wire/bitset.go: UnmarshalBESerial, bit"]}
{"id": "C39", "title": "Signature proofs round-trip and are canonical", "statement": "Every signature proof with n <= 248 merkle path nodes and a matching bit set round-trips through its encoding, and every accepted encoding re-encodes to the same bytes.", "quantifier": "all proofs; all byte strings", "why_tests_cant": "All shapes.", "anchors": ["wire/signature.go: SignatureProof, MerklePath"]}
{"id": "C40", "title": "Computing a signer address never panics on received proofs", "statement": "For every byte string accepted as a SignatureProof, SignerAddress returns an address.", "quantifier": "all byte strings", "why_tests_cant": "Adversarial proofs.", "anchors": ["wire/signature.go: ComputeRoot, SignerAddress", "wire/bitset.go"]}
{"id": "C41", "title": "Merkle paths bind the leaf", "statement": "If two merkle paths of the same length and directions lead from two leaf values to the same root then the leaf values are equal and so are the path nodes, or a hash collision is exhibited.", "quantifier": "all paths and leaves, any hash function with 32-byte output", "why_tests_cant": "Statement about all pairs.", "anchors": ["wire/signature.go: ComputeRoot"]}
{"id": "C42", "title": "Block interlinks are decoded faithfully", "statement": "UnmarshalBESerial of an interlink yields for each bit i the hash that was encoded for it: a 0 bit takes the next 32 bytes of the input, a 1 bit repeats the previous hash; re-encoding gives the same bytes.", "quantifier": "all byte strings", "why_tests_cant": "Decoding is stateful over bit patterns.", "anchors": ["wire/block.go: BlockInterlink.UnmarshalBESerial, MarshalBESerial"]}
{"id": "C43", "title": "Interlink decoding consumes exactly the interlink", "statement": "For every accepted interlink with Len <= 248 the number of bytes consumed is 1 + ceil(Len/8) + 32 * (number of 0 bits among the first Len), so the block body that follows is parsed at the right offset; the number of hash entries is Len.", "quantifier": "all byte strings", "why_tests_cant": "All bit patterns and lengths.", "anchors": ["wire/block.go: BlockInterlink.UnmarshalBESerial"]}
{"id": "C44", "title": "Network addresses round-trip", "statement": "Every IPv4 or IPv6 NetAddress decodes from its encoding to itself.", "quantifier": "all addresses", "why_tests_cant": "All addresses of both families.", "anchors": ["wire/p2p.go: NetAddress.UnmarshalBESerial, MarshalBESerial"]}
{"id": "C45", "title": "Ping messages round-trip and keep their kind", "statement": "A ping or pong payload with any nonce decodes through UnmarshalMessage(22|23, payload) to the same message, and trailing bytes are rejected.", "quantifier": "all nonces, both kinds, all trailing data", "why_tests_cant": "2^32 nonces and adversarial trailers.", "anchors": ["wire/msg_p2p.go: BasePingMessage", "wire/msg_types.go: UnmarshalMessage"]}
{"id": "C46", "title": "Messages survive MarshalMessage / UnmarshalMessage", "statement": "For every message m, MarshalMessage(m) is the 8-byte big-endian type followed by a payload, and UnmarshalMessage(type, payload) returns m.", "quantifier": "all message types and contents", "why_tests_cant": "All messages.", "anchors": ["wire/msg_types.go: MarshalMessage, UnmarshalMessage", "wire/msg_inv.go"]}
{"id": "C47", "title": "UnmarshalMessage never panics on network input", "statement": "For every type number and byte string UnmarshalMessage returns a message or an error.", "quantifier": "all uint64 types, all byte strings", "why_tests_cant": "Adversarial input.", "anchors": ["wire/msg_types.go: UnmarshalMessage, EmptyMessage"]}
{"id": "C48", "title": "Peer addresses can be exchanged", "statement": "A PeerAddress of protocol ws/wss/dumb can be encoded and decoded back.", "quantifier": "all peer addresses", "why_tests_cant": "All field values; dynamic-type dispatch through reflection.", "anchors": ["wire/p2p.go: PeerAddress"]}
{"id": "C49", "title": "The views of a transaction agree", "statement": "For every transaction t, t.AsTxContent() = t.AsExtendedTx().AsTxContent(), its sender/recipient/amounts are those of GetSender, GetRecipient and Amount.", "quantifier": "all transactions", "why_tests_cant": "All field values.", "anchors": ["wire/tx_basic.go", "wire/tx_extended.go: AsTxContent, AsExtendedTx, GetSender, GetRecipient, Amount"]}
{"id": "C50", "title": "The extended form of a basic transaction carries a decodable proof", "statement": "For every basic transaction t, t.AsExtendedTx().Proof decodes as a SignatureProof.", "quantifier": "all basic transactions", "why_tests_cant": "All transactions.", "anchors": ["wire/tx_basic.go: AsExtendedTx", "wire/signature.go"]}
{"id": "C51", "title": "Compact targets keep the top bits of the target", "statement": "For every target of at least 3 bytes (and less than 2^2032), TargetToCompact(t) = c encodes a value (c mod 2^24) * 256^((c / 2^24) - 3) that is at most t and differs from t by less than 1 unit of the last kept byte (relative error below 2^-15 (two-byte mantissa) resp. 2^-16), with the sign bit 2^23 clear; DifficultyToTarget is floor(2^240/d).", "quantifier": "all targets and difficulties", "why_tests_cant": "All 256-bit numbers.", "anchors": ["wire/utils.go: TargetToCompact, DifficultyToTarget, DifficultyToCompact", "policy/policy.go: BlockTargetMax"]}
{"id": "C52", "title": "Stored accounts are read back", "statement": "After PutAccount(addr, acc), GetAccount(addr) equals acc (nil or an empty basic account reading back as the empty basic account) and no other address changes; in every state reached through PutAccount and Push, GetAccount never panics.", "quantifier": "all histories, addresses, accounts", "why_tests_cant": "All histories.", "anchors": ["accounts/accounts.go: GetAccount, PutAccount"]}
{"id": "C53", "title": "Applying a block of basic transfers has exactly the specified effect", "statement": "For a block with only basic-to-basic transactions (amounts without uint64 overflow, all parties basic accounts, no prune list), Push succeeds iff no sender's total of value+fee over the block exceeds its balance before the block; on success every address's balance is old - sent (values+fees) + received + (block reward + all fees if it is the miner).", "quantifier": "all states, all such blocks of any length", "why_tests_cant": "All transaction graphs (self-transfers, chains, repeated senders).", "anchors": ["accounts/accounts.go: Push, pushSenders, pushRecipients, pushInherents", "wire/account.go: BasicAccount"]}
{"id": "C54", "title": "Transaction order inside a block of basic transfers does not matter", "statement": "Permuting the transactions of a block of basic transfers changes neither whether Push succeeds nor, when it does, the resulting accounts and root hash.", "quantifier": "all states, blocks, permutations", "why_tests_cant": "n! permutations.", "anchors": ["accounts/accounts.go: Push"]}
{"id": "C55", "title": "Push creates no money beyond the block reward", "statement": "If Push(block) succeeds, the sum of all balances grows by exactly BlockReward(height).", "quantifier": "all states and blocks", "why_tests_cant": "All combinations of account types, fees and extreme values.", "anchors": ["accounts/accounts.go: Push", "wire/account.go: ApplyOutgoingTx, ApplyIncomingTx"]}
{"id": "C56", "title": "Push touches only the parties of the block", "statement": "Push changes no account other than those of senders, recipients and the miner, whether or not it succeeds.", "quantifier": "all states and blocks", "why_tests_cant": "All blocks.", "anchors": ["accounts/accounts.go: Push"]}
{"id": "C57", "title": "A rejected block leaves the state unchanged", "statement": "If Push returns an error the accounts and the root hash are the same as before the call.", "quantifier": "all states and blocks", "why_tests_cant": "All failure points within a block.", "anchors": ["accounts/accounts.go: Push (doc: updates are applied atomically)"]}
{"id": "C58", "title": "The prune list must match exactly", "statement": "If Push succeeds, then the addresses in the block's prune list are exactly the senders of the block that were left with an empty non-basic account, each listed account (the last entry, if an address is listed twice) equals the account removed, and those addresses hold no contract afterwards.", "quantifier": "all states and blocks", "why_tests_cant": "All prune lists including duplicates, omissions, altered accounts.", "anchors": ["accounts/accounts.go: pruneAccounts", "wire/account.go: AccountEq"]}
{"id": "C59", "title": "Vesting contracts unlock step by step", "statement": "The amount a vesting contract allows to spend at a height is 0 up to its start and afterwards the number of completed steps times the step amount (all funds if step blocks or amount is 0); it never decreases with height.", "quantifier": "all contracts and heights", "why_tests_cant": "Float arithmetic over all parameters.", "anchors": ["wire/account.go: amountUnlocked"]}
{"id": "C60", "title": "A vesting contract cannot spend more than its balance", "statement": "If ApplyOutgoingTx on a vesting account succeeds, value + fee <= old balance and new balance = old - value - fee.", "quantifier": "all vesting accounts, transactions, heights", "why_tests_cant": "Needs states with unlocked > balance.", "anchors": ["wire/account.go: VestingAccount.ApplyOutgoingTx"]}
{"id": "C61", "title": "Vesting contracts are only spent by their owner", "statement": "If ApplyOutgoingTx on a vesting account succeeds the proof's signer address is the owner, the value does not exceed the unlocked amount, and only the balance changes.", "quantifier": "all accounts, transactions, heights, any hash function", "why_tests_cant": "All proofs.", "anchors": ["wire/account.go: VestingAccount.ApplyOutgoingTx"]}
{"id": "C62", "title": "HTLC resolution rules", "statement": "ApplyOutgoingTx on an HTLC succeeds iff value <= balance and one of: proof type 1 at height <= timeout, with matching hash algorithm and root, signed by the recipient; type 2 signed by both; type 3 at height > timeout signed by the sender; the new balance is old - value and nothing else changes. Types 1 and 3 are never both possible at one height.", "quantifier": "all HTLCs, transactions, heights", "why_tests_cant": "All proofs and heights including the boundary.", "anchors": ["wire/account.go: HTLCAccount.ApplyOutgoingTx"]}
{"id": "C63", "title": "Claiming an HTLC requires the pre-image", "statement": "A regular transfer (proof type 1) is accepted only if hashing the given pre-image the given number of times yields the contract's hash root.", "quantifier": "all HTLCs and proofs", "why_tests_cant": "All proofs.", "anchors": ["wire/account.go: HTLCAccount.ApplyOutgoingTx (PreImage, HashDepth)"]}
{"id": "C64", "title": "Basic accounts are never overdrawn", "statement": "BasicAccount.ApplyOutgoingTx succeeds iff value + fee <= balance (as integers) and then leaves balance - value - fee; ApplyIncomingTx leaves balance + value.", "quantifier": "all balances, values and fees below 2^64", "why_tests_cant": "Wrap-around at 2^64.", "anchors": ["wire/account.go: BasicAccount.ApplyOutgoingTx, ApplyIncomingTx"]}
{"id": "C65", "title": "Creating a contract keeps the funds and the parameters", "statement": "A contract-creating transaction that Push accepts leaves at the recipient a contract of the requested type whose parameters are those in the data field and whose balance is the recipient's previous balance plus the value.", "quantifier": "all states and creating transactions", "why_tests_cant": "All data fields.", "anchors": ["accounts/accounts.go: createContract", "wire/account.go: VestingAccount.Init, HTLCAccount.Init"]}
{"id": "C66", "title": "Push never panics on a decodable block", "statement": "For every block obtained by decoding bytes with a body and height >= 1, Push returns nil or an error.", "quantifier": "all states and blocks", "why_tests_cant": "Adversarial blocks.", "anchors": ["accounts/accounts.go: Push", "wire/account.go: ApplyIncomingTx (not implemented)"]}
{"id": "C67", "title": "Accounts over the Merkle tree behave like accounts over a plain map", "statement": "Running any sequence of PutAccount/Push/GetAccount on accounts backed by the Patricia-Merkle tree gives the same results, errors and accounts as on a plain map, and the resulting root hash is a function of the resulting accounts only.", "quantifier": "all histories", "why_tests_cant": "End-to-end over all histories.", "anchors": ["accounts/accounts.go", "tree/tree.go"]}
{"id": "C68", "title": "A wallet-signed extended transaction proves the wallet as signer", "statement": "After SignExtendedTx(tx) on a wallet, tx.Proof decodes (fully) to a signature proof whose signer address is the wallet's address and whose signature is the wallet's Ed25519 signature of the transaction content; all other fields are unchanged.", "quantifier": "all wallets and transactions, any hash and signature scheme with 32/64-byte outputs", "why_tests_cant": "All keys and transactions.", "anchors": ["wallet/basic.go: SignExtendedTx, signTx, GetAddress"]}
{"id": "C69", "title": "A wallet signs basic transactions only for its own key", "statement": "SignBasicTx fails and leaves the transaction unchanged if the sender key is not the wallet's, otherwise only the signature field changes, to the signature of the content, which does not depend on the previous signature.", "quantifier": "all wallets and transactions", "why_tests_cant": "All keys.", "anchors": ["wallet/basic.go: SignBasicTx"]}
{"id": "C70", "title": "Distinct transaction contents have distinct signing payloads", "statement": "The byte string signed for a transaction determines all of its content fields (data up to 65535 bytes), so a signature cannot be transplanted to a transaction with different content.", "quantifier": "all pairs of transactions", "why_tests_cant": "Pairs of transactions.", "anchors": ["wallet/basic.go: signTx", "wire/tx.go: TxContent"]}
{"id": "C71", "title": "Signed peer addresses verify", "statement": "After Sign(pk), VerifySignature returns true provided the signature scheme is correct, and the signed message determines protocol, services and timestamp.", "quantifier": "all peer addresses and key pairs", "why_tests_cant": "All field values.", "anchors": ["wire/p2p.go: Sign, VerifySignature"]}
{"id": "C72", "title": "Genesis initialisation ends in the committed state", "statement": "If InitAccounts returns nil, the tree's root hash equals the block header's AccountsHash and the accounts are those of the genesis list (last entry per address) with the genesis block applied.", "quantifier": "all profiles and initial trees", "why_tests_cant": "All profiles.", "anchors": ["genesis/genesis.go: InitAccounts"]}
{"id": "C73", "title": "Block replay verifies every block", "statement": "If the replay command finishes normally on an archive, every entry after the first decoded fully, was applied without error, and after each block the state root equalled that block's AccountsHash; the printed counts are the numbers of blocks and transactions.", "quantifier": "all archives", "why_tests_cant": "All archives.", "anchors": ["cmd/gimiq/main.go: main"]}
{"id": "C74", "title": "An overlay made through the public API can be written to", "statement": "An OverlayStore constructed by a user of the package ([&OverlayStore{Lower: s}], there is no constructor and the map field is unexported) accepts PutNode and DelNode without panicking.", "quantifier": "all lower stores, keys and nodes", "why_tests_cant": "Writing to a nil map panics; no test in the repository uses an overlay.", "anchors": ["tree/store_overlay.go: OverlayStore, PutNode, DelNode"]}
{"id": "C75", "title": "Size methods are exact", "statement": "For every hash, bit set, merkle path, interlink, network address, account, transaction and ping, SizeBESerial is the number of bytes that MarshalBESerial appends; a peer address, which cannot be encoded, has no size.", "quantifier": "all values of those types", "why_tests_cant": "All values and lengths.", "anchors": ["wire/hash.go", "wire/bitset.go", "wire/signature.go", "wire/block.go", "wire/p2p.go", "wire/account.go: WrapAccount", "wire/tx.go: WrapTx"]}
{"id": "C76", "title": "Accounts-tree chunks can be exchanged", "statement": "An AccountsTreeChunk with any nodes and proof nodes can be encoded and decoded back.", "quantifier": "all chunks", "why_tests_cant": "All chunks; no test encodes one.", "anchors": ["wire/accounts_tree_chunk.go: AccountsTreeChunk, AccountsProof"]}
{"id": "C77", "title": "Blocks as the network encodes them decode to their header and body", "statement": "For every well-formed header, interlink of at most 248 entries and optional body, the concatenation of their encodings decodes (whatever follows) to a block with exactly that header and body, consuming exactly the encoding; and every accepted block is the encoding of its header and body around some interlink.", "quantifier": "all headers, interlinks, bodies and input strings", "why_tests_cant": "All blocks.", "anchors": ["wire/block.go: Block, BlockHeader, BlockBody, BlockInterlink"]}
{"id": "C78", "title": "Staking data round-trips", "statement": "Every StakingTxData (with or without reward address) encodes to key, flag, address, proof and decodes back to itself.", "quantifier": "all values", "why_tests_cant": "All values.", "anchors": ["wire/tx_staking.go: StakingTxData"]}
{"id": "C79", "title": "Push accepts exactly the blocks that follow the rules", "statement": "A block with a body is accepted in a state if and only if: its height is not 0; every sender, after the debits of the transactions before it, has the announced type (or 255 is announced) and may spend the amount by the rules of its account type; every recipient is a basic account, announced as such (or 255, or a contract is created); created contracts have valid parameters; the prune list names exactly the senders that end as empty contracts, with their exact contents; the miner has a basic account. The accounts after an accepted block are exactly the settled ones.", "quantifier": "all reachable states, all blocks", "why_tests_cant": "An equivalence over all states and blocks.", "anchors": ["accounts/accounts.go: Push", "wire/account.go"]}
{"id": "C80", "title": "Announced account types are checked", "statement": "If Push accepts a block, the sender and recipient types that its transactions announce are the types of the accounts (recipients of transfers are basic accounts, created contracts are vesting contracts or HTLCs).", "quantifier": "all reachable states, all accepted blocks and their transactions", "why_tests_cant": "All accounts and announced types, including 255.", "anchors": ["accounts/accounts.go: pushTx, pushSenders, pushRecipients"]}
{"id": "C81", "title": "Push accepts only signed transactions", "statement": "If Push accepts a block, every transaction that spends from a basic account carries a valid signature by the key of that account; contracts are spent only with proofs naming the keys they require.", "quantifier": "all reachable states, blocks, signature schemes", "why_tests_cant": "All blocks; the tests use unsigned transactions throughout.", "anchors": ["accounts/accounts.go: Push", "wire/account.go: BasicAccount.ApplyOutgoingTx, VestingContract.ApplyOutgoingTx, HTLC.ApplyOutgoingTx"]}
{"id": "C82", "title": "A transaction is applied at most once, in its validity window, on its network", "statement": "Push rejects a block with a transaction that an earlier block contained, or whose validity start height or network does not fit.", "quantifier": "all reachable states, all pairs of blocks", "why_tests_cant": "All histories and blocks.", "anchors": ["accounts/accounts.go: Push", "wire/tx.go"]}
{"id": "C83", "title": "Push checks the block against its header", "statement": "If Push accepts a block, the resulting state has the accounts hash announced in the header, and the other commitments of the header fit.", "quantifier": "all reachable states, all blocks and headers", "why_tests_cant": "All headers.", "anchors": ["accounts/accounts.go: Push", "wire/block.go: BlockHeader"]}
{"id": "C84", "title": "The accounts hold exactly the supply", "statement": "After initialising a profile whose accounts hold the initial supply and pushing the blocks of the heights 1, 2, ..., n, the sum of all balances is policy.SupplyAfter(n).", "quantifier": "all profiles, all chains of accepted blocks of any length", "why_tests_cant": "All chains of any length.", "anchors": ["accounts/accounts.go: Push", "policy/policy.go: SupplyAfter", "genesis/genesis.go: InitAccounts", "cmd/gimiq/main.go"]}
{"id": "C85", "title": "Revert undoes Push", "statement": "Reverting the last pushed block restores the accounts and the root hash from before.", "quantifier": "all reachable states, all accepted blocks", "why_tests_cant": "All blocks.", "anchors": ["accounts/accounts.go: Revert"]}
{"id": "C86", "title": "Which payloads UnmarshalMessage accepts", "statement": "For every message number other than 6 and every byte string, UnmarshalMessage returns a message if and only if the bytes are, in full, the fields of that message in order, big-endian: get-blocks (5), header (7), transaction (8), an empty address list (20), get-addresses (21), ping (22), pong (23), head (61), verack (90). For number 6, an accepted payload is the encoding of the block returned, and the encoding of every decodable block is accepted.", "quantifier": "all message numbers, all byte strings, all messages", "why_tests_cant": "An equivalence over all byte strings: it excludes any other accepted input (trailing bytes, other layouts, other numbers).", "anchors": ["wire/msg_types.go: UnmarshalMessage", "wire/msg_inv.go", "wire/msg_p2p.go", "wire/msg.go"]}
{"id": "C87", "title": "Unknown message numbers are reported as unknown", "statement": "UnmarshalMessage reports ErrUnknownMessageType exactly for the numbers it has no message for (all except 0-9, 20-23, 40, 60, 61, 90), whatever the payload.", "quantifier": "all numbers, all byte strings", "why_tests_cant": "All numbers and payloads: malformed payloads of known messages must not be reported as unknown.", "anchors": ["wire/msg_types.go: UnmarshalMessage"]}
{"id": "C88", "title": "A received message carries its number", "statement": "The message that UnmarshalMessage returns for a number answers Type() with that number.", "quantifier": "all numbers, all accepted payloads", "why_tests_cant": "All numbers and payloads.", "anchors": ["wire/msg_types.go: UnmarshalMessage", "wire/msg_inv.go: HeaderMessage.Type", "wire/msg_p2p.go"]}
{"id": "C89", "title": "Which messages MarshalMessage sends, and as what", "statement": "For every message value, MarshalMessage succeeds if and only if the message is one of get-blocks, header, empty address list, get-addresses, get-receipts, head, verack; the result is the 8-byte message number followed by the fields in order, big-endian.", "quantifier": "all message values Go's types allow (with at most 65535 locators)", "why_tests_cant": "An equivalence over all message values.", "anchors": ["wire/msg_types.go: MarshalMessage"]}
{"id": "C90", "title": "A cut-off encoding is never accepted", "statement": "If anything is missing at the end of an encoding, Unmarshal returns an error that reports missing input (io.ErrUnexpectedEOF, or the refusal to allocate more elements than bytes are left), never a value and never a panic. For accounts, transactions, signature proofs and headers it is io.ErrUnexpectedEOF.", "quantifier": "all types, all values, all proper prefixes of their encodings; all accounts, transactions, proofs, headers and blocks", "why_tests_cant": "All prefixes of all encodings; the position of the cut decides which branch of the decoder meets the end.", "anchors": ["beserial/decode.go: Unmarshal, value, pop", "wire"]}
{"id": "C91", "title": "What is read does not depend on what follows", "statement": "Unmarshal returns the same value and count if the bytes it read are followed by other bytes or none, whatever the destination held before.", "quantifier": "all types, inputs, continuations and destinations; all wire objects", "why_tests_cant": "All inputs and all continuations.", "anchors": ["beserial/decode.go: Unmarshal", "wire/block.go: BlockInterlink.UnmarshalBESerial"]}
{"id": "C92", "title": "Peer address headers and server addresses on the wire", "statement": "A PeerAddressHeader is sent as protocol, services, time stamp, network address, public key, distance, signature, and read back field by field (except NetAddress.Type); reading a peer address reports an unknown protocol exactly if the protocol is not 0, 1 or 4. A PeerAddressSrv is sent as host with its length, port, TLS flag and read back.", "quantifier": "all headers, host names, ports, continuations, destinations", "why_tests_cant": "All values of all fields.", "anchors": ["wire/p2p.go: PeerAddressHeader, NetAddress, PeerAddressSrv, PeerAddress.UnmarshalBESerial"]}
{"id": "C93", "title": "A wallet's address is the address of its public key", "statement": "GetAddress returns the first 20 bytes of the hash of the wallet's public key.", "quantifier": "all wallets, all keys, all sequences of calls and assignments to the exported fields", "why_tests_cant": "All histories of calls and field assignments.", "anchors": ["wallet/basic.go: Basic, GetAddress, GetPublicKey"]}
{"id": "C94", "title": "A refused block names a real fault", "statement": "If Push returns an error, the block has the fault the error names: a transaction announcing the wrong account type (with the expected and actual type), an account refusing its transaction after the debits of those before it (with the amounts, or with what is wrong with the proof), invalid contract parameters, an emptied contract missing from or altered in the prune list, prune list entries for accounts that need no pruning, or a miner address holding a contract. The accounts then hold exactly the effects of the steps before that fault.", "quantifier": "all histories of the accounts object, all blocks", "why_tests_cant": "All blocks with any number of transactions and faults at any place.", "anchors": ["accounts/accounts.go: Push, pushSenders, pushRecipients, createContracts, pruneAccounts, pushInherents", "wire/account.go: ApplyOutgoingTx, Init, OverspendError"]}
{"id": "C95", "title": "A block tried on an overlay leaves no trace unless the overlay is flushed", "statement": "Opening an overlay store over the accounts' store, pushing a block onto it and dropping the overlay leaves the lower accounts as they were: every GetAccount and the root hash are the same as before, whether the block was accepted or refused. If the overlay is flushed instead, the accounts and the root hash are those of pushing the block directly.", "quantifier": "all histories of the accounts object, all blocks, all flush orders", "why_tests_cant": "All trees and blocks; the sharing of node objects between stores only shows for some shapes.", "anchors": ["tree/store_overlay.go: OverlayStore, Flush", "tree/tree.go: PMTree", "accounts/accounts.go: Push, GetAccount"]}
{"id": "C96", "title": "Wallets made from a seed never panic", "statement": "DeriveBasic panics exactly for seeds that are not 32 bytes. A wallet made by DeriveBasic or GenerateBasic never panics, whatever it is asked to sign: SignExtendedTx replaces the proof by the wallet's 97-byte proof for transactions of any size, SignBasicTx signs or refuses with an error. A wallet value filled in by hand panics exactly when the key it needs is missing or too short.", "quantifier": "all wallets, all keys, all transactions", "why_tests_cant": "All key lengths and all transactions, including those too large for the wire.", "anchors": ["wallet/basic.go: DeriveBasic, GenerateBasic, GetPublicKey, GetAddress, SignBasicTx, SignExtendedTx"]}
{"id": "C97", "title": "A node's peer ID is the beginning of its address", "statement": "GetPeerID of a public key is 16 bytes and is the beginning of the address of the same key; a peer address signed with a wallet's private key has the peer ID that the wallet's address begins with.", "quantifier": "all public keys, wallets and peer addresses", "why_tests_cant": "Relates two separate derivations for all keys.", "anchors": ["wire/p2p.go: GetPeerID, PeerAddress.Sign", "wire/account.go: PublicKeyToAddress", "wallet/basic.go: GetAddress"]}
{"id": "C98", "title": "Protocol numbers have schemes iff they are accepted", "statement": "ProtocolScheme gives distinct schemes to the known protocols and 'invalid' to all other numbers; decoding a received peer address fails with an unknown-protocol error exactly if its protocol has no scheme.", "quantifier": "all protocol numbers, all received peer addresses", "why_tests_cant": "Relates two switches that are maintained separately, for all peer addresses.", "anchors": ["wire/p2p.go: ProtocolScheme, PeerAddress.UnmarshalBESerial"]}
{"id": "C99", "title": "Paths print as hexadecimal", "statement": "Nibbles.String has one lower-case hexadecimal digit per element, which reads back to it, and panics exactly if an element is above 15; for an address's path it is the 40-digit hexadecimal form of the address; one path is a prefix of another iff its text is.", "quantifier": "all nibble lists and addresses", "why_tests_cant": "Injectivity and the prefix order range over all pairs of lists.", "anchors": ["wire/nibbles.go: String, HexBytes, PrefixOf", "tree/store.go: String"]}
{"id": "C100", "title": "Decoding into a used object equals decoding into a new one", "statement": "What beserial.Unmarshal leaves in its destination, and the error and count it returns, do not depend on what the destination held before.", "quantifier": "all declared types, all previous contents, all inputs", "why_tests_cant": "Ranges over all pairs of previous contents and all inputs; unit tests decode into zero values.", "anchors": ["beserial/decode.go: Unmarshal, UnmarshalFull", "wire/block.go: BlockInterlink.UnmarshalBESerial", "wire/p2p.go: NetAddress.UnmarshalBESerial", "wire/hash.go", "wire/tx.go", "wire/account.go"]}
{"id": "C101", "title": "Sharing of path buffers is never visible", "statement": "The paths of the tree's nodes are slices sharing backing arrays, and the tree appends to them in place. Whatever capacities append chooses, no sequence of PutEntry calls and overlay operations makes the tree read a path byte that a later append overwrote: GetEntry returns what was written last, PutEntry never panics and reports changes correctly, and the root hash is the Merkle root of the entries.", "quantifier": "all histories of PutEntry calls, overlays and flushes, all capacity policies of append", "why_tests_cant": "Whether an append overwrites a live path depends on the capacities the runtime chose and on the order of earlier insertions and deletions.", "anchors": ["tree/tree.go: PutEntry, update, prune, updateHashes", "tree/node.go: PutChild", "tree/store.go: KeyToNibbles, CommonPrefix"]}
{"id": "C102", "title": "The tree is independent of the caller's buffers", "statement": "PutEntry does not write to the buffers of its caller, and what the caller does to a buffer after passing it to PutEntry, or after getting it from GetEntry, changes neither entries nor the root hash.", "quantifier": "all histories of PutEntry, GetEntry and writes of the caller to its buffers", "why_tests_cant": "Depends on which buffers the tree still refers to after an arbitrary history.", "anchors": ["tree/tree.go: PutEntry, GetEntry, update", "tree/node.go: Leaf"]}
{"id": "C103", "title": "Accounts obtained from GetAccount are the caller's own", "statement": "GetAccount returns an account object holding the stored account. Assignments of the caller to it do not change what is stored in this or any other accounts tree, and no later Push or PutAccount changes an object obtained earlier; PutAccount stores what the object holds at the time of the call.", "quantifier": "all histories of GetAccount, PutAccount, Push and assignments of the caller to account objects", "why_tests_cant": "Depends on which objects are shared after an arbitrary history, across trees of one process.", "anchors": ["accounts/accounts.go: GetAccount, PutAccount, Push, pushTx, createContract", "wire/account.go: InitialAccount, ApplyOutgoingTx, ApplyIncomingTx, Init"]}
{"id": "C104", "title": "Concurrent GetAddress calls return the wallet's address", "statement": "However calls of GetAddress by several goroutines on one wallet interleave, every call returns the address of the wallet's public key.", "quantifier": "all wallets, all numbers of callers, all schedules, all word sizes in which a machine moves the address", "why_tests_cant": "Depends on the interleaving of unsynchronised word accesses.", "anchors": ["wallet/basic.go: GetAddress"]}
{"id": "C105", "title": "An interrupted Flush loses nothing and can be repeated", "statement": "Stop an overlay's Flush after any of its statements (the lower store panicked, or someone reads in between), whatever order the map is iterated in: the overlay answers every key as before the Flush, the lower store answers each key either as before or as the overlay does, and calling Flush again in any order ends with an empty overlay on a lower store that answers as the overlay did. A tree on the overlay keeps its entries and its root hash and goes on working. The lower store itself does not go from old to new in one step: whenever two keys change, a reader of it can see one new and one old answer.", "quantifier": "all lower stores, all overlay contents, all iteration orders, all points of interruption, all orders of the second Flush, all later writes", "why_tests_cant": "Quantifies over crash points, map iteration orders and store contents.", "anchors": ["tree/store_overlay.go: Flush, GetNode"]}
{"id": "C106", "title": "A block export holds exactly the blocks asked for, in order", "statement": "scripts/export_blocks.py --from F --to T writes an archive with the blocks F, F+1, ..., T (T is documented as the last block to export), each once and in ascending order, whatever the batch size and whatever order the server answers a batch in; if the server fails, the archive holds an initial part of them.", "quantifier": "all chains, all servers, all ranges, all batch sizes, all points of failure", "why_tests_cant": "Quantifies over ranges, batch sizes and the behaviour of the server.", "anchors": ["scripts/export_blocks.py: while loop, add_block"]}
{"id": "C107", "title": "Replaying an export applies the exported blocks", "statement": "Export a chain from its genesis block to block N and run the replay program on the archive with the matching profile: it succeeds exactly if every block after the genesis block up to N can be pushed, and ends in the state after block N.", "quantifier": "all profiles, chains, servers answering in order, batch sizes, lengths of the chain", "why_tests_cant": "Quantifies over chains and over everything Push can do.", "anchors": ["scripts/export_blocks.py: while loop; cmd/gimiq/main.go: main"]}
{"id": "C108", "title": "The tree works over any storage engine", "statement": "A tree over any storage engine that returns for a path the node last put under it (and nothing after it was removed) reads back every entry as last written, and its root hash is the Merkle root of its entries: also if the engine keeps nodes by value, handing out a fresh copy of the node on each read, as a database does.", "quantifier": "all histories of writes and deletions, all keys and values, storage engines by reference and by value", "why_tests_cant": "Quantifies over storage engines and over histories; the tests use only the in-memory store, which shares node objects with the tree.", "anchors": ["tree/store.go: Store; tree/tree.go: PutEntry, GetEntry, Hash, update, prune, invalidatePath, updateHashes; tree/store_mem.go"]}
{"id": "C109", "title": "Marshal writes only behind the buffer", "statement": "Marshal(b, v) returns the same bytes whatever the capacity of b, and changes no byte of b nor of any other slice the caller holds, except in the unused capacity behind b. So encodings made on buffers without unused capacity (nil, for one) keep their bytes whatever is encoded later; two encodings made on one buffer with room for both share its memory, and the second replaces the first as far as it reaches.", "quantifier": "all types, values, buffers, capacities, growth policies of append, other slices sharing the buffer's array", "why_tests_cant": "Which memory append writes depends on capacities that tests fix implicitly; quantifies over all aliasing slices.", "anchors": ["beserial/encode.go: Marshal, marshal, marshalInt, marshalNumber", "wire: MarshalBESerial methods"]}
{"id": "C110", "title": "The hashes of an interlink follow its PrevHash, and only its own", "statement": "After an interlink is decoded, its Hashes are at every moment those that its repeat bits, its Compressed hashes and its PrevHash describe, so PrevHash may be filled in after the decode as well as before; nothing done to one interlink changes what is read from another. This also holds of copies of the struct.", "quantifier": "all inputs, all sequences of decodes (also failing ones), field writes and struct copies on any number of interlinks", "why_tests_cant": "Hashes holds pointers into the object it was decoded into; what they show depends on everything done to that object later.", "anchors": ["wire/block.go: BlockInterlink, UnmarshalBESerial"]}
{"id": "C111", "title": "Decoded values own their memory", "statement": "After a successful Unmarshal the decoded value lies in memory that nothing else refers to: the caller may reuse or overwrite the input and whatever existed before without changing the value, may write to the value without changing the input or anything else, and may decode into the same variable again without changing earlier copies of its contents; the fields of a struct and the elements of a slice share no memory. A decode that fails also writes to no memory that existed before. (Interlinks, whose hashes point into their own struct, are the exception: C110.)", "quantifier": "all types without pointers to types that decode themselves (all types of package wire but interlink and block), inputs, buffers around the input, earlier contents of the variable, later writes", "why_tests_cant": "Aliasing shows only when a buffer is reused or a value is written after the decode; quantifies over all types and all later writes.", "anchors": ["beserial/decode.go: Unmarshal, value, pop", "wire: UnmarshalBESerial methods"]}
{"id": "C112", "title": "Decoding allocates in proportion to the input", "statement": "Whatever lengths the input claims and whether or not decoding succeeds, the slices and strings it allocates have together at most one element per input byte and level of nesting of the type (two levels in package wire), provided no slice has elements that are encoded in zero bytes.", "quantifier": "all inputs; all types whose slice elements take at least a byte, all types of package wire", "why_tests_cant": "Adversarial nested lengths; a bound over all inputs.", "anchors": ["beserial/decode.go: value (string and slice cases), pop", "wire"]}
{"id": "C113", "title": "A write touches only the path of its key", "statement": "PutEntry changes which node a path leads to only for paths that begin the key, and changes the contents of no existing node except those the tree has on the key's path: all others - of this tree, of the tree an overlay lies on, of any tree sharing nodes - keep identity, contents and hashes, under single writes and whole histories. A write that reports no change changes no node at all.", "quantifier": "all trees reachable by writes, overlays, flushes and crashes; all keys and values; all histories; all other trees in the same memory", "why_tests_cant": "Frame property over all histories and all nodes; tests compare single root hashes.", "anchors": ["tree/tree.go: PutEntry, updateEntry, update, prune, invalidatePath, updateHashes", "tree/store_mem.go", "tree/store_overlay.go"]}
{"id": "C114", "title": "A contract keeps its terms for life", "statement": "Over any sequence of accepted blocks a vesting contract or HTLC stays at its address with its terms unchanged until a block takes the last of its balance and lists it as pruned. In this time nothing is paid to the address and no contract is created there, every transaction from it is one that its terms allow at the height of its block, the balance goes down by exactly the values of these transactions, and an HTLC pays out no more than it held.", "quantifier": "all reachable account states, contracts, sequences of accepted blocks", "why_tests_cant": "History property over all chains of blocks.", "anchors": ["accounts/accounts.go: Push, pushSenders, pushRecipients, createContracts, pruneAccounts", "wire/account.go: ApplyOutgoingTx, ApplyIncomingTx"]}
{"id": "C115", "title": "The store stays as small as its contents, and a write is bounded work", "statement": "Whatever was written and deleted before, the store of a tree with m entries has at most 2m nodes (one if m = 0): deletions leave nothing behind. One PutEntry creates at most two node objects and changes the contents of at most forty existing ones, however large the tree is; a history of n writes creates at most 2n.", "quantifier": "all trees reachable by writes, overlays, flushes and crashes; all keys, values, histories", "why_tests_cant": "Resource bound over all histories; a leaked node shows only in the store's size after long churn.", "anchors": ["tree/tree.go: PutEntry, update, prune, updateHashes", "tree/store_mem.go", "tree/store_overlay.go"]}
{"id": "C116", "title": "Push depends only on the accounts of the block's parties", "statement": "Whether Push accepts a block, with which error it refuses it, and what it does to the accounts of senders, recipients and miner depends on nothing but these accounts: an Accounts object that has only them, another history, another store or another memo table of supplies gives the same outcome and the same accounts for them. The same holds for chains of blocks and all accounts they mention.", "quantifier": "all pairs of reachable account states that agree on the parties, all decodable blocks, all chains of accepted blocks", "why_tests_cant": "Non-interference: compares two executions from arbitrary states.", "anchors": ["accounts/accounts.go: Push, pushTx, createContract, pruneAccounts, pushInherents", "policy/policy.go: BlockReward"]}
{"id": "C117", "title": "The order of transactions in a block does not matter", "statement": "Reordering the transactions of a block changes neither whether Push accepts it nor any account nor the root hash afterwards - with senders of all account types, any number of transactions per sender and recipient, contract creations and prunings - except if two transactions create contracts at the same address, where the last one counts.", "quantifier": "all reachable account states, all decodable blocks, all permutations of their transactions", "why_tests_cant": "Quantifies over permutations and states; the code applies transactions one by one.", "anchors": ["accounts/accounts.go: Push, pushSenders, pushRecipients, createContracts, pruneAccounts", "wire/account.go: ApplyOutgoingTx"]}
{"id": "C118", "title": "The root hash determines the accounts and their future", "statement": "Two Accounts objects have the same root hash exactly if they have the same account at every address, however they came about (unless two different tree nodes collide under the hash function); and then every chain of blocks that one accepts is accepted by the other, with equal root hashes at the end.", "quantifier": "all pairs of reachable account states, all chains of accepted blocks, all hash functions with 32-byte results", "why_tests_cant": "Relates arbitrary pairs of states and all later histories.", "anchors": ["accounts/accounts.go: Push, GetAccount", "tree/tree.go: Hash"]}
{"id": "C119", "title": "Noted accounts undo a block", "statement": "A caller that notes the accounts of a block's parties before Push can restore the state whatever Push did - accepted, refused half way, or panicked: putting the noted accounts back with PutAccount, in any order, restores every account and the root hash.", "quantifier": "all reachable account states, all decodable blocks, all outcomes, all orders of restoring", "why_tests_cant": "Quantifies over every point at which Push can stop.", "anchors": ["accounts/accounts.go: Push, PutAccount, GetAccount"]}
{"id": "C120", "title": "Compact targets are ordered like targets and stable", "statement": "For targets from 2^16 up to 2^2032, a larger target never has a smaller compact (n-bits) number, so n-bits can be compared as numbers; expanding a compact number and compacting it again gives the same number; and for difficulties from 1 to 2^224 a higher difficulty never has a larger n-bits value.", "quantifier": "All pairs of targets and of difficulties in the ranges.", "why_tests_cant": "The encoding has a case split at every byte length and at the 0x80 boundary; a test tries a few targets, the order must hold for every pair.", "anchors": ["wire/utils.go: TargetToCompact, DifficultyToCompact, DifficultyToTarget"]}
{"id": "C121", "title": "What SupplyAfter costs", "statement": "After any calls, SupplyAfter for a block no higher than one asked for before computes at most 5000 block rewards (BlockReward 5001); any other call at most 5000 more for each new stretch of 5000 blocks; a history of n calls at most 5001 n plus 5000 per stretch up to the highest block asked for; and the memo table has exactly one entry per started stretch up to that block, at most 858,994.", "quantifier": "All histories of calls with uint32 heights, in any order.", "why_tests_cant": "Whether work and table stay bounded depends on the whole history of calls.", "anchors": ["policy/policy.go: SupplyAfter, SupplyBetween, BlockReward"]}
{"id": "C122", "title": "What a block may cost", "statement": "Whatever the outcome of Push, its effect on the state tree is that of a sequence of at most two writes per transaction, one per contract creation, one per entry of the prune list and one for the miner, all at addresses of the block's parties; an account comes into being only for the miner or for a recipient, so a block with n transactions adds at most n + 1 accounts. Along a chain the accounts, the node objects ever allocated and the nodes of an in-memory store are linear in what the blocks contain.", "quantifier": "All reachable states, all decodable blocks, all outcomes of Push; all chains of accepted blocks.", "why_tests_cant": "A bound on work and growth must hold for every block and every state.", "anchors": ["accounts/accounts.go: Push, PutAccount", "tree/tree.go: PutEntry"]}
{"id": "C123", "title": "From a wallet over the wire to the accounts", "statement": "Payments signed with wallets and put into a block as the network encodes it: the receiver decodes the block, Push accepts it if every wallet's address holds what it spends in the block, and then each wallet's address has lost values and fees, each recipient has got its values, and the miner the reward and the fees. Likewise the owner of a vesting contract takes unlocked value out of it with a transaction signed by the owner's wallet, and the sender of an HTLC takes value back after the timeout (with the byte 3 put before the wallet's proof).", "quantifier": "All wallets, payments, interlinks, headers, reachable account states and balances whose total stays below 2^64.", "why_tests_cant": "It composes signing, encoding, decoding and applying for every combination of senders, recipients and amounts; tests take each step alone.", "anchors": ["wallet/basic.go: SignBasicTx, SignExtendedTx", "wire/block.go: Block, BlockBody", "accounts/accounts.go: Push"]}
{"id": "C124", "title": "Reading while a write is under way", "statement": "PutEntry changes the store and the branch objects in many single steps. After each of them GetEntry on the key being written already returns the new value (no entry, if it is a deletion), and GetEntry on every other 20-byte key returns what it did before the call: there is no moment at which an entry is missing, stale or mixed. The recorded steps are exactly those of the call: they lead from the tree before it to the tree after it one change at a time.", "quantifier": "All reachable trees (including overlays), 20-byte keys, values (including the empty one) and moments between two changes.", "why_tests_cant": "The property is about every intermediate state of every write to every tree; tests look at the tree before and after a call.", "anchors": ["tree/tree.go: PutEntry, updateEntry, update, prune, invalidatePath, updateHashes, GetEntry", "tree/store.go: Store"]}
{"id": "C125", "title": "An interrupted write can be repeated", "statement": "If a PutEntry does not get to its end (the store panicked, say), then calling PutEntry again with the same key and value leads to the entries and the root hash that the uninterrupted call would have led to, and other entries can still be written.", "quantifier": "All reachable trees, keys, values and points of interruption; all later histories of writes.", "why_tests_cant": "There is one crash point per change of the store or of a branch object, in every tree.", "anchors": ["tree/tree.go: PutEntry, updateEntry, update, prune, updateHashes"]}
{"id": "C126", "title": "Overlays on one store keep apart", "statement": "With one tree on a store and one on each of several overlays over it: a write through an overlay (finished or interrupted) is seen by that tree alone; a write through the lower store is seen by exactly the overlays with no record of their own at that key; a flush (finished or interrupted, in any order) leaves the flushed tree's entries, gives them to the lower store, and changes another overlay's only where it has no record; no GetEntry ever panics; and each tree's root hash is that of its own entries and each tree keeps what was last written through it.", "quantifier": "All numbers of overlays and all interleaved histories of opening, writing through any of the trees and flushing, with an interruption at any point of each call.", "why_tests_cant": "It ranges over interleavings of calls on several trees sharing node objects.", "anchors": ["tree/store_overlay.go: OverlayStore, GetNode, PutNode, DelNode, Flush", "tree/tree.go: PutEntry, GetEntry, Hash"]}
{"id": "C127", "title": "Reading accounts while a block is applied", "statement": "While Push applies a block (whatever its outcome), at every moment the accounts that can be read through the same tree are all readable and are together exactly those after one of the account writes made so far: never a mixture of old and new, never an account that a write removed half way. Accounts that are not party to the block read as before at every moment. When the block is tried on an overlay, all other trees over the same store read unchanged accounts at every moment.", "quantifier": "every reachable account state (or any collection of trees sharing a store), every decoded block, every moment of the call", "why_tests_cant": "The moments in between the stores of one call are not observable in a test; the statement is about all of them for all blocks and all histories.", "anchors": ["accounts/accounts.go: Push, PutAccount, GetAccount", "tree/tree.go: PutEntry, GetEntry", "tree/store_overlay.go: OverlayStore"]}
{"id": "C128", "title": "The text of a refusal tells the fault", "statement": "When Push refuses a block, the Error() text alone tells what is wrong: two refusals with the same text (of any blocks, by any account states) have the same kind of fault with the same amounts, types and addresses; the amounts and types can be read back from the text as decimal numbers and the addresses with the address codec; and the text names the account at fault.", "quantifier": "All reachable account states, all decoded blocks that are refused, all pairs of refusals.", "why_tests_cant": "Distinctness of texts is about all pairs of errors with all field values (amounts up to 2^64-1, all addresses); a test compares a few strings.", "anchors": ["accounts/accounts.go: Push, InvalidForRecipientError, InvalidPruneError, AccountTypeMismatchError", "wire/account.go: OverspendError, ApplyOutgoingTx, InitHTLC, InitVesting", "address/address.go: Encode"]}
{"id": "C129", "title": "Declared types of any shape", "statement": "A program's own types work with package beserial whatever their declaration looks like (unexported or embedded fields, named types with or without methods, types that implement only one of Marshaler and Unmarshaler): what Marshal writes for a value, Unmarshal reads back; a field's own methods are used wherever it stands.", "quantifier": "All types built from the supported kinds with any field visibility and any methods, all values, all inputs.", "why_tests_cant": "It quantifies over all type declarations; the unit tests declare a handful of structs with exported fields.", "anchors": ["beserial/decode.go: Unmarshal, value", "beserial/encode.go: Marshal, marshal"]}
{"id": "C130", "title": "Blocks are written and relayed faithfully", "statement": "Marshal of a block appends exactly the network's encoding: header, interlink (bit set, then the distinct hashes in order) and optional body; a receiver that decodes it gets the same header and body. A node that decodes a block and marshals it again writes the bytes it received.", "quantifier": "All headers, interlinks of at most 248 entries, bodies; for relaying, all inputs that are accepted as a block.", "why_tests_cant": "It is about every block, in particular every pattern of repeat bits.", "anchors": ["wire/block.go: Block, BlockInterlink, MarshalBESerial, UnmarshalBESerial", "beserial/encode.go: Marshal"]}
{"id": "C131", "title": "A block is answered by its first fault", "statement": "The answer of Push is determined by the accounts and the block: it is that of the first failing check in the order sender checks of the transactions in turn (announced type, then funds left by the transactions before, then the proof), recipient checks in turn, contract creations in turn, removals (missing or altered ones in the order of the senders, then those listed too early), height, miner. Each failing check has one answer (a specific error with its amounts, types and addresses, or a crash); a block with no failing check is accepted. What follows an unpayable transaction does not influence the answer.", "quantifier": "All reachable account states, all decoded blocks with any number and combination of faults.", "why_tests_cant": "It ranges over all combinations of faults at all positions; a test fixes one faulty block at a time.", "anchors": ["accounts/accounts.go: Push, pushSenders, pushRecipients, createContracts, pruneAccounts, pushInherents", "wire/account.go: ApplyOutgoingTx, ApplyIncomingTx", "wire/signature.go: SignatureProof"]}
{"id": "C132", "title": "What a block that is not accepted leaves, in coins", "statement": "If Push crashes and the program recovers, every account is readable and the accounts are exactly those after the complete steps before the crash: nothing (no body); the debits of the transactions before the crashing sender; all debits and the credits of the transactions before the crashing recipient; or everything but the miner's reward (height 0). Whenever Push does not accept a block, the sum of all balances (modulo 2^64) is the sum before less the charges of a first part of the transactions plus the values credited to a first part, none being credited unless all are charged; if amounts do not overflow and vesting contracts are not overdrawn, it therefore never creates coins.", "quantifier": "All reachable account states, all decoded blocks that Push does not accept, for whatever reason and at whatever position.", "why_tests_cant": "It is about the state after every possible point of failure, for every block; a test would have to enumerate them.", "anchors": ["accounts/accounts.go: Push, pushSenders, pushRecipients, createContracts, pruneAccounts, pushInherents", "wire/account.go: ApplyOutgoingTx, ApplyIncomingTx"]}
{"id": "C133", "title": "The root hash seen while a write is under way", "statement": "While PutEntry stores a value, Hash called on the same tree between any two of its changes (by a reader on another goroutine between two stores, or after a store operation that panicked) returns normally, and returns the root hash of the contents before the call or of those after it.", "quantifier": "All reachable trees, all keys and non-empty values, every point between two changes of the store or of a branch object.", "why_tests_cant": "It is about every intermediate state of every write; a test sees the tree only before and after the call.", "anchors": ["tree/tree.go: PutEntry, Hash, updateHashes, invalidatePath", "tree/node.go: Branch.Hash"]}
