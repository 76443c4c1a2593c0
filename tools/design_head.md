# Formal model of terorie/nimiq-go in Rocq (Coq 8.16.1)

(The first version of this file was committed before the proofs; this one is generated by `tools/design.py` from
`tools/design_head.md`, `properties.jsonl` and `MANIFEST.json`.)

## Layout

* `rocq/theories/Model/*.v` - executable Gallina transcription of the Go code, definitions only; each definition cites
  the file and lines it models, and says where it simplifies.
* `rocq/theories/Spec/*.v` - small specifications used in theorem statements: the meaning of the English properties.
  They use the data types of the model; where one uses a function of the model, its header says which.
* `rocq/theories/Proofs/*.v` - lemmas.
* `rocq/theories/Props/*.v` - the property theorems (`Cnn_...`), `Print Assumptions` after each, and beside each an
  `Example` showing that a concrete, non-trivial case meets the hypotheses.
* `Props/TestVectors.v`, `Props/GenesisMain.v` - the repository's own unit tests run on the model (`Goal ... Abort`:
  tests of the transcription, not proofs), see "Validation".
* `seeded/LOG.jsonl` - seeded wrong programs and the theorems that caught them; `tools/mutate.py` runs them.
* Suffixes: `_refuted` - the property as stated is false of the code and this theorem proves that it is (universally
  where possible, otherwise by a witness); `_partial` - the strongest part of it we prove; the manifest says what is
  missing.

## Trusted base

* Coq 8.16.1's kernel (and `coqchk`), including its `vm_compute`, which the kernel's checker re-checks by conversion.
* `Print Assumptions`: every theorem in the manifest prints "Closed under the global context", except the four
  theorems about float64 arithmetic: C59_stepwise_refuted, C59_between_steps_partial, C59_linear_partial and
  C59_monotone_partial. These go through Flocq to Coq's real numbers and use the axioms of the
  standard library that this needs: `ClassicalDedekindReals.sig_not_dec`, `ClassicalDedekindReals.sig_forall_dec`,
  `FunctionalExtensionality.functional_extensionality_dep` and `Classical_Prop.classic`. (Tools that list the axioms of all *loaded* files also
  see the sealed definitions of `Rdefinitions` and ssreflect's `Under_rel`; no theorem depends on them as axioms.)
  No axiom, parameter, hypothesis or functor of our own; nothing admitted; no kernel check switched off.
* std++ (finite maps, lists) and Flocq (binary64) are used as libraries; both are axiom-free in what we use.
* The faithfulness of the transcription Go -> Gallina (see "Validation").

## Modelling conventions

* Numbers are `Z`; every Go fixed-width operation that can wrap is written with an explicit `mod 2^n`.
* A byte is a `Z` in [0,256); byte strings are `list Z`; Go arrays are lists of the right length. Theorems assume
  inputs to be such lists (`bytes_ok`, `array n`), which Go's types guarantee.
* A Go call returns `res A`: `Ok a`, `Err e`, `Panic` (run-time panic, including explicit `panic(...)`) or
  `OutOfFuel`; the theorems show that the latter does not occur.
* Errors are modelled by their cause, one constructor per distinguishable cause; the context that
  `fmt.Errorf("...: %w", err)` adds is dropped.
* Blake2b-256 and Ed25519 are parameters: theorems quantify over them and say what they assume (`hash_fn H`: 32-byte
  results, which `blake2b_is_hash` proves of the concrete Blake2b-256 of `Model/Blake2b.v`; `scheme_ok`: key and signature lengths, and that made signatures verify). Collision resistance is never
  assumed: where it matters, the conclusion is a disjunction with an explicit collision.
* float64 is `SpecFloat` at (53, 1024); the conversion of an out-of-range float64 to uint64, which Go leaves to the
  implementation, is a parameter `oob` over which theorems quantify.
* Pointers: the tree model has an explicit heap because the code mutates shared `*Branch` objects in place and stores
  share them. Accounts and transactions are values: their methods return fresh copies. For
  accounts that this is right is C103, with a second model on account objects (Model/AccountObjects.v).
* Slices: nil and empty slices are identified. In Model/Tree.v nibble slices are immutable lists; that
  this is right is theorem C101: Model/TreeSlices.v has the same functions on slices with shared backing arrays and an
  arbitrary growth policy of append, and the two are proved to agree. What happens when the caller modifies
  the value slices passed to PutEntry or returned by GetEntry is C102.
* reflect: Go types are a deep embedding (`ty`), values are `val`; types with MarshalBESerial/UnmarshalBESerial are
  `TCustom` with their methods. Named types are identified with their underlying types; types
  with unexported fields, with names, or with only one of the methods are in Model/BeserialTypes.v (C129).
* Goroutines: only package policy has shared state with a lock; its model is a small-step machine. The wallet's memoised
  address has none; C104 has a machine for it. Packages tree and
  accounts are documented as not safe for concurrent use and are modelled sequentially.

## What is modelled and what is not

Modelled: all functions of `address`, `policy`, `beserial` (tags, encode, decode, size), `tree` (nodes, the memory and
overlay stores, the Patricia-Merkle tree), `wire` (all types with their codecs, accounts and contracts, transactions,
proofs, blocks, interlinks, messages, peer addresses, compact targets), `accounts`, `wallet`, `genesis` (from the
contents of the embedded files on), the replay loop of `cmd/gimiq`, and the loop of `scripts/export_blocks.py`.

Not modelled: the file system, embedding and TOML decoding of genesis profiles (the decoded configuration is not used
by any code); tar reading (an archive is the list of its entries: contents or a read error); flags, printing, timing;
error texts other than those of Push (C128); the JSON tags; argument parsing, HTTP, JSON and tar writing of the script; docs/. Python integers are `Z`. Go's runtime (scheduler fairness, memory limits,
stack overflow, garbage collection) is outside; the number of elements a decoder allocates is bounded by C34.

## Validation of the transcription

* `Model/Blake2b.v` is a concrete Blake2b. `Props/TestVectors.v` runs all unit tests of the repository on the model
  with it (addresses, supply, beserial tests, accounts, tree hashes, Push, wallet encodings, the "test" genesis), and `Props/GenesisMain.v`
  initialises the main network: 1396 accounts from the embedded file, root hash equal to the one in the genesis block.
* Every definition cites its lines; a script checks that the cited ranges cover the functions of the repository.
* `seeded/LOG.jsonl`: wrong programs made by editing the model; each breaks a theorem (or the theorem was tightened).

## Per property

@@TABLE@@
