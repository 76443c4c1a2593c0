#!/usr/bin/env python3
"""Writes DESIGN.md: the text below plus a table from properties.jsonl and MANIFEST.json."""
import json
P=[json.loads(l) for l in open('/verif/properties.jsonl')]
C={c['property']:c for c in json.load(open('/verif/MANIFEST.json'))['claims']}
# how each property is modelled and proved
HOW={
"C01":"memo table as a map in the state; invariant memo[j] = supply before height 5000 j; any list of earlier calls",
"C02":"small-step machine: one thread per caller, statement granularity, one mutex; invariant over all schedules; measure for termination",
"C03":"induction on the recurrence",
"C04":"from the recurrence",
"C05":"fixed-point powers bound the tail of the recurrence (no enumeration of heights)",
"C06":"base 32 as a positional system over byte lists; blockwise mod 97 = mod 97 of the digit string",
"C07":"same; injectivity from C06","C08":"exact characterisation of accepted strings, both directions","C09":"refuted by a witness; what `&&` does accept, exactly",
"C10":"induction on the string with spaces removed","C11":"modular arithmetic: 10^k is a unit mod 97 and weights differ",
"C12":"induction","C13":"induction; longest common prefix","C14":"refuted for all non-empty lists",
"C15":"heap + store simulate a canonical inductive trie (Proofs/TreeTrie, TreeSim, TreeUpdate), which simulates a map; all call histories",
"C16":"same simulation","C17":"canonical tries are determined by their contents; hashes never stale by C18",
"C18":"invariant over all histories: stored child hashes are either all current, after updateHashes; Merkle root specified from the entries alone",
"C19":"injectivity of node serialisation, descent along both tries; disjunction with an explicit collision",
"C20":"the store's key set equals the trie's node paths","C21":"fuel bound by key length; no panic branch reachable","C22":"from C17/C20",
"C23":"stack of stores; map laws","C24":"fold over any permutation of the dirty map","C25":"heap shared between layers: refuted by execution for every H; lower mapping invariant",
"C26":"the simulation of C15 over any stack of stores",
"C27":"deep embedding of Go types; mutual induction on types; `enc` relation as independent format","C28":"induction on types with fuel = input length",
"C29":"induction on types (prefix property of `enc`)","C30":"induction; every accepted input is the encoding of the value read","C31":"induction; refuted for custom types",
"C32":"induction; refuted behind pointers","C33":"refuted for every too long slice","C34":"counting invariant in the decoder","C35":"case analysis over all tag strings",
"C36":"instances of the beserial theorems with the account codecs","C37":"same, with the transaction codecs","C38":"arithmetic of (len+7) mod 256","C39":"codec proof",
"C40":"length of the path vs. bits available","C41":"collision argument along the path","C42":"exact result of the decoder loop","C43":"same","C44":"codec proof, refuted for IPv6",
"C45":"codec proof","C46":"case analysis over the message types, each with its codec","C47":"totality of every decoder (C28) + dispatch","C48":"interface pointers cannot be decoded: refuted for all",
"C49":"case analysis","C50":"length argument","C51":"bit lengths of big integers",
"C52":"tree simulation composed with account codec round trip","C53":"phases of Push as folds over a ledger; closed form of the result","C54":"closed form is permutation invariant; root by C17",
"C55":"sum over the ledger of the closed form, with wrap-around excluded explicitly","C56":"frame lemma","C57":"exact partial effect","C58":"specification `listed`/`to_prune`",
"C59":"SpecFloat (binary64) related to Flocq reals: rounding error bounds","C60":"closed form of the debit","C61":"proof codec + signer","C62":"equivalence with three declarative rules",
"C63":"refuted for every iterated hash","C64":"wrap-around arithmetic","C65":"last creation in the block","C66":"panic cases collected through all phases","C67":"simulation of call sequences",
"C68":"abstract signature scheme","C69":"same","C70":"injectivity of the content encoding","C71":"same","C72":"induction over the account list; C19 for uniqueness","C73":"induction over the archive; equivalence with declarative replay",
"C74":"nil map writes panic","C75":"induction / case analysis","C76":"inner slices have no length tag","C77":"composition of codec theorems","C78":"codec proof",
"C79":"each phase of Push: succeeds iff its rule holds (inductions over the transactions), composed","C80":"from C79","C81":"congruence of Push (Proofs/PushCong.v) and C53","C82":"congruence; C53 twice","C83":"congruence","C84":"induction over the chain with C55, C80, C04, C73","C85":"the method panics",
"C86":"per message kind: decoder accepts exactly the typed encodings (C30 canonicity both ways)","C87":"induction on types: no decoder returns this error; dispatch by cases","C88":"from C86","C89":"from C46 and the layouts",
"C90":"mutual induction on the format relation `enc` (Proofs/CutFacts.v); the two errors separated by an induction on types","C91":"from C27, C30 and encodability of decoded values; refuted by computing the decoder on all such blocks","C92":"field by field","C93":"case analysis on the memo","C94":"the first error of each phase splits the transactions (Proofs/FaultFacts.v); errors of the decoder classified by induction on types (Proofs/ErrorFacts.v)",
"C95":"Push is a sequence of PutEntry calls (relation from_run through sim_Push), then C25 and C26; the root object is the same for the life of a tree (Proofs/TreeRoot.v)",
"C96":"case analysis on the keys; the message of a transaction of any size computed field by field","C97":"first bytes of one hash","C98":"case analysis, with C92","C99":"induction on the list",
"C100":"induction on the type; case analysis of the methods",
"C101":"simulation between the slice and the list model of tree.go (Proofs/SliceSim.v): the array of a branch's prefix has no other branch's prefix in it and no other node's slice ends behind it",
"C102":"the simulation of C101, with the caller's arrays as a set that path slices stay out of",
"C103":"simulation between the models on account objects and on account values (Proofs/ObjectSim.v)",
"C104":"small-step machine with one caller per goroutine, one step per word access (Model/WalletRace.v); invariants over all schedules",
"C105":"Flush as a list of statements of which the first n are executed (Model/TreeCrash.v); closed form for both layers by induction over the iteration order; reach/areach/oreach/sreach extended with interrupted flushes",
"C106":"model of the export script as a loop producing events (Model/BlockExport.v); induction over the number of blocks left; server universally quantified",
"C107":"composition of C106 with C73",
"C109":"second model of encode.go on Go slices (Model/MarshalSlices.v) with an arbitrary growth policy; simulation by induction on types (Proofs/BufferFacts.v)",
"C110":"second model of the interlink decoder with pointers, objects and arrays in an explicit memory (Model/InterlinkRefs.v), shown to agree with the one on values; invariants over histories of calls",
"C111":"third model of the decoder (Model/DecodeMemory.v): variables hold cells of an explicit memory and the input is a slice of one; simulation of the decoder on values by induction on the type, carrying that all reached cells are new and distinct; a frame lemma turns that into statements about later writes. Spec/OwnershipSpec.v says which cells a value reaches",
"C112":"the decoder model logs its allocations; potential argument by induction on the type: what is allocated is paid for by bytes read, and after a failure by all bytes left (Spec/AllocSpec.v: total, depth, solid)",
"C113":"frame relation through update/prune/invalidatePath (only objects on the key's path are written), a second one through updateHashes (only hashes of existing children change), and C20 for the states before and after: equal contents below a node give equal hashes (Proofs/TreeLocal.v)",
"C114":"one block: C79's rules and effect for a non-basic account (no credits, debits under the terms); then induction over the chain of blocks (Spec/ContractSpec.v)",
"C115":"counting the branchings of a trie by induction over its entries (one more at most per entry); next-location arithmetic for objects created; the frame theorem C113 for objects changed",
"C116":"relational induction over the steps of Push on two ledgers that agree on the parties (every step reads and writes only there); lifted to trees by the simulation of C67",
"C117":"C79's rules are invariant under permutation: the running checks of a sender's amounts are equivalent to one check of their sum (modulo uint64), all else depends on sums and membership",
"C118":"C19 (roots determine entries up to collisions) and C18 for the converse, lifted to accounts; the future by C116 and C56 along the chain",
"C119":"the frame theorem C56 for all outcomes, then PutAccount for each noted address; root hash by C118",
"C120":"uniqueness of the (exponent, mantissa) split with mantissa in [2^15, 2^23), from C51",
"C121":"policy.go once more with a counter of rewards (Model/PolicyCost.v), shown to compute the same; table length by induction on the history",
"C122":"Push decomposed into a run of PutEntry calls, counted per phase; growth by an invariant on empty accounts; the chain bounds add C115",
"C123":"C69/C68 (wallet signs) composed with C77 (network block decodes) and C53/C79 (exact acceptance and effect of Push)",
"C124":"Model/TreeSteps.v: PutEntry with a log of all intermediate states; erasure to Model/Tree.v, each logged change is quiet for readers of 40-nibble paths except the first (Proofs/StepFacts.v); Proofs/StepWalk.v shows that the log is a path of single changes",
"C125":"Proofs/StepRepair.v: every state during hashing is 'lazy' (a hash is zero, or right with everything below right), and hashing from any lazy state completes; Proofs/StepAgain.v: any write on a lazy tree works, and in every state of an interrupted insertion or replacement the branches lead to the key or stop where the old tree stopped, so writing another value takes up the update again; Proofs/StepRetry.v: in all these states every link leads to a node, so hashing returns; the rest refuted by three concrete interrupted calls",
"C126":"Spec/SharedHistory.v: histories of several trees on one store; Proofs/SharedFacts.v: on any heap whose branches stay within 40 nibbles every step of PutEntry leaves the 40-nibble records alone or stores the one entry, whatever the shape of the tree",
"C127":"Model/PushSteps.v: Push over a state that also logs every tree passed through; Proofs/PushLog.v relates Push over two state types; the log is a history of writes of parties, C125/C126 lemmas give the readings during each",
"C128":"Model/ErrorText.v gives the text of every error of Push with Go's %d, %s, %x; C94 says which errors Push returns and with which fields; injectivity by cutting the texts at the first non-digit; reading back with Spec/TextSpec.v and address.Decode; a counterexample for the unnamed account",
"C129":"Model/BeserialTypes.v repeats decode.go and encode.go over richer types (visibility, optional methods) with reflect's read-only flags; agreement with Model/Beserial.v on ordinary types by induction on the type; hidden data never decoded by induction; writing equals writing the type with everything exported and hidden methods dropped",
"C130":"Marshal of ty_block computed field by field with the layout lemmas of C77; relaying from C77_accepted_blocks and the exact result of interlink decoding",
"C131":"Spec/OutcomeSpec.v lists answers per check; each phase of Push on the ledger model is shown to stop exactly as listed (both directions), phases composed, transported to the tree by push_ledger",
"C132":"The phases of Push on the ledger model give the accounts at the crash (crashed, Spec/OutcomeSpec.v); sums over all addresses exchange with sums over transactions as in C55",
"C133":"Proofs/StepAgain.v, StepRetry.v: in every state of an insertion or replacement each link leads to a node and the root is a branch, so its bytes can be computed; a concrete state with a third hash",
"C108":"a second model of the tree over stores that copy nodes (Model/TreeCopy.v); invariant: the root only refers to whole paths (Proofs/CopyFacts.v), induction over histories",
}
EXTRA=json.load(open('/verif/tools/how_extra.json')) if __import__('os').path.exists('/verif/tools/how_extra.json') else {}
HOW.update(EXTRA)
T=open('/verif/tools/design_head.md').read()
rows=["| id | property | status | theorems (rocq/theories/Props) | how |","|---|---|---|---|---|"]
for p in P:
    c=C.get(p['id'],dict(status='?',theorems=[]))
    rows.append("| %s | %s | %s | %s | %s |"%(p['id'],p['title'],c['status'],", ".join(c['theorems']),HOW.get(p['id'],'')))
open('/verif/DESIGN.md','w').write(T.replace('@@TABLE@@',"\n".join(rows)))
miss=[p['id'] for p in P if p['id'] not in HOW]
print("design:",len(P),"properties; no method for",miss)
