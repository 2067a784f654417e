#!/usr/bin/env python3
"""Writes DESIGN.md: the text below and, per property, what is modelled, how it is proved and the theorems (from MANIFEST.json)."""
import json, os, re, glob
ROOT = os.path.dirname(os.path.dirname(os.path.abspath(__file__)))
props = [json.loads(l) for l in open(f'{ROOT}/properties.jsonl')]
claims = {c['property']: c for c in json.load(open(f'{ROOT}/MANIFEST.json'))['claims']}
where = {}
for f in sorted(glob.glob(f'{ROOT}/rocq/theories/*.v')):
    for m in re.finditer(r'^(?:Theorem|Lemma|Example) (C\d+_\w+)', open(f).read(), re.M):
        where[m.group(1)] = os.path.basename(f)

FILT = "`AccountFilter`, `MemcmpFilter`, `SimpleFilterStore`, `ExceptFilterStore`, `MutableFilterStore` (the value under its lock); base58/base64 decoders arbitrary (record `ext`)"
BYC = "`AccountDataByCommitment`, every method; the `BTreeMap` of processed versions as a sorted association list"
STORE = "`InmemoryAccountStore`: `update_account`, `initilize_or_update_account`, `process_slot_data`, `get_account`, `get_program_accounts`, snapshots; the filter store's answer is arbitrary at every call"
CONC = "the store's calls cut into atomic pieces between lock operations, any number of calls, any schedule"
TOK = "`TokenProgramAccountsStorage` with its mint, multisig, token and pending stores"
HOW = {
 'C01': (FILT, "refinement: the per-program map is shown to represent the list of filters added, by induction over additions"),
 'C02': (FILT, "same refinement; entailment between conditions against the meaning of a condition on all account data"),
 'C03': (FILT, "monotonicity of the refinement"),
 'C04': (FILT, "same; the false part by a computed witness"),
 'C05': (FILT, "direct, against the meaning 'the data contains these bytes at this offset'"),
 'C06': (FILT, "direct and by computed witness"),
 'C07': (FILT + "; `RpcFilterType` conversions", "direct; lists of conditions by induction (FilterListProps.v)"),
 'C08': ("the `Serialize`/`Deserialize` instances, derived ones included; `serde_json` reader and printer, `bs58` and the text form of keys, from their documentation", "the reader accepts every text of a grammar of JSON (mutual induction over the grammar); the printer produces texts of the grammar; base 58 is lossless (induction over digits)"),
 'C09': ("`Data`, `CompressionMethod`, `AccountData::new_from…`; codecs as functions with the lossless contract", "direct"),
 'C10': (BYC, "invariant by induction over all sequences of operations"),
 'C11': (BYC, "monotonicity of each operation, induction"),
 'C12': (BYC, "permutation of deliveries; induction over the list"),
 'C13': (BYC, "direct on every reachable entry"),
 'C14': (BYC, "direct"),
 'C15': (STORE, "invariant over histories: no operation on a reachable store reaches a panicking branch"),
 'C16': (STORE, "invariant over histories"),
 'C17': (STORE, "monotonicity of every operation on the reads of a tracked account"),
 'C18': (STORE, "simulation: a history and its restriction to one account read alike"),
 'C19': (STORE, "case analysis of every write path; filters answering `false`"),
 'C20': (STORE, "soundness of both query paths against the reads"),
 'C21': (STORE, "`NoDup` of the owner index, invariant over histories"),
 'C22': (STORE, "invariants of the owner index: for accounts whose owner did not change, and for the live versions (pending ones no older than the finalized one) of accounts that do change owner; computed witnesses otherwise"),
 'C23': (STORE, "case analysis; computed witness"),
 'C24': (STORE, "induction over the walk along recorded parents"),
 'C25': (STORE, "same"),
 'C26': (STORE, "state equality (slots); an exact case analysis for updates (RedeliverProps.v), computed witnesses"),
 'C27': (STORE, "exact characterisation of the reports against reads before and after"),
 'C28': (STORE, "termination by the decreasing parent chain; invariant on kept slots"),
 'C29': (STORE + "; bincode layouts and the compression of snapshots", "codec round trip by induction over the bytes; view equality after loading"),
 'C30': (STORE, "effects of a finalized close; computed witness"),
 'C31': (STORE, "view equality; computed witnesses"),
 'C32': (STORE, "case analysis on reachable stores; computed witness"),
 'C33': (STORE, "same"), 'C34': (STORE, "same"), 'C35': (STORE, "same"),
 'C36': (CONC, "interleaving semantics: reachable bad states computed; invariant for the positive part"),
 'C37': ("the lock programs of every operation (reader/writer locks, DashMap shards)", "reachable deadlock computed; lock-order argument by induction over executions for the positive part"),
 'C38': ("`TokenAccount` packing: `to_bytes`, `from_bytes`", "codec proof by case analysis over the flags"),
 'C39': ("`get_…_from_bytes` peeks", "against full unpacking"),
 'C40': ("`InmemoryTokenAccountStorage` and its key index", "refinement to an exact description of every history, then to a finite map"),
 'C41': ("`token_program_utils.rs`; layouts of `spl_token` and `spl_token_2022` accounts", "codec proofs, computed witnesses"),
 'C42': ("the mint index maps, alone and inside the store", "invariant: the two maps are inverse; over histories of the store"),
 'C43': ("`ProcessedAccountStore`", "invariant by induction over histories; against chains of recorded parents"),
 'C44': ("`ProcessedAccountStore` reads", "same chain specification"),
 'C45': ("`ProcessedAccountStore` reads, with fuel", "well-foundedness of recorded parents; divergence of a cyclic chain for every fuel"),
 'C46': (TOK, "the store holds what the log of finalized deliveries adds up to: invariant over histories"),
 'C47': (TOK, "same log, order of slots"),
 'C48': (TOK, "invariants of the owner and mint indices, the queries against the reads"),
 'C49': (TOK, "same, completeness"),
 'C50': (TOK, "invariant that excludes every panicking branch over histories"),
 'C51': (TOK + "; snapshots, block compression as an arbitrary lawful codec (a concrete one is given in Lz4Model.v)", "loading is shown equal to delivering the accounts but for the mint keys; view equality"),
 'C52': ("`StorageByProgramId` over arbitrary children (records of operations)", "direct; witness with the stores of this repository"),
 'C53': ("same", "direct"),
 'C54': ("`AccountsOnDemand` over an arbitrary source, any number of threads, condition variables with time-outs and spurious wake-ups", "invariants over all interleavings"),
 'C55': ("same", "same"),
 'C56': ("`AppendVec` reading", "byte-level proof, induction over the accounts written"),
 'C57': ("same", "over arbitrary bytes"),
 'C58': ("same", "direct; computed witnesses"),
 'C59': ("`parse_append_vec_name`, `u64::from_str`", "decimal numerals by induction"),
 'C60': ("the RPC methods over an arbitrary storage", "direct"),
 'C61': (STORE, "permutation of the visit order of the hash maps"),
 'C62': (CONC, "one invariant over all schedules"),
 'C63': ("`StorageByProgramId` with the stores of this repository", "computed witnesses; direct"),
 'C64': ("`AccountsOnDemand`, lock poisoning", "invariant over interleavings; computed witness"),
 'C65': ("`AppendVec` reading", "direct"),
 'C66': ("archive extraction over the list of entries", "induction over the entries"),
 'C67': ("the loader of `main.rs` into the token store", "induction over the archive"),
 'C68': ("RPC `get_program_accounts` filters", "direct; computed witnesses"),
 'C69': ("RPC context slots over the account store", "monotonicity; computed witnesses"),
 'C70': ("RPC encodings of accounts", "direct; computed witness"),
 'C71': (CONC, "linearizability: every read answers with the state of one moment of the call"),
 'C72': ("as C08", "exact characterisation of what passes; computed witnesses"),
 'C73': ("as C08", "same"),
 'C74': ("the unpacked loader over an arbitrary directory listing (names, unreadable entries, contents)", "induction over the listing; witnesses by computation"),
 'C75': ("the task loop of `par_iter_append_vecs` as a transition system: spawned tasks, finished tasks, returned consumers", "invariant over all reachable states; a decreasing measure for termination; a schedule as witness"),
 'C77': ("the stream loop of main.rs over an arbitrary message sequence, on top of the token store", "the loop is shown to be a history of the store; pending versions are tracked through all operations until their slot is finalized"),
 'C78': ("lock operations of every method of the token store and its table, DashMap iteration included", "a rank on locks that every trace respects; the blocked thread of highest rank can move; executions are bounded by the remaining operations"),
 'C79': ("every call cut into atomic pieces at its locks and atomics (TokenConcModel.v), any number of calls in progress", "rely-guarantee: a store invariant and an assertion per program point, both stable under every piece of the other calls"),
 'C80': ("the same pieces", "a measure (phase, work left in the phase) that every piece lowers, whatever state it runs in; with C79 the call returns"),
 'C81': ("the same pieces against the sequential functions of TokenStoreModel.v", "symbolic execution of each call by lemmas on its loops; determinism gives the converse"),
 'C82': ("the pieces of C79", "configuration invariant: every live row is in the key index and in both secondary indices, or a call in progress still owes the entry; in a quiet configuration nothing is owed and the sequential argument of C49 applies"),
 'C83': ("the same pieces, with arbitrary calls", "invariant: at most one call is between check and store of a slot, and what it checked still holds; the slots a finalized read holds lie between the bound and the finalized slot"),
 'C84': ("the same pieces", "every row, mint, multisig and pending version comes from an operation (store invariant of C79); per program point: what a call has collected is genuine, and a read holds only versions of its key"),
 'C85': ("the same pieces", "rows of a key that is never closed and all index entries only grow; a query returns a key only if it is listed, and a query begun when it is listed returns it, both per program point; the same for reads"),
 'C86': ("the pieces of ConcModel.v and ConcQueryModel.v", "the pieces of one call composed with nothing in between are the function of StoreModel.v; executions of a piecewise call are deterministic"),
 'C87': ("get_program_accounts cut at its locks (ConcQueryModel.v), running among the calls of ConcModel.v; the indices are visited in any order", "invariant of the walk: indices still to visit are distinct, in bounds and of other keys than those collected; each collected account was held when visited; under one owner per account every tracked index is in its owner's set"),
 'C88': ("the same", "witness schedule for the torn answer; walk invariant relative to an unchanged store; C87 with the monotone views of C62"),
 'C89': ("StoreModel.v against a ledger (LedgerSpec.v): slot tree, base, writes, confirmed and finalized tip, given by the stream alone", "invariant along orderly histories (LedgerInv.v to LedgerRun.v): statuses and parents of the known slots, the slots an account still waits in, and per slot which version is recorded; one preservation lemma per event; the walk is computed along the branch (LedgerProofs.v)"),
 'C90': ("the same", "the invariant of C89 shows that owner-changing deliveries come in time; C22_owner_changes_partial and C20 then speak of versions that C89 identifies with the ledger"),
 'C91': ("the same", "C27 (reports are exactly the changed versions) between two states that both satisfy the invariant of C89"),
 'C92': ("TokenStoreModel.v against a ledger (TokenLedgerSpec.v) given by the stream alone", "invariant along orderly streams (TokenLedgerProofs.v, TokenLedgerKey.v): recorded slots, parents and the waiting versions of one key against the ledger; then the read path on both sides of the finalized slot (TokenLedgerProps.v); streams outside the conditions in TokenLedgerEdge.v"),
 'C93': ("program queries of TokenStoreModel.v against the ledger of TokenLedgerSpec.v", "finalized queries by C49, overlay of waiting versions element by element, reads by C92 (TokenLedgerQueryProps.v); streams outside the conditions in the same file"),
 'C94': ("slot notifications of TokenStoreModel.v against the ledger of TokenLedgerSpec.v", "the invariant of C92 for one key and the chain walked by finalize (TokenLedgerNotifyProps.v)"),
 'C95': ("the gauges of the account store, incremented as the code does beside each step of StoreModel.v (GaugeModel.v)", "induction over histories; the entries with an index entry inject into the entries in memory (GaugeProps.v)"),
 'C96': ("the gauges of the token store and its table beside each step of TokenStoreModel.v (GaugeModel.v)", "induction over histories; live records against the log of deliveries, pending versions against the versions held (TokenGaugeProps.v)"),
 'C97': ("lengths of the memory vectors of both stores", "a family of histories, one for each n, for the refutations; induction over histories for the bounds (GaugeProps.v, TokenGaugeProps.v)"),
 'C98': ("the token store on orderly streams (TokenLedgerSpec.v)", "the invariant of C50 with the mints of the finalized ledger, and a weaker one while accounts are loaded; the counter of mint indices equals the number of keys seen (TokenLedgerSafeProps.v)"),
 'C99': ("the account store with a concrete SimpleFilterStore (LedgerFilterSpec.v)", "a run equals the run of the calls whose account has been wanted before (LedgerFilterProofs.v), whose ledger is a part of the whole; C89 to C91 for these calls, C01 and C02 for the filters (LedgerFilterProps.v)"),
 'C100': ("the whole server: archive loader (AvecModel), message loop (StreamModel), token store and RPC (RpcModel) composed in ServerModel.v; the archive, the orderly feed and the answers are specified in ServerSpec.v", "C67 turns the archive into loads and C77 the messages into calls, feed_orderly shows that together they form an orderly stream, then C98, C93, C60, C68 and C70 are chained (ServerProps.v)"),
 'C101': ("StoreModel.v twice: the store that makes the snapshot and the store that loads it; the ledger of the late listener is related to the whole ledger in ReplicaSpec.v", "the snapshot is the finalized ledger of the program (C90 and the codec round trip), the load is a row of initialisations (C17), so the history of the fresh store is itself orderly, with the snapshot as its base (orderly_rebase); what counts in its ledger is what counts in the whole one (counts_split); then C89 and C90 apply"),
 'C102': ("StoreModel.v fed a stream of LateSpec.v (the events of LedgerSpec.v and loads of settled versions in between)", "the invariant of LedgerInv.v is kept by a load of a settled version (late_step: such a load touches no slot that is still open, and creates at most a finalized slot that nothing refers to); then as C89 - C91. A load after the account was closed brings the old version back (C102_load_after_close_refuted)"),
 'C103': ("`get_snapshot` of RpcModel.v with the base58 parser of Base58Model.v over any storage interface of DispatchModel.v", "case analysis with the round trip of base58 texts; loading back by C29, with the number of accounts of the snapshot bounded by the number of entries of the store; the token store's snapshot is refused (C51_refuted)"),
 'C104': ("two stores of StoreModel.v, one fed the whole stream, the other a part of it with a `load_from_snapshot` in between; what the listener knows of the ledger is `hears` of ReplicaSpec.v", "the load is a sequence of settled loads (C102), each of a version older than the listener's first slot or of one that is final for the listener, too; then the ledgers are compared as for C101"),
 'C105': ("`update_account` of StoreModel.v and `ts_update` of TokenStoreModel.v with their boolean results", "case analysis over the outcomes of an update on reachable stores (`upd_case`), equality of all answers from equality of the reads of every entry; the false parts by computed witnesses"),
 'C106': ("`StorageByProgramId` of DispatchModel.v over arbitrary storages, and over the two storages of the repository", "induction over sequences of calls: what one call does to one storage (from the C53 theorems), then the runs of TokenStoreModel.v and StoreModel.v; reads by C92"),
 'C107': ("the JSON values that serde makes of the answers of RpcModel.v, printed by the printer of JsonModel.v (RpcWireModel.v)", "the printed text is read back as one value (soundness and completeness of the grammar of JsonGrammar.v); the entries against RpcWireSpec.v, texts against EncodingSpec.v; composition with C89 and C90"),
 'C108': ("the account store of StoreModel.v", "a relation between stores that forgets the numbering of the entries is kept by every operation and determines every answer (AlikeProofs.v); two neighbouring updates commute up to it; induction over the permutation"),
 'C110': ("the token store of TokenStoreModel.v and its pending part, TokenPendModel.v", "the pending part is compared slot by slot: insertions commute, announcing and finalizing do not look at the slot of the update; the rest of the store does not depend on the pending part; equality of states"),
 'C111': ("the token store of TokenStoreModel.v, the answers of all calls but loads and snapshots", "a relation between stores that differ by a bijection of the mint numbers is kept by every call and determines every answer; two neighbouring updates commute up to the exchange of two numbers; induction over the permutation"),
 'C112': ("the token store of TokenStoreModel.v and its pending part, TokenPendModel.v", "a pending version stays or gives way to a newer one of its slot as long as nothing is finalized (induction over the calls), and mints keep their numbers; idempotence of the notifications and of adding to the finalized part; equality of states"),
 'C113': ("the token store of TokenStoreModel.v", "repetitions are dropped one by one with C112_update_again (induction over the stream, remembering what was heard); the first occurrences of the two streams are permutations of each other, to which C111_arrival_order applies"),
 'C114': ("the account store of StoreModel.v and ByCommitModel.v", "invariant of the batch: the entry has the update or a newer version of its slot, and the slot lists the account at the level of the update, so that a repetition is the identity; the first occurrences of the two batches are permutations of each other, to which C108_arrival_order applies"),
 'C109': ("the account store of StoreModel.v", "the walk over the slots does not depend on a slot it does not visit (induction over the walk); promotion and the update of another slot (a newer one, if the promotion is to finalized) commute on each entry and in the owner index; with the relation of C108 no later history tells the results apart"),
 'C76': ("bincode decoding of the manifest's accounts database fields, the bank fields as an arbitrary prefix decoder", "codec round trip and monotonicity of decoders under truncation"),
}
try:
    from design_more import MORE
    HOW.update(MORE)
except ImportError:
    pass

HEAD = '''# Formal model of solana-lite-account-manager

Machine-checked model in Rocq/Coq 8.16.1 of the code in `/repo` (read as text, unchanged).
Sources: `rocq/theories/`.  Properties: `properties.jsonl`.  Status per property: `MANIFEST.json`.
This file is written by `tools/gen_design.py`.

## 1. Approach

* Every Rust function that carries semantics is transcribed as a total, computable Gallina function.
  `&mut self` becomes "returns the new value", a panic becomes an explicit `Panic` value,
  `Result`/`Option` stay data, unbounded loops use fuel and a theorem excludes running out of fuel
  (or a theorem shows that the real loop diverges).
* `*Model.v` = transcription, each definition cites file and lines.  `*Spec.v` = small independent
  specification vocabulary.  `*Proofs.v` and the other files = lemmas.  `*Props.v` = the property theorems,
  the non-vacuity examples beside them and `Print Assumptions`.
* A property that is false of the faithful model is kept in full: `..._refuted` proves the negation
  with a concrete reachable witness (a finding about the code) and `..._partial` proves the
  strongest version we have; the note names what is missing.
* Histories: the stores are driven by arbitrary finite sequences of API calls; the answer of the filter store
  is part of the history (it may change at any time), as are the contents of all deliveries.
* Concurrency: calls are cut into atomic pieces between lock operations; a schedule is any interleaving.
* Mutation testing: `tools/mutate.py` edits one definition in a scratch copy and reports which claims fail;
  the record is `seeded/LOG.jsonl`.  A theorem counts as failed when its proof script no longer checks or it depends on one whose
  script no longer checks (up to batch 7 the tool missed some of the latter kind, so those records list too few).
* The unit tests of the repository run on the model: `tools/gen_repo_tests.py` reads the Rust test functions and writes
  `RepoTests.v`, 27 tests with 467 assertions, each evaluated by `vm_compute`; all pass.  They are tests of the
  transcription, not proofs, and no claim rests on them.

## 2. Trusted base

* The Coq 8.16.1 kernel, including its `vm_compute` machine (used for witnesses and examples).
* `Print Assumptions` follows every property theorem in the `*Props.v` files; every one answers
  "Closed under the global context": **no axiom at all**, of ours or of a library, is used by any theorem.
  (`coqchk`/`vcheck` list seven constants of `Coq.ssr.ssrunder`; they come with loading std++/ssreflect,
  no theorem depends on them.)
* The transcription from Rust to Gallina, cited line by line, and the library contracts of section 3.

## 3. Library behaviour taken as given

* `HashMap`/`HashSet`/`DashMap`/`BTreeMap`: finite maps; iteration order arbitrary where it could be observed (C53, C61),
  otherwise the order of keys.  `RwLock`/`Mutex`: mutual exclusion, poisoning on panic (C64).  DashMap shard locks in C37.
* Compression (`lz4`, `zstd`): arbitrary functions with decompress (compress x) = x.  For token snapshots the LZ4 block format
  is also given concretely (Lz4Model.v: a stored-block encoder and the decoder).
* `bincode` 1.3 legacy options: fixed-width little-endian integers, 64-bit lengths, one byte for `Option`, four for enum variants;
  written out in BincodeModel.v; trailing bytes allowed.
* `spl_token` 4.0.0 and `spl_token_2022` 3.0.4 account layouts (165, 82 and 355 bytes; `COption` tags of four bytes), SplModel.v.
* `bs58`, `base64`: arbitrary decoders in the filter and query models; given concretely in Base58Model.v and Base64Model.v (transcribed from their documentation), where text matters: keys, patterns (C05), the texts of answers (C70, C103).
* `serde_json` 1.0: JsonModel.v (range errors of floating point numbers and the position in error messages are not modelled).
* `AppendVec` layout of the validator: 48 bytes of `StoredMeta`, 56 of `AccountMeta`, 32 of hash, data, aligned to 8.
* `tar`: an archive is the list of its entries (path, declared size, bytes); the last may be cut short.
* `jsonrpsee`, `solana-rpc-client-api`, `solana-account-decoder`: request and response types as records; the `encode_ui_account` cases used.
* Machine integers: `u64` slots, versions and lamports are natural numbers; where a bound matters it is a hypothesis or
  part of the model (lengths, offsets, file sizes, `usize` casts are 64-bit).

## 4. Modelled and not modelled

| source | modelled in |
|---|---|
| common/src/account_filter.rs, simple_filter_store.rs, except_filter_store.rs, mutable_filter_store.rs, account_filters_interface.rs | FilterModel.v, FilterJsonModel.v |
| common/src/account_data.rs, commitment.rs, slot_info.rs, pubkey_container_utils.rs | DataModel.v |
| common/src/account_store_interface.rs, accounts_source_interface.rs | the operations of StoreModel.v, DispatchModel.v, OnDemandModel.v |
| account_storage/src/account_data_by_commitment.rs | ByCommitModel.v |
| account_storage/src/inmemory_account_store.rs | StoreModel.v; locks LockModel.v (those of the token store: TokenLockModel.v); concurrency ConcModel.v and ConcQueryModel.v (that of the token store: TokenConcModel.v); snapshots BincodeModel.v |
| account_storage/src/storage_by_program_id.rs | DispatchModel.v |
| accounts_on_demand/src/accounts_on_demand.rs | OnDemandModel.v |
| token_account_storage/src/account_types.rs, inmemory_token_account_storage.rs, token_account_storage_interface.rs | TokenModel.v |
| token_account_storage/src/token_program_utils.rs | TokenUtilsModel.v over SplModel.v |
| token_account_storage/src/inmemory_token_storage.rs | TokenPendModel.v, TokenStoreModel.v, Lz4Model.v |
| simulate_from_snapshot/src/snapshot_utils/*.rs, main.rs (loader) | AvecModel.v, ManifestModel.v, UnpackedModel.v, ParallelModel.v; stream task of main.rs: StreamModel.v |
| simulate_from_snapshot/src/rpc_server.rs | RpcModel.v, RpcTextModel.v, RpcWireModel.v |
| prometheus gauges of the two stores | GaugeModel.v |

Not modelled: the registration and export of metrics (the gauges the stores write are modelled in GaugeModel.v, beside the
store models; the gauges that are registered but never written are left out), logging, the JSON-RPC and gRPC transports, memory exhaustion,
wall-clock time (time-outs may fire at any moment), `tracing` set-up and command line parsing (cli.rs), tests.

## 5. Properties

'''
out = [HEAD]
for p in props:
    c = claims.get(p['id'])
    m, h = HOW.get(p['id'], ('', ''))
    out.append(f"### {p['id']} {p['title']}\n\n")
    out.append(f"{p['statement']}\n\n")
    if m: out.append(f"* Modelled: {m}.\n* Method: {h}.\n")
    if c:
        out.append(f"* Status: **{c['status']}**. {c.get('note','')}\n")
        byf = {}
        for t in c['theorems']: byf.setdefault(where.get(t, '?'), []).append(t)
        for f in byf: out.append(f"* {f}: " + ", ".join(f"`{t}`" for t in byf[f]) + "\n")
    out.append("\n")
open(f'{ROOT}/DESIGN.md', 'w').write(''.join(out))
missing = [p['id'] for p in props if p['id'] not in HOW]
print('no method text:', missing)
