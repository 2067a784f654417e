# Formal model of solana-lite-account-manager

Machine-checked model in Rocq/Coq 8.16.1 of the code in `/repo` (read as text, unchanged).
Sources: `rocq/theories/`.  Properties: `properties.jsonl`.  Status per property: `MANIFEST.json`.
This file is written by `tools/gen_design.py`.

## 1. Approach

* Every Rust function that carries semantics is transcribed as a total, computable Gallina function.
  `&mut self` becomes "returns the new value", a panic becomes an explicit `Panic` value,
  `Result`/`Option` stay data, unbounded loops use fuel and a theorem excludes running out of fuel
  (or a theorem shows that the real loop diverges).
* `*Model.v` = transcription, each definition cites file and lines.  `*Spec.v` = small independent
  specification vocabulary.  `*Proofs.v` and the other files = lemmas.  `*Props.v` = the property theorems,
  the non-vacuity examples beside them and `Print Assumptions`.
* A property that is false of the faithful model is kept in full: `..._refuted` proves the negation
  with a concrete reachable witness (a finding about the code) and `..._partial` proves the
  strongest version we have; the note names what is missing.
* Histories: the stores are driven by arbitrary finite sequences of API calls; the answer of the filter store
  is part of the history (it may change at any time), as are the contents of all deliveries.
* Concurrency: calls are cut into atomic pieces between lock operations; a schedule is any interleaving.
* Mutation testing: `tools/mutate.py` edits one definition in a scratch copy and reports which claims fail;
  the record is `seeded/LOG.jsonl`.  A theorem counts as failed when its proof script no longer checks or it depends on one whose
  script no longer checks (up to batch 7 the tool missed some of the latter kind, so those records list too few).
* The unit tests of the repository run on the model: `tools/gen_repo_tests.py` reads the Rust test functions and writes
  `RepoTests.v`, 27 tests with 467 assertions, each evaluated by `vm_compute`; all pass.  They are tests of the
  transcription, not proofs, and no claim rests on them.

## 2. Trusted base

* The Coq 8.16.1 kernel, including its `vm_compute` machine (used for witnesses and examples).
* `Print Assumptions` follows every property theorem in the `*Props.v` files; every one answers
  "Closed under the global context": **no axiom at all**, of ours or of a library, is used by any theorem.
  (`coqchk`/`vcheck` list seven constants of `Coq.ssr.ssrunder`; they come with loading std++/ssreflect,
  no theorem depends on them.)
* The transcription from Rust to Gallina, cited line by line, and the library contracts of section 3.

## 3. Library behaviour taken as given

* `HashMap`/`HashSet`/`DashMap`/`BTreeMap`: finite maps; iteration order arbitrary where it could be observed (C53, C61),
  otherwise the order of keys.  `RwLock`/`Mutex`: mutual exclusion, poisoning on panic (C64).  DashMap shard locks in C37.
* Compression (`lz4`, `zstd`): arbitrary functions with decompress (compress x) = x.  For token snapshots the LZ4 block format
  is also given concretely (Lz4Model.v: a stored-block encoder and the decoder).
* `bincode` 1.3 legacy options: fixed-width little-endian integers, 64-bit lengths, one byte for `Option`, four for enum variants;
  written out in BincodeModel.v; trailing bytes allowed.
* `spl_token` 4.0.0 and `spl_token_2022` 3.0.4 account layouts (165, 82 and 355 bytes; `COption` tags of four bytes), SplModel.v.
* `bs58`, `base64`: arbitrary decoders in the filter and query models; given concretely in Base58Model.v and Base64Model.v (transcribed from their documentation), where text matters: keys, patterns (C05), the texts of answers (C70, C103).
* `serde_json` 1.0: JsonModel.v (range errors of floating point numbers and the position in error messages are not modelled).
* `AppendVec` layout of the validator: 48 bytes of `StoredMeta`, 56 of `AccountMeta`, 32 of hash, data, aligned to 8.
* `tar`: an archive is the list of its entries (path, declared size, bytes); the last may be cut short.
* `jsonrpsee`, `solana-rpc-client-api`, `solana-account-decoder`: request and response types as records; the `encode_ui_account` cases used.
* Machine integers: `u64` slots, versions and lamports are natural numbers; where a bound matters it is a hypothesis or
  part of the model (lengths, offsets, file sizes, `usize` casts are 64-bit).

## 4. Modelled and not modelled

| source | modelled in |
|---|---|
| common/src/account_filter.rs, simple_filter_store.rs, except_filter_store.rs, mutable_filter_store.rs, account_filters_interface.rs | FilterModel.v, FilterJsonModel.v |
| common/src/account_data.rs, commitment.rs, slot_info.rs, pubkey_container_utils.rs | DataModel.v |
| common/src/account_store_interface.rs, accounts_source_interface.rs | the operations of StoreModel.v, DispatchModel.v, OnDemandModel.v |
| account_storage/src/account_data_by_commitment.rs | ByCommitModel.v |
| account_storage/src/inmemory_account_store.rs | StoreModel.v; locks LockModel.v (those of the token store: TokenLockModel.v); concurrency ConcModel.v and ConcQueryModel.v (that of the token store: TokenConcModel.v); snapshots BincodeModel.v |
| account_storage/src/storage_by_program_id.rs | DispatchModel.v |
| accounts_on_demand/src/accounts_on_demand.rs | OnDemandModel.v |
| token_account_storage/src/account_types.rs, inmemory_token_account_storage.rs, token_account_storage_interface.rs | TokenModel.v |
| token_account_storage/src/token_program_utils.rs | TokenUtilsModel.v over SplModel.v |
| token_account_storage/src/inmemory_token_storage.rs | TokenPendModel.v, TokenStoreModel.v, Lz4Model.v |
| simulate_from_snapshot/src/snapshot_utils/*.rs, main.rs (loader) | AvecModel.v, ManifestModel.v, UnpackedModel.v, ParallelModel.v; stream task of main.rs: StreamModel.v |
| simulate_from_snapshot/src/rpc_server.rs | RpcModel.v, RpcTextModel.v, RpcWireModel.v |
| prometheus gauges of the two stores | GaugeModel.v |

Not modelled: the registration and export of metrics (the gauges the stores write are modelled in GaugeModel.v, beside the
store models; the gauges that are registered but never written are left out), logging, the JSON-RPC and gRPC transports, memory exhaustion,
wall-clock time (time-outs may fire at any moment), `tracing` set-up and command line parsing (cli.rs), tests.

## 5. Properties

### C01 Admission is exactly the union of the configured filters

After any sequence of filter additions, an account is admitted if and only if some added filter lists its pubkey, or some added filter names its owner program and every data condition of that same filter holds on the account's uncompressed data.

* Modelled: `AccountFilter`, `MemcmpFilter`, `SimpleFilterStore`, `ExceptFilterStore`, `MutableFilterStore` (the value under its lock); base58/base64 decoders arbitrary (record `ext`).
* Method: refinement: the per-program map is shown to represent the list of filters added, by induction over additions.
* Status: **proved**. Admission by the mutable filter store is exactly the union of the filters added, for filters whose memcmp patterns decode.
* FilterProps.v: `C01_admission_is_union`

### C02 A query reported as covered really is covered

If the filter store answers that it contains a query, then every account that matches the query is admitted by the store (so answering the query from the local store cannot silently miss accounts).

* Modelled: `AccountFilter`, `MemcmpFilter`, `SimpleFilterStore`, `ExceptFilterStore`, `MutableFilterStore` (the value under its lock); base58/base64 decoders arbitrary (record `ext`).
* Method: same refinement; entailment between conditions against the meaning of a condition on all account data.
* Status: **proved**. Forward direction proved for all stores and queries; the converse (a covered query is reported as contained) is refuted, see C02_converse_refuted. Listed accounts are reported exactly (C02_listed_accounts_exact).
* FilterProps.v: `C02_contained_query_is_covered`, `C02_converse_refuted`
* FilterListedProps.v: `C02_listed_accounts_exact`

### C03 Adding filters never withdraws coverage

Adding further filters never makes a previously admitted account rejected, nor a previously contained query or account not contained.

* Modelled: `AccountFilter`, `MemcmpFilter`, `SimpleFilterStore`, `ExceptFilterStore`, `MutableFilterStore` (the value under its lock); base58/base64 decoders arbitrary (record `ext`).
* Method: monotonicity of the refinement.
* Status: **proved**. 
* FilterProps.v: `C03_adding_filters_is_monotone`

### C04 An added filter is reported as contained

Right after a filter was added, asking whether the store contains that same filter answers yes, whatever encoding its memcmp patterns use.

* Modelled: `AccountFilter`, `MemcmpFilter`, `SimpleFilterStore`, `ExceptFilterStore`, `MutableFilterStore` (the value under its lock); base58/base64 decoders arbitrary (record `ext`).
* Method: same; the false part by a computed witness.
* Status: **partial**. False as stated: a filter with a base58/base64 pattern is stored decoded and not recognised (refuted). Proved for raw patterns and for a filter added twice.
* FilterProps.v: `C04_added_filter_contained_refuted`, `C04_added_raw_filter_contained_partial`, `C04_filter_added_twice_contained_partial`

### C05 Memcmp conditions mean the same in every encoding

A memcmp condition holds iff the decoded pattern equals the data bytes starting at the offset; out-of-range patterns never match and never panic; raw, base58 and base64 patterns with the same decoded bytes accept exactly the same data.

* Modelled: `AccountFilter`, `MemcmpFilter`, `SimpleFilterStore`, `ExceptFilterStore`, `MutableFilterStore` (the value under its lock); base58/base64 decoders arbitrary (record `ext`).
* Method: direct, against the meaning 'the data contains these bytes at this offset'.
* Status: **proved**. Also: an undecodable pattern panics (C05_undecodable_pattern_panics_refuted). With the standard decoders, patterns as base58 text, base64 text and bytes accept exactly the data with these bytes at the offset (C05_standard_texts); which texts are accepted is characterised by independent definitions of base64 (RFC 4648) and base58 (C05_base64_exact, C05_base58_exact, C05_key_text_exact).
* EncodingProps.v: `C05_base58_exact`, `C05_base64_exact`, `C05_key_text_exact`, `C05_standard_texts`
* FilterProps.v: `C05_condition_meaning`, `C05_encoding_independent`, `C05_undecodable_pattern_panics_refuted`

### C06 The exclusion store is the exact complement and its coverage answer is sound

An exclusion filter store admits exactly the accounts its inner store rejects, and if it answers that it contains a query then every account matching the query is admitted.

* Modelled: `AccountFilter`, `MemcmpFilter`, `SimpleFilterStore`, `ExceptFilterStore`, `MutableFilterStore` (the value under its lock); base58/base64 decoders arbitrary (record `ext`).
* Method: direct and by computed witness.
* Status: **partial**. Admission is the complement (proved). Coverage claims of the exclusion store are refuted; proved for whole-program exclusions.
* FilterProps.v: `C06_exclusion_coverage_refuted`, `C06_exclusion_is_complement`, `C06_whole_program_exclusion_coverage_partial`

### C07 RPC filter conversion preserves meaning

Converting a filter to the RPC representation and back, or evaluating the RPC representation directly, accepts exactly the same account data as the original filter.

* Modelled: `AccountFilter`, `MemcmpFilter`, `SimpleFilterStore`, `ExceptFilterStore`, `MutableFilterStore` (the value under its lock); base58/base64 decoders arbitrary (record `ext`); `RpcFilterType` conversions.
* Method: direct; lists of conditions by induction (FilterListProps.v).
* Status: **proved**. Also: an undecodable RPC pattern panics. C07_whole_filter: the whole list of conditions converts in order and with the same verdict.
* FilterProps.v: `C07_rpc_filter_roundtrip`, `C07_rpc_filter_same_meaning`, `C07_undecodable_rpc_pattern_refuted`
* FilterListProps.v: `C07_whole_filter`

### C08 Filter configuration survives JSON serialization

Serializing an account filter and deserializing the result yields the same filter.

* Modelled: the `Serialize`/`Deserialize` instances, derived ones included; `serde_json` reader and printer, `bs58` and the text form of keys, from their documentation.
* Method: the reader accepts every text of a grammar of JSON (mutual induction over the grammar); the printer produces texts of the grammar; base 58 is lossless (induction over digits).
* Status: **proved**. For every filter with 32-byte keys and 64-bit sizes and offsets (all the values the Rust types have), text -> filter after filter -> text is the identity, for single filters and for lists; moreover any JSON text (any layout, order, escapes, extra entries) that describes a filter is read as it, and what is written is JSON that describes the filter. serde_json's reader and printer and bs58 are transcribed from their documentation. The reader accepts exactly the texts that describe a filter under an independent RFC 8259 grammar (C08_accepts_exactly, C08_accepts_list_exactly).
* FilterJsonExactProps.v: `C08_accepts_exactly`, `C08_accepts_list_exactly`
* FilterJsonProps.v: `C08_reads_config`, `C08_reads_config_list`, `C08_round_trip`, `C08_round_trip_list`, `C08_writes_json`

### C09 Compression is transparent

An account stored with any compression method and level reads back with exactly the original bytes and length, and data-size and memcmp conditions give the same answers as on the uncompressed account.

* Modelled: `Data`, `CompressionMethod`, `AccountData::new_from…`; codecs as functions with the lossless contract.
* Method: direct.
* Status: **proved**. Under the losslessness contract of the lz4/zstd libraries.
* DataProps.v: `C09_compression_transparent`

### C10 Commitment ladder of one account

For one account, after any sequence of updates and slot promotions the finalized version exists only if a confirmed version exists, the finalized slot is not ahead of the confirmed slot and the confirmed slot is not ahead of the processed slot.

* Modelled: `AccountDataByCommitment`, every method; the `BTreeMap` of processed versions as a sorted association list.
* Method: invariant by induction over all sequences of operations.
* Status: **proved**. Ladder by slot for every reachable entry. Stated on write versions it is false (C10_write_version_ladder_refuted).
* ByCommitProps.v: `C10_commitment_ladder`, `C10_new_entries_are_histories`, `C10_write_version_ladder_refuted`

### C11 Versions never go backwards

For one account, each commitment level's (slot, write version) never decreases under updates and promotions.

* Modelled: `AccountDataByCommitment`, every method; the `BTreeMap` of processed versions as a sorted association list.
* Method: monotonicity of each operation, induction.
* Status: **proved**. 
* ByCommitProps.v: `C11_versions_never_go_back`

### C12 Delivery order does not matter

Versions of one account delivered with distinct (slot, write version) give the same readable versions at every commitment in whatever order they arrive: at each commitment the greatest (slot, write version) delivered at that commitment or stronger wins.

* Modelled: `AccountDataByCommitment`, every method; the `BTreeMap` of processed versions as a sorted association list.
* Method: permutation of deliveries; induction over the list.
* Status: **proved**. 
* ByCommitProps.v: `C12_delivery_order_irrelevant`, `C12_newest_delivery_wins`

### C13 Promotion publishes exactly the data of that slot

Promoting a slot for an account publishes the newest write seen for that account in that slot unless the published version is already from the same or a newer slot; reports a change exactly when the published version changed; and never discards the newest processed version.

* Modelled: `AccountDataByCommitment`, every method; the `BTreeMap` of processed versions as a sorted association list.
* Method: direct on every reachable entry.
* Status: **proved**. 
* ByCommitProps.v: `C13_promotion_publishes_slot_data`, `C13_promotion_report_exact`

### C14 Filtered read agrees with unfiltered read

Reading with data conditions returns the same version as reading without, with its data uncompressed, exactly when all the conditions hold on that data, and nothing otherwise.

* Modelled: `AccountDataByCommitment`, every method; the `BTreeMap` of processed versions as a sorted association list.
* Method: direct.
* Status: **proved**. 
* ByCommitProps.v: `C14_filtered_read_agrees`, `C14_nothing_to_read`

### C15 The account store never panics

No sequence of updates, initialisations, slot notifications, queries and snapshot loads can make the account store panic (index out of bounds or failed assertion).

* Modelled: `InmemoryAccountStore`: `update_account`, `initilize_or_update_account`, `process_slot_data`, `get_account`, `get_program_accounts`, snapshots; the filter store's answer is arbitrary at every call.
* Method: invariant over histories: no operation on a reachable store reaches a panicking branch.
* Status: **proved**. For every history on usable inputs (decodable data and patterns). An undecodable query pattern panics (C15_malformed_pattern_panics_refuted), so the hypothesis is needed.
* StoreProps.v: `C15_malformed_pattern_panics_refuted`, `C15_store_never_panics`

### C16 Reads at stronger commitments are not ahead of weaker ones

If reading an account at a stronger commitment returns a version, then reading it at a weaker commitment at the same moment returns a version from the same or a later slot (or the account has been closed there).

* Modelled: `InmemoryAccountStore`: `update_account`, `initilize_or_update_account`, `process_slot_data`, `get_account`, `get_program_accounts`, snapshots; the filter store's answer is arbitrary at every call.
* Method: invariant over histories.
* Status: **proved**. Ladder by slot on every reachable state.
* StoreProps.v: `C16_reads_form_a_ladder`

### C17 Reads of a tracked account never go back in time

While an account stays tracked, the slot returned at each commitment never decreases from one moment to the next.

* Modelled: `InmemoryAccountStore`: `update_account`, `initilize_or_update_account`, `process_slot_data`, `get_account`, `get_program_accounts`, snapshots; the filter store's answer is arbitrary at every call.
* Method: monotonicity of every operation on the reads of a tracked account.
* Status: **proved**. 
* StoreProps.v: `C17_load_is_initialisations`, `C17_reads_never_go_back`, `C17_step_never_goes_back`

### C18 Accounts do not interfere

Updating one account changes no other account's version at any commitment, nor its presence in program queries.

* Modelled: `InmemoryAccountStore`: `update_account`, `initilize_or_update_account`, `process_slot_data`, `get_account`, `get_program_accounts`, snapshots; the filter store's answer is arbitrary at every call.
* Method: simulation: a history and its restriction to one account read alike.
* Status: **proved**. 
* StoreProps.v: `C18_accounts_do_not_interfere`

### C19 Unwanted accounts leave no trace

An update for an account that is neither tracked nor admitted by the filters is refused and changes nothing; conversely an admitted account that was not tracked is accepted and readable at the commitment delivered.

* Modelled: `InmemoryAccountStore`: `update_account`, `initilize_or_update_account`, `process_slot_data`, `get_account`, `get_program_accounts`, snapshots; the filter store's answer is arbitrary at every call.
* Method: case analysis of every write path; filters answering `false`.
* Status: **proved**. 
* StoreProps.v: `C19_unwanted_leave_no_trace`, `C19_wanted_are_readable`

### C20 Program queries are sound

Every account returned by a program query is owned by the program at the queried commitment, satisfies every data condition of the query and equals what reading that account at that commitment gives (data uncompressed).

* Modelled: `InmemoryAccountStore`: `update_account`, `initilize_or_update_account`, `process_slot_data`, `get_account`, `get_program_accounts`, snapshots; the filter store's answer is arbitrary at every call.
* Method: soundness of both query paths against the reads.
* Status: **proved**. 
* StoreProps.v: `C20_program_query_sound`

### C21 Program queries return each account once

No pubkey appears twice in the answer to a program query.

* Modelled: `InmemoryAccountStore`: `update_account`, `initilize_or_update_account`, `process_slot_data`, `get_account`, `get_program_accounts`, snapshots; the filter store's answer is arbitrary at every call.
* Method: `NoDup` of the owner index, invariant over histories.
* Status: **proved**. 
* StoreProps.v: `C21_program_query_no_duplicates`

### C22 Program queries are complete

Every tracked account whose version at the queried commitment is owned by the program, is alive and satisfies the conditions is in the answer.

* Modelled: `InmemoryAccountStore`: `update_account`, `initilize_or_update_account`, `process_slot_data`, `get_account`, `get_program_accounts`, snapshots; the filter store's answer is arbitrary at every call.
* Method: invariants of the owner index: for accounts whose owner did not change, and for the live versions (pending ones no older than the finalized one) of accounts that do change owner; computed witnesses otherwise.
* Status: **partial**. False as stated: the owner index can miss an account after a late write, when the account returns to an earlier owner, or when a closed account is funded again with the same owner (each refuted). Proved where the owner did not change, and for accounts that change owner as long as they do not return, closed versions have another owner, filters admit the live deliveries and owner-changing deliveries come in time.
* OwnerProps.v: `C22_owner_changes_partial`, `C22_owner_returns_refuted`, `C22_refunded_refuted`
* StoreProps.v: `C22_program_query_complete_partial`, `C22_program_query_complete_refuted`

### C23 Closed accounts are never served

An account version with zero lamports is never returned by account reads or by program queries.

* Modelled: `InmemoryAccountStore`: `update_account`, `initilize_or_update_account`, `process_slot_data`, `get_account`, `get_program_accounts`, snapshots; the filter store's answer is arbitrary at every call.
* Method: case analysis; computed witness.
* Status: **partial**. get_account and filtered queries never serve a closed account (proved); an unfiltered program query does (refuted).
* StoreProps.v: `C23_reads_never_serve_closed_partial`, `C23_unfiltered_query_serves_closed_refuted`

### C24 Committing a slot commits its ancestors

When a slot is confirmed or finalized, every account written in that slot or in an ancestor slot not yet so committed is readable at that commitment with a version at least as new as its newest write on that chain.

* Modelled: `InmemoryAccountStore`: `update_account`, `initilize_or_update_account`, `process_slot_data`, `get_account`, `get_program_accounts`, snapshots; the filter store's answer is arbitrary at every call.
* Method: induction over the walk along recorded parents.
* Status: **partial**. False for announced parents: a status created by a write blocks the walk and unknown slots stop it (refuted). Proved for the recorded chain.
* StoreProps.v: `C24_ancestors_committed_refuted`, `C24_recorded_ancestors_committed_partial`

### C25 Abandoned forks are never committed

Confirming or finalizing a slot changes a confirmed or finalized version only to a version written in that slot or one of its ancestors.

* Modelled: `InmemoryAccountStore`: `update_account`, `initilize_or_update_account`, `process_slot_data`, `get_account`, `get_program_accounts`, snapshots; the filter store's answer is arbitrary at every call.
* Method: same.
* Status: **partial**. Only slots on the recorded chain are committed (proved); stated on announced parents it is false (refuted).
* StoreProps.v: `C25_forks_not_committed_refuted`, `C25_only_recorded_chain_committed_partial`

### C26 Redelivery is harmless

Delivering the same account update twice, or the same slot notification twice, has the same effect as delivering it once, and the second delivery reports nothing new.

* Modelled: `InmemoryAccountStore`: `update_account`, `initilize_or_update_account`, `process_slot_data`, `get_account`, `get_program_accounts`, snapshots; the filter store's answer is arbitrary at every call.
* Method: state equality (slots); an exact case analysis for updates (RedeliverProps.v), computed witnesses.
* Status: **partial**. Slot redelivery is harmless. Update redelivery in general is not (refuted). Proved exactly: a repeated update is felt just when the account is not tracked after the first delivery although wanted now, or the first delivery made it known in a slot already at a higher level; then it publishes the version a second time, otherwise it changes nothing.
* StoreProps.v: `C26_close_redelivery_refuted`, `C26_slot_redelivery_harmless`, `C26_update_redelivery_harmless_partial`, `C26_update_redelivery_refuted`
* RedeliverProps.v: `C26_update_redelivery_exact`

### C27 Slot notifications report exactly what changed

The list returned when a slot is confirmed or finalized contains exactly the new versions of the accounts whose version at that commitment changed, once each.

* Modelled: `InmemoryAccountStore`: `update_account`, `initilize_or_update_account`, `process_slot_data`, `get_account`, `get_program_accounts`, snapshots; the filter store's answer is arbitrary at every call.
* Method: exact characterisation of the reports against reads before and after.
* Status: **proved**. 
* StoreProps.v: `C27_reports_exact`

### C28 Slot processing terminates and bounds history

Processing a slot notification terminates whatever parent links are recorded (cycles included), and after a slot is finalized no bookkeeping for older slots remains.

* Modelled: `InmemoryAccountStore`: `update_account`, `initilize_or_update_account`, `process_slot_data`, `get_account`, `get_program_accounts`, snapshots; the filter store's answer is arbitrary at every call.
* Method: termination by the decreasing parent chain; invariant on kept slots.
* Status: **proved**. 
* StoreProps.v: `C28_no_bookkeeping_below_finalized`, `C28_slot_processing_terminates`

### C29 Snapshot round trip

Loading a program's snapshot into an empty store with the same filters makes that store answer finalized account reads and program queries exactly as the original did, and malformed snapshot bytes are reported as an error without touching the store.

* Modelled: `InmemoryAccountStore`: `update_account`, `initilize_or_update_account`, `process_slot_data`, `get_account`, `get_program_accounts`, snapshots; the filter store's answer is arbitrary at every call; bincode layouts and the compression of snapshots.
* Method: codec round trip by induction over the bytes; view equality after loading.
* Status: **partial**. Queries and reads of everything the finalized program query finds survive exactly; malformed and truncated bytes are rejected without touching the store. An account hidden from the owner index (C31) is lost (refuted). Nothing is lost for histories in which accounts change owner in an orderly way (C29_nothing_lost_partial).
* SnapshotProps.v: `C29_malformed_snapshot_rejected`, `C29_snapshot_loses_hidden_account_refuted`, `C29_snapshot_round_trip_partial`, `C29_truncated_snapshot_rejected`
* OwnerProps.v: `C29_nothing_lost_partial`

### C30 Closing and re-creating accounts

Once the closing of an account (zero lamports, owner changed) is finalized the account is gone at every commitment; an account re-created after the close and before its finalization is not lost.

* Modelled: `InmemoryAccountStore`: `update_account`, `initilize_or_update_account`, `process_slot_data`, `get_account`, `get_program_accounts`, snapshots; the filter store's answer is arbitrary at every call.
* Method: effects of a finalized close; computed witness.
* Status: **partial**. A finalized close that changes the owner removes the account everywhere; an account re-created before the close is finalized is lost (refuted); if the owner is unchanged nothing newer is lost.
* StoreLifeProps.v: `C30_finalized_close_removes`, `C30_finalized_close_update_removes`, `C30_recreated_account_lost_refuted`, `C30_same_owner_close_keeps_newer_partial`

### C31 Late deliveries of old versions are harmless

Delivering a version that is older than the finalized one changes neither what the account reads as at any commitment nor whether program queries find it.

* Modelled: `InmemoryAccountStore`: `update_account`, `initilize_or_update_account`, `process_slot_data`, `get_account`, `get_program_accounts`, snapshots; the filter store's answer is arbitrary at every call.
* Method: view equality; computed witnesses.
* Status: **partial**. Harmless when the owner equals the finalized version's or it is not applied as finalized; otherwise it hides or removes the live account (refuted). A version delivered after the close of its account was finalized opens the account again (C31_late_write_reopens_refuted).
* StoreExactProps.v: `C31_late_write_reopens_refuted`
* StoreLifeProps.v: `C31_stale_close_removes_refuted`, `C31_stale_delivery_harmless_partial`, `C31_stale_delivery_hides_refuted`

### C32 Writes arriving after their slot was committed are served at that commitment

If a slot has already been confirmed or finalized, an admitted update for that slot delivered at a weaker commitment is readable at the slot's commitment.

* Modelled: `InmemoryAccountStore`: `update_account`, `initilize_or_update_account`, `process_slot_data`, `get_account`, `get_program_accounts`, snapshots; the filter store's answer is arbitrary at every call.
* Method: case analysis on reachable stores; computed witness.
* Status: **partial**. Proved for tracked accounts; false for accounts first seen by the late write (refuted). Together: served exactly when the account was tracked before or the delivery itself is strong enough (C32_served_exactly_when).
* StoreLifeProps.v: `C32_late_write_new_account_refuted`, `C32_late_write_served_partial`
* StoreExactProps.v: `C32_served_exactly_when`

### C33 An update delivered at a commitment is readable at that commitment

After an update delivered as confirmed or finalized is accepted, reading the account at that commitment gives that version or a newer one.

* Modelled: `InmemoryAccountStore`: `update_account`, `initilize_or_update_account`, `process_slot_data`, `get_account`, `get_program_accounts`, snapshots; the filter store's answer is arbitrary at every call.
* Method: same.
* Status: **partial**. Proved for finalized deliveries, new accounts, and slots not recorded at a weaker commitment; otherwise false (refuted). C33_delivery_exact and C33_new_account_exact say for every commitment what a delivery changes, C33_served_exactly_when when the statement holds.
* StoreLifeProps.v: `C33_confirmed_delivery_not_served_refuted`, `C33_delivery_served_partial`, `C33_dropped_only_when_finalized`
* StoreExactProps.v: `C33_delivery_exact`, `C33_new_account_exact`, `C33_served_exactly_when`

### C34 The last write of a slot wins when the slot is committed

When a slot is confirmed or finalized, an account written in it reads at that commitment as the write with the greatest write version in that slot.

* Modelled: `InmemoryAccountStore`: `update_account`, `initilize_or_update_account`, `process_slot_data`, `get_account`, `get_program_accounts`, snapshots; the filter store's answer is arbitrary at every call.
* Method: same.
* Status: **partial**. Proved when the commitment newly publishes a version of the slot; false if a version of the slot was already published (refuted). C34_published_exactly: one of these two is always the case.
* StoreLifeProps.v: `C34_last_write_of_slot_refuted`, `C34_last_write_of_slot_wins_partial`
* StoreExactProps.v: `C34_published_exactly`

### C35 Abandoned forks leave the processed view

Once a slot is finalized, the processed view of an account no longer shows a version from a slot at or below it that is not on the finalized chain.

* Modelled: `InmemoryAccountStore`: `update_account`, `initilize_or_update_account`, `process_slot_data`, `get_account`, `get_program_accounts`, snapshots; the filter store's answer is arbitrary at every call.
* Method: same.
* Status: **partial**. A later write replaces the fork's version; finalization alone does not (refuted). C35_slots_never_change_processed_view: no slot notification ever changes the processed view of an account that stays tracked.
* StoreLifeProps.v: `C35_dead_fork_leaves_processed_view_refuted`, `C35_later_write_replaces_fork_partial`
* StoreExactProps.v: `C35_slots_never_change_processed_view`

### C36 No lost promotion under concurrency

With updates and slot notifications running on different threads, every update accepted for a slot is readable at the commitment of that slot once both calls have returned.

* Modelled: the store's calls cut into atomic pieces between lock operations, any number of calls, any schedule.
* Method: interleaving semantics: reachable bad states computed; invariant for the positive part.
* Status: **partial**. Two interleavings lose a promotion (refuted); what is applied is never lost for the commitment it was applied with.
* ConcProps.v: `C36_applied_write_never_lost_partial`, `C36_first_deliveries_race_refuted`, `C36_inserted_version_shown_partial`, `C36_promotion_lost_refuted`

### C37 No deadlock

Concurrent calls of the account store's operations always make progress: no interleaving blocks them forever on each other's locks.

* Modelled: the lock programs of every operation (reader/writer locks, DashMap shards).
* Method: reachable deadlock computed; lock-order argument by induction over executions for the positive part.
* Status: **partial**. Deadlock witness (refuted); proved absent when no finalized close/removal takes the index shard inside the entry lock.
* TokenLockProps.v: `C37_both_stores_partial`
* LockProps.v: `C37_deadlock_refuted`, `C37_no_deadlock_without_drops_partial`

### C38 Packed token account round trip

Unpacking a packed token account yields the same token account, for every combination of optional fields and any extension data below 4 GiB.

* Modelled: `TokenAccount` packing: `to_bytes`, `from_bytes`.
* Method: codec proof by case analysis over the flags.
* Status: **proved**. The 4 GiB bound on extension data is exact (C38_bound_is_exact).
* TokenProps.v: `C38_bound_is_exact`, `C38_packing_injective`, `C38_round_trip`

### C39 Field peeking agrees with full unpacking

Reading pubkey, owner or mint index directly from the packed bytes, or testing program and deleted flag as the snapshot does, gives the value full unpacking would give.

* Modelled: `get_…_from_bytes` peeks.
* Method: against full unpacking.
* Status: **proved**. 
* TokenProps.v: `C39_peeks_agree`, `C39_snapshot_test_agrees`

### C40 Token account table behaves as a map from pubkeys

The token account table behaves as a finite map keyed by the full pubkey: a saved account is found under its pubkey, updates keep its position, and saving or deleting one pubkey never affects another.

* Modelled: `InmemoryTokenAccountStorage` and its key index.
* Method: refinement to an exact description of every history, then to a finite map.
* Status: **partial**. False as stated: delete drops every account whose pubkey shares the first four bytes, and contains answers for pubkeys never saved (refuted). Proved: exact behaviour for all histories (C40_table_exact), the map behaviour for histories whose deletes are isolated, positions are kept.
* TokenProps.v: `C40_contains_no_miss`, `C40_contains_other_account_refuted`, `C40_delete_loses_other_account_refuted`, `C40_table_exact`, `C40_table_is_map_partial`, `C40_update_keeps_position`

### C41 Token program data survives storage

A token account, mint or multisig stored and read back has byte-identical data, and the same lamports, owner, executable flag and rent epoch.

* Modelled: `token_program_utils.rs`; layouts of `spl_token` and `spl_token_2022` accounts.
* Method: codec proofs, computed witnesses.
* Status: **partial**. False as stated (refuted: lamports of token accounts, rent epoch, stale bytes of cleared optional fields, default keys between signers, every Token-2022 account with extensions is rejected). Proved: the data of cleanly packed accounts, whole mints and multisigs, whole token accounts at the rent minimum, the meaning of arbitrary accepted token data. The data accepted is exactly that of the published layouts, by offsets (C41_token_layout, C41_mint_layout, C41_multisig_layout, C41_accepted_exactly), of accounts of the two programs by the text of their keys.
* SplLayoutProps.v: `C41_accepted_exactly`, `C41_mint_layout`, `C41_multisig_layout`, `C41_other_programs_deleted`, `C41_program_keys`, `C41_token_layout`
* TokenUtilsProps.v: `C41_accepted_iff`, `C41_extended_refuted`, `C41_extended_rejected`, `C41_lamports_lost_refuted`, `C41_mint_partial`, `C41_multisig_partial`, `C41_rent_epoch_lost_refuted`, `C41_signers_moved_refuted`, `C41_stale_bytes_lost_refuted`, `C41_token_account_partial`, `C41_token_data_partial`, `C41_token_meaning`

### C42 Mint indices are stable and unique

Every mint pubkey keeps the index it was first given and distinct mints never share an index.

* Modelled: the mint index maps, alone and inside the store.
* Method: invariant: the two maps are inverse; over histories of the store.
* Status: **partial**. Indices are pairwise distinct in every reachable store; an index is kept until the mint is closed. False as stated (refuted): a mint that is closed and seen again gets another index.
* TokenUtilsProps.v: `C42_lookup_stable`, `C42_lookup_unique`
* TokenStoreProps.v: `C42_reindexed_refuted`, `C42_store_stable_partial`, `C42_store_unique`

### C43 Finalizing a slot applies exactly its chain

Finalizing a slot hands over, for each account, its newest version on the chain of that slot and its ancestors, nothing from other forks, and drops every pending version at or below the slot and nothing above it.

* Modelled: `ProcessedAccountStore`.
* Method: invariant by induction over histories; against chains of recorded parents.
* Status: **partial**. False as stated (refuted): a slot announced once before any account of it is recorded without its parent, so the chain is cut and versions of its ancestors are dropped. Proved for all histories with respect to the recorded parents, and that recorded parents were announced.
* TokenPendProps.v: `C43_announced_parent_refuted`, `C43_announcement`, `C43_finalize`, `C43_finalize_newest_partial`, `C43_parents_announced`, `C43_slot_keeps_newest`

### C44 Pending reads follow commitment

A read at processed returns the newest pending version above the confirmed slot, else what a confirmed read returns; a confirmed read returns the version on the chain of the confirmed slot nearest to it.

* Modelled: `ProcessedAccountStore` reads.
* Method: same chain specification.
* Status: **proved**. With respect to the recorded parents, for every history; reads that return. C44_served_partial: through the store, an arriving token account is what a processed read returns.
* TokenPendProps.v: `C44_confirmed_read`, `C44_processed_read`
* TokenStoreServed.v: `C44_served_partial`

### C45 Pending reads terminate

Reads of pending token accounts terminate for every recorded parent relation.

* Modelled: `ProcessedAccountStore` reads, with fuel.
* Method: well-foundedness of recorded parents; divergence of a cyclic chain for every fuel.
* Status: **partial**. False as stated (refuted): a slot recorded as its own parent makes reads loop forever. Proved: reads end whenever recorded parents are acyclic, in particular when announced parents come before their slots.
* TokenPendProps.v: `C45_fuel_enough`, `C45_reads_end_partial`, `C45_reads_end_refuted`

### C46 Token reads return the latest finalized state

After a token program account is finalized (created, changed or closed) reading it at finalized returns exactly the last finalized state, and nothing once closed.

* Modelled: `TokenProgramAccountsStorage` with its mint, multisig, token and pending stores.
* Method: the store holds what the log of finalized deliveries adds up to: invariant over histories.
* Status: **partial**. False as stated (refuted: closed multisigs stay readable, closing an account wipes accounts sharing the first four bytes of the key, a key named as a mint by any token account is hidden). Proved for all histories: mints and multisigs unconditionally as the last logged delivery, token accounts when no collision and the key is never a mint. C46_served_partial: a pending token account is what finalized reads return once its slot is finalized. C46_mint_read_back_partial, C46_multisig_read_back_partial: the bytes read back are the bytes delivered.
* TokenStoreProps.v: `C46_closed_multisig_refuted`, `C46_mint`, `C46_multisig`, `C46_named_hides_refuted`, `C46_prefix_wipe_refuted`, `C46_read_back_partial`, `C46_token_partial`
* TokenReadBack.v: `C46_mint_read_back_partial`, `C46_multisig_read_back_partial`
* TokenStoreServed.v: `C46_served_partial`

### C47 Finalized token state never goes backwards

A delivery with an older (slot, write version) never overwrites a newer finalized token account.

* Modelled: `TokenProgramAccountsStorage` with its mint, multisig, token and pending stores.
* Method: same log, order of slots.
* Status: **partial**. False as stated (refuted: finalized deliveries are applied in arrival order, a late pending version can overwrite a newer one). Proved: with deliveries in order, the pending versions taken over never go back.
* TokenStoreOrder.v: `C47_direct_refuted`, `C47_late_refuted`, `C47_pending_order_partial`

### C48 Token program queries return only matching accounts

Every account returned by a token program query is owned by the queried program and satisfies all conditions of the query.

* Modelled: `TokenProgramAccountsStorage` with its mint, multisig, token and pending stores.
* Method: invariants of the owner and mint indices, the queries against the reads.
* Status: **partial**. False as stated (refuted: the queried program and all conditions but data size, owner and mint are ignored, pending replacements are not checked, stale mint index, orphaned accounts). Proved for all histories: owner and owner+mint queries at finalized return only accounts with these bytes; the mint query returns exactly the matching mints.
* TokenStoreQueryProps.v: `C48_condition_refuted`, `C48_mint_refuted`, `C48_mints`, `C48_orphan_refuted`, `C48_owner_partial`, `C48_pending_refuted`, `C48_program_refuted`

### C49 Token program queries by owner or mint are complete

Every live token account with the queried owner (and mint) is in the answer at each commitment.

* Modelled: `TokenProgramAccountsStorage` with its mint, multisig, token and pending stores.
* Method: same, completeness.
* Status: **partial**. False as stated (refuted: owner changes are not reindexed, new pending accounts are missing, base58 patterns refused). Proved for all histories: at finalized, owner, owner+mint and mint queries return exactly the readable accounts with these bytes, each once, when keys are used for one purpose, owners (mints) are kept and mints are never closed.
* TokenStoreQueryProps.v: `C49_base58_refuted`, `C49_mint_partial`, `C49_owner_partial`, `C49_owner_refuted`, `C49_pending_refuted`

### C50 Token reads and queries never panic

No sequence of operations makes a token read, query, slot notification or snapshot load panic.

* Modelled: `TokenProgramAccountsStorage` with its mint, multisig, token and pending stores.
* Method: invariant that excludes every panicking branch over histories.
* Status: **partial**. Full statement refuted: an unknown or closed mint makes reads panic, a mint finalized or confirmed together with its token account makes the slot notification panic, an owner and unknown mint query panics, a snapshot with an unknown mint panics on load. Proved: histories in which mints are finalized first and never closed run to the end and every read and query is answered.
* TokenStoreSafe.v: `C50_closed_mint_refuted`, `C50_load_refuted`, `C50_no_panic_partial`, `C50_prefix`, `C50_query_refuted`, `C50_same_slot_refuted`, `C50_unknown_mint_refuted`

### C51 Token snapshot round trip

Loading a token program snapshot into an empty store makes it answer finalized reads and queries like the original; loading into a non-empty store does not change unrelated accounts.

* Modelled: `TokenProgramAccountsStorage` with its mint, multisig, token and pending stores; snapshots, block compression as an arbitrary lawful codec (a concrete one is given in Lz4Model.v).
* Method: loading is shown equal to delivering the accounts but for the mint keys; view equality.
* Status: **partial**. False as stated, by concrete witnesses with a lawful LZ4 block codec: create_snapshot compresses without the size prefix load_from_snapshot expects, so the store refuses its own snapshots (C51_refuted, C51_empty_refuted). With the prefix added by hand: mints do not read, queries by mint find nothing, queries by owner and mint panic (C51_mint_refuted); a token account with an undelivered mint makes loading panic (C51_unknown_mint_refuted); loading over a store that knows a mint under another index overwrites an unrelated mint (C51_overwrite_refuted); orphaned records come back (C51_resurrect_refuted). Proved for every history with tidy keys and known mints, every lawful block codec and with the prefix added: finalized reads of token accounts and multisigs (C51_reads_partial), queries by owner (C51_owner_query_partial), and that loading into a store that has not heard of the snapshot's mints leaves unrelated accounts unchanged at every commitment (C51_unrelated_partial).
* TokenSnapProps.v: `C51_empty_refuted`, `C51_mint_refuted`, `C51_other_programs`, `C51_overwrite_refuted`, `C51_owner_query_partial`, `C51_reads_partial`, `C51_refuted`, `C51_resurrect_refuted`, `C51_unknown_mint_refuted`, `C51_unrelated_partial`

### C52 Dispatching storage: reads find what was stored

With several storages behind a dispatcher, an account accepted by any of them is returned by a read through the dispatcher.

* Modelled: `StorageByProgramId` over arbitrary children (records of operations).
* Method: direct; witness with the stores of this repository.
* Status: **partial**. Full statement refuted, and worse: with the storages of the repository only the first child in the map is ever asked (C52_only_first_child_read), because a child that does not hold the account answers Ok(None). Proved for children that answer Err for accounts they do not hold.
* DispatchProps.v: `C52_only_first_child_read`, `C52_reads_are_stored`, `C52_reads_find_partial`, `C52_refuted`

### C53 Dispatching storage: routing is consistent

Initialisation, program queries and snapshots of one program all go to the same child; an update is accepted by at most one child; slot notifications reach every child and all their reports are returned.

* Modelled: same.
* Method: direct.
* Status: **proved**. For arbitrary children. Extra finding: a child registered for two programs is notified twice per slot and its reports are duplicated.
* DispatchProps.v: `C53_each_notified_once`, `C53_one_child_answers`, `C53_shared_child_reports_twice_finding`, `C53_slots_reach_everyone`, `C53_update_offered_in_turn`, `C53_visit_order_irrelevant`

### C54 On-demand loading subscribes once and can be retried

An account or program query that is not available is subscribed once; while the load is in progress no second subscription is made; and after a failed load a later request tries again.

* Modelled: `AccountsOnDemand` over an arbitrary source, any number of threads, condition variables with time-outs and spurious wake-ups.
* Method: invariants over all interleavings.
* Status: **partial**. No second subscription while loading: proved for all interleavings. Retry after failure refuted, and proved never to happen in any execution. Loaded raw-pattern program queries are not subscribed again; accounts and base58/base64 pattern queries are (refuted).
* OnDemandProps.v: `C54_account_subscribed_again_refuted`, `C54_failed_load_never_retried`, `C54_first_request_subscribes`, `C54_loaded_program_not_resubscribed_partial`, `C54_no_second_subscription`, `C54_program_subscribed_again_refuted`, `C54_retry_refuted`

### C55 On-demand answers are complete

A program query answered successfully through on-demand loading is answered only after the program's snapshot was loaded, for every concurrent caller.

* Modelled: same.
* Method: same.
* Status: **partial**. Full statement refuted (a concurrent caller is answered from the filters before the snapshot is loaded, or after a timeout/spurious wake-up). Proved for all interleavings: the loading call answers after its snapshot was saved; a query answered from the filters while no load is in progress is covered by completed loads. Also: an answer is the storage's own answer at the moment it is given (C55_program_answers_from_storage, C55_account_answers_from_storage), the first query of a program that is loaded answers with every account of the snapshot that matches (C55_first_load_complete). Finding: loading a single account that no filter selects stores nothing and the call answers None, because subscribing to an account adds no filter (C55_account_loads_in_vain_finding).
* OnDemandLoadProps.v: `C55_account_answers_from_storage`, `C55_account_loads_in_vain_finding`, `C55_first_load_complete`, `C55_program_answers_from_storage`
* OnDemandProps.v: `C55_answer_before_load_refuted`, `C55_loader_answers_after_load`, `C55_quiet_answers_complete_partial`, `C55_timeout_answers_refuted`

### C56 Stored accounts file is read back exactly

Iterating a storage file produced by appending accounts yields exactly these accounts in order.

* Modelled: `AppendVec` reading.
* Method: byte-level proof, induction over the accounts written.
* Status: **proved**. Read back through new_from_reader (archives) and new_from_file, for any padding bytes between accounts and any tail.
* AvecProps.v: `C56_from_archive`, `C56_from_file`

### C57 Arbitrary storage files are handled safely

For any file contents and any claimed length not above the file length, iterating never reads outside the file, makes progress and terminates; claimed lengths that do not fit are rejected.

* Modelled: same.
* Method: over arbitrary bytes.
* Status: **proved**. Every account read lies inside the claimed length and is decoded from its own bytes; lengths above the file length are rejected by new_from_file.
* AvecProps.v: `C57_any_bytes`, `C57_lengths_checked`

### C58 Truncated storage files are detected

If the archive delivers fewer bytes than the storage file's recorded length, no account is produced that was not in the delivered bytes.

* Modelled: same.
* Method: direct; computed witnesses.
* Status: **partial**. False: a truncated archive entry is padded with zeros and accounts that were never delivered are produced (C58_refuted, C58_phantom_refuted). Proved: the accounts that were delivered completely are read exactly.
* AvecProps.v: `C58_delivered_part_partial`, `C58_phantom_refuted`, `C58_refuted`

### C59 Storage file names round trip

Parsing the name written for (slot, id) yields exactly (slot, id); names outside the format are rejected.

* Modelled: `parse_append_vec_name`, `u64::from_str`.
* Method: decimal numerals by induction.
* Status: **partial**. The written names round trip (proved) and the accepted names are characterised exactly; signs and leading zeros are accepted too (refuted).
* AvecProps.v: `C59_accepted_names_partial`, `C59_other_names_refuted`, `C59_round_trip`

### C60 RPC context is honest

A program accounts response with context carries a slot not older than any account in it, contains every stored matching account not older than the requested minimum context slot, and contains no older one.

* Modelled: the RPC methods over an arbitrary storage.
* Method: direct.
* Status: **proved**. For every storage behind the server; without context the minimum context slot is ignored (C60_without_context). What is answered in the other cases (bad key, refusal, unknown account) is C60_account_info_answers and C60_program_answers.
* RpcProps.v: `C60_account_info`, `C60_with_context`, `C60_without_context`
* RpcTotalProps.v: `C60_account_info_answers`, `C60_program_answers`

### C61 Iteration order is unobservable

Confirming or finalizing a slot gives the same account reads, program query answers and slot records, and the same reports up to order, whatever order the hash map of touched accounts is iterated in.

* Modelled: `InmemoryAccountStore`: `update_account`, `initilize_or_update_account`, `process_slot_data`, `get_account`, `get_program_accounts`, snapshots; the filter store's answer is arbitrary at every call.
* Method: permutation of the visit order of the hash maps.
* Status: **proved**. 
* StoreOrder.v: `C61_model_is_one_order`, `C61_visit_order_irrelevant`

### C62 Concurrent calls keep the store consistent

However update_account, process_slot_data and get_account calls of any number of threads interleave, no call panics, every account's views stay ordered by commitment and under its own key, and no view of an account that stays in the store goes back to an older version.

* Modelled: the store's calls cut into atomic pieces between lock operations, any number of calls, any schedule.
* Method: one invariant over all schedules.
* Status: **proved**. Interleaving model: pieces between lock operations are atomic; the shard lock of the index is modelled per pubkey.
* ConcProps.v: `C62_concurrent_calls_never_panic`, `C62_concurrent_ladder`, `C62_concurrent_views_never_go_back`

### C63 Dispatching storage follows owner changes

Through a dispatcher, an account whose newest accepted version belongs to program P is returned by queries of P and no longer by queries of its former program.

* Modelled: `StorageByProgramId` with the stores of this repository.
* Method: computed witnesses; direct.
* Status: **partial**. Full statement refuted in both directions. Proved: initialised accounts are routed by owner and queried exactly as in the responsible child.
* DispatchProps.v: `C63_initialised_accounts_partial`, `C63_moved_in_refuted`, `C63_moved_out_refuted`

### C64 A malformed request harms only itself

A program query with an undecodable pattern fails or is refused without affecting other requests, later filters or account updates.

* Modelled: `AccountsOnDemand`, lock poisoning.
* Method: invariant over interleavings; computed witness.
* Status: **partial**. Full statement refuted (a malformed memcmp pattern panics while holding the filter lock and poisons it for every later request and update). Proved: with decodable patterns the filter store stays usable in every interleaving. The two ..._spreads_finding theorems say how far the harm goes: the next request for an unknown account (or the next read by a waiting call) poisons a mutex, and from then on all requests that reach it panic and all waiting ones time out.
* OnDemandProps.v: `C64_account_poison_spreads_finding`, `C64_malformed_query_refuted`, `C64_program_poison_spreads_finding`, `C64_wellformed_requests_harmless_partial`

### C65 Flags read from storage files are valid

Every account produced from a storage file has an executable flag that is a valid boolean, whatever the file contains.

* Modelled: `AppendVec` reading.
* Method: direct.
* Status: **partial**. False: any byte is taken for a bool (undefined behaviour in Rust). Proved for files that were written by appending accounts.
* AvecProps.v: `C65_refuted`, `C65_written_files_partial`

### C66 Extraction delivers exactly the listed storage files

Opening an archive whose manifest precedes its storage files yields exactly the files the manifest lists, in archive order, each with its slot and its recorded length; unlisted storage files are errors; nothing else is taken for a storage file.

* Modelled: archive extraction over the list of entries.
* Method: induction over the entries.
* Status: **partial**. Listed files are delivered and unlisted ones are errors (proved); a file elsewhere in the archive whose name looks like a storage file is taken for one (refuted). C66_whole_archive states it from the bytes of the manifest on; a listed file missing from the archive goes unnoticed (C66_missing_file_refuted).
* AvecProps.v: `C66_foreign_file_refuted`, `C66_listed_files`, `C66_unlisted_files`, `C66_unreadable_entries`
* ManifestProps.v: `C66_missing_file_refuted`, `C66_whole_archive`

### C67 Snapshot loading keeps the newest version

After loading an archive every token account reads as its version from the highest slot in the archive, and newer finalized updates received before are not lost.

* Modelled: the loader of `main.rs` into the token store.
* Method: induction over the archive.
* Status: **partial**. False: the last version in archive order wins whatever its slot, and a snapshot load overwrites newer streamed state. Proved: loading is initialising the token accounts in archive order, and an archive is loaded completely or the load fails.
* AvecProps.v: `C67_all_or_nothing`, `C67_load_order_partial`, `C67_refuted`, `C67_stream_refuted`

### C68 RPC program queries honour their filters

Every account in an RPC answer is stored at the requested commitment, is owned by the program and satisfies every filter of the request; a malformed filter is an error and no request panics.

* Modelled: RPC `get_program_accounts` filters.
* Method: direct; computed witnesses.
* Status: **partial**. Proved for decodable patterns. An undecodable pattern matches everything and a token account state filter panics (refuted). Filters only narrow the answer: exactly the live accounts of the unfiltered answer that satisfy them (C68_filters_only_narrow_partial).
* RpcProps.v: `C68_filters_hold_partial`, `C68_refuted`, `C68_token_state_refuted`
* RpcTotalProps.v: `C68_filters_only_narrow_partial`

### C69 RPC context slots never go back

Of two successive requests for the same account or program at the same commitment, the later answer does not carry an older context slot.

* Modelled: RPC context slots over the account store.
* Method: monotonicity; computed witnesses.
* Status: **partial**. False once an account is closed: the slot becomes 0 or that of another account. Proved between two answers that show a tracked account.
* RpcProps.v: `C69_program_refuted`, `C69_refuted`, `C69_shown_accounts_partial`

### C70 RPC answers show the stored account

The data in an RPC answer is exactly the requested slice of the stored data in the requested encoding, and all other fields are as stored.

* Modelled: RPC encodings of accounts.
* Method: direct; computed witness.
* Status: **partial**. Base64 answers are exact (proved); base58 data above 128 bytes is replaced by an error text (refuted). The texts themselves: C70_base64_text, C70_base58_text_partial.
* RpcProps.v: `C70_base58_refuted`, `C70_base64_exact`
* EncodingProps.v: `C70_base58_text_partial`, `C70_base64_text`

### C71 Concurrent reads are atomic

A read that overlaps updates and slot notifications returns the live version the store showed at one moment between its call and its return, or nothing if there was a moment without one.

* Modelled: the store's calls cut into atomic pieces between lock operations, any number of calls, any schedule.
* Method: linearizability: every read answers with the state of one moment of the call.
* Status: **proved**. Linearizability of single account reads against any number of concurrent updates and slot notifications.
* ConcProps.v: `C71_concurrent_reads`

### C72 Malformed filter configuration is reported as an error

Deserializing a filter (or a list of filters) from text reports every malformed part (a text that is no public key, a condition that is none) as a deserialization error; it never aborts the caller.

* Modelled: as C08.
* Method: exact characterisation of what passes; computed witnesses.
* Status: **partial**. False as stated: the reader panics on a bad key, a bad condition or a null program (C72_refuted, C72_null_refuted). C72_exact_partial: text without a JSON value, or with text behind it, is an error; it aborts exactly when the JSON value is none that passes. Text that is no document of the grammar is rejected (C72_no_document_partial).
* FilterJsonProps.v: `C72_exact_partial`, `C72_null_refuted`, `C72_refuted`
* FilterJsonExactProps.v: `C72_no_document_partial`

### C73 Every configured part of a filter takes effect or is reported

A text accepted as a filter means what it says: accounts, program and conditions given in it are those of the filter, and nothing that was written to restrict or select is silently dropped.

* Modelled: as C08.
* Method: same.
* Status: **partial**. False as stated: accounts that are not an array, unknown entries and values that are no objects are accepted as selecting nothing (C73_refuted, C73_unknown_refuted). C73_accepts_partial characterises everything that is accepted and as what.
* FilterJsonProps.v: `C73_accepts_partial`, `C73_refuted`, `C73_unknown_refuted`

### C74 Unpacked snapshots: every storage file is delivered or reported

Iterating over an unpacked snapshot directory yields every storage file the manifest lists, with its slot and recorded length, and reports an error for every storage file that cannot be opened, is too short or is not listed; opening reports a missing status cache, directory or manifest.

* Modelled: the unpacked loader over an arbitrary directory listing (names, unreadable entries, contents).
* Method: induction over the listing; witnesses by computation.
* Status: **partial**. False as stated: the second flatten_ok drops every error of opening a storage file, so damaged, unlisted and unreadable files vanish silently (C74_refuted, C74_never_reported); with two manifests the directory order decides (C74_two_manifests_refuted). Proved: usable files are delivered exactly, in order, and only listed ones (C74_usable_files_partial, C74_delivered_partial); opening and its errors (C74_open, C74_open_errors).
* UnpackedProps.v: `C74_delivered_partial`, `C74_never_reported`, `C74_open`, `C74_open_errors`, `C74_refuted`, `C74_two_manifests_refuted`, `C74_unreadable_directory`, `C74_usable_files_partial`

### C75 Parallel loading consumes every storage file exactly once

par_iter_append_vecs gives every storage file of the iterator to exactly one consumer, never runs more than the given number of consumers and no consumer for two files at a time, ends, and reports success only if every file was read and consumed without an error.

* Modelled: the task loop of `par_iter_append_vecs` as a transition system: spawned tasks, finished tasks, returned consumers.
* Method: invariant over all reachable states; a decreasing measure for termination; a schedule as witness.
* Status: **partial**. Proved for every number of threads except that ending needs at least one thread: with none the loop panics on the first file (C75_no_threads_refuted).
* ParallelProps.v: `C75_bounded`, `C75_errors_reported`, `C75_never_twice`, `C75_no_threads_refuted`, `C75_ok_complete`, `C75_terminates_partial`

### C76 The manifest's index of storage files is decoded exactly

From a manifest as the validator writes it, the loader reads exactly the slots, file ids and lengths recorded in it, whatever follows it; a manifest cut short is an error and never a shorter index.

* Modelled: bincode decoding of the manifest's accounts database fields, the bank fields as an arbitrary prefix decoder.
* Method: codec round trip and monotonicity of decoders under truncation.
* Status: **proved**. For every decoder of the bank fields that reads exactly its own encoding; those fields are skipped by the loader.
* ManifestProps.v: `C76_cut_anywhere`, `C76_manifest_round_trip`, `C76_truncated_manifest`

### C77 Streamed accounts are served as reported

An account received from the geyser stream is readable at processed with exactly the data, owner and slot the validator reported as soon as its message is consumed, and at finalized once its slot is reported finalized; other messages change nothing but what they report.

* Modelled: the stream loop of main.rs over an arbitrary message sequence, on top of the token store.
* Method: the loop is shown to be a history of the store; pending versions are tracked through all operations until their slot is finalized.
* Status: **partial**. False for compressed messages: the payload is compressed a second time and the store ignores or misreads the account (C77_compressed_refuted, with a concrete LZ4 block codec). Proved for uncompressed streams over any snapshot loaded before, for token accounts with canonical data whose mint is known (C77_reported_partial, C77_processed_partial, C77_finalized_partial, C77_slots). The contract of the stream library (payload compressed as its type says) is assumed, its source is not in the repository. C77_payload_is_data says what does happen for compressed messages: the payload itself becomes the data.
* StreamProps.v: `C77_compressed_refuted`, `C77_finalized_partial`, `C77_processed_partial`, `C77_reported_partial`, `C77_slots`
* StreamPayloadProps.v: `C77_payload_is_data`

### C78 The token store never deadlocks

Whatever threads call the token store concurrently (updates, initializations, reads, queries, slot notifications, snapshots, loads), some unfinished call can always proceed, and every execution ends with all calls returned and no lock held.

* Modelled: lock operations of every method of the token store and its table, DashMap iteration included.
* Method: a rank on locks that every trace respects; the blocked thread of highest rank can move; executions are bounded by the remaining operations.
* Status: **proved**. Every call is reduced to its lock operations, with every branch and every shard possible; readers are blocked by waiting writers. The order of locks is mint index < (by mint, by owner, key index, pending) < table < shards of mints and multisigs in increasing order. Guards of one call are released in reverse order; panics are left out.
* TokenLockProps.v: `C78_token_completes`, `C78_token_no_deadlock`

### C79 Concurrent calls of the token store do not panic

As long as the mint of a token account is known before the account is delivered, no mint is closed, data can be decoded, parents precede their slots and no snapshot is loaded at the same time, no interleaving of updates, initializations, slot notifications, reads and queries panics.

* Modelled: every call cut into atomic pieces at its locks and atomics (TokenConcModel.v), any number of calls in progress.
* Method: rely-guarantee: a store invariant and an assertion per program point, both stable under every piece of the other calls.
* Status: **proved**. Calls are cut at their locks and atomics; the conditions are part of the statement (closing mints and unknown mints do panic, see C50). Loading a snapshot concurrently is excluded.
* TokenConcProps.v: `C79_no_panic`

### C80 Every call of the token store ends

Whatever other calls do in between, a call makes only finitely many steps, and under the conditions of C79 it returns an answer.

* Modelled: the same pieces.
* Method: a measure (phase, work left in the phase) that every piece lowers, whatever state it runs in; with C79 the call returns.
* Status: **proved**. Well-foundedness of the steps of one call for arbitrary changes by others; blocking is C78.
* TokenConcProps.v: `C80_calls_end`, `C80_returns`

### C81 Calls of the token store that do not overlap behave sequentially

A call that runs while no other call is in progress leaves exactly the state, and returns exactly the answer, that the sequential reading of its code gives; every sequential history is one of the possible concurrent executions.

* Modelled: the same pieces against the sequential functions of TokenStoreModel.v.
* Method: symbolic execution of each call by lemmas on its loops; determinism gives the converse.
* Status: **proved**. Each public method of the concurrent model, run alone, is equal to the function of the sequential model, panics included; the snapshot writer is only in the sequential model.
* TokenConcProps.v: `C81_get`, `C81_history`, `C81_init`, `C81_load`, `C81_query`, `C81_slot`, `C81_update`

### C82 Queries of the token store are complete after concurrent calls

However the calls that delivered token accounts were interleaved: once none of them is under way, a query by owner, by owner and mint, or by mint returns exactly the accounts that finalized reads return with this owner and mint in their data, each once. (Keys of token accounts differ from other keys in their first four bytes, accounts keep their owner and mint, conditions as in C79.)

* Modelled: the pieces of C79.
* Method: configuration invariant: every live row is in the key index and in both secondary indices, or a call in progress still owes the entry; in a quiet configuration nothing is owed and the sequential argument of C49 applies.
* Status: **proved**. The conditions are part of the statement; without tidy keys or with changing owners it is false already sequentially (C49). While an update is between its row and its index entries a query misses an account that a finalized read has returned (C82_overlap_refuted).
* TokenConcQueryProps.v: `C82_mint`, `C82_owner`
* TokenConcServeProps.v: `C82_overlap_refuted`

### C83 Finalized answers do not go back in slots

If slot notifications do not overlap each other, then of two finalized reads or queries, one begun after the other has returned, the later one labels its accounts with no smaller slot, whatever other calls run.

* Modelled: the same pieces, with arbitrary calls.
* Method: invariant: at most one call is between check and store of a slot, and what it checked still holds; the slots a finalized read holds lie between the bound and the finalized slot.
* Status: **proved**. For arbitrary calls otherwise, panicking ones excepted (C83_labels, C83_slots). Two overlapping finalizations make the label go back (C83_overlap_refuted).
* TokenConcServeProps.v: `C83_labels`, `C83_overlap_refuted`, `C83_slots`

### C84 Concurrent answers are delivered content

Every account in the answer to a read or a query and in the list of finalized or confirmed accounts given to subscribers is content that some call delivered for exactly this key: never a mixture of two deliveries, never the content of another key, whatever calls run at the same time. (Conditions as in C79.)

* Modelled: the same pieces.
* Method: every row, mint, multisig and pending version comes from an operation (store invariant of C79); per program point: what a call has collected is genuine, and a read holds only versions of its key.
* Status: **proved**. L may be taken as the operations called so far, so the content was delivered before the answer. Equality of content is up to the delegated amount of an account without delegate and the order of multisig signers; lamports are recomputed by the store and not part of it (C38, C53).
* TokenConcServeProps.v: `C84_lists`, `C84_read`

### C85 What has been returned stays returned

An account that no call closes and that a read or a query has returned is returned by every later read at the same commitment and every later query with the same owner or mint, whatever calls run at the same time; later reads do not go back to older content.

* Modelled: the same pieces.
* Method: rows of a key that is never closed and all index entries only grow; a query returns a key only if it is listed, and a query begun when it is listed returns it, both per program point; the same for reads.
* Status: **partial**. Proved for queries by owner or by mint at every commitment (C85_owner, C85_mint) and for reads after a finalized read (C85_read). False for reads below finalized: process_slot_data takes the accounts of a slot out of the pending part before it adds them to the finalized part, so for a while a read returns nothing (C85_pending_refuted) or older content labelled with the newer slot (C85_back_refuted).
* TokenConcServeProps.v: `C85_back_refuted`, `C85_mint`, `C85_owner`, `C85_pending_refuted`, `C85_read`

### C86 Calls of the account store that do not overlap behave sequentially

A call of update_account, process_slot_data, get_account or get_program_accounts that runs while no other call is in progress leaves exactly the state, and returns exactly the answer, that the sequential reading of its code gives, panics included; every sequential history is one of the possible concurrent executions.

* Modelled: the pieces of ConcModel.v and ConcQueryModel.v.
* Method: the pieces of one call composed with nothing in between are the function of StoreModel.v; executions of a piecewise call are deterministic.
* Status: **proved**. 
* ConcQueryProps.v: `C86_get`, `C86_histories`, `C86_query`, `C86_slot`, `C86_update`

### C87 Program queries among other calls

A program query that runs while updates, slot notifications and reads run does not panic. Every account it answers with was held by the store at the query's commitment at some moment between the call and the return, is owned by the program and meets the conditions; no account is answered twice; an account that is live, of the program and meets the conditions during the whole query is in the answer (if accounts keep their owner and the filters do not ask for closed accounts).

* Modelled: get_program_accounts cut at its locks (ConcQueryModel.v), running among the calls of ConcModel.v; the indices are visited in any order.
* Method: invariant of the walk: indices still to visit are distinct, in bounds and of other keys than those collected; each collected account was held when visited; under one owner per account every tracked index is in its owner's set.
* Status: **partial**. Held means shown at the commitment, or inserted by a call that has not yet published it (C87_sound). C87_complete assumes that accounts keep their owner and that no filter accepts closed accounts; without the first it is false already of sequential histories (C22).
* ConcQueryProps.v: `C87_complete`, `C87_no_panic`, `C87_once`, `C87_sound`

### C88 A program query shows one moment

The accounts that a program query or a snapshot returns are the ones the store shows at one moment between its call and its return.

* Modelled: the same.
* Method: witness schedule for the torn answer; walk invariant relative to an unchanged store; C87 with the monotone views of C62.
* Status: **partial**. False: a query that runs while a slot is finalized can return one account from before and one from after, a combination the store never shows; create_snapshot is the same query (C88_one_moment_refuted). Proved: a query during which nothing is written returns what get_program_accounts does, up to order (C88_quiet_partial); account by account the answer is not older than what the store showed before the call and not newer than what it shows after the return (C88_each_account_partial).
* ConcQueryProps.v: `C88_each_account_partial`, `C88_one_moment_refuted`, `C88_quiet_partial`

### C89 On an orderly stream every read shows the ledger

Feed the store a stream in which slots are announced with their parents (forks allowed), accounts are written in announced slots not yet confirmed, confirmations and finalizations extend the confirmed and finalized branch, and confirmations skip slots only while the newest confirmed slot is not yet final. Then at every moment a read at processed, confirmed or finalized returns exactly the newest version of the account among those loaded at start-up and those written in slots that count (any slot, slots on the confirmed branch, slots on the finalized branch), or nothing if there is none or it is closed. The account is of interest to the filters throughout and, if it is closed, keeps its owner or is closed once and for all.

* Modelled: StoreModel.v against a ledger (LedgerSpec.v): slot tree, base, writes, confirmed and finalized tip, given by the stream alone.
* Method: invariant along orderly histories (LedgerInv.v to LedgerRun.v): statuses and parents of the known slots, the slots an account still waits in, and per slot which version is recorded; one preservation lemma per event; the walk is computed along the branch (LedgerProofs.v).
* Status: **proved**. The condition on skipped confirmations is needed. If the newest confirmed slot is already final and a confirmation skips slots, the walk records the pruned parent of the finalized root with the wrong parent; then a write is served as finalized before its slot is (C89_skipped_confirmation_ahead_refuted) and another one never is, although its slot and the next one are finalized (C89_skipped_confirmation_behind_refuted).
* LedgerProps.v: `C89_reads_show_ledger`, `C89_skipped_confirmation_ahead_refuted`, `C89_skipped_confirmation_behind_refuted`, `C89_versions_show_ledger`

### C90 On an orderly stream every program query shows the ledger

Feed the store a stream as in C89. Then at every moment a program query at processed, confirmed or finalized answers with each account once, with nothing but newest versions in the ledger of accounts of the program that meet the conditions, and with every such version that is live. (Accounts do not return to an owner they had, closed versions have another owner than live ones, the versions of an account differ in slot or write version.)

* Modelled: the same.
* Method: the invariant of C89 shows that owner-changing deliveries come in time; C22_owner_changes_partial and C20 then speak of versions that C89 identifies with the ledger.
* Status: **proved**. Unfiltered queries may also answer with closed accounts (C23). The conditions on owners are needed (C22_owner_returns_refuted, C22_refunded_refuted).
* LedgerQueryProps.v: `C90_queries_show_ledger`

### C91 On an orderly stream notifications report the changes of the ledger

Feed the store a stream as in C89. The accounts returned by process_slot_data for a confirmed or finalized slot are, each once, newest versions in the ledger at that commitment and come from a later slot than everything that counted before; and every account whose newest version at that commitment comes to count with the slot is among them (unless it has only ever been seen closed).

* Modelled: the same.
* Method: C27 (reports are exactly the changed versions) between two states that both satisfy the invariant of C89.
* Status: **proved**. 
* LedgerQueryProps.v: `C91_notifications_show_ledger`

### C92 On an orderly stream every read of the token store shows the ledger

Feed the token store a stream in which accounts are loaded first, every slot is confirmed as the child of the slot confirmed before it after something of it has reached the store, and confirmed slots are finalized in order (announcements optional, writes of other forks allowed). Then at every moment a read at processed, confirmed or finalized of a token account, mint or multisig returns owner and data of exactly the newest version among those loaded and those written in slots that count, or nothing if there is none or it is closed. (The account is of one kind whose bytes the store keeps (C41) and shares its first four bytes with no other; its mint is known; it leaves the token programs only when it is open in the finalized ledger.)

* Modelled: TokenStoreModel.v against a ledger (TokenLedgerSpec.v) given by the stream alone.
* Method: invariant along orderly streams (TokenLedgerProofs.v, TokenLedgerKey.v): recorded slots, parents and the waiting versions of one key against the ledger; then the read path on both sides of the finalized slot (TokenLedgerProps.v); streams outside the conditions in TokenLedgerEdge.v.
* Status: **proved**. Outside the conditions: confirming a slot of which nothing reached the store, or one whose parent is known only from its writes, hides confirmed writes at every commitment, for good once finalized (C92_unseen_slot_refuted, C92_skipped_confirmation_refuted); an account opened and closed before being finalized is served for ever (C92_close_before_finalized_refuted).
* TokenLedgerEdge.v: `C92_close_before_finalized_refuted`, `C92_skipped_confirmation_refuted`, `C92_unseen_slot_refuted`
* TokenLedgerProps.v: `C92_mint_reads_show_ledger`, `C92_multisig_reads_show_ledger`, `C92_token_reads_show_ledger`

### C93 On an orderly stream token queries by owner or mint show the ledger

Feed the token store a stream as in C92. Then at every moment a query at processed, confirmed or finalized for the token accounts of an owner, of an owner and a mint, or of a mint is answered, with each account once, with nothing but newest open versions in the ledger at that commitment that belong to that owner and mint, and with every such version.

* Modelled: program queries of TokenStoreModel.v against the ledger of TokenLedgerSpec.v.
* Method: finalized queries by C49, overlay of waiting versions element by element, reads by C92 (TokenLedgerQueryProps.v); streams outside the conditions in the same file.
* Status: **partial**. For accounts that keep their owner (and mint) and, for completeness, are open in the finalized ledger; the queried mint is known. Without: an account opened since the finalized slot is missing at processed and confirmed (C93_opened_refuted); an account handed over in a confirmed slot is still answered to its old owner (C93_handed_over_refuted).
* TokenLedgerQueryProps.v: `C93_handed_over_refuted`, `C93_mint_queries_show_ledger_partial`, `C93_opened_refuted`, `C93_owner_queries_show_ledger_partial`

### C94 On an orderly stream the token store reports the changes of the ledger

Feed the token store a stream as in C92. The accounts returned by process_slot_data for a slot announced, confirmed for the first time or finalized contain each account at most once; about a token account, mint or multisig as in C92 they contain its newest version in the ledger at that commitment (owner, data, slot) if that version is open and did not count before the call, and nothing otherwise.

* Modelled: slot notifications of TokenStoreModel.v against the ledger of TokenLedgerSpec.v.
* Method: the invariant of C92 for one key and the chain walked by finalize (TokenLedgerNotifyProps.v).
* Status: **proved**. The notification is assumed not to panic (see C98). A slot confirmed a second time is reported a second time (C94_confirmed_again_refuted).
* TokenLedgerNotifyProps.v: `C94_confirmed_again_refuted`, `C94_reports_changes`, `C94_reports_once`

### C95 The gauges of the account store count its accounts

The gauge of accounts in memory equals the number of accounts in the store: it is never below the number of accounts that can be read, and equals the number of accounts delivered when none was closed or unwanted. The latest-slot gauge shows the slot of the last account delivered.

* Modelled: the gauges of the account store, incremented as the code does beside each step of StoreModel.v (GaugeModel.v).
* Method: induction over histories; the entries with an index entry inject into the entries in memory (GaugeProps.v).
* Status: **partial**. The gauge is never below the number of readable accounts, and equals the number of accounts delivered while none of them is closed or unwanted. It is never decremented: a closed account stays counted (C95_closed_refuted). The latest-slot gauge shows the last delivery and goes back on an older one (C95_slot_goes_back_refuted).
* GaugeProps.v: `C95_bounds_served`, `C95_closed_refuted`, `C95_counts_accounts_partial`, `C95_latest_slot`, `C95_slot_conversion`, `C95_slot_goes_back_refuted`

### C96 The gauges of the token store count its records

Stored minus deleted equals the number of token accounts that can be read, the mint gauge the number of mints known, and the pending gauge the number of versions waiting for finalization; counting never changes what the store does.

* Modelled: the gauges of the token store and its table beside each step of TokenStoreModel.v (GaugeModel.v).
* Method: induction over histories; live records against the log of deliveries, pending versions against the versions held (TokenGaugeProps.v).
* Status: **partial**. Stored minus deleted is an upper bound and equals the number of readable token accounts when token keys are used for nothing else; the mint gauge is a lower bound and exact when mints arrive before they are named; the pending gauge is an upper bound and exact without abandoned forks. Outside: C96_tokens_refuted (an unreachable record stays counted), C96_mints_refuted (gauge -1), C96_pending_refuted (versions of abandoned forks stay counted for ever). Loading a snapshot is not counted by these theorems.
* TokenGaugeProps.v: `C96_mints_bounded`, `C96_mints_partial`, `C96_mints_refuted`, `C96_pending_bounded`, `C96_pending_partial`, `C96_pending_refuted`, `C96_records`, `C96_same_store`, `C96_tokens_bounded`, `C96_tokens_partial`, `C96_tokens_refuted`

### C97 Memory of closed accounts

The number of entries a store keeps for its accounts is bounded by the number of accounts, also when accounts are closed and opened again.

* Modelled: lengths of the memory vectors of both stores.
* Method: a family of histories, one for each n, for the refutations; induction over histories for the bounds (GaugeProps.v, TokenGaugeProps.v).
* Status: **partial**. False as stated in both stores: an account closed and opened again n times leaves n entries (C97_entries_never_reused_refuted) or records (C97_records_never_reused_refuted). Proved instead: entries equal the gauge, are never given back, and are at most one per delivery (C97_entries_bounded); the token table never shrinks (C97_table_never_shrinks).
* GaugeProps.v: `C97_entries_bounded`, `C97_entries_never_reused_refuted`
* TokenGaugeProps.v: `C97_records_never_reused_refuted`, `C97_table_never_shrinks`

### C98 Orderly token streams never panic

Feed the token store a stream as in C92 whose account data can be read, in which every token account delivered belongs to a mint that is in the confirmed ledger by then, and the keys of mints carry only open mints, at most 2^32 of them. Then no call of the stream panics, every account can be read at every commitment, every query with decodable conditions about known mints is answered, and so is every further call that keeps the stream so.

* Modelled: the token store on orderly streams (TokenLedgerSpec.v).
* Method: the invariant of C50 with the mints of the finalized ledger, and a weaker one while accounts are loaded; the counter of mint indices equals the number of keys seen (TokenLedgerSafeProps.v).
* Status: **partial**. False as stated: when the mint of an account opened in a slot is confirmed but not yet finalized, the notification that the slot is confirmed panics (C98_young_mint_refuted). Proved when mints are finalized before accounts of them are delivered, and the mints of loaded accounts are loaded, in any order, before the stream starts (C98_orderly_streams_run_partial); with it C92 and C94 hold with nothing assumed about the run of the store (C98_reads_show_ledger_partial, C98_reports_changes_partial).
* TokenLedgerSafeProps.v: `C98_orderly_streams_run_partial`, `C98_reads_show_ledger_partial`, `C98_reports_changes_partial`, `C98_young_mint_refuted`

### C99 On an orderly stream of which only a part is of interest the store shows that part of the ledger

Configure a SimpleFilterStore and feed the account store with it a stream as in C89 that also delivers accounts and versions that no filter selects: accounts may never be of interest, come to be of interest later, and change their owner or be closed once while they are. Then a read at processed, confirmed or finalized returns the newest version in the ledger at that commitment (nothing if it is closed), or nothing if no version in the ledger is selected. A program query that is answered contains each account once, only newest versions of the ledger that match it, and all of them. The accounts reported for a slot are newest versions of the ledger at that commitment and did not count before, and every change of an account of interest is reported.

* Modelled: the account store with a concrete SimpleFilterStore (LedgerFilterSpec.v).
* Method: a run equals the run of the calls whose account has been wanted before (LedgerFilterProofs.v), whose ledger is a part of the whole; C89 to C91 for these calls, C01 and C02 for the filters (LedgerFilterProps.v).
* Status: **proved**. The account data can be decompressed and the text patterns of the filters decoded. Accounts that stop being of interest while they are alive are not covered.
* LedgerFilterProps.v: `C99_notifications_show_ledger`, `C99_queries_show_ledger`, `C99_reads_show_ledger`

### C100 The server answers from the snapshot archive and the stream what the ledger says

Start the server of main.rs with a snapshot archive, feed it messages in order (accounts of a slot before the slot is confirmed, slots confirmed parent by child and finalized in order, anything else in between), and send it requests. The server never panics, getAccountInfo for a token account answers with the newest version of the account at the requested commitment that the archive and the messages describe, or with nothing when there is none or it is closed; getProgramAccounts for the token program with an owner and/or a mint in its memcmp filters and data size 165 answers each account at most once, with its newest version, open and of that owner and mint, and leaves out no such account that is open in the finalized ledger; the data is encoded and cut as requested.

* Modelled: the whole server: archive loader (AvecModel), message loop (StreamModel), token store and RPC (RpcModel) composed in ServerModel.v; the archive, the orderly feed and the answers are specified in ServerSpec.v.
* Method: C67 turns the archive into loads and C77 the messages into calls, feed_orderly shows that together they form an orderly stream, then C98, C93, C60, C68 and C70 are chained (ServerProps.v).
* Status: **partial**. The messages are consumed after the archive has been loaded (with both at once the claim fails: C67_stream_refuted); messages are uncompressed (C77_compressed_refuted); each account is in the archive at most once (C67_refuted); every mint is finalized before the first message that needs it (C98_young_mint_refuted); token accounts and mints keep their keys, owners and mints. Missing: lamports and rent epoch (the token storage does not keep them), accounts opened after the last finalized slot in lists (C93_opened_refuted). Requests with context are covered: the slot of the answer and the minimum slot (ServerContextProps.v).
* ServerProps.v: `C100_account_info_partial`, `C100_mint_accounts_partial`, `C100_owner_accounts_partial`
* ServerContextProps.v: `C100_mint_context_partial`, `C100_owner_context_partial`

### C101 A store started from a snapshot and the rest of the stream shows the ledger

Feed an account store an orderly stream (C89), take a snapshot of a program when slot f is its finalized slot, load it into a fresh store and feed that store the stream from a child of f on, as far as it hears of it. Then a read of the fresh store returns nothing but the newest version in the ledger at the requested commitment, and it returns that version if it is open and belongs to the program or was written after f. Program queries contain each account once, only newest versions, and all of those accounts that match. At processed this needs that the fresh store heard of every slot that f does not settle.

* Modelled: StoreModel.v twice: the store that makes the snapshot and the store that loads it; the ledger of the late listener is related to the whole ledger in ReplicaSpec.v.
* Method: the snapshot is the finalized ledger of the program (C90 and the codec round trip), the load is a row of initialisations (C17), so the history of the fresh store is itself orderly, with the snapshot as its base (orderly_rebase); what counts in its ledger is what counts in the whole one (counts_split); then C89 and C90 apply.
* Status: **proved**. The stream of the fresh store starts exactly after the snapshot (its first slot is a child of the finalized slot); accounts may change owner and be closed once as in C90.
* ReplicaProps.v: `C101_replica_queries_show_ledger`, `C101_replica_reads_show_ledger`

### C102 Accounts loaded while the stream is running do not disturb what the store shows

Feed an account store an orderly stream (C89) and, in between, load accounts with initilize_or_update_account at any time: versions older than the first slot of the stream, or again versions of finalized slots. Then reads at processed, confirmed and finalized, program queries and the accounts reported for a slot are as in C89, C90 and C91 for the ledger with the loaded versions, for accounts that are of interest and are not closed before they are loaded.

* Modelled: StoreModel.v fed a stream of LateSpec.v (the events of LedgerSpec.v and loads of settled versions in between).
* Method: the invariant of LedgerInv.v is kept by a load of a settled version (late_step: such a load touches no slot that is still open, and creates at most a finalized slot that nothing refers to); then as C89 - C91. A load after the account was closed brings the old version back (C102_load_after_close_refuted).
* Status: **proved**. loads of versions older than the first slot, or of finalized versions again; excluded: accounts closed before they are loaded, for which C102_load_after_close_refuted shows that the old version is served as finalized
* LateProps.v: `C102_late_loads_notifications_show_ledger`, `C102_late_loads_queries_show_ledger`, `C102_late_loads_reads_show_ledger`, `C102_load_after_close_refuted`

### C103 A snapshot fetched over RPC is the storage's snapshot

getSnapshot answers with the bytes of the storage's snapshot of the program whose key is the parameter, with an error exactly when the storage gives one, and with an invalid parameter error exactly when the parameter is not the base58 text of a key. Loading the bytes into an empty storage of the same kind gives a storage that answers for the program as the original does at finalized.

* Modelled: `get_snapshot` of RpcModel.v with the base58 parser of Base58Model.v over any storage interface of DispatchModel.v.
* Method: case analysis with the round trip of base58 texts; loading back by C29, with the number of accounts of the snapshot bounded by the number of entries of the store; the token store's snapshot is refused (C51_refuted).
* Status: **partial**. The answers are proved for every storage (C103_snapshot_answers). Loading back is proved for the in-memory account storage, for programs of which every account is admitted by the loading store's filters (C103_snapshot_loads_partial, on top of C29). For the token storage, the one main.rs serves, it is false: the snapshot it answers cannot be loaded (C103_server_snapshot_refuted). The text of the answer is the base64 text of the snapshot (C103_snapshot_text).
* RpcSnapshotProps.v: `C103_server_snapshot_refuted`, `C103_snapshot_answers`, `C103_snapshot_loads_partial`
* EncodingProps.v: `C103_snapshot_text`

### C104 A store that listens first and loads a snapshot while it is listening shows the ledger

Let an account store follow an orderly stream (C89) from some slot on, load into it, while the stream is running, a snapshot of a program that another store took of the same ledger, and let the stream go on. Then a read returns nothing but the newest version in the ledger at the requested commitment, and it returns that version if it is open and belongs to the program or was heard of; program queries contain each account once, only newest versions, and all of those accounts that match.

* Modelled: two stores of StoreModel.v, one fed the whole stream, the other a part of it with a `load_from_snapshot` in between; what the listener knows of the ledger is `hears` of ReplicaSpec.v.
* Method: the load is a sequence of settled loads (C102), each of a version older than the listener's first slot or of one that is final for the listener, too; then the ledgers are compared as for C101.
* Status: **partial**. Proved when the snapshot settles the slot before the first one heard of and the listener has finalized the snapshot's slot when it loads it, for accounts that the listener has not seen closed before (C102_load_after_close_refuted), and for queries of programs whose accounts have not been seen to move to another program before. False otherwise: with a snapshot older than the first slot heard of, which is the usual case when a store subscribes and loads at once, a replaced version is served as finalized for good (C104_gap_refuted); an account seen to move is missing from the query of its finalized owner (C104_moved_refuted). Missing: snapshots ahead of what the listener has finalized.
* BootstrapProps.v: `C104_bootstrap_queries_partial`, `C104_bootstrap_reads_partial`, `C104_gap_refuted`, `C104_moved_refuted`

### C105 The answer of update_account tells whether anything changed

update_account answers true exactly if the delivery was taken over: after the answer false every read, program query and snapshot gives the answer it would have given before the call, and after the answer true the delivered version is shown or kept for its slot.

* Modelled: `update_account` of StoreModel.v and `ts_update` of TokenStoreModel.v with their boolean results.
* Method: case analysis over the outcomes of an update on reachable stores (`upd_case`), equality of all answers from equality of the reads of every entry; the false parts by computed witnesses.
* Status: **partial**. False as stated in both stores. Account store: a finalized delivery with a write version between the confirmed and the finalized one of the same slot replaces the confirmed version and is answered with false (C105_false_but_changed_refuted); a version older than the finalized one is answered with true and nothing changes (C105_true_but_unchanged_refuted). Token store: a delivery answered with false can number a new mint, after which reading the mint panics (C105_token_false_but_changed_refuted); every finalized delivery is answered with true (C105_token_true_but_unchanged_refuted). Proved: false means that nothing changed when the confirmed version is not older than the finalized one, or the mint has a number; a delivery newer than what is shown is answered with true; the exact answer for deliveries that are held pending.
* StoreAnswerProps.v: `C105_false_but_changed_refuted`, `C105_false_means_unchanged_partial`, `C105_newer_is_answered_true`, `C105_true_but_unchanged_refuted`
* TokenAnswerProps.v: `C105_token_answer_exact`, `C105_token_false_but_changed_refuted`, `C105_token_false_means_unchanged_partial`, `C105_token_true_but_unchanged_refuted`

### C106 Every storage behind the dispatcher is in the state its share of the calls puts it in

Register storages for programs with StorageByProgramId and make any sequence of update_account, initilize_or_update_account, process_slot_data and load_from_snapshot calls to it. Then each registered storage is in the state it would be in had it alone been given, in the same order, all slot notifications, the initialisations and loads for which it is responsible, and the updates that no storage before it accepted; no other storage changes. A token storage that is visited first answers reads and queries through the dispatcher as it would alone, so that with an orderly stream (C92) reads through the dispatcher show the ledger.

* Modelled: `StorageByProgramId` of DispatchModel.v over arbitrary storages, and over the two storages of the repository.
* Method: induction over sequences of calls: what one call does to one storage (from the C53 theorems), then the runs of TokenStoreModel.v and StoreModel.v; reads by C92.
* Status: **proved**. For storages registered once. C106_shares holds for arbitrary storages; C106_token_alone and C106_store_alone identify the calls with the histories of the other theorems; C106_reads_show_ledger composes with C92. An update that a storage further ahead accepted may be missing from the share of the storages behind it, which is what the code does.
* DispatchRunProps.v: `C106_reads_show_ledger`, `C106_shares`, `C106_store_alone`, `C106_token_alone`, `C106_token_storage_follows`

### C107 A client that parses the JSON of an answer gets the account

The result of getAccountInfo, getProgramAccounts and getSnapshot is a JSON text of exactly one value. For getAccountInfo it is an object with the slot of the account under context and, under value, null if the storage has no such account, else an object with its lamports, owner (base58 text of the key), executable, rentEpoch, space (the length of the whole data) and the requested part of the data as base64 text with the name of the encoding; base58 likewise up to 128 bytes. For getProgramAccounts it is an array of objects with the key and such an account for each account of the storage's answer, with the slot of the newest account if context is asked for. On an orderly stream (C89) what the client reads is the ledger.

* Modelled: the JSON values that serde makes of the answers of RpcModel.v, printed by the printer of JsonModel.v (RpcWireModel.v).
* Method: the printed text is read back as one value (soundness and completeness of the grammar of JsonGrammar.v); the entries against RpcWireSpec.v, texts against EncodingSpec.v; composition with C89 and C90.
* Status: **proved**. For the encodings base64 (also the default), base58 and binary; base58 texts above 128 bytes are replaced by an error message (C70_base58_refuted). Not modelled: base64+zstd, jsonParsed, the JSON-RPC envelope and error objects. The numbers of the accounts are u64s.
* RpcWireProps.v: `C107_account_text`, `C107_program_text`, `C107_snapshot_text`
* RpcWireLedgerProps.v: `C107_account_text_shows_ledger`, `C107_program_text_shows_ledger`

### C108 The order in which account updates arrive does not matter

Give an account store a batch of account updates at processed (or all at confirmed) between two slot notifications, each for an account that is tracked or wanted, in slots not known at another level, where slot and write version tell the versions of an account apart. Then for any other order of the batch no caller can tell the two resulting stores apart: every later sequence of reads, updates, slot notifications and loads, under any filters, gets the same answers, with the reported accounts of a slot the same up to order. If no account of the batch changes its owner, this holds for program queries and snapshots as well.

* Modelled: the account store of StoreModel.v.
* Method: a relation between stores that forgets the numbering of the entries is kept by every operation and determines every answer (AlikeProofs.v); two neighbouring updates commute up to it; induction over the permutation.
* Status: **proved**. Proved for batches in which slot and write version tell versions apart, the accounts are tracked or wanted and the slots are not known at another level; program queries and snapshots if no account changes its owner. Each condition is needed: C108_queries_refuted (owner change with a closed version), C108_known_slot_refuted (new account in a slot already confirmed), C108_unwanted_refuted (a version the filters do not want).
* ArrivalProps.v: `C108_arrival_order`, `C108_arrival_order_lists`, `C108_known_slot_refuted`, `C108_queries_refuted`, `C108_unwanted_refuted`

### C109 Account updates and slot notifications may overtake each other

Account updates and slot notifications reach an account store over separate channels. Let an update at processed be for a slot that is not known above processed and that a processed or confirmed slot notification does not look at (neither the announced slot nor one of the ancestors it commits, nor the parent at which it stops) - in particular for a newer slot. Then it makes no difference which of the two comes first: the update gets the same answer, the notification reports the same accounts, and every later sequence of reads, queries, snapshots, updates, notifications and loads gets the same answers. The same holds for a notification and any number of such updates. For a finalized notification and an update of a newer slot it holds too when the notification does not remove the account and does not take its finalized version away from the owner the update names; without the last condition it still holds for everything but program queries and snapshots.

* Modelled: the account store of StoreModel.v.
* Method: the walk over the slots does not depend on a slot it does not visit (induction over the walk); promotion and the update of another slot (a newer one, if the promotion is to finalized) commute on each entry and in the owner index; with the relation of C108 no later history tells the results apart.
* Status: **proved**. The conditions are needed. C109_finalized_refuted: an account re-created in a newer slot is lost if the update comes before the finalized notification that drops the closed account. C109_handed_back_refuted: an account that goes from owner A to B at finalized and back to A in the update is missing from the list of A if the update comes before. C109_own_slot_refuted: for the announced slot itself a new account stays at processed and is not reported if the update comes after.
* OvertakeProps.v: `C109_batch_overtakes`, `C109_finalized_newer`, `C109_finalized_refuted`, `C109_handed_back_refuted`, `C109_newer_slot`, `C109_overtake`, `C109_own_slot_refuted`

### C110 The order in which a token store hears of things does not matter

Let the account updates below finalized that reach a token store name only mints the store has numbered, and let slot and write version tell the versions of an account apart. Then the store is in the same state whatever the order of the updates. An update also commutes with a processed or confirmed notification of another slot, with a processed notification of its own slot if something of that slot was heard before, and - for an account owned by a token program whose mint the notification does not close - with a finalized notification of an older slot: the update gets the same answer, the notification reports the same accounts, and the store ends in the same state; or the calls panic in both orders.

* Modelled: the token store of TokenStoreModel.v and its pending part, TokenPendModel.v.
* Method: the pending part is compared slot by slot: insertions commute, announcing and finalizing do not look at the slot of the update; the rest of the store does not depend on the pending part; equality of states.
* Status: **proved**. The conditions are needed. C110_same_version_refuted: of two versions with the same slot and write version the first stays. C110_announced_first_refuted: a slot announced before anything of it was heard is recorded without its parent, and accounts of the parent are not found at confirmed. C110_closed_refuted: the close of an account whose opening is not finalized yet is ignored, and the store goes on serving the account.
* TokenArrivalProps.v: `C110_announced`, `C110_announced_first_refuted`, `C110_arrival_order`, `C110_batch_overtakes`, `C110_closed_refuted`, `C110_overtake`, `C110_overtake_finalized`, `C110_same_version_refuted`

### C111 The numbers a token store gives to mints cannot be noticed

Let updates below finalized of accounts owned by a token program reach a token store, whether or not it has seen their mints before, and let slot and write version tell the versions of an account apart. In another order the mints get other numbers, but no caller can tell: every later sequence of updates, initialisations and slot notifications gets the same answers (the accounts of a report up to order), every read returns the same, program queries by owner or by mint return the same list, and any program query at any commitment, the listing of all mints included, returns the same accounts up to order. (As long as the calls in the first order do not panic and no more than 2^32 mint numbers are given out.) Such an update and a processed or confirmed notification of another slot may also overtake each other: the same answer, the same report, the same state.

* Modelled: the token store of TokenStoreModel.v, the answers of all calls but loads and snapshots.
* Method: a relation between stores that differ by a bijection of the mint numbers is kept by every call and determines every answer; two neighbouring updates commute up to the exchange of two numbers; induction over the permutation.
* Status: **proved**. Loads are left out because the numbers are noticed there. C111_load_refuted: a snapshot with a mint the store already knows writes its data under the number it had in the snapshot, so that a read of another mint returns this mint's account, depending on the order in which the mints were first seen. C111_owner_refuted: the owner condition is needed, since an account that left the token program is heard of only after some account has named it as its mint.
* TokenRenumberProps.v: `C111_arrival_order`, `C111_load_refuted`, `C111_overtake`, `C111_owner_refuted`

### C112 What a token store hears twice

An update below finalized of an account owned by a token program that reaches a token store again - any time before something is finalized, at the same or another commitment below finalized, whatever other updates and notifications below finalized came in between - changes nothing and is answered with false. The same holds with any other calls in between, loads and finalized notifications of older slots included, if parents come before their slots and the account's mint still has a number. A confirmed notification heard again changes nothing and reports the same accounts again. A finalized notification heard again changes nothing and reports nothing. A processed notification heard again changes nothing if something of the slot was known before the first. An update at finalized heard again changes nothing unless it is the close of a mint.

* Modelled: the token store of TokenStoreModel.v and its pending part, TokenPendModel.v.
* Method: a pending version stays or gives way to a newer one of its slot as long as nothing is finalized (induction over the calls), and mints keep their numbers; idempotence of the notifications and of adding to the finalized part; equality of states.
* Status: **proved**. The conditions are needed. C112_late_refuted: an update heard again after its slot was finalized brings back the older of two versions of the slot, also at finalized. C112_processed_refuted: a slot heard of first by its processed notification gets its parent only when the notification is heard a second time, so that accounts of its ancestors are found at confirmed only then. C112_close_refuted: the close of a mint heard twice at finalized is taken the second time for the close of a token account, and an account whose key shares the first four bytes is lost.
* TokenRedeliverProps.v: `C112_close_refuted`, `C112_confirmed_again`, `C112_finalized_again`, `C112_finalized_update_again`, `C112_late_refuted`, `C112_processed_again`, `C112_processed_refuted`, `C112_update_again`, `C112_update_again_later`

### C113 A token store may hear every update at least once, in any order

Let two streams of account updates below finalized carry the same updates of accounts owned by a token program, each at least once: the order, the number of times each is delivered and the commitment below finalized may all differ. Let slot and write version tell the versions of an account apart. Then two token stores that start from the same state and hear one stream each cannot be told apart: every later sequence of updates, initialisations and slot notifications gets the same answers (the accounts of a report up to order), and reads and program queries return the same accounts. This holds as long as the calls of the first stream and its continuation do not panic and the store has not given out more than 2^32 mint numbers.

* Modelled: the token store of TokenStoreModel.v.
* Method: repetitions are dropped one by one with C112_update_again (induction over the stream, remembering what was heard); the first occurrences of the two streams are permutations of each other, to which C111_arrival_order applies.
* Status: **proved**. The exclusions are needed: C111_load_refuted (loads), C111_owner_refuted (owner), C112_late_refuted (a repetition after its slot was finalized), and for versions told apart by slot and write version the refutation under C110.
* TokenOnceProps.v: `C113_at_least_once`

### C114 An account store may hear every update at least once, in any order

Between two slot notifications let an account store hear a batch of account updates at processed (or all at confirmed) under one filter, each for an account that is tracked or wanted, in slots not known at another level, where slot and write version tell the versions of an account apart. If another batch carries the same updates, each at least once, in any order and number, then no caller can tell the two resulting stores apart by reads, updates, slot notifications and loads, under any filters. If no account of the batch changes its owner, this holds for program queries and snapshots as well. An update heard again later in the batch is answered with false and leaves the store as it is, also under other filters.

* Modelled: the account store of StoreModel.v and ByCommitModel.v.
* Method: invariant of the batch: the entry has the update or a newer version of its slot, and the slot lists the account at the level of the update, so that a repetition is the identity; the first occurrences of the two batches are permutations of each other, to which C108_arrival_order applies.
* Status: **proved**. The conditions are needed. C114_late_refuted: heard again after a newer slot was finalized, an update is answered with true and the store holds the old version again. See also the refutations under C108 (level of the slot, unwanted accounts, change of owner) and C26_update_redelivery_exact, which says exactly when an immediate repetition is felt.
* OnceProps.v: `C114_again_later`, `C114_at_least_once`, `C114_at_least_once_lists`, `C114_late_refuted`

