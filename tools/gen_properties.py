#!/usr/bin/env python3
"""Writes /verif/properties.jsonl (one JSON object per line)."""
import json, os
P = []
def p(title, statement, quantifier, why, anchors):
    P.append(dict(id="C%02d" % (len(P) + 1), title=title, statement=statement,
                  quantifier=quantifier, why_tests_cant=why, anchors=anchors))
FS = "common/src/simple_filter_store.rs"; AF = "common/src/account_filter.rs"
EX = "common/src/except_filter_store.rs"; MU = "common/src/mutable_filter_store.rs"
AD = "common/src/account_data.rs"
BC = "account_storage/src/account_data_by_commitment.rs"
ST = "account_storage/src/inmemory_account_store.rs"
SP = "account_storage/src/storage_by_program_id.rs"
TT = "token_account_storage/src/account_types.rs"
TS = "token_account_storage/src/inmemory_token_account_storage.rs"
TU = "token_account_storage/src/token_program_utils.rs"
TK = "token_account_storage/src/inmemory_token_storage.rs"
OD = "accounts_on_demand/src/accounts_on_demand.rs"
AV = "simulate_from_snapshot/src/snapshot_utils/append_vec.rs"
AM = "simulate_from_snapshot/src/snapshot_utils/mod.rs"
AR = "simulate_from_snapshot/src/snapshot_utils/archived.rs"
RP = "simulate_from_snapshot/src/rpc_server.rs"
PK = "common/src/pubkey_container_utils.rs"

# ---------------------------------------------------------------- filters
p("Admission is exactly the union of the configured filters",
  "After any sequence of filter additions, an account is admitted if and only if some added filter lists its pubkey, or some added filter names its owner program and every data condition of that same filter holds on the account's uncompressed data.",
  "all sequences of added filter batches, all accounts, all byte encodings of the memcmp patterns (arbitrary decoders)",
  "the filter configuration and the account bytes are unbounded; the implementation collapses filters per program into a different data structure, so only a proof relates the collapsed form to the configuration for every order of additions",
  [FS + ": add_account_filters, add_account_filter, satisfies_filter", MU + ": satisfies", AF + ": AccountFilterType::allows"])
p("A query reported as covered really is covered",
  "If the filter store answers that it contains a query, then every account that matches the query is admitted by the store (so answering the query from the local store cannot silently miss accounts).",
  "all filter configurations, all queries, all accounts",
  "coverage is an implication over every possible account; the check is a syntactic comparison of filter lists",
  [FS + ": contains_filter_internal", ST + ": get_program_accounts", OD + ": get_program_accounts"])
p("Adding filters never withdraws coverage",
  "Adding further filters never makes a previously admitted account rejected, nor a previously contained query or account not contained.",
  "all configurations, all added batches, all accounts and queries",
  "needs every pair of before/after configurations",
  [FS + ": add_account_filter", MU + ": add_account_filters"])
p("An added filter is reported as contained",
  "Right after a filter was added, asking whether the store contains that same filter answers yes, whatever encoding its memcmp patterns use.",
  "all configurations and all filters",
  "the stored form is normalised on some paths and not on others; depends on the history of additions",
  [FS + ": add_account_filter, contains_filter_internal", OD + ": get_program_accounts"])
p("Memcmp conditions mean the same in every encoding",
  "A memcmp condition holds iff the decoded pattern equals the data bytes starting at the offset; out-of-range patterns never match and never panic; raw, base58 and base64 patterns with the same decoded bytes accept exactly the same data.",
  "all offsets (full usize range), patterns, data, decoders",
  "offset arithmetic near the integer limit and every data length",
  [AF + ": MemcmpFilter::bytes_match, AccountFilterType::allows"])
p("The exclusion store is the exact complement and its coverage answer is sound",
  "An exclusion filter store admits exactly the accounts its inner store rejects, and if it answers that it contains a query then every account matching the query is admitted.",
  "all inner configurations, queries and accounts",
  "negating a sound coverage check is not a sound coverage check of the complement; needs all accounts",
  [EX + ": satisfies, contains_filter"])
p("RPC filter conversion preserves meaning",
  "Converting a filter to the RPC representation and back, or evaluating the RPC representation directly, accepts exactly the same account data as the original filter.",
  "all filters and all account data",
  "equality of predicates over unbounded data",
  [AF + ": get_rpc_filter, From<&RpcFilterType>", AD + ": AccountData::allows"])
p("Filter configuration survives JSON serialization",
  "Serializing an account filter and deserializing the result yields the same filter.",
  "all filters", "unbounded nested structures",
  [AF + ": Serialize/Deserialize for AccountFilter"])
# ---------------------------------------------------------------- data
p("Compression is transparent",
  "An account stored with any compression method and level reads back with exactly the original bytes and length, and data-size and memcmp conditions give the same answers as on the uncompressed account.",
  "all byte strings, all compression methods and levels, any lossless codec",
  "all byte strings", [AD + ": Data::new, Data::len, Data::data, Account::from_solana_account, to_solana_account"])
# ---------------------------------------------------------------- per account versions
p("Commitment ladder of one account",
  "For one account, after any sequence of updates and slot promotions the finalized version exists only if a confirmed version exists, the finalized slot is not ahead of the confirmed slot and the confirmed slot is not ahead of the processed slot.",
  "all operation sequences of any length, all slots and write versions",
  "safety invariant over unbounded histories", [BC + ": update, promote_slot_commitment, initialize, new"])
p("Versions never go backwards",
  "For one account, each commitment level's (slot, write version) never decreases under updates and promotions.",
  "all operation sequences, all commitment levels",
  "needs every state and every operation", [BC + ": update, promote_slot_commitment"])
p("Delivery order does not matter",
  "Versions of one account delivered with distinct (slot, write version) give the same readable versions at every commitment in whatever order they arrive: at each commitment the greatest (slot, write version) delivered at that commitment or stronger wins.",
  "all finite sets of updates and all their permutations",
  "factorially many orders, unbounded many updates", [BC + ": update, get_account_data"])
p("Promotion publishes exactly the data of that slot",
  "Promoting a slot for an account publishes the newest write seen for that account in that slot unless the published version is already from the same or a newer slot; reports a change exactly when the published version changed; and never discards the newest processed version.",
  "all account histories, slots and commitments", "unbounded histories",
  [BC + ": promote_slot_commitment"])
p("Filtered read agrees with unfiltered read",
  "Reading with data conditions returns the same version as reading without, with its data uncompressed, exactly when all the conditions hold on that data, and nothing otherwise.",
  "all versions, all lists of conditions, all compressions", "unbounded data and condition lists",
  [BC + ": get_account_data_filtered"])
# ---------------------------------------------------------------- account store
p("The account store never panics",
  "No sequence of updates, initialisations, slot notifications, queries and snapshot loads can make the account store panic (index out of bounds or failed assertion).",
  "all operation sequences and all filter answers (which may change over time)",
  "index consistency over unbounded histories", [ST + ": update_account, process_slot_data, update_owner_delete_if_necessary, get_program_accounts"])
p("Reads at stronger commitments are not ahead of weaker ones",
  "If reading an account at a stronger commitment returns a version, then reading it at a weaker commitment at the same moment returns a version from the same or a later slot (or the account has been closed there).",
  "all operation sequences, all accounts, all pairs of commitments", "safety invariant over unbounded histories",
  [ST + ": get_account, update_account, process_slot_data"])
p("Reads of a tracked account never go back in time",
  "While an account stays tracked, the slot returned at each commitment never decreases from one moment to the next.",
  "all operation sequences, accounts, commitments", "two-state property over unbounded histories",
  [ST + ": get_account, account_store_contains_key"])
p("Accounts do not interfere",
  "Updating one account changes no other account's version at any commitment, nor its presence in program queries.",
  "all states, all updates, all other accounts", "needs all states and all pairs of accounts",
  [ST + ": update_account"])
p("Unwanted accounts leave no trace",
  "An update for an account that is neither tracked nor admitted by the filters is refused and changes nothing; conversely an admitted account that was not tracked is accepted and readable at the commitment delivered.",
  "all reachable states, all updates", "needs all states",
  [ST + ": update_account, initilize_or_update_account"])
p("Program queries are sound",
  "Every account returned by a program query is owned by the program at the queried commitment, satisfies every data condition of the query and equals what reading that account at that commitment gives (data uncompressed).",
  "all reachable states, programs, conditions and commitments", "unbounded state",
  [ST + ": get_program_accounts, get_account_with_filtering_from_lock"])
p("Program queries return each account once",
  "No pubkey appears twice in the answer to a program query.",
  "all reachable states and queries", "needs an injectivity invariant over histories", [ST + ": get_program_accounts"])
p("Program queries are complete",
  "Every tracked account whose version at the queried commitment is owned by the program, is alive and satisfies the conditions is in the answer.",
  "all reachable states, programs, conditions, commitments", "the owner index must be right after every history",
  [ST + ": get_program_accounts, add_account_owner, update_owner_delete_if_necessary"])
p("Closed accounts are never served",
  "An account version with zero lamports is never returned by account reads or by program queries.",
  "all reachable states and queries", "all histories", [ST + ": get_account, get_account_with_filtering_from_lock, create_snapshot"])
p("Committing a slot commits its ancestors",
  "When a slot is confirmed or finalized, every account written in that slot or in an ancestor slot not yet so committed is readable at that commitment with a version at least as new as its newest write on that chain.",
  "all reachable states, all chains of any length", "unbounded chain length", [ST + ": process_slot_data", BC + ": promote_slot_commitment"])
p("Abandoned forks are never committed",
  "Confirming or finalizing a slot changes a confirmed or finalized version only to a version written in that slot or one of its ancestors.",
  "all reachable states, fork shapes, slot notifications", "unbounded fork shapes", [ST + ": process_slot_data"])
p("Redelivery is harmless",
  "Delivering the same account update twice, or the same slot notification twice, has the same effect as delivering it once, and the second delivery reports nothing new.",
  "all reachable states, updates and notifications", "all states", [ST + ": update_account, process_slot_data"])
p("Slot notifications report exactly what changed",
  "The list returned when a slot is confirmed or finalized contains exactly the new versions of the accounts whose version at that commitment changed, once each.",
  "all reachable states and notifications", "all states", [ST + ": process_slot_data"])
p("Slot processing terminates and bounds history",
  "Processing a slot notification terminates whatever parent links are recorded (cycles included), and after a slot is finalized no bookkeeping for older slots remains.",
  "all reachable states, all parent graphs", "termination for every graph", [ST + ": process_slot_data"])
p("Snapshot round trip",
  "Loading a program's snapshot into an empty store with the same filters makes that store answer finalized account reads and program queries exactly as the original did, and malformed snapshot bytes are reported as an error without touching the store.",
  "all reachable states, all byte strings", "binary codec over unbounded data", [ST + ": create_snapshot, load_from_snapshot", AD + ": AccountData serde"])
p("Closing and re-creating accounts",
  "Once the closing of an account (zero lamports, owner changed) is finalized the account is gone at every commitment; an account re-created after the close and before its finalization is not lost.",
  "all reachable states and orders of close, re-create and finalize", "interaction of three asynchronous events", [ST + ": update_owner_delete_if_necessary, process_slot_data"])
p("Late deliveries of old versions are harmless",
  "Delivering a version that is older than the finalized one changes neither what the account reads as at any commitment nor whether program queries find it.",
  "all reachable states and stale updates", "all histories", [ST + ": update_account, load_from_snapshot"])
p("Writes arriving after their slot was committed are served at that commitment",
  "If a slot has already been confirmed or finalized, an admitted update for that slot delivered at a weaker commitment is readable at the slot's commitment.",
  "all reachable states, tracked and new accounts", "order of notification and update", [ST + ": maybe_update_slot_status, add_account_index_to_slot_status, update_account"])
p("An update delivered at a commitment is readable at that commitment",
  "After an update delivered as confirmed or finalized is accepted, reading the account at that commitment gives that version or a newer one.",
  "all reachable states and updates", "depends on the recorded slot state", [ST + ": update_account, add_account_index_to_slot_status"])
p("The last write of a slot wins when the slot is committed",
  "When a slot is confirmed or finalized, an account written in it reads at that commitment as the write with the greatest write version in that slot.",
  "all reachable states, write orders", "order of deliveries", [BC + ": promote_slot_commitment", ST + ": process_slot_data"])
p("Abandoned forks leave the processed view",
  "Once a slot is finalized, the processed view of an account no longer shows a version from a slot at or below it that is not on the finalized chain.",
  "all reachable states and fork shapes", "fork shapes", [BC + ": get_account_data, promote_slot_commitment"])
p("No lost promotion under concurrency",
  "With updates and slot notifications running on different threads, every update accepted for a slot is readable at the commitment of that slot once both calls have returned.",
  "all interleavings of the atomic steps of one update and one slot notification", "schedules", [ST + ": update_account, process_slot_data"])
p("No deadlock",
  "Concurrent calls of the account store's operations always make progress: no interleaving blocks them forever on each other's locks.",
  "all interleavings of lock acquisitions of any number of concurrent calls", "schedules", [ST + ": update_account, process_slot_data, get_program_accounts, get_account"])
# ---------------------------------------------------------------- token storage
p("Packed token account round trip",
  "Unpacking a packed token account yields the same token account, for every combination of optional fields and any extension data below 4 GiB.",
  "all token accounts with fields in machine range", "2^k combinations times unbounded extension data", [TT + ": TokenAccount::to_bytes, from_bytes"])
p("Field peeking agrees with full unpacking",
  "Reading pubkey, owner or mint index directly from the packed bytes, or testing program and deleted flag as the snapshot does, gives the value full unpacking would give.",
  "all token accounts", "all layouts", [TT + ": get_pubkey_from_binary, get_owner_from_binary, get_mint_index_from_binary", TS + ": create_snapshot"])
p("Token account table behaves as a map from pubkeys",
  "The token account table behaves as a finite map keyed by the full pubkey: a saved account is found under its pubkey, updates keep its position, and saving or deleting one pubkey never affects another.",
  "all operation sequences, all pubkeys including those sharing their first four bytes", "needs pubkeys colliding on the short key and all histories",
  [TS + ": contains, save_or_update, get_by_pubkey, delete", PK + ": PartialPubkey"])
p("Token program data survives storage",
  "A token account, mint or multisig stored and read back has byte-identical data, and the same lamports, owner, executable flag and rent epoch.",
  "all account contents the token program can produce", "all field combinations", [TU + ": get_token_program_account_type, token_program_account_to_solana_account"])
p("Mint indices are stable and unique",
  "Every mint pubkey keeps the index it was first given and distinct mints never share an index.",
  "all histories of lookups", "all histories", [TU + ": get_or_create_mint_index"])
p("Finalizing a slot applies exactly its chain",
  "Finalizing a slot hands over, for each account, its newest version on the chain of that slot and its ancestors, nothing from other forks, and drops every pending version at or below the slot and nothing above it.",
  "all pending states, parent graphs, slots", "unbounded graphs", [TK + ": ProcessedAccountStore::finalize, update_slot_info"])
p("Pending reads follow commitment",
  "A read at processed returns the newest pending version above the confirmed slot, else what a confirmed read returns; a confirmed read returns the version on the chain of the confirmed slot nearest to it.",
  "all pending states", "unbounded graphs", [TK + ": get_accounts, get_confirmed_accounts"])
p("Pending reads terminate",
  "Reads of pending token accounts terminate for every recorded parent relation.",
  "all parent graphs", "cycles", [TK + ": get_confirmed_accounts"])
p("Token reads return the latest finalized state",
  "After a token program account is finalized (created, changed or closed) reading it at finalized returns exactly the last finalized state, and nothing once closed.",
  "all histories of token accounts, mints, multisigs", "all histories", [TK + ": add_account_finalized, get_account_finalized"])
p("Finalized token state never goes backwards",
  "A delivery with an older (slot, write version) never overwrites a newer finalized token account.",
  "all histories", "delivery orders", [TK + ": add_account_finalized, initilize_or_update_account"])
p("Token program queries return only matching accounts",
  "Every account returned by a token program query is owned by the queried program and satisfies all conditions of the query.",
  "all states and queries", "all states, all filters", [TK + ": get_program_accounts, get_program_accounts_finalized", TU + ": get_spl_token_owner_mint_filter"])
p("Token program queries by owner or mint are complete",
  "Every live token account with the queried owner (and mint) is in the answer at each commitment.",
  "all states and queries", "all histories", [TK + ": get_program_accounts_finalized, add_account_finalized"])
p("Token reads and queries never panic",
  "No sequence of operations makes a token read, query, slot notification or snapshot load panic.",
  "all operation sequences and queries", "all histories", [TK + ": get_account, get_program_accounts, process_slot_data, load_from_snapshot", TU + ": token_account_to_solana_account"])
p("Token snapshot round trip",
  "Loading a token program snapshot into an empty store makes it answer finalized reads and queries like the original; loading into a non-empty store does not change unrelated accounts.",
  "all states", "codec and index renumbering over unbounded state", [TK + ": create_snapshot, load_from_snapshot"])
# ---------------------------------------------------------------- dispatch
p("Dispatching storage: reads find what was stored",
  "With several storages behind a dispatcher, an account accepted by any of them is returned by a read through the dispatcher.",
  "all dispatch maps, all child storages, all iteration orders", "all orders and all implementations of the children", [SP + ": get_account, update_account"])
p("Dispatching storage: routing is consistent",
  "Initialisation, program queries and snapshots of one program all go to the same child; an update is accepted by at most one child; slot notifications reach every child and all their reports are returned.",
  "all dispatch maps, children, orders", "all implementations", [SP + ": initilize_or_update_account, get_program_accounts, process_slot_data, create_snapshot, load_from_snapshot"])
# ---------------------------------------------------------------- on demand
p("On-demand loading subscribes once and can be retried",
  "An account or program query that is not available is subscribed once; while the load is in progress no second subscription is made; and after a failed load a later request tries again.",
  "all request sequences, all behaviours of the source", "all failure points", [OD + ": get_account, get_program_accounts"])
p("On-demand answers are complete",
  "A program query answered successfully through on-demand loading is answered only after the program's snapshot was loaded, for every concurrent caller.",
  "all interleavings of two callers", "schedules", [OD + ": get_program_accounts"])
# ---------------------------------------------------------------- append vec
p("Stored accounts file is read back exactly",
  "Iterating a storage file produced by appending accounts yields exactly these accounts in order.",
  "all lists of accounts", "alignment and layout for all data lengths", [AV + ": get_account, new_from_reader", AM + ": append_vec_iter"])
p("Arbitrary storage files are handled safely",
  "For any file contents and any claimed length not above the file length, iterating never reads outside the file, makes progress and terminates; claimed lengths that do not fit are rejected.",
  "all byte strings, all offsets", "adversarial file contents", [AV + ": get_slice, get_type, get_account, sanitize_len_and_size"])
p("Truncated storage files are detected",
  "If the archive delivers fewer bytes than the storage file's recorded length, no account is produced that was not in the delivered bytes.",
  "all byte strings and lengths", "all truncation points", [AV + ": new_from_reader", AR + ": process_entry"])
p("Storage file names round trip",
  "Parsing the name written for (slot, id) yields exactly (slot, id); names outside the format are rejected.",
  "all slots, ids and all strings", "all strings", [AM + ": parse_append_vec_name"])
# ---------------------------------------------------------------- rpc
p("RPC context is honest",
  "A program accounts response with context carries a slot not older than any account in it, contains every stored matching account not older than the requested minimum context slot, and contains no older one.",
  "all storage answers and configurations", "all configurations", [RP + ": get_program_accounts, get_account_info"])
# ---------------------------------------------------------------- appended
p("Iteration order is unobservable",
  "Confirming or finalizing a slot gives the same account reads, program query answers and slot records, and the same reports up to order, whatever order the hash map of touched accounts is iterated in.",
  "all reachable states, slot notifications and iteration orders", "hash maps iterate in a random order; the number of orders grows factorially",
  [ST + ": process_slot_data"])
p("Concurrent calls keep the store consistent",
  "However update_account, process_slot_data and get_account calls of any number of threads interleave, no call panics, every account's views stay ordered by commitment and under its own key, and no view of an account that stays in the store goes back to an older version.",
  "all numbers of threads, all interleavings at lock operations, all filters", "schedules: a test runs one of them",
  [ST + ": update_account, process_slot_data, get_account"])
p("Dispatching storage follows owner changes",
  "Through a dispatcher, an account whose newest accepted version belongs to program P is returned by queries of P and no longer by queries of its former program.",
  "all dispatch maps, children and update sequences", "interactions of two children over all update sequences",
  [SP + ": update_account, get_program_accounts, initilize_or_update_account"])
p("A malformed request harms only itself",
  "A program query with an undecodable pattern fails or is refused without affecting other requests, later filters or account updates.",
  "all interleavings of calls, all patterns", "a poisoned lock shows up only in later, unrelated calls",
  [OD + ": get_program_accounts", MU + ": add_account_filter", FS + ": add_account_filter"])
p("Flags read from storage files are valid",
  "Every account produced from a storage file has an executable flag that is a valid boolean, whatever the file contains.",
  "all byte strings", "adversarial file contents: an invalid flag byte is undefined behaviour that a test run does not show",
  [AV + ": get_account, get_type"])
p("Extraction delivers exactly the listed storage files",
  "Opening an archive whose manifest precedes its storage files yields exactly the files the manifest lists, in archive order, each with its slot and its recorded length; unlisted storage files are errors; nothing else is taken for a storage file.",
  "all archives and manifests", "all entry orders and names", [AR + ": from_reader, unboxed_iter, process_entry"])
p("Snapshot loading keeps the newest version",
  "After loading an archive every token account reads as its version from the highest slot in the archive, and newer finalized updates received before are not lost.",
  "all archives, all orders of files, all interleavings with streamed updates", "an account occurs in several storage files; orders vary between archives",
  ["simulate_from_snapshot/src/main.rs: main", TK + ": initilize_or_update_account"])
p("RPC program queries honour their filters",
  "Every account in an RPC answer is stored at the requested commitment, is owned by the program and satisfies every filter of the request; a malformed filter is an error and no request panics.",
  "all store states, all requests", "all filters and states", [RP + ": get_program_accounts", AF + ": From<&RpcFilterType>"])
p("RPC context slots never go back",
  "Of two successive requests for the same account or program at the same commitment, the later answer does not carry an older context slot.",
  "all histories between two requests", "all histories", [RP + ": get_account_info, get_program_accounts"])
p("RPC answers show the stored account",
  "The data in an RPC answer is exactly the requested slice of the stored data in the requested encoding, and all other fields are as stored.",
  "all accounts and configurations", "all lengths and slices", [RP + ": convert_account_data_to_ui_account"])
p("Concurrent reads are atomic",
  "A read that overlaps updates and slot notifications returns the live version the store showed at one moment between its call and its return, or nothing if there was a moment without one.",
  "all numbers of threads, all interleavings at lock operations, all filters", "schedules: a test runs one of them",
  [ST + ": get_account, update_account, process_slot_data"])
p("Malformed filter configuration is reported as an error",
  "Deserializing a filter (or a list of filters) from text reports every malformed part (a text that is no public key, a condition that is none) as a deserialization error; it never aborts the caller.",
  "all texts", "the set of malformed texts is unbounded; tests deserialize only well-formed samples",
  ["common/src/account_filter.rs: Deserialize for AccountFilter"])
p("Every configured part of a filter takes effect or is reported",
  "A text accepted as a filter means what it says: accounts, program and conditions given in it are those of the filter, and nothing that was written to restrict or select is silently dropped.",
  "all texts and filters", "needs a characterisation of everything that is accepted, not samples",
  ["common/src/account_filter.rs: Deserialize for AccountFilter"])
p("Unpacked snapshots: every storage file is delivered or reported",
  "Iterating over an unpacked snapshot directory yields every storage file the manifest lists, with its slot and recorded length, and reports an error for every storage file that cannot be opened, is too short or is not listed; opening reports a missing status cache, directory or manifest.",
  "all directory contents and orders, all manifests", "directory order and the ways a file can be damaged are unbounded",
  ["simulate_from_snapshot/src/snapshot_utils/unpacked.rs: open, iter"])
p("Parallel loading consumes every storage file exactly once",
  "par_iter_append_vecs gives every storage file of the iterator to exactly one consumer, never runs more than the given number of consumers and no consumer for two files at a time, ends, and reports success only if every file was read and consumed without an error.",
  "all numbers of threads, all file lists, all interleavings of the tasks", "task schedules and positions of failures are unbounded",
  ["simulate_from_snapshot/src/snapshot_utils/parallel.rs: par_iter_append_vecs"])
p("The manifest's index of storage files is decoded exactly",
  "From a manifest as the validator writes it, the loader reads exactly the slots, file ids and lengths recorded in it, whatever follows it; a manifest cut short is an error and never a shorter index.",
  "all manifests, all positions of a cut", "contents and cut positions are unbounded",
  ["simulate_from_snapshot/src/snapshot_utils/solana.rs: deserialize_from, AccountsDbFields"])
p("Streamed accounts are served as reported",
  "An account received from the geyser stream is readable at processed with exactly the data, owner and slot the validator reported as soon as its message is consumed, and at finalized once its slot is reported finalized; other messages change nothing but what they report.",
  "all streams, all snapshots loaded before", "the order of messages and the encodings of payloads are unbounded",
  ["simulate_from_snapshot/src/main.rs: main (stream task)", "common/src/account_data.rs: Data::new"])
p("The token store never deadlocks",
  "Whatever threads call the token store concurrently (updates, initializations, reads, queries, slot notifications, snapshots, loads), some unfinished call can always proceed, and every execution ends with all calls returned and no lock held.",
  "all numbers of threads, all sequences of calls, all assignments of keys to map shards, all interleavings of lock operations", "lock interleavings and shard collisions of random keys cannot be enumerated",
  [TK + ": all methods", "token_account_storage/src/inmemory_token_account_storage.rs: all methods"])
p("Concurrent calls of the token store do not panic",
  "As long as the mint of a token account is known before the account is delivered, no mint is closed, data can be decoded, parents precede their slots and no snapshot is loaded at the same time, no interleaving of updates, initializations, slot notifications, reads and queries panics.",
  "all numbers of calls, all interleavings at lock granularity, all account contents", "the unwraps of one call depend on what other calls changed between two of its locks; schedules cannot be enumerated",
  [TK + ": all methods", "token_account_storage/src/inmemory_token_account_storage.rs: all methods"])
p("Every call of the token store ends",
  "Whatever other calls do in between, a call makes only finitely many steps, and under the conditions of C79 it returns an answer.",
  "all calls, all interleavings", "non-termination under a schedule cannot be observed by a test",
  [TK + ": all methods"])
p("Calls of the token store that do not overlap behave sequentially",
  "A call that runs while no other call is in progress leaves exactly the state, and returns exactly the answer, that the sequential reading of its code gives; every sequential history is one of the possible concurrent executions.",
  "all states, all calls", "needs all states; links everything shown about histories of calls to the concurrent store",
  [TK + ": all methods"])
p("Queries of the token store are complete after concurrent calls",
  "However the calls that delivered token accounts were interleaved: once none of them is under way, a query by owner, by owner and mint, or by mint returns exactly the accounts that finalized reads return with this owner and mint in their data, each once. (Keys of token accounts differ from other keys in their first four bytes, accounts keep their owner and mint, conditions as in C79.)",
  "all numbers of calls, all interleavings at lock granularity, all account contents", "the indices are updated at other locks than the rows; an entry lost in one schedule among many is not seen by tests",
  [TK + ": add_account_finalized, get_program_accounts_finalized", "token_account_storage/src/inmemory_token_account_storage.rs: save_or_update, delete"])
p("Finalized answers do not go back in slots",
  "If slot notifications do not overlap each other, then of two finalized reads or queries, one begun after the other has returned, the later one labels its accounts with no smaller slot, whatever other calls run.",
  "all numbers of calls, all interleavings", "check and store of the slot are separate atomics; the schedules between them cannot be enumerated",
  [TK + ": process_slot_data, get_account_finalized, get_program_accounts_finalized"])
p("Concurrent answers are delivered content",
  "Every account in the answer to a read or a query and in the list of finalized or confirmed accounts given to subscribers is content that some call delivered for exactly this key: never a mixture of two deliveries, never the content of another key, whatever calls run at the same time. (Conditions as in C79.)",
  "all numbers of calls, all interleavings, all account contents", "torn answers appear only in some schedules",
  [TK + ": get_account, get_program_accounts, process_slot_data"])
p("What has been returned stays returned",
  "An account that no call closes and that a read or a query has returned is returned by every later read at the same commitment and every later query with the same owner or mint, whatever calls run at the same time; later reads do not go back to older content.",
  "all numbers of calls, all interleavings, all account contents", "an account missing for the time between two locks is not seen by tests",
  [TK + ": get_account, get_program_accounts, process_slot_data, add_account_finalized"])
p("Calls of the account store that do not overlap behave sequentially",
  "A call of update_account, process_slot_data, get_account or get_program_accounts that runs while no other call is in progress leaves exactly the state, and returns exactly the answer, that the sequential reading of its code gives, panics included; every sequential history is one of the possible concurrent executions.",
  "all states, all calls, all filters", "needs all states; links everything shown about histories of calls to the concurrent store",
  ["account_storage/src/inmemory_account_store.rs: all methods"])
p("Program queries among other calls",
  "A program query that runs while updates, slot notifications and reads run does not panic. Every account it answers with was held by the store at the query's commitment at some moment between the call and the return, is owned by the program and meets the conditions; no account is answered twice; an account that is live, of the program and meets the conditions during the whole query is in the answer (if accounts keep their owner and the filters do not ask for closed accounts).",
  "all numbers of calls, all interleavings at lock granularity, all account contents and conditions", "the owner set and the entries are read at different moments; schedules cannot be enumerated",
  ["account_storage/src/inmemory_account_store.rs:294-347 get_program_accounts"])
p("A program query shows one moment",
  "The accounts that a program query or a snapshot returns are the ones the store shows at one moment between its call and its return.",
  "all numbers of calls, all interleavings", "a mixture of two moments appears only in some schedules",
  ["account_storage/src/inmemory_account_store.rs:294-347 get_program_accounts", "account_storage/src/inmemory_account_store.rs: create_snapshot"])
p("On an orderly stream every read shows the ledger",
  "Feed the store a stream in which slots are announced with their parents (forks allowed), accounts are written in announced slots not yet confirmed, confirmations and finalizations extend the confirmed and finalized branch, and confirmations skip slots only while the newest confirmed slot is not yet final. Then at every moment a read at processed, confirmed or finalized returns exactly the newest version of the account among those loaded at start-up and those written in slots that count (any slot, slots on the confirmed branch, slots on the finalized branch), or nothing if there is none or it is closed. The account is of interest to the filters throughout and, if it is closed, keeps its owner or is closed once and for all.",
  "all orderly streams of any length, all fork structures, all accounts, all commitments", "slot trees, jumps of confirmations and orders of writes cannot be enumerated",
  ["account_storage/src/inmemory_account_store.rs: update_account, process_slot_data, get_account", "account_storage/src/inmemory_account_store.rs:349-455 slot status walk"])
p("On an orderly stream every program query shows the ledger",
  "Feed the store a stream as in C89. Then at every moment a program query at processed, confirmed or finalized answers with each account once, with nothing but newest versions in the ledger of accounts of the program that meet the conditions, and with every such version that is live. (Accounts do not return to an owner they had, closed versions have another owner than live ones, the versions of an account differ in slot or write version.)",
  "all orderly streams of any length, all fork structures, all conditions, all commitments", "slot trees, owner changes and orders of writes cannot be enumerated",
  ["account_storage/src/inmemory_account_store.rs: get_program_accounts, update_owner_delete_if_necessary, process_slot_data"])
p("On an orderly stream notifications report the changes of the ledger",
  "Feed the store a stream as in C89. The accounts returned by process_slot_data for a confirmed or finalized slot are, each once, newest versions in the ledger at that commitment and come from a later slot than everything that counted before; and every account whose newest version at that commitment comes to count with the slot is among them (unless it has only ever been seen closed).",
  "all orderly streams of any length, all fork structures, jumps and commitments", "slot trees and skipped notifications cannot be enumerated",
  ["account_storage/src/inmemory_account_store.rs:349-455 process_slot_data"])
p("On an orderly stream every read of the token store shows the ledger",
  "Feed the token store a stream in which accounts are loaded first, every slot is confirmed as the child of the slot confirmed before it after something of it has reached the store, and confirmed slots are finalized in order (announcements optional, writes of other forks allowed). Then at every moment a read at processed, confirmed or finalized of a token account, mint or multisig returns owner and data of exactly the newest version among those loaded and those written in slots that count, or nothing if there is none or it is closed. (The account is of one kind whose bytes the store keeps (C41) and shares its first four bytes with no other; its mint is known; it leaves the token programs only when it is open in the finalized ledger.)",
  "all orderly streams of any length, all accounts, all commitments", "chains of slots, orders of writes and notifications cannot be enumerated",
  [TK + ": update_account, process_slot_data, get_account, get_account_finalized, add_account_finalized"])
p("On an orderly stream token queries by owner or mint show the ledger",
  "Feed the token store a stream as in C92. Then at every moment a query at processed, confirmed or finalized for the token accounts of an owner, of an owner and a mint, or of a mint is answered, with each account once, with nothing but newest open versions in the ledger at that commitment that belong to that owner and mint, and with every such version.",
  "all orderly streams of any length, all accounts, owners, mints and commitments", "chains of slots, orders of writes and notifications cannot be enumerated",
  [TK + ": get_program_accounts, get_program_accounts_finalized, add_account_finalized"])
p("On an orderly stream the token store reports the changes of the ledger",
  "Feed the token store a stream as in C92. The accounts returned by process_slot_data for a slot announced, confirmed for the first time or finalized contain each account at most once; about a token account, mint or multisig as in C92 they contain its newest version in the ledger at that commitment (owner, data, slot) if that version is open and did not count before the call, and nothing otherwise.",
  "all orderly streams of any length, all accounts, all commitments", "chains of slots, skipped finalizations and orders of writes cannot be enumerated",
  [TK + ": process_slot_data, get_processed_for_slot, finalize"])
p("The gauges of the account store count its accounts",
  "The gauge of accounts in memory equals the number of accounts in the store: it is never below the number of accounts that can be read, and equals the number of accounts delivered when none was closed or unwanted. The latest-slot gauge shows the slot of the last account delivered.",
  "all histories of calls, all sets of accounts", "gauges drift only after long histories with closes and unwanted accounts",
  ["account_storage/src/inmemory_account_store.rs:23-30,206,246", "account_storage/src/inmemory_account_store.rs: update_account, initilize_or_update_account"])
p("The gauges of the token store count its records",
  "Stored minus deleted equals the number of token accounts that can be read, the mint gauge the number of mints known, and the pending gauge the number of versions waiting for finalization; counting never changes what the store does.",
  "all histories of calls, all accounts", "the counts drift only with colliding keys, mints that are named before they arrive, and abandoned forks",
  [TK + ":91,105,189,375,389", "token_account_storage/src/inmemory_token_account_storage.rs:82,92,150"])
p("Memory of closed accounts",
  "The number of entries a store keeps for its accounts is bounded by the number of accounts, also when accounts are closed and opened again.",
  "all histories of calls", "growth without bound shows only over unbounded histories",
  ["account_storage/src/inmemory_account_store.rs:226-250", "token_account_storage/src/inmemory_token_account_storage.rs:60-155"])
p("Orderly token streams never panic",
  "Feed the token store a stream as in C92 whose account data can be read, in which every token account delivered belongs to a mint that is in the confirmed ledger by then, and the keys of mints carry only open mints, at most 2^32 of them. Then no call of the stream panics, every account can be read at every commitment, every query with decodable conditions about known mints is answered, and so is every further call that keeps the stream so.",
  "all orderly streams of any length, all accounts, all queries", "which versions are pending when a slot is confirmed depends on the whole history",
  [TK + ": update_account, process_slot_data, get_account, get_program_accounts", "token_account_storage/src/account_types.rs"])
p("On an orderly stream of which only a part is of interest the store shows that part of the ledger",
  "Configure a SimpleFilterStore and feed the account store with it a stream as in C89 that also delivers accounts and versions that no filter selects: accounts may never be of interest, come to be of interest later, and change their owner or be closed once while they are. Then a read at processed, confirmed or finalized returns the newest version in the ledger at that commitment (nothing if it is closed), or nothing if no version in the ledger is selected. A program query that is answered contains each account once, only newest versions of the ledger that match it, and all of them. The accounts reported for a slot are newest versions of the ledger at that commitment and did not count before, and every change of an account of interest is reported.",
  "all configurations, all orderly streams of any length, all accounts, queries and commitments", "which versions are kept depends on filters and order of delivery, which cannot be enumerated",
  [ST + ": update_account, get_account, get_program_accounts, process_slot_data", "common/src/simple_filter_store.rs: satisfies, contains_filter"])
p("The server answers from the snapshot archive and the stream what the ledger says",
  "Start the server of main.rs with a snapshot archive, feed it messages in order (accounts of a slot before the slot is confirmed, slots confirmed parent by child and finalized in order, anything else in between), and send it requests. The server never panics, getAccountInfo for a token account answers with the newest version of the account at the requested commitment that the archive and the messages describe, or with nothing when there is none or it is closed; getProgramAccounts for the token program with an owner and/or a mint in its memcmp filters and data size 165 answers each account at most once, with its newest version, open and of that owner and mint, and leaves out no such account that is open in the finalized ledger; the data is encoded and cut as requested.",
  "all archives, all streams of any length, all accounts, requests, encodings and commitments", "the answers depend on the whole archive and the whole stream through five layers of code, which tests cover one layer and a few messages at a time",
  ["simulate_from_snapshot/src/main.rs: main", RP + ": get_account_info, get_program_accounts", AV + ": append_vec_iter", TS + ": update_account, process_slot_data, initilize_or_update_account, get_account, get_program_accounts"])
p("A store started from a snapshot and the rest of the stream shows the ledger",
  "Feed an account store an orderly stream (C89), take a snapshot of a program when slot f is its finalized slot, load it into a fresh store and feed that store the stream from a child of f on, as far as it hears of it. Then a read of the fresh store returns nothing but the newest version in the ledger at the requested commitment, and it returns that version if it is open and belongs to the program or was written after f. Program queries contain each account once, only newest versions, and all of those accounts that match. At processed this needs that the fresh store heard of every slot that f does not settle.",
  "all orderly streams of any length, all moments of the snapshot, all programs, accounts, queries and commitments", "the two stores see different histories of unbounded length, and only the comparison with the ledger shows that nothing fell between snapshot and stream",
  [ST + ": create_snapshot, load_from_snapshot, initilize_or_update_account, update_account, process_slot_data, get_account, get_program_accounts"])
p("Accounts loaded while the stream is running do not disturb what the store shows",
  "Feed an account store an orderly stream (C89) and, in between, load accounts with initilize_or_update_account at any time: versions older than the first slot of the stream, or again versions of finalized slots. Then reads at processed, confirmed and finalized, program queries and the accounts reported for a slot are as in C89, C90 and C91 for the ledger with the loaded versions, for accounts that are of interest and are not closed before they are loaded.",
  "all orderly streams of any length with loads at any moment, all accounts, queries and commitments", "loads interleave with writes, forks and confirmations in ways that cannot be enumerated",
  [ST + ": initilize_or_update_account, update_account, process_slot_data, get_account, get_program_accounts"])
p("A snapshot fetched over RPC is the storage's snapshot",
  "getSnapshot answers with the bytes of the storage's snapshot of the program whose key is the parameter, with an error exactly when the storage gives one, and with an invalid parameter error exactly when the parameter is not the base58 text of a key. Loading the bytes into an empty storage of the same kind gives a storage that answers for the program as the original does at finalized.",
  "all storages, all histories of calls, all parameters", "all texts and all contents of a storage have to be considered",
  [RP + ": get_snapshot", ST + ": create_snapshot, load_from_snapshot", TK + ": create_snapshot, load_from_snapshot"])
p("A store that listens first and loads a snapshot while it is listening shows the ledger",
  "Let an account store follow an orderly stream (C89) from some slot on, load into it, while the stream is running, a snapshot of a program that another store took of the same ledger, and let the stream go on. Then a read returns nothing but the newest version in the ledger at the requested commitment, and it returns that version if it is open and belongs to the program or was heard of; program queries contain each account once, only newest versions, and all of those accounts that match.",
  "all orderly streams of any length, all moments of subscription, snapshot and load, all programs, accounts, queries and commitments", "snapshot, stream and load overlap in ways that cannot be enumerated; a missing slot shows only for accounts written in it",
  [ST + ": create_snapshot, load_from_snapshot, initilize_or_update_account, update_account, process_slot_data, get_account, get_program_accounts", OD + ": get_account, get_program_accounts"])
p("The answer of update_account tells whether anything changed",
  "update_account answers true exactly if the delivery was taken over: after the answer false every read, program query and snapshot gives the answer it would have given before the call, and after the answer true the delivered version is shown or kept for its slot.",
  "all reachable stores of both kinds, all accounts, commitments, filters, slots and write versions", "the answer is derived from three comparisons whose outcome depends on the whole history of the account; a wrong answer needs a particular order of commitments and write versions",
  [BC + ": update", ST + ": update_account", TK + ": update_account, insert_account, add_account_finalized", TU + ": get_token_program_account_type"])
p("Every storage behind the dispatcher is in the state its share of the calls puts it in",
  "Register storages for programs with StorageByProgramId and make any sequence of update_account, initilize_or_update_account, process_slot_data and load_from_snapshot calls to it. Then each registered storage is in the state it would be in had it alone been given, in the same order, all slot notifications, the initialisations and loads for which it is responsible, and the updates that no storage before it accepted; no other storage changes. A token storage that is visited first answers reads and queries through the dispatcher as it would alone, so that with an orderly stream (C92) reads through the dispatcher show the ledger.",
  "all sets of registered storages, all sequences of calls of any length, all accounts, programs, snapshots and commitments", "which storage gets a call depends on what the others answer, and that on all calls before",
  ["account_storage/src/storage_by_program_id.rs: update_account, initilize_or_update_account, process_slot_data, load_from_snapshot, get_account, get_program_accounts", TK + ": update_account, initilize_or_update_account, get_account"])
p("A client that parses the JSON of an answer gets the account",
  "The result of getAccountInfo, getProgramAccounts and getSnapshot is a JSON text of exactly one value. For getAccountInfo it is an object with the slot of the account under context and, under value, null if the storage has no such account, else an object with its lamports, owner (base58 text of the key), executable, rentEpoch, space (the length of the whole data) and the requested part of the data as base64 text with the name of the encoding; base58 likewise up to 128 bytes. For getProgramAccounts it is an array of objects with the key and such an account for each account of the storage's answer, with the slot of the newest account if context is asked for. On an orderly stream (C89) what the client reads is the ledger.",
  "all storages, requests, accounts, data of any length, slices and commitments; all orderly streams for the last part", "the text depends on every byte of every account; tests compare single answers",
  [RP + ": get_account_info, get_program_accounts, get_snapshot, convert_account_data_to_ui_account"])
p("The order in which account updates arrive does not matter",
  "Give an account store a batch of account updates at processed (or all at confirmed) between two slot notifications, each for an account that is tracked or wanted, in slots not known at another level, where slot and write version tell the versions of an account apart. Then for any other order of the batch no caller can tell the two resulting stores apart: every later sequence of reads, updates, slot notifications and loads, under any filters, gets the same answers, with the reported accounts of a slot the same up to order. If no account of the batch changes its owner, this holds for program queries and snapshots as well.",
  "all reachable stores, all batches of any length and all their permutations, all later histories of any length", "the permutations of a batch and the continuations cannot be enumerated, and internally the two stores do differ (entries are numbered by arrival)",
  [ST + ": update_account, add_account_owner, maybe_update_slot_status, process_slot_data, get_account, get_program_accounts", BC + ": update, promote_slot_commitment"])
p("Account updates and slot notifications may overtake each other",
  "Account updates and slot notifications reach an account store over separate channels. Let an update at processed be for a slot that is not known above processed and that a processed or confirmed slot notification does not look at (neither the announced slot nor one of the ancestors it commits, nor the parent at which it stops) - in particular for a newer slot. Then it makes no difference which of the two comes first: the update gets the same answer, the notification reports the same accounts, and every later sequence of reads, queries, snapshots, updates, notifications and loads gets the same answers. The same holds for a notification and any number of such updates. For a finalized notification and an update of a newer slot it holds too when the notification does not remove the account and does not take its finalized version away from the owner the update names; without the last condition it still holds for everything but program queries and snapshots.",
  "all reachable stores, all updates, notifications, filters, numbers of updates and all later histories of any length", "the interleavings of two channels and the continuations cannot be enumerated; a difference shows only in later answers",
  [ST + ": update_account, process_slot_data, maybe_update_slot_status, update_owner_delete_if_necessary", BC + ": update, promote_slot_commitment"])
p("The order in which a token store hears of things does not matter",
  "Let the account updates below finalized that reach a token store name only mints the store has numbered, and let slot and write version tell the versions of an account apart. Then the store is in the same state whatever the order of the updates. An update also commutes with a processed or confirmed notification of another slot, with a processed notification of its own slot if something of that slot was heard before, and - for an account owned by a token program whose mint the notification does not close - with a finalized notification of an older slot: the update gets the same answer, the notification reports the same accounts, and the store ends in the same state; or the calls panic in both orders.",
  "all histories (snapshot loads included), all batches of any length and all their permutations, all notifications and orders of enumeration", "the permutations of a batch and the interleavings with notifications cannot be enumerated",
  ["token_account_storage/src/inmemory_token_storage.rs: update_account, process_slot_data, ProcessedAccountStore::insert_account, update_slot_info, get_processed_for_slot, finalize"])
p("The numbers a token store gives to mints cannot be noticed",
  "Let updates below finalized of accounts owned by a token program reach a token store, whether or not it has seen their mints before, and let slot and write version tell the versions of an account apart. In another order the mints get other numbers, but no caller can tell: every later sequence of updates, initialisations and slot notifications gets the same answers (the accounts of a report up to order), every read returns the same, program queries by owner or by mint return the same list, and any program query at any commitment, the listing of all mints included, returns the same accounts up to order. (As long as the calls in the first order do not panic and no more than 2^32 mint numbers are given out.) Such an update and a processed or confirmed notification of another slot may also overtake each other: the same answer, the same report, the same state.",
  "all histories before (without loads, for the batches), all batches of any length and all their permutations, all later sequences of calls other than loads", "the permutations of a batch and the continuations cannot be enumerated, and internally the stores do differ; a number that leaked would show only in some later answer",
  ["token_account_storage/src/token_program_utils.rs: get_or_create_mint_index, get_token_program_account_type", TK + ": update_account, initilize_or_update_account, process_slot_data, get_account, get_program_accounts"])
p("What a token store hears twice",
  "An update below finalized of an account owned by a token program that reaches a token store again - any time before something is finalized, at the same or another commitment below finalized, whatever other updates and notifications below finalized came in between - changes nothing and is answered with false. The same holds with any other calls in between, loads and finalized notifications of older slots included, if parents come before their slots and the account's mint still has a number. A confirmed notification heard again changes nothing and reports the same accounts again. A finalized notification heard again changes nothing and reports nothing. A processed notification heard again changes nothing if something of the slot was known before the first. An update at finalized heard again changes nothing unless it is the close of a mint.",
  "all reachable stores, all updates, notifications, calls in between of any number, and orders of enumeration", "the histories before and between the two deliveries cannot be enumerated, and that nothing changed shows only in all later answers",
  [TK + ": update_account, process_slot_data, add_account_finalized, ProcessedAccountStore::insert_account, update_slot_info, get_processed_for_slot, finalize", "token_account_storage/src/inmemory_token_account_storage.rs: save_or_update, delete"])
p("A token store may hear every update at least once, in any order",
  "Let two streams of account updates below finalized carry the same updates of accounts owned by a token program, each at least once: the order, the number of times each is delivered and the commitment below finalized may all differ. Let slot and write version tell the versions of an account apart. Then two token stores that start from the same state and hear one stream each cannot be told apart: every later sequence of updates, initialisations and slot notifications gets the same answers (the accounts of a report up to order), and reads and program queries return the same accounts. This holds as long as the calls of the first stream and its continuation do not panic and the store has not given out more than 2^32 mint numbers.",
  "all histories before without loads, all pairs of streams of any length with the same set of updates, all later sequences of calls other than loads", "neither the orders nor the numbers of repetitions nor the continuations can be enumerated, and internally the stores do differ",
  [TK + ": update_account, ProcessedAccountStore::insert_account", "token_account_storage/src/token_program_utils.rs: get_or_create_mint_index"])
p("An account store may hear every update at least once, in any order",
  "Between two slot notifications let an account store hear a batch of account updates at processed (or all at confirmed) under one filter, each for an account that is tracked or wanted, in slots not known at another level, where slot and write version tell the versions of an account apart. If another batch carries the same updates, each at least once, in any order and number, then no caller can tell the two resulting stores apart by reads, updates, slot notifications and loads, under any filters. If no account of the batch changes its owner, this holds for program queries and snapshots as well. An update heard again later in the batch is answered with false and leaves the store as it is, also under other filters.",
  "all reachable stores, all pairs of batches of any length with the same set of updates, all later histories of any length", "neither the orders nor the numbers of repetitions nor the continuations can be enumerated, and internally the two stores do differ",
  [ST + ": update_account, maybe_update_slot_status, add_account_index_to_slot_status", BC + ": update"])
with open(os.path.join(os.path.dirname(__file__), "..", "properties.jsonl"), "w") as f:
    for x in P: f.write(json.dumps(x) + "\n")
print(len(P))
