{"id": "C01", "title": "Admission is exactly the union of the configured filters", "statement": "After any sequence of filter additions, an account is admitted if and only if some added filter lists its pubkey, or some added filter names its owner program and every data condition of that same filter holds on the account's uncompressed data.", "quantifier": "all sequences of added filter batches, all accounts, all byte encodings of the memcmp patterns (arbitrary decoders)", "why_tests_cant": "the filter configuration and the account bytes are unbounded; the implementation collapses filters per program into a different data structure, so only a proof relates the collapsed form to the configuration for every order of additions", "anchors": ["common/src/simple_filter_store.rs: add_account_filters, add_account_filter, satisfies_filter", "common/src/mutable_filter_store.rs: satisfies", "common/src/account_filter.rs: AccountFilterType::allows"]}
{"id": "C02", "title": "A query reported as covered really is covered", "statement": "If the filter store answers that it contains a query, then every account that matches the query is admitted by the store (so answering the query from the local store cannot silently miss accounts).", "quantifier": "all filter configurations, all queries, all accounts", "why_tests_cant": "coverage is an implication over every possible account; the check is a syntactic comparison of filter lists", "anchors": ["common/src/simple_filter_store.rs: contains_filter_internal", "account_storage/src/inmemory_account_store.rs: get_program_accounts", "accounts_on_demand/src/accounts_on_demand.rs: get_program_accounts"]}
{"id": "C03", "title": "Adding filters never withdraws coverage", "statement": "Adding further filters never makes a previously admitted account rejected, nor a previously contained query or account not contained.", "quantifier": "all configurations, all added batches, all accounts and queries", "why_tests_cant": "needs every pair of before/after configurations", "anchors": ["common/src/simple_filter_store.rs: add_account_filter", "common/src/mutable_filter_store.rs: add_account_filters"]}
{"id": "C04", "title": "An added filter is reported as contained", "statement": "Right after a filter was added, asking whether the store contains that same filter answers yes, whatever encoding its memcmp patterns use.", "quantifier": "all configurations and all filters", "why_tests_cant": "the stored form is normalised on some paths and not on others; depends on the history of additions", "anchors": ["common/src/simple_filter_store.rs: add_account_filter, contains_filter_internal", "accounts_on_demand/src/accounts_on_demand.rs: get_program_accounts"]}
{"id": "C05", "title": "Memcmp conditions mean the same in every encoding", "statement": "A memcmp condition holds iff the decoded pattern equals the data bytes starting at the offset; out-of-range patterns never match and never panic; raw, base58 and base64 patterns with the same decoded bytes accept exactly the same data.", "quantifier": "all offsets (full usize range), patterns, data, decoders", "why_tests_cant": "offset arithmetic near the integer limit and every data length", "anchors": ["common/src/account_filter.rs: MemcmpFilter::bytes_match, AccountFilterType::allows"]}
{"id": "C06", "title": "The exclusion store is the exact complement and its coverage answer is sound", "statement": "An exclusion filter store admits exactly the accounts its inner store rejects, and if it answers that it contains a query then every account matching the query is admitted.", "quantifier": "all inner configurations, queries and accounts", "why_tests_cant": "negating a sound coverage check is not a sound coverage check of the complement; needs all accounts", "anchors": ["common/src/except_filter_store.rs: satisfies, contains_filter"]}
{"id": "C07", "title": "RPC filter conversion preserves meaning", "statement": "Converting a filter to the RPC representation and back, or evaluating the RPC representation directly, accepts exactly the same account data as the original filter.", "quantifier": "all filters and all account data", "why_tests_cant": "equality of predicates over unbounded data", "anchors": ["common/src/account_filter.rs: get_rpc_filter, From<&RpcFilterType>", "common/src/account_data.rs: AccountData::allows"]}
{"id": "C08", "title": "Filter configuration survives JSON serialization", "statement": "Serializing an account filter and deserializing the result yields the same filter.", "quantifier": "all filters", "why_tests_cant": "unbounded nested structures", "anchors": ["common/src/account_filter.rs: Serialize/Deserialize for AccountFilter"]}
{"id": "C09", "title": "Compression is transparent", "statement": "An account stored with any compression method and level reads back with exactly the original bytes and length, and data-size and memcmp conditions give the same answers as on the uncompressed account.", "quantifier": "all byte strings, all compression methods and levels, any lossless codec", "why_tests_cant": "all byte strings", "anchors": ["common/src/account_data.rs: Data::new, Data::len, Data::data, Account::from_solana_account, to_solana_account"]}
{"id": "C10", "title": "Commitment ladder of one account", "statement": "For one account, after any sequence of updates and slot promotions the finalized version exists only if a confirmed version exists, the finalized slot is not ahead of the confirmed slot and the confirmed slot is not ahead of the processed slot.", "quantifier": "all operation sequences of any length, all slots and write versions", "why_tests_cant": "safety invariant over unbounded histories", "anchors": ["account_storage/src/account_data_by_commitment.rs: update, promote_slot_commitment, initialize, new"]}
{"id": "C11", "title": "Versions never go backwards", "statement": "For one account, each commitment level's (slot, write version) never decreases under updates and promotions.", "quantifier": "all operation sequences, all commitment levels", "why_tests_cant": "needs every state and every operation", "anchors": ["account_storage/src/account_data_by_commitment.rs: update, promote_slot_commitment"]}
{"id": "C12", "title": "Delivery order does not matter", "statement": "Versions of one account delivered with distinct (slot, write version) give the same readable versions at every commitment in whatever order they arrive: at each commitment the greatest (slot, write version) delivered at that commitment or stronger wins.", "quantifier": "all finite sets of updates and all their permutations", "why_tests_cant": "factorially many orders, unbounded many updates", "anchors": ["account_storage/src/account_data_by_commitment.rs: update, get_account_data"]}
{"id": "C13", "title": "Promotion publishes exactly the data of that slot", "statement": "Promoting a slot for an account publishes the newest write seen for that account in that slot unless the published version is already from the same or a newer slot; reports a change exactly when the published version changed; and never discards the newest processed version.", "quantifier": "all account histories, slots and commitments", "why_tests_cant": "unbounded histories", "anchors": ["account_storage/src/account_data_by_commitment.rs: promote_slot_commitment"]}
{"id": "C14", "title": "Filtered read agrees with unfiltered read", "statement": "Reading with data conditions returns the same version as reading without, with its data uncompressed, exactly when all the conditions hold on that data, and nothing otherwise.", "quantifier": "all versions, all lists of conditions, all compressions", "why_tests_cant": "unbounded data and condition lists", "anchors": ["account_storage/src/account_data_by_commitment.rs: get_account_data_filtered"]}
{"id": "C15", "title": "The account store never panics", "statement": "No sequence of updates, initialisations, slot notifications, queries and snapshot loads can make the account store panic (index out of bounds or failed assertion).", "quantifier": "all operation sequences and all filter answers (which may change over time)", "why_tests_cant": "index consistency over unbounded histories", "anchors": ["account_storage/src/inmemory_account_store.rs: update_account, process_slot_data, update_owner_delete_if_necessary, get_program_accounts"]}
{"id": "C16", "title": "Reads at stronger commitments are not ahead of weaker ones", "statement": "If reading an account at a stronger commitment returns a version, then reading it at a weaker commitment at the same moment returns a version from the same or a later slot (or the account has been closed there).", "quantifier": "all operation sequences, all accounts, all pairs of commitments", "why_tests_cant": "safety invariant over unbounded histories", "anchors": ["account_storage/src/inmemory_account_store.rs: get_account, update_account, process_slot_data"]}
{"id": "C17", "title": "Reads of a tracked account never go back in time", "statement": "While an account stays tracked, the slot returned at each commitment never decreases from one moment to the next.", "quantifier": "all operation sequences, accounts, commitments", "why_tests_cant": "two-state property over unbounded histories", "anchors": ["account_storage/src/inmemory_account_store.rs: get_account, account_store_contains_key"]}
{"id": "C18", "title": "Accounts do not interfere", "statement": "Updating one account changes no other account's version at any commitment, nor its presence in program queries.", "quantifier": "all states, all updates, all other accounts", "why_tests_cant": "needs all states and all pairs of accounts", "anchors": ["account_storage/src/inmemory_account_store.rs: update_account"]}
{"id": "C19", "title": "Unwanted accounts leave no trace", "statement": "An update for an account that is neither tracked nor admitted by the filters is refused and changes nothing; conversely an admitted account that was not tracked is accepted and readable at the commitment delivered.", "quantifier": "all reachable states, all updates", "why_tests_cant": "needs all states", "anchors": ["account_storage/src/inmemory_account_store.rs: update_account, initilize_or_update_account"]}
{"id": "C20", "title": "Program queries are sound", "statement": "Every account returned by a program query is owned by the program at the queried commitment, satisfies every data condition of the query and equals what reading that account at that commitment gives (data uncompressed).", "quantifier": "all reachable states, programs, conditions and commitments", "why_tests_cant": "unbounded state", "anchors": ["account_storage/src/inmemory_account_store.rs: get_program_accounts, get_account_with_filtering_from_lock"]}
{"id": "C21", "title": "Program queries return each account once", "statement": "No pubkey appears twice in the answer to a program query.", "quantifier": "all reachable states and queries", "why_tests_cant": "needs an injectivity invariant over histories", "anchors": ["account_storage/src/inmemory_account_store.rs: get_program_accounts"]}
{"id": "C22", "title": "Program queries are complete", "statement": "Every tracked account whose version at the queried commitment is owned by the program, is alive and satisfies the conditions is in the answer.", "quantifier": "all reachable states, programs, conditions, commitments", "why_tests_cant": "the owner index must be right after every history", "anchors": ["account_storage/src/inmemory_account_store.rs: get_program_accounts, add_account_owner, update_owner_delete_if_necessary"]}
{"id": "C23", "title": "Closed accounts are never served", "statement": "An account version with zero lamports is never returned by account reads or by program queries.", "quantifier": "all reachable states and queries", "why_tests_cant": "all histories", "anchors": ["account_storage/src/inmemory_account_store.rs: get_account, get_account_with_filtering_from_lock, create_snapshot"]}
{"id": "C24", "title": "Committing a slot commits its ancestors", "statement": "When a slot is confirmed or finalized, every account written in that slot or in an ancestor slot not yet so committed is readable at that commitment with a version at least as new as its newest write on that chain.", "quantifier": "all reachable states, all chains of any length", "why_tests_cant": "unbounded chain length", "anchors": ["account_storage/src/inmemory_account_store.rs: process_slot_data", "account_storage/src/account_data_by_commitment.rs: promote_slot_commitment"]}
{"id": "C25", "title": "Abandoned forks are never committed", "statement": "Confirming or finalizing a slot changes a confirmed or finalized version only to a version written in that slot or one of its ancestors.", "quantifier": "all reachable states, fork shapes, slot notifications", "why_tests_cant": "unbounded fork shapes", "anchors": ["account_storage/src/inmemory_account_store.rs: process_slot_data"]}
{"id": "C26", "title": "Redelivery is harmless", "statement": "Delivering the same account update twice, or the same slot notification twice, has the same effect as delivering it once, and the second delivery reports nothing new.", "quantifier": "all reachable states, updates and notifications", "why_tests_cant": "all states", "anchors": ["account_storage/src/inmemory_account_store.rs: update_account, process_slot_data"]}
{"id": "C27", "title": "Slot notifications report exactly what changed", "statement": "The list returned when a slot is confirmed or finalized contains exactly the new versions of the accounts whose version at that commitment changed, once each.", "quantifier": "all reachable states and notifications", "why_tests_cant": "all states", "anchors": ["account_storage/src/inmemory_account_store.rs: process_slot_data"]}
{"id": "C28", "title": "Slot processing terminates and bounds history", "statement": "Processing a slot notification terminates whatever parent links are recorded (cycles included), and after a slot is finalized no bookkeeping for older slots remains.", "quantifier": "all reachable states, all parent graphs", "why_tests_cant": "termination for every graph", "anchors": ["account_storage/src/inmemory_account_store.rs: process_slot_data"]}
{"id": "C29", "title": "Snapshot round trip", "statement": "Loading a program's snapshot into an empty store with the same filters makes that store answer finalized account reads and program queries exactly as the original did, and malformed snapshot bytes are reported as an error without touching the store.", "quantifier": "all reachable states, all byte strings", "why_tests_cant": "binary codec over unbounded data", "anchors": ["account_storage/src/inmemory_account_store.rs: create_snapshot, load_from_snapshot", "common/src/account_data.rs: AccountData serde"]}
{"id": "C30", "title": "Closing and re-creating accounts", "statement": "Once the closing of an account (zero lamports, owner changed) is finalized the account is gone at every commitment; an account re-created after the close and before its finalization is not lost.", "quantifier": "all reachable states and orders of close, re-create and finalize", "why_tests_cant": "interaction of three asynchronous events", "anchors": ["account_storage/src/inmemory_account_store.rs: update_owner_delete_if_necessary, process_slot_data"]}
{"id": "C31", "title": "Late deliveries of old versions are harmless", "statement": "Delivering a version that is older than the finalized one changes neither what the account reads as at any commitment nor whether program queries find it.", "quantifier": "all reachable states and stale updates", "why_tests_cant": "all histories", "anchors": ["account_storage/src/inmemory_account_store.rs: update_account, load_from_snapshot"]}
{"id": "C32", "title": "Writes arriving after their slot was committed are served at that commitment", "statement": "If a slot has already been confirmed or finalized, an admitted update for that slot delivered at a weaker commitment is readable at the slot's commitment.", "quantifier": "all reachable states, tracked and new accounts", "why_tests_cant": "order of notification and update", "anchors": ["account_storage/src/inmemory_account_store.rs: maybe_update_slot_status, add_account_index_to_slot_status, update_account"]}
{"id": "C33", "title": "An update delivered at a commitment is readable at that commitment", "statement": "After an update delivered as confirmed or finalized is accepted, reading the account at that commitment gives that version or a newer one.", "quantifier": "all reachable states and updates", "why_tests_cant": "depends on the recorded slot state", "anchors": ["account_storage/src/inmemory_account_store.rs: update_account, add_account_index_to_slot_status"]}
{"id": "C34", "title": "The last write of a slot wins when the slot is committed", "statement": "When a slot is confirmed or finalized, an account written in it reads at that commitment as the write with the greatest write version in that slot.", "quantifier": "all reachable states, write orders", "why_tests_cant": "order of deliveries", "anchors": ["account_storage/src/account_data_by_commitment.rs: promote_slot_commitment", "account_storage/src/inmemory_account_store.rs: process_slot_data"]}
{"id": "C35", "title": "Abandoned forks leave the processed view", "statement": "Once a slot is finalized, the processed view of an account no longer shows a version from a slot at or below it that is not on the finalized chain.", "quantifier": "all reachable states and fork shapes", "why_tests_cant": "fork shapes", "anchors": ["account_storage/src/account_data_by_commitment.rs: get_account_data, promote_slot_commitment"]}
{"id": "C36", "title": "No lost promotion under concurrency", "statement": "With updates and slot notifications running on different threads, every update accepted for a slot is readable at the commitment of that slot once both calls have returned.", "quantifier": "all interleavings of the atomic steps of one update and one slot notification", "why_tests_cant": "schedules", "anchors": ["account_storage/src/inmemory_account_store.rs: update_account, process_slot_data"]}
{"id": "C37", "title": "No deadlock", "statement": "Concurrent calls of the account store's operations always make progress: no interleaving blocks them forever on each other's locks.", "quantifier": "all interleavings of lock acquisitions of any number of concurrent calls", "why_tests_cant": "schedules", "anchors": ["account_storage/src/inmemory_account_store.rs: update_account, process_slot_data, get_program_accounts, get_account"]}
{"id": "C38", "title": "Packed token account round trip", "statement": "Unpacking a packed token account yields the same token account, for every combination of optional fields and any extension data below 4 GiB.", "quantifier": "all token accounts with fields in machine range", "why_tests_cant": "2^k combinations times unbounded extension data", "anchors": ["token_account_storage/src/account_types.rs: TokenAccount::to_bytes, from_bytes"]}
{"id": "C39", "title": "Field peeking agrees with full unpacking", "statement": "Reading pubkey, owner or mint index directly from the packed bytes, or testing program and deleted flag as the snapshot does, gives the value full unpacking would give.", "quantifier": "all token accounts", "why_tests_cant": "all layouts", "anchors": ["token_account_storage/src/account_types.rs: get_pubkey_from_binary, get_owner_from_binary, get_mint_index_from_binary", "token_account_storage/src/inmemory_token_account_storage.rs: create_snapshot"]}
{"id": "C40", "title": "Token account table behaves as a map from pubkeys", "statement": "The token account table behaves as a finite map keyed by the full pubkey: a saved account is found under its pubkey, updates keep its position, and saving or deleting one pubkey never affects another.", "quantifier": "all operation sequences, all pubkeys including those sharing their first four bytes", "why_tests_cant": "needs pubkeys colliding on the short key and all histories", "anchors": ["token_account_storage/src/inmemory_token_account_storage.rs: contains, save_or_update, get_by_pubkey, delete", "common/src/pubkey_container_utils.rs: PartialPubkey"]}
{"id": "C41", "title": "Token program data survives storage", "statement": "A token account, mint or multisig stored and read back has byte-identical data, and the same lamports, owner, executable flag and rent epoch.", "quantifier": "all account contents the token program can produce", "why_tests_cant": "all field combinations", "anchors": ["token_account_storage/src/token_program_utils.rs: get_token_program_account_type, token_program_account_to_solana_account"]}
{"id": "C42", "title": "Mint indices are stable and unique", "statement": "Every mint pubkey keeps the index it was first given and distinct mints never share an index.", "quantifier": "all histories of lookups", "why_tests_cant": "all histories", "anchors": ["token_account_storage/src/token_program_utils.rs: get_or_create_mint_index"]}
{"id": "C43", "title": "Finalizing a slot applies exactly its chain", "statement": "Finalizing a slot hands over, for each account, its newest version on the chain of that slot and its ancestors, nothing from other forks, and drops every pending version at or below the slot and nothing above it.", "quantifier": "all pending states, parent graphs, slots", "why_tests_cant": "unbounded graphs", "anchors": ["token_account_storage/src/inmemory_token_storage.rs: ProcessedAccountStore::finalize, update_slot_info"]}
{"id": "C44", "title": "Pending reads follow commitment", "statement": "A read at processed returns the newest pending version above the confirmed slot, else what a confirmed read returns; a confirmed read returns the version on the chain of the confirmed slot nearest to it.", "quantifier": "all pending states", "why_tests_cant": "unbounded graphs", "anchors": ["token_account_storage/src/inmemory_token_storage.rs: get_accounts, get_confirmed_accounts"]}
{"id": "C45", "title": "Pending reads terminate", "statement": "Reads of pending token accounts terminate for every recorded parent relation.", "quantifier": "all parent graphs", "why_tests_cant": "cycles", "anchors": ["token_account_storage/src/inmemory_token_storage.rs: get_confirmed_accounts"]}
{"id": "C46", "title": "Token reads return the latest finalized state", "statement": "After a token program account is finalized (created, changed or closed) reading it at finalized returns exactly the last finalized state, and nothing once closed.", "quantifier": "all histories of token accounts, mints, multisigs", "why_tests_cant": "all histories", "anchors": ["token_account_storage/src/inmemory_token_storage.rs: add_account_finalized, get_account_finalized"]}
{"id": "C47", "title": "Finalized token state never goes backwards", "statement": "A delivery with an older (slot, write version) never overwrites a newer finalized token account.", "quantifier": "all histories", "why_tests_cant": "delivery orders", "anchors": ["token_account_storage/src/inmemory_token_storage.rs: add_account_finalized, initilize_or_update_account"]}
{"id": "C48", "title": "Token program queries return only matching accounts", "statement": "Every account returned by a token program query is owned by the queried program and satisfies all conditions of the query.", "quantifier": "all states and queries", "why_tests_cant": "all states, all filters", "anchors": ["token_account_storage/src/inmemory_token_storage.rs: get_program_accounts, get_program_accounts_finalized", "token_account_storage/src/token_program_utils.rs: get_spl_token_owner_mint_filter"]}
{"id": "C49", "title": "Token program queries by owner or mint are complete", "statement": "Every live token account with the queried owner (and mint) is in the answer at each commitment.", "quantifier": "all states and queries", "why_tests_cant": "all histories", "anchors": ["token_account_storage/src/inmemory_token_storage.rs: get_program_accounts_finalized, add_account_finalized"]}
{"id": "C50", "title": "Token reads and queries never panic", "statement": "No sequence of operations makes a token read, query, slot notification or snapshot load panic.", "quantifier": "all operation sequences and queries", "why_tests_cant": "all histories", "anchors": ["token_account_storage/src/inmemory_token_storage.rs: get_account, get_program_accounts, process_slot_data, load_from_snapshot", "token_account_storage/src/token_program_utils.rs: token_account_to_solana_account"]}
{"id": "C51", "title": "Token snapshot round trip", "statement": "Loading a token program snapshot into an empty store makes it answer finalized reads and queries like the original; loading into a non-empty store does not change unrelated accounts.", "quantifier": "all states", "why_tests_cant": "codec and index renumbering over unbounded state", "anchors": ["token_account_storage/src/inmemory_token_storage.rs: create_snapshot, load_from_snapshot"]}
{"id": "C52", "title": "Dispatching storage: reads find what was stored", "statement": "With several storages behind a dispatcher, an account accepted by any of them is returned by a read through the dispatcher.", "quantifier": "all dispatch maps, all child storages, all iteration orders", "why_tests_cant": "all orders and all implementations of the children", "anchors": ["account_storage/src/storage_by_program_id.rs: get_account, update_account"]}
{"id": "C53", "title": "Dispatching storage: routing is consistent", "statement": "Initialisation, program queries and snapshots of one program all go to the same child; an update is accepted by at most one child; slot notifications reach every child and all their reports are returned.", "quantifier": "all dispatch maps, children, orders", "why_tests_cant": "all implementations", "anchors": ["account_storage/src/storage_by_program_id.rs: initilize_or_update_account, get_program_accounts, process_slot_data, create_snapshot, load_from_snapshot"]}
{"id": "C54", "title": "On-demand loading subscribes once and can be retried", "statement": "An account or program query that is not available is subscribed once; while the load is in progress no second subscription is made; and after a failed load a later request tries again.", "quantifier": "all request sequences, all behaviours of the source", "why_tests_cant": "all failure points", "anchors": ["accounts_on_demand/src/accounts_on_demand.rs: get_account, get_program_accounts"]}
{"id": "C55", "title": "On-demand answers are complete", "statement": "A program query answered successfully through on-demand loading is answered only after the program's snapshot was loaded, for every concurrent caller.", "quantifier": "all interleavings of two callers", "why_tests_cant": "schedules", "anchors": ["accounts_on_demand/src/accounts_on_demand.rs: get_program_accounts"]}
{"id": "C56", "title": "Stored accounts file is read back exactly", "statement": "Iterating a storage file produced by appending accounts yields exactly these accounts in order.", "quantifier": "all lists of accounts", "why_tests_cant": "alignment and layout for all data lengths", "anchors": ["simulate_from_snapshot/src/snapshot_utils/append_vec.rs: get_account, new_from_reader", "simulate_from_snapshot/src/snapshot_utils/mod.rs: append_vec_iter"]}
{"id": "C57", "title": "Arbitrary storage files are handled safely", "statement": "For any file contents and any claimed length not above the file length, iterating never reads outside the file, makes progress and terminates; claimed lengths that do not fit are rejected.", "quantifier": "all byte strings, all offsets", "why_tests_cant": "adversarial file contents", "anchors": ["simulate_from_snapshot/src/snapshot_utils/append_vec.rs: get_slice, get_type, get_account, sanitize_len_and_size"]}
{"id": "C58", "title": "Truncated storage files are detected", "statement": "If the archive delivers fewer bytes than the storage file's recorded length, no account is produced that was not in the delivered bytes.", "quantifier": "all byte strings and lengths", "why_tests_cant": "all truncation points", "anchors": ["simulate_from_snapshot/src/snapshot_utils/append_vec.rs: new_from_reader", "simulate_from_snapshot/src/snapshot_utils/archived.rs: process_entry"]}
{"id": "C59", "title": "Storage file names round trip", "statement": "Parsing the name written for (slot, id) yields exactly (slot, id); names outside the format are rejected.", "quantifier": "all slots, ids and all strings", "why_tests_cant": "all strings", "anchors": ["simulate_from_snapshot/src/snapshot_utils/mod.rs: parse_append_vec_name"]}
{"id": "C60", "title": "RPC context is honest", "statement": "A program accounts response with context carries a slot not older than any account in it, contains every stored matching account not older than the requested minimum context slot, and contains no older one.", "quantifier": "all storage answers and configurations", "why_tests_cant": "all configurations", "anchors": ["simulate_from_snapshot/src/rpc_server.rs: get_program_accounts, get_account_info"]}
{"id": "C61", "title": "Iteration order is unobservable", "statement": "Confirming or finalizing a slot gives the same account reads, program query answers and slot records, and the same reports up to order, whatever order the hash map of touched accounts is iterated in.", "quantifier": "all reachable states, slot notifications and iteration orders", "why_tests_cant": "hash maps iterate in a random order; the number of orders grows factorially", "anchors": ["account_storage/src/inmemory_account_store.rs: process_slot_data"]}
{"id": "C62", "title": "Concurrent calls keep the store consistent", "statement": "However update_account, process_slot_data and get_account calls of any number of threads interleave, no call panics, every account's views stay ordered by commitment and under its own key, and no view of an account that stays in the store goes back to an older version.", "quantifier": "all numbers of threads, all interleavings at lock operations, all filters", "why_tests_cant": "schedules: a test runs one of them", "anchors": ["account_storage/src/inmemory_account_store.rs: update_account, process_slot_data, get_account"]}
{"id": "C63", "title": "Dispatching storage follows owner changes", "statement": "Through a dispatcher, an account whose newest accepted version belongs to program P is returned by queries of P and no longer by queries of its former program.", "quantifier": "all dispatch maps, children and update sequences", "why_tests_cant": "interactions of two children over all update sequences", "anchors": ["account_storage/src/storage_by_program_id.rs: update_account, get_program_accounts, initilize_or_update_account"]}
{"id": "C64", "title": "A malformed request harms only itself", "statement": "A program query with an undecodable pattern fails or is refused without affecting other requests, later filters or account updates.", "quantifier": "all interleavings of calls, all patterns", "why_tests_cant": "a poisoned lock shows up only in later, unrelated calls", "anchors": ["accounts_on_demand/src/accounts_on_demand.rs: get_program_accounts", "common/src/mutable_filter_store.rs: add_account_filter", "common/src/simple_filter_store.rs: add_account_filter"]}
{"id": "C65", "title": "Flags read from storage files are valid", "statement": "Every account produced from a storage file has an executable flag that is a valid boolean, whatever the file contains.", "quantifier": "all byte strings", "why_tests_cant": "adversarial file contents: an invalid flag byte is undefined behaviour that a test run does not show", "anchors": ["simulate_from_snapshot/src/snapshot_utils/append_vec.rs: get_account, get_type"]}
{"id": "C66", "title": "Extraction delivers exactly the listed storage files", "statement": "Opening an archive whose manifest precedes its storage files yields exactly the files the manifest lists, in archive order, each with its slot and its recorded length; unlisted storage files are errors; nothing else is taken for a storage file.", "quantifier": "all archives and manifests", "why_tests_cant": "all entry orders and names", "anchors": ["simulate_from_snapshot/src/snapshot_utils/archived.rs: from_reader, unboxed_iter, process_entry"]}
{"id": "C67", "title": "Snapshot loading keeps the newest version", "statement": "After loading an archive every token account reads as its version from the highest slot in the archive, and newer finalized updates received before are not lost.", "quantifier": "all archives, all orders of files, all interleavings with streamed updates", "why_tests_cant": "an account occurs in several storage files; orders vary between archives", "anchors": ["simulate_from_snapshot/src/main.rs: main", "token_account_storage/src/inmemory_token_storage.rs: initilize_or_update_account"]}
{"id": "C68", "title": "RPC program queries honour their filters", "statement": "Every account in an RPC answer is stored at the requested commitment, is owned by the program and satisfies every filter of the request; a malformed filter is an error and no request panics.", "quantifier": "all store states, all requests", "why_tests_cant": "all filters and states", "anchors": ["simulate_from_snapshot/src/rpc_server.rs: get_program_accounts", "common/src/account_filter.rs: From<&RpcFilterType>"]}
{"id": "C69", "title": "RPC context slots never go back", "statement": "Of two successive requests for the same account or program at the same commitment, the later answer does not carry an older context slot.", "quantifier": "all histories between two requests", "why_tests_cant": "all histories", "anchors": ["simulate_from_snapshot/src/rpc_server.rs: get_account_info, get_program_accounts"]}
{"id": "C70", "title": "RPC answers show the stored account", "statement": "The data in an RPC answer is exactly the requested slice of the stored data in the requested encoding, and all other fields are as stored.", "quantifier": "all accounts and configurations", "why_tests_cant": "all lengths and slices", "anchors": ["simulate_from_snapshot/src/rpc_server.rs: convert_account_data_to_ui_account"]}
{"id": "C71", "title": "Concurrent reads are atomic", "statement": "A read that overlaps updates and slot notifications returns the live version the store showed at one moment between its call and its return, or nothing if there was a moment without one.", "quantifier": "all numbers of threads, all interleavings at lock operations, all filters", "why_tests_cant": "schedules: a test runs one of them", "anchors": ["account_storage/src/inmemory_account_store.rs: get_account, update_account, process_slot_data"]}
{"id": "C72", "title": "Malformed filter configuration is reported as an error", "statement": "Deserializing a filter (or a list of filters) from text reports every malformed part (a text that is no public key, a condition that is none) as a deserialization error; it never aborts the caller.", "quantifier": "all texts", "why_tests_cant": "the set of malformed texts is unbounded; tests deserialize only well-formed samples", "anchors": ["common/src/account_filter.rs: Deserialize for AccountFilter"]}
{"id": "C73", "title": "Every configured part of a filter takes effect or is reported", "statement": "A text accepted as a filter means what it says: accounts, program and conditions given in it are those of the filter, and nothing that was written to restrict or select is silently dropped.", "quantifier": "all texts and filters", "why_tests_cant": "needs a characterisation of everything that is accepted, not samples", "anchors": ["common/src/account_filter.rs: Deserialize for AccountFilter"]}
{"id": "C74", "title": "Unpacked snapshots: every storage file is delivered or reported", "statement": "Iterating over an unpacked snapshot directory yields every storage file the manifest lists, with its slot and recorded length, and reports an error for every storage file that cannot be opened, is too short or is not listed; opening reports a missing status cache, directory or manifest.", "quantifier": "all directory contents and orders, all manifests", "why_tests_cant": "directory order and the ways a file can be damaged are unbounded", "anchors": ["simulate_from_snapshot/src/snapshot_utils/unpacked.rs: open, iter"]}
{"id": "C75", "title": "Parallel loading consumes every storage file exactly once", "statement": "par_iter_append_vecs gives every storage file of the iterator to exactly one consumer, never runs more than the given number of consumers and no consumer for two files at a time, ends, and reports success only if every file was read and consumed without an error.", "quantifier": "all numbers of threads, all file lists, all interleavings of the tasks", "why_tests_cant": "task schedules and positions of failures are unbounded", "anchors": ["simulate_from_snapshot/src/snapshot_utils/parallel.rs: par_iter_append_vecs"]}
{"id": "C76", "title": "The manifest's index of storage files is decoded exactly", "statement": "From a manifest as the validator writes it, the loader reads exactly the slots, file ids and lengths recorded in it, whatever follows it; a manifest cut short is an error and never a shorter index.", "quantifier": "all manifests, all positions of a cut", "why_tests_cant": "contents and cut positions are unbounded", "anchors": ["simulate_from_snapshot/src/snapshot_utils/solana.rs: deserialize_from, AccountsDbFields"]}
{"id": "C77", "title": "Streamed accounts are served as reported", "statement": "An account received from the geyser stream is readable at processed with exactly the data, owner and slot the validator reported as soon as its message is consumed, and at finalized once its slot is reported finalized; other messages change nothing but what they report.", "quantifier": "all streams, all snapshots loaded before", "why_tests_cant": "the order of messages and the encodings of payloads are unbounded", "anchors": ["simulate_from_snapshot/src/main.rs: main (stream task)", "common/src/account_data.rs: Data::new"]}
{"id": "C78", "title": "The token store never deadlocks", "statement": "Whatever threads call the token store concurrently (updates, initializations, reads, queries, slot notifications, snapshots, loads), some unfinished call can always proceed, and every execution ends with all calls returned and no lock held.", "quantifier": "all numbers of threads, all sequences of calls, all assignments of keys to map shards, all interleavings of lock operations", "why_tests_cant": "lock interleavings and shard collisions of random keys cannot be enumerated", "anchors": ["token_account_storage/src/inmemory_token_storage.rs: all methods", "token_account_storage/src/inmemory_token_account_storage.rs: all methods"]}
{"id": "C79", "title": "Concurrent calls of the token store do not panic", "statement": "As long as the mint of a token account is known before the account is delivered, no mint is closed, data can be decoded, parents precede their slots and no snapshot is loaded at the same time, no interleaving of updates, initializations, slot notifications, reads and queries panics.", "quantifier": "all numbers of calls, all interleavings at lock granularity, all account contents", "why_tests_cant": "the unwraps of one call depend on what other calls changed between two of its locks; schedules cannot be enumerated", "anchors": ["token_account_storage/src/inmemory_token_storage.rs: all methods", "token_account_storage/src/inmemory_token_account_storage.rs: all methods"]}
{"id": "C80", "title": "Every call of the token store ends", "statement": "Whatever other calls do in between, a call makes only finitely many steps, and under the conditions of C79 it returns an answer.", "quantifier": "all calls, all interleavings", "why_tests_cant": "non-termination under a schedule cannot be observed by a test", "anchors": ["token_account_storage/src/inmemory_token_storage.rs: all methods"]}
{"id": "C81", "title": "Calls of the token store that do not overlap behave sequentially", "statement": "A call that runs while no other call is in progress leaves exactly the state, and returns exactly the answer, that the sequential reading of its code gives; every sequential history is one of the possible concurrent executions.", "quantifier": "all states, all calls", "why_tests_cant": "needs all states; links everything shown about histories of calls to the concurrent store", "anchors": ["token_account_storage/src/inmemory_token_storage.rs: all methods"]}
{"id": "C82", "title": "Queries of the token store are complete after concurrent calls", "statement": "However the calls that delivered token accounts were interleaved: once none of them is under way, a query by owner, by owner and mint, or by mint returns exactly the accounts that finalized reads return with this owner and mint in their data, each once. (Keys of token accounts differ from other keys in their first four bytes, accounts keep their owner and mint, conditions as in C79.)", "quantifier": "all numbers of calls, all interleavings at lock granularity, all account contents", "why_tests_cant": "the indices are updated at other locks than the rows; an entry lost in one schedule among many is not seen by tests", "anchors": ["token_account_storage/src/inmemory_token_storage.rs: add_account_finalized, get_program_accounts_finalized", "token_account_storage/src/inmemory_token_account_storage.rs: save_or_update, delete"]}
{"id": "C83", "title": "Finalized answers do not go back in slots", "statement": "If slot notifications do not overlap each other, then of two finalized reads or queries, one begun after the other has returned, the later one labels its accounts with no smaller slot, whatever other calls run.", "quantifier": "all numbers of calls, all interleavings", "why_tests_cant": "check and store of the slot are separate atomics; the schedules between them cannot be enumerated", "anchors": ["token_account_storage/src/inmemory_token_storage.rs: process_slot_data, get_account_finalized, get_program_accounts_finalized"]}
{"id": "C84", "title": "Concurrent answers are delivered content", "statement": "Every account in the answer to a read or a query and in the list of finalized or confirmed accounts given to subscribers is content that some call delivered for exactly this key: never a mixture of two deliveries, never the content of another key, whatever calls run at the same time. (Conditions as in C79.)", "quantifier": "all numbers of calls, all interleavings, all account contents", "why_tests_cant": "torn answers appear only in some schedules", "anchors": ["token_account_storage/src/inmemory_token_storage.rs: get_account, get_program_accounts, process_slot_data"]}
{"id": "C85", "title": "What has been returned stays returned", "statement": "An account that no call closes and that a read or a query has returned is returned by every later read at the same commitment and every later query with the same owner or mint, whatever calls run at the same time; later reads do not go back to older content.", "quantifier": "all numbers of calls, all interleavings, all account contents", "why_tests_cant": "an account missing for the time between two locks is not seen by tests", "anchors": ["token_account_storage/src/inmemory_token_storage.rs: get_account, get_program_accounts, process_slot_data, add_account_finalized"]}
{"id": "C86", "title": "Calls of the account store that do not overlap behave sequentially", "statement": "A call of update_account, process_slot_data, get_account or get_program_accounts that runs while no other call is in progress leaves exactly the state, and returns exactly the answer, that the sequential reading of its code gives, panics included; every sequential history is one of the possible concurrent executions.", "quantifier": "all states, all calls, all filters", "why_tests_cant": "needs all states; links everything shown about histories of calls to the concurrent store", "anchors": ["account_storage/src/inmemory_account_store.rs: all methods"]}
{"id": "C87", "title": "Program queries among other calls", "statement": "A program query that runs while updates, slot notifications and reads run does not panic. Every account it answers with was held by the store at the query's commitment at some moment between the call and the return, is owned by the program and meets the conditions; no account is answered twice; an account that is live, of the program and meets the conditions during the whole query is in the answer (if accounts keep their owner and the filters do not ask for closed accounts).", "quantifier": "all numbers of calls, all interleavings at lock granularity, all account contents and conditions", "why_tests_cant": "the owner set and the entries are read at different moments; schedules cannot be enumerated", "anchors": ["account_storage/src/inmemory_account_store.rs:294-347 get_program_accounts"]}
{"id": "C88", "title": "A program query shows one moment", "statement": "The accounts that a program query or a snapshot returns are the ones the store shows at one moment between its call and its return.", "quantifier": "all numbers of calls, all interleavings", "why_tests_cant": "a mixture of two moments appears only in some schedules", "anchors": ["account_storage/src/inmemory_account_store.rs:294-347 get_program_accounts", "account_storage/src/inmemory_account_store.rs: create_snapshot"]}
{"id": "C89", "title": "On an orderly stream every read shows the ledger", "statement": "Feed the store a stream in which slots are announced with their parents (forks allowed), accounts are written in announced slots not yet confirmed, confirmations and finalizations extend the confirmed and finalized branch, and confirmations skip slots only while the newest confirmed slot is not yet final. Then at every moment a read at processed, confirmed or finalized returns exactly the newest version of the account among those loaded at start-up and those written in slots that count (any slot, slots on the confirmed branch, slots on the finalized branch), or nothing if there is none or it is closed. The account is of interest to the filters throughout and, if it is closed, keeps its owner or is closed once and for all.", "quantifier": "all orderly streams of any length, all fork structures, all accounts, all commitments", "why_tests_cant": "slot trees, jumps of confirmations and orders of writes cannot be enumerated", "anchors": ["account_storage/src/inmemory_account_store.rs: update_account, process_slot_data, get_account", "account_storage/src/inmemory_account_store.rs:349-455 slot status walk"]}
{"id": "C90", "title": "On an orderly stream every program query shows the ledger", "statement": "Feed the store a stream as in C89. Then at every moment a program query at processed, confirmed or finalized answers with each account once, with nothing but newest versions in the ledger of accounts of the program that meet the conditions, and with every such version that is live. (Accounts do not return to an owner they had, closed versions have another owner than live ones, the versions of an account differ in slot or write version.)", "quantifier": "all orderly streams of any length, all fork structures, all conditions, all commitments", "why_tests_cant": "slot trees, owner changes and orders of writes cannot be enumerated", "anchors": ["account_storage/src/inmemory_account_store.rs: get_program_accounts, update_owner_delete_if_necessary, process_slot_data"]}
{"id": "C91", "title": "On an orderly stream notifications report the changes of the ledger", "statement": "Feed the store a stream as in C89. The accounts returned by process_slot_data for a confirmed or finalized slot are, each once, newest versions in the ledger at that commitment and come from a later slot than everything that counted before; and every account whose newest version at that commitment comes to count with the slot is among them (unless it has only ever been seen closed).", "quantifier": "all orderly streams of any length, all fork structures, jumps and commitments", "why_tests_cant": "slot trees and skipped notifications cannot be enumerated", "anchors": ["account_storage/src/inmemory_account_store.rs:349-455 process_slot_data"]}
{"id": "C92", "title": "On an orderly stream every read of the token store shows the ledger", "statement": "Feed the token store a stream in which accounts are loaded first, every slot is confirmed as the child of the slot confirmed before it after something of it has reached the store, and confirmed slots are finalized in order (announcements optional, writes of other forks allowed). Then at every moment a read at processed, confirmed or finalized of a token account, mint or multisig returns owner and data of exactly the newest version among those loaded and those written in slots that count, or nothing if there is none or it is closed. (The account is of one kind whose bytes the store keeps (C41) and shares its first four bytes with no other; its mint is known; it leaves the token programs only when it is open in the finalized ledger.)", "quantifier": "all orderly streams of any length, all accounts, all commitments", "why_tests_cant": "chains of slots, orders of writes and notifications cannot be enumerated", "anchors": ["token_account_storage/src/inmemory_token_storage.rs: update_account, process_slot_data, get_account, get_account_finalized, add_account_finalized"]}
{"id": "C93", "title": "On an orderly stream token queries by owner or mint show the ledger", "statement": "Feed the token store a stream as in C92. Then at every moment a query at processed, confirmed or finalized for the token accounts of an owner, of an owner and a mint, or of a mint is answered, with each account once, with nothing but newest open versions in the ledger at that commitment that belong to that owner and mint, and with every such version.", "quantifier": "all orderly streams of any length, all accounts, owners, mints and commitments", "why_tests_cant": "chains of slots, orders of writes and notifications cannot be enumerated", "anchors": ["token_account_storage/src/inmemory_token_storage.rs: get_program_accounts, get_program_accounts_finalized, add_account_finalized"]}
{"id": "C94", "title": "On an orderly stream the token store reports the changes of the ledger", "statement": "Feed the token store a stream as in C92. The accounts returned by process_slot_data for a slot announced, confirmed for the first time or finalized contain each account at most once; about a token account, mint or multisig as in C92 they contain its newest version in the ledger at that commitment (owner, data, slot) if that version is open and did not count before the call, and nothing otherwise.", "quantifier": "all orderly streams of any length, all accounts, all commitments", "why_tests_cant": "chains of slots, skipped finalizations and orders of writes cannot be enumerated", "anchors": ["token_account_storage/src/inmemory_token_storage.rs: process_slot_data, get_processed_for_slot, finalize"]}
{"id": "C95", "title": "The gauges of the account store count its accounts", "statement": "The gauge of accounts in memory equals the number of accounts in the store: it is never below the number of accounts that can be read, and equals the number of accounts delivered when none was closed or unwanted. The latest-slot gauge shows the slot of the last account delivered.", "quantifier": "all histories of calls, all sets of accounts", "why_tests_cant": "gauges drift only after long histories with closes and unwanted accounts", "anchors": ["account_storage/src/inmemory_account_store.rs:23-30,206,246", "account_storage/src/inmemory_account_store.rs: update_account, initilize_or_update_account"]}
{"id": "C96", "title": "The gauges of the token store count its records", "statement": "Stored minus deleted equals the number of token accounts that can be read, the mint gauge the number of mints known, and the pending gauge the number of versions waiting for finalization; counting never changes what the store does.", "quantifier": "all histories of calls, all accounts", "why_tests_cant": "the counts drift only with colliding keys, mints that are named before they arrive, and abandoned forks", "anchors": ["token_account_storage/src/inmemory_token_storage.rs:91,105,189,375,389", "token_account_storage/src/inmemory_token_account_storage.rs:82,92,150"]}
{"id": "C97", "title": "Memory of closed accounts", "statement": "The number of entries a store keeps for its accounts is bounded by the number of accounts, also when accounts are closed and opened again.", "quantifier": "all histories of calls", "why_tests_cant": "growth without bound shows only over unbounded histories", "anchors": ["account_storage/src/inmemory_account_store.rs:226-250", "token_account_storage/src/inmemory_token_account_storage.rs:60-155"]}
{"id": "C98", "title": "Orderly token streams never panic", "statement": "Feed the token store a stream as in C92 whose account data can be read, in which every token account delivered belongs to a mint that is in the confirmed ledger by then, and the keys of mints carry only open mints, at most 2^32 of them. Then no call of the stream panics, every account can be read at every commitment, every query with decodable conditions about known mints is answered, and so is every further call that keeps the stream so.", "quantifier": "all orderly streams of any length, all accounts, all queries", "why_tests_cant": "which versions are pending when a slot is confirmed depends on the whole history", "anchors": ["token_account_storage/src/inmemory_token_storage.rs: update_account, process_slot_data, get_account, get_program_accounts", "token_account_storage/src/account_types.rs"]}
{"id": "C99", "title": "On an orderly stream of which only a part is of interest the store shows that part of the ledger", "statement": "Configure a SimpleFilterStore and feed the account store with it a stream as in C89 that also delivers accounts and versions that no filter selects: accounts may never be of interest, come to be of interest later, and change their owner or be closed once while they are. Then a read at processed, confirmed or finalized returns the newest version in the ledger at that commitment (nothing if it is closed), or nothing if no version in the ledger is selected. A program query that is answered contains each account once, only newest versions of the ledger that match it, and all of them. The accounts reported for a slot are newest versions of the ledger at that commitment and did not count before, and every change of an account of interest is reported.", "quantifier": "all configurations, all orderly streams of any length, all accounts, queries and commitments", "why_tests_cant": "which versions are kept depends on filters and order of delivery, which cannot be enumerated", "anchors": ["account_storage/src/inmemory_account_store.rs: update_account, get_account, get_program_accounts, process_slot_data", "common/src/simple_filter_store.rs: satisfies, contains_filter"]}
{"id": "C100", "title": "The server answers from the snapshot archive and the stream what the ledger says", "statement": "Start the server of main.rs with a snapshot archive, feed it messages in order (accounts of a slot before the slot is confirmed, slots confirmed parent by child and finalized in order, anything else in between), and send it requests. The server never panics, getAccountInfo for a token account answers with the newest version of the account at the requested commitment that the archive and the messages describe, or with nothing when there is none or it is closed; getProgramAccounts for the token program with an owner and/or a mint in its memcmp filters and data size 165 answers each account at most once, with its newest version, open and of that owner and mint, and leaves out no such account that is open in the finalized ledger; the data is encoded and cut as requested.", "quantifier": "all archives, all streams of any length, all accounts, requests, encodings and commitments", "why_tests_cant": "the answers depend on the whole archive and the whole stream through five layers of code, which tests cover one layer and a few messages at a time", "anchors": ["simulate_from_snapshot/src/main.rs: main", "simulate_from_snapshot/src/rpc_server.rs: get_account_info, get_program_accounts", "simulate_from_snapshot/src/snapshot_utils/append_vec.rs: append_vec_iter", "token_account_storage/src/inmemory_token_account_storage.rs: update_account, process_slot_data, initilize_or_update_account, get_account, get_program_accounts"]}
{"id": "C101", "title": "A store started from a snapshot and the rest of the stream shows the ledger", "statement": "Feed an account store an orderly stream (C89), take a snapshot of a program when slot f is its finalized slot, load it into a fresh store and feed that store the stream from a child of f on, as far as it hears of it. Then a read of the fresh store returns nothing but the newest version in the ledger at the requested commitment, and it returns that version if it is open and belongs to the program or was written after f. Program queries contain each account once, only newest versions, and all of those accounts that match. At processed this needs that the fresh store heard of every slot that f does not settle.", "quantifier": "all orderly streams of any length, all moments of the snapshot, all programs, accounts, queries and commitments", "why_tests_cant": "the two stores see different histories of unbounded length, and only the comparison with the ledger shows that nothing fell between snapshot and stream", "anchors": ["account_storage/src/inmemory_account_store.rs: create_snapshot, load_from_snapshot, initilize_or_update_account, update_account, process_slot_data, get_account, get_program_accounts"]}
{"id": "C102", "title": "Accounts loaded while the stream is running do not disturb what the store shows", "statement": "Feed an account store an orderly stream (C89) and, in between, load accounts with initilize_or_update_account at any time: versions older than the first slot of the stream, or again versions of finalized slots. Then reads at processed, confirmed and finalized, program queries and the accounts reported for a slot are as in C89, C90 and C91 for the ledger with the loaded versions, for accounts that are of interest and are not closed before they are loaded.", "quantifier": "all orderly streams of any length with loads at any moment, all accounts, queries and commitments", "why_tests_cant": "loads interleave with writes, forks and confirmations in ways that cannot be enumerated", "anchors": ["account_storage/src/inmemory_account_store.rs: initilize_or_update_account, update_account, process_slot_data, get_account, get_program_accounts"]}
{"id": "C103", "title": "A snapshot fetched over RPC is the storage's snapshot", "statement": "getSnapshot answers with the bytes of the storage's snapshot of the program whose key is the parameter, with an error exactly when the storage gives one, and with an invalid parameter error exactly when the parameter is not the base58 text of a key. Loading the bytes into an empty storage of the same kind gives a storage that answers for the program as the original does at finalized.", "quantifier": "all storages, all histories of calls, all parameters", "why_tests_cant": "all texts and all contents of a storage have to be considered", "anchors": ["simulate_from_snapshot/src/rpc_server.rs: get_snapshot", "account_storage/src/inmemory_account_store.rs: create_snapshot, load_from_snapshot", "token_account_storage/src/inmemory_token_storage.rs: create_snapshot, load_from_snapshot"]}
{"id": "C104", "title": "A store that listens first and loads a snapshot while it is listening shows the ledger", "statement": "Let an account store follow an orderly stream (C89) from some slot on, load into it, while the stream is running, a snapshot of a program that another store took of the same ledger, and let the stream go on. Then a read returns nothing but the newest version in the ledger at the requested commitment, and it returns that version if it is open and belongs to the program or was heard of; program queries contain each account once, only newest versions, and all of those accounts that match.", "quantifier": "all orderly streams of any length, all moments of subscription, snapshot and load, all programs, accounts, queries and commitments", "why_tests_cant": "snapshot, stream and load overlap in ways that cannot be enumerated; a missing slot shows only for accounts written in it", "anchors": ["account_storage/src/inmemory_account_store.rs: create_snapshot, load_from_snapshot, initilize_or_update_account, update_account, process_slot_data, get_account, get_program_accounts", "accounts_on_demand/src/accounts_on_demand.rs: get_account, get_program_accounts"]}
{"id": "C105", "title": "The answer of update_account tells whether anything changed", "statement": "update_account answers true exactly if the delivery was taken over: after the answer false every read, program query and snapshot gives the answer it would have given before the call, and after the answer true the delivered version is shown or kept for its slot.", "quantifier": "all reachable stores of both kinds, all accounts, commitments, filters, slots and write versions", "why_tests_cant": "the answer is derived from three comparisons whose outcome depends on the whole history of the account; a wrong answer needs a particular order of commitments and write versions", "anchors": ["account_storage/src/account_data_by_commitment.rs: update", "account_storage/src/inmemory_account_store.rs: update_account", "token_account_storage/src/inmemory_token_storage.rs: update_account, insert_account, add_account_finalized", "token_account_storage/src/token_program_utils.rs: get_token_program_account_type"]}
{"id": "C106", "title": "Every storage behind the dispatcher is in the state its share of the calls puts it in", "statement": "Register storages for programs with StorageByProgramId and make any sequence of update_account, initilize_or_update_account, process_slot_data and load_from_snapshot calls to it. Then each registered storage is in the state it would be in had it alone been given, in the same order, all slot notifications, the initialisations and loads for which it is responsible, and the updates that no storage before it accepted; no other storage changes. A token storage that is visited first answers reads and queries through the dispatcher as it would alone, so that with an orderly stream (C92) reads through the dispatcher show the ledger.", "quantifier": "all sets of registered storages, all sequences of calls of any length, all accounts, programs, snapshots and commitments", "why_tests_cant": "which storage gets a call depends on what the others answer, and that on all calls before", "anchors": ["account_storage/src/storage_by_program_id.rs: update_account, initilize_or_update_account, process_slot_data, load_from_snapshot, get_account, get_program_accounts", "token_account_storage/src/inmemory_token_storage.rs: update_account, initilize_or_update_account, get_account"]}
{"id": "C107", "title": "A client that parses the JSON of an answer gets the account", "statement": "The result of getAccountInfo, getProgramAccounts and getSnapshot is a JSON text of exactly one value. For getAccountInfo it is an object with the slot of the account under context and, under value, null if the storage has no such account, else an object with its lamports, owner (base58 text of the key), executable, rentEpoch, space (the length of the whole data) and the requested part of the data as base64 text with the name of the encoding; base58 likewise up to 128 bytes. For getProgramAccounts it is an array of objects with the key and such an account for each account of the storage's answer, with the slot of the newest account if context is asked for. On an orderly stream (C89) what the client reads is the ledger.", "quantifier": "all storages, requests, accounts, data of any length, slices and commitments; all orderly streams for the last part", "why_tests_cant": "the text depends on every byte of every account; tests compare single answers", "anchors": ["simulate_from_snapshot/src/rpc_server.rs: get_account_info, get_program_accounts, get_snapshot, convert_account_data_to_ui_account"]}
{"id": "C108", "title": "The order in which account updates arrive does not matter", "statement": "Give an account store a batch of account updates at processed (or all at confirmed) between two slot notifications, each for an account that is tracked or wanted, in slots not known at another level, where slot and write version tell the versions of an account apart. Then for any other order of the batch no caller can tell the two resulting stores apart: every later sequence of reads, updates, slot notifications and loads, under any filters, gets the same answers, with the reported accounts of a slot the same up to order. If no account of the batch changes its owner, this holds for program queries and snapshots as well.", "quantifier": "all reachable stores, all batches of any length and all their permutations, all later histories of any length", "why_tests_cant": "the permutations of a batch and the continuations cannot be enumerated, and internally the two stores do differ (entries are numbered by arrival)", "anchors": ["account_storage/src/inmemory_account_store.rs: update_account, add_account_owner, maybe_update_slot_status, process_slot_data, get_account, get_program_accounts", "account_storage/src/account_data_by_commitment.rs: update, promote_slot_commitment"]}
{"id": "C109", "title": "Account updates and slot notifications may overtake each other", "statement": "Account updates and slot notifications reach an account store over separate channels. Let an update at processed be for a slot that is not known above processed and that a processed or confirmed slot notification does not look at (neither the announced slot nor one of the ancestors it commits, nor the parent at which it stops) - in particular for a newer slot. Then it makes no difference which of the two comes first: the update gets the same answer, the notification reports the same accounts, and every later sequence of reads, queries, snapshots, updates, notifications and loads gets the same answers. The same holds for a notification and any number of such updates. For a finalized notification and an update of a newer slot it holds too when the notification does not remove the account and does not take its finalized version away from the owner the update names; without the last condition it still holds for everything but program queries and snapshots.", "quantifier": "all reachable stores, all updates, notifications, filters, numbers of updates and all later histories of any length", "why_tests_cant": "the interleavings of two channels and the continuations cannot be enumerated; a difference shows only in later answers", "anchors": ["account_storage/src/inmemory_account_store.rs: update_account, process_slot_data, maybe_update_slot_status, update_owner_delete_if_necessary", "account_storage/src/account_data_by_commitment.rs: update, promote_slot_commitment"]}
{"id": "C110", "title": "The order in which a token store hears of things does not matter", "statement": "Let the account updates below finalized that reach a token store name only mints the store has numbered, and let slot and write version tell the versions of an account apart. Then the store is in the same state whatever the order of the updates. An update also commutes with a processed or confirmed notification of another slot, with a processed notification of its own slot if something of that slot was heard before, and - for an account owned by a token program whose mint the notification does not close - with a finalized notification of an older slot: the update gets the same answer, the notification reports the same accounts, and the store ends in the same state; or the calls panic in both orders.", "quantifier": "all histories (snapshot loads included), all batches of any length and all their permutations, all notifications and orders of enumeration", "why_tests_cant": "the permutations of a batch and the interleavings with notifications cannot be enumerated", "anchors": ["token_account_storage/src/inmemory_token_storage.rs: update_account, process_slot_data, ProcessedAccountStore::insert_account, update_slot_info, get_processed_for_slot, finalize"]}
{"id": "C111", "title": "The numbers a token store gives to mints cannot be noticed", "statement": "Let updates below finalized of accounts owned by a token program reach a token store, whether or not it has seen their mints before, and let slot and write version tell the versions of an account apart. In another order the mints get other numbers, but no caller can tell: every later sequence of updates, initialisations and slot notifications gets the same answers (the accounts of a report up to order), every read returns the same, program queries by owner or by mint return the same list, and any program query at any commitment, the listing of all mints included, returns the same accounts up to order. (As long as the calls in the first order do not panic and no more than 2^32 mint numbers are given out.) Such an update and a processed or confirmed notification of another slot may also overtake each other: the same answer, the same report, the same state.", "quantifier": "all histories before (without loads, for the batches), all batches of any length and all their permutations, all later sequences of calls other than loads", "why_tests_cant": "the permutations of a batch and the continuations cannot be enumerated, and internally the stores do differ; a number that leaked would show only in some later answer", "anchors": ["token_account_storage/src/token_program_utils.rs: get_or_create_mint_index, get_token_program_account_type", "token_account_storage/src/inmemory_token_storage.rs: update_account, initilize_or_update_account, process_slot_data, get_account, get_program_accounts"]}
{"id": "C112", "title": "What a token store hears twice", "statement": "An update below finalized of an account owned by a token program that reaches a token store again - any time before something is finalized, at the same or another commitment below finalized, whatever other updates and notifications below finalized came in between - changes nothing and is answered with false. The same holds with any other calls in between, loads and finalized notifications of older slots included, if parents come before their slots and the account's mint still has a number. A confirmed notification heard again changes nothing and reports the same accounts again. A finalized notification heard again changes nothing and reports nothing. A processed notification heard again changes nothing if something of the slot was known before the first. An update at finalized heard again changes nothing unless it is the close of a mint.", "quantifier": "all reachable stores, all updates, notifications, calls in between of any number, and orders of enumeration", "why_tests_cant": "the histories before and between the two deliveries cannot be enumerated, and that nothing changed shows only in all later answers", "anchors": ["token_account_storage/src/inmemory_token_storage.rs: update_account, process_slot_data, add_account_finalized, ProcessedAccountStore::insert_account, update_slot_info, get_processed_for_slot, finalize", "token_account_storage/src/inmemory_token_account_storage.rs: save_or_update, delete"]}
{"id": "C113", "title": "A token store may hear every update at least once, in any order", "statement": "Let two streams of account updates below finalized carry the same updates of accounts owned by a token program, each at least once: the order, the number of times each is delivered and the commitment below finalized may all differ. Let slot and write version tell the versions of an account apart. Then two token stores that start from the same state and hear one stream each cannot be told apart: every later sequence of updates, initialisations and slot notifications gets the same answers (the accounts of a report up to order), and reads and program queries return the same accounts. This holds as long as the calls of the first stream and its continuation do not panic and the store has not given out more than 2^32 mint numbers.", "quantifier": "all histories before without loads, all pairs of streams of any length with the same set of updates, all later sequences of calls other than loads", "why_tests_cant": "neither the orders nor the numbers of repetitions nor the continuations can be enumerated, and internally the stores do differ", "anchors": ["token_account_storage/src/inmemory_token_storage.rs: update_account, ProcessedAccountStore::insert_account", "token_account_storage/src/token_program_utils.rs: get_or_create_mint_index"]}
{"id": "C114", "title": "An account store may hear every update at least once, in any order", "statement": "Between two slot notifications let an account store hear a batch of account updates at processed (or all at confirmed) under one filter, each for an account that is tracked or wanted, in slots not known at another level, where slot and write version tell the versions of an account apart. If another batch carries the same updates, each at least once, in any order and number, then no caller can tell the two resulting stores apart by reads, updates, slot notifications and loads, under any filters. If no account of the batch changes its owner, this holds for program queries and snapshots as well. An update heard again later in the batch is answered with false and leaves the store as it is, also under other filters.", "quantifier": "all reachable stores, all pairs of batches of any length with the same set of updates, all later histories of any length", "why_tests_cant": "neither the orders nor the numbers of repetitions nor the continuations can be enumerated, and internally the two stores do differ", "anchors": ["account_storage/src/inmemory_account_store.rs: update_account, maybe_update_slot_status, add_account_index_to_slot_status", "account_storage/src/account_data_by_commitment.rs: update"]}
