{
 "claims": [
  {
   "property": "C01",
   "status": "proved",
   "theorems": [
    "C01_admission_is_union"
   ],
   "note": "Admission by the mutable filter store is exactly the union of the filters added, for filters whose memcmp patterns decode."
  },
  {
   "property": "C02",
   "status": "proved",
   "theorems": [
    "C02_contained_query_is_covered",
    "C02_converse_refuted",
    "C02_listed_accounts_exact"
   ],
   "note": "Forward direction proved for all stores and queries; the converse (a covered query is reported as contained) is refuted, see C02_converse_refuted. Listed accounts are reported exactly (C02_listed_accounts_exact)."
  },
  {
   "property": "C03",
   "status": "proved",
   "theorems": [
    "C03_adding_filters_is_monotone"
   ],
   "note": ""
  },
  {
   "property": "C04",
   "status": "partial",
   "theorems": [
    "C04_added_filter_contained_refuted",
    "C04_added_raw_filter_contained_partial",
    "C04_filter_added_twice_contained_partial"
   ],
   "note": "False as stated: a filter with a base58/base64 pattern is stored decoded and not recognised (refuted). Proved for raw patterns and for a filter added twice."
  },
  {
   "property": "C05",
   "status": "proved",
   "theorems": [
    "C05_base58_exact",
    "C05_base64_exact",
    "C05_condition_meaning",
    "C05_encoding_independent",
    "C05_key_text_exact",
    "C05_standard_texts",
    "C05_undecodable_pattern_panics_refuted"
   ],
   "note": "Also: an undecodable pattern panics (C05_undecodable_pattern_panics_refuted). With the standard decoders, patterns as base58 text, base64 text and bytes accept exactly the data with these bytes at the offset (C05_standard_texts); which texts are accepted is characterised by independent definitions of base64 (RFC 4648) and base58 (C05_base64_exact, C05_base58_exact, C05_key_text_exact)."
  },
  {
   "property": "C06",
   "status": "partial",
   "theorems": [
    "C06_exclusion_coverage_refuted",
    "C06_exclusion_is_complement",
    "C06_whole_program_exclusion_coverage_partial"
   ],
   "note": "Admission is the complement (proved). Coverage claims of the exclusion store are refuted; proved for whole-program exclusions."
  },
  {
   "property": "C07",
   "status": "proved",
   "theorems": [
    "C07_rpc_filter_roundtrip",
    "C07_rpc_filter_same_meaning",
    "C07_undecodable_rpc_pattern_refuted",
    "C07_whole_filter"
   ],
   "note": "Also: an undecodable RPC pattern panics. C07_whole_filter: the whole list of conditions converts in order and with the same verdict."
  },
  {
   "property": "C08",
   "status": "proved",
   "theorems": [
    "C08_accepts_exactly",
    "C08_accepts_list_exactly",
    "C08_reads_config",
    "C08_reads_config_list",
    "C08_round_trip",
    "C08_round_trip_list",
    "C08_writes_json"
   ],
   "note": "For every filter with 32-byte keys and 64-bit sizes and offsets (all the values the Rust types have), text -> filter after filter -> text is the identity, for single filters and for lists; moreover any JSON text (any layout, order, escapes, extra entries) that describes a filter is read as it, and what is written is JSON that describes the filter. serde_json's reader and printer and bs58 are transcribed from their documentation. The reader accepts exactly the texts that describe a filter under an independent RFC 8259 grammar (C08_accepts_exactly, C08_accepts_list_exactly)."
  },
  {
   "property": "C09",
   "status": "proved",
   "theorems": [
    "C09_compression_transparent"
   ],
   "note": "Under the losslessness contract of the lz4/zstd libraries."
  },
  {
   "property": "C10",
   "status": "proved",
   "theorems": [
    "C10_commitment_ladder",
    "C10_new_entries_are_histories",
    "C10_write_version_ladder_refuted"
   ],
   "note": "Ladder by slot for every reachable entry. Stated on write versions it is false (C10_write_version_ladder_refuted)."
  },
  {
   "property": "C11",
   "status": "proved",
   "theorems": [
    "C11_versions_never_go_back"
   ],
   "note": ""
  },
  {
   "property": "C12",
   "status": "proved",
   "theorems": [
    "C12_delivery_order_irrelevant",
    "C12_newest_delivery_wins"
   ],
   "note": ""
  },
  {
   "property": "C13",
   "status": "proved",
   "theorems": [
    "C13_promotion_publishes_slot_data",
    "C13_promotion_report_exact"
   ],
   "note": ""
  },
  {
   "property": "C14",
   "status": "proved",
   "theorems": [
    "C14_filtered_read_agrees",
    "C14_nothing_to_read"
   ],
   "note": ""
  },
  {
   "property": "C15",
   "status": "proved",
   "theorems": [
    "C15_malformed_pattern_panics_refuted",
    "C15_store_never_panics"
   ],
   "note": "For every history on usable inputs (decodable data and patterns). An undecodable query pattern panics (C15_malformed_pattern_panics_refuted), so the hypothesis is needed."
  },
  {
   "property": "C16",
   "status": "proved",
   "theorems": [
    "C16_reads_form_a_ladder"
   ],
   "note": "Ladder by slot on every reachable state."
  },
  {
   "property": "C17",
   "status": "proved",
   "theorems": [
    "C17_load_is_initialisations",
    "C17_reads_never_go_back",
    "C17_step_never_goes_back"
   ],
   "note": ""
  },
  {
   "property": "C18",
   "status": "proved",
   "theorems": [
    "C18_accounts_do_not_interfere"
   ],
   "note": ""
  },
  {
   "property": "C19",
   "status": "proved",
   "theorems": [
    "C19_unwanted_leave_no_trace",
    "C19_wanted_are_readable"
   ],
   "note": ""
  },
  {
   "property": "C20",
   "status": "proved",
   "theorems": [
    "C20_program_query_sound"
   ],
   "note": ""
  },
  {
   "property": "C21",
   "status": "proved",
   "theorems": [
    "C21_program_query_no_duplicates"
   ],
   "note": ""
  },
  {
   "property": "C22",
   "status": "partial",
   "theorems": [
    "C22_owner_changes_partial",
    "C22_owner_returns_refuted",
    "C22_program_query_complete_partial",
    "C22_program_query_complete_refuted",
    "C22_refunded_refuted"
   ],
   "note": "False as stated: the owner index can miss an account after a late write, when the account returns to an earlier owner, or when a closed account is funded again with the same owner (each refuted). Proved where the owner did not change, and for accounts that change owner as long as they do not return, closed versions have another owner, filters admit the live deliveries and owner-changing deliveries come in time."
  },
  {
   "property": "C23",
   "status": "partial",
   "theorems": [
    "C23_reads_never_serve_closed_partial",
    "C23_unfiltered_query_serves_closed_refuted"
   ],
   "note": "get_account and filtered queries never serve a closed account (proved); an unfiltered program query does (refuted)."
  },
  {
   "property": "C24",
   "status": "partial",
   "theorems": [
    "C24_ancestors_committed_refuted",
    "C24_recorded_ancestors_committed_partial"
   ],
   "note": "False for announced parents: a status created by a write blocks the walk and unknown slots stop it (refuted). Proved for the recorded chain."
  },
  {
   "property": "C25",
   "status": "partial",
   "theorems": [
    "C25_forks_not_committed_refuted",
    "C25_only_recorded_chain_committed_partial"
   ],
   "note": "Only slots on the recorded chain are committed (proved); stated on announced parents it is false (refuted)."
  },
  {
   "property": "C26",
   "status": "partial",
   "theorems": [
    "C26_close_redelivery_refuted",
    "C26_slot_redelivery_harmless",
    "C26_update_redelivery_exact",
    "C26_update_redelivery_harmless_partial",
    "C26_update_redelivery_refuted"
   ],
   "note": "Slot redelivery is harmless. Update redelivery in general is not (refuted). Proved exactly: a repeated update is felt just when the account is not tracked after the first delivery although wanted now, or the first delivery made it known in a slot already at a higher level; then it publishes the version a second time, otherwise it changes nothing."
  },
  {
   "property": "C27",
   "status": "proved",
   "theorems": [
    "C27_reports_exact"
   ],
   "note": ""
  },
  {
   "property": "C28",
   "status": "proved",
   "theorems": [
    "C28_no_bookkeeping_below_finalized",
    "C28_slot_processing_terminates"
   ],
   "note": ""
  },
  {
   "property": "C29",
   "status": "partial",
   "theorems": [
    "C29_malformed_snapshot_rejected",
    "C29_nothing_lost_partial",
    "C29_snapshot_loses_hidden_account_refuted",
    "C29_snapshot_round_trip_partial",
    "C29_truncated_snapshot_rejected"
   ],
   "note": "Queries and reads of everything the finalized program query finds survive exactly; malformed and truncated bytes are rejected without touching the store. An account hidden from the owner index (C31) is lost (refuted). Nothing is lost for histories in which accounts change owner in an orderly way (C29_nothing_lost_partial)."
  },
  {
   "property": "C30",
   "status": "partial",
   "theorems": [
    "C30_finalized_close_removes",
    "C30_finalized_close_update_removes",
    "C30_recreated_account_lost_refuted",
    "C30_same_owner_close_keeps_newer_partial"
   ],
   "note": "A finalized close that changes the owner removes the account everywhere; an account re-created before the close is finalized is lost (refuted); if the owner is unchanged nothing newer is lost."
  },
  {
   "property": "C31",
   "status": "partial",
   "theorems": [
    "C31_late_write_reopens_refuted",
    "C31_stale_close_removes_refuted",
    "C31_stale_delivery_harmless_partial",
    "C31_stale_delivery_hides_refuted"
   ],
   "note": "Harmless when the owner equals the finalized version's or it is not applied as finalized; otherwise it hides or removes the live account (refuted). A version delivered after the close of its account was finalized opens the account again (C31_late_write_reopens_refuted)."
  },
  {
   "property": "C32",
   "status": "partial",
   "theorems": [
    "C32_late_write_new_account_refuted",
    "C32_late_write_served_partial",
    "C32_served_exactly_when"
   ],
   "note": "Proved for tracked accounts; false for accounts first seen by the late write (refuted). Together: served exactly when the account was tracked before or the delivery itself is strong enough (C32_served_exactly_when)."
  },
  {
   "property": "C33",
   "status": "partial",
   "theorems": [
    "C33_confirmed_delivery_not_served_refuted",
    "C33_delivery_exact",
    "C33_delivery_served_partial",
    "C33_dropped_only_when_finalized",
    "C33_new_account_exact",
    "C33_served_exactly_when"
   ],
   "note": "Proved for finalized deliveries, new accounts, and slots not recorded at a weaker commitment; otherwise false (refuted). C33_delivery_exact and C33_new_account_exact say for every commitment what a delivery changes, C33_served_exactly_when when the statement holds."
  },
  {
   "property": "C34",
   "status": "partial",
   "theorems": [
    "C34_last_write_of_slot_refuted",
    "C34_last_write_of_slot_wins_partial",
    "C34_published_exactly"
   ],
   "note": "Proved when the commitment newly publishes a version of the slot; false if a version of the slot was already published (refuted). C34_published_exactly: one of these two is always the case."
  },
  {
   "property": "C35",
   "status": "partial",
   "theorems": [
    "C35_dead_fork_leaves_processed_view_refuted",
    "C35_later_write_replaces_fork_partial",
    "C35_slots_never_change_processed_view"
   ],
   "note": "A later write replaces the fork's version; finalization alone does not (refuted). C35_slots_never_change_processed_view: no slot notification ever changes the processed view of an account that stays tracked."
  },
  {
   "property": "C36",
   "status": "partial",
   "theorems": [
    "C36_applied_write_never_lost_partial",
    "C36_first_deliveries_race_refuted",
    "C36_inserted_version_shown_partial",
    "C36_promotion_lost_refuted"
   ],
   "note": "Two interleavings lose a promotion (refuted); what is applied is never lost for the commitment it was applied with."
  },
  {
   "property": "C37",
   "status": "partial",
   "theorems": [
    "C37_both_stores_partial",
    "C37_deadlock_refuted",
    "C37_no_deadlock_without_drops_partial"
   ],
   "note": "Deadlock witness (refuted); proved absent when no finalized close/removal takes the index shard inside the entry lock."
  },
  {
   "property": "C38",
   "status": "proved",
   "theorems": [
    "C38_bound_is_exact",
    "C38_packing_injective",
    "C38_round_trip"
   ],
   "note": "The 4 GiB bound on extension data is exact (C38_bound_is_exact)."
  },
  {
   "property": "C39",
   "status": "proved",
   "theorems": [
    "C39_peeks_agree",
    "C39_snapshot_test_agrees"
   ],
   "note": ""
  },
  {
   "property": "C40",
   "status": "partial",
   "theorems": [
    "C40_contains_no_miss",
    "C40_contains_other_account_refuted",
    "C40_delete_loses_other_account_refuted",
    "C40_table_exact",
    "C40_table_is_map_partial",
    "C40_update_keeps_position"
   ],
   "note": "False as stated: delete drops every account whose pubkey shares the first four bytes, and contains answers for pubkeys never saved (refuted). Proved: exact behaviour for all histories (C40_table_exact), the map behaviour for histories whose deletes are isolated, positions are kept."
  },
  {
   "property": "C41",
   "status": "partial",
   "theorems": [
    "C41_accepted_exactly",
    "C41_accepted_iff",
    "C41_extended_refuted",
    "C41_extended_rejected",
    "C41_lamports_lost_refuted",
    "C41_mint_layout",
    "C41_mint_partial",
    "C41_multisig_layout",
    "C41_multisig_partial",
    "C41_other_programs_deleted",
    "C41_program_keys",
    "C41_rent_epoch_lost_refuted",
    "C41_signers_moved_refuted",
    "C41_stale_bytes_lost_refuted",
    "C41_token_account_partial",
    "C41_token_data_partial",
    "C41_token_layout",
    "C41_token_meaning"
   ],
   "note": "False as stated (refuted: lamports of token accounts, rent epoch, stale bytes of cleared optional fields, default keys between signers, every Token-2022 account with extensions is rejected). Proved: the data of cleanly packed accounts, whole mints and multisigs, whole token accounts at the rent minimum, the meaning of arbitrary accepted token data. The data accepted is exactly that of the published layouts, by offsets (C41_token_layout, C41_mint_layout, C41_multisig_layout, C41_accepted_exactly), of accounts of the two programs by the text of their keys."
  },
  {
   "property": "C42",
   "status": "partial",
   "theorems": [
    "C42_lookup_stable",
    "C42_lookup_unique",
    "C42_reindexed_refuted",
    "C42_store_stable_partial",
    "C42_store_unique"
   ],
   "note": "Indices are pairwise distinct in every reachable store; an index is kept until the mint is closed. False as stated (refuted): a mint that is closed and seen again gets another index."
  },
  {
   "property": "C43",
   "status": "partial",
   "theorems": [
    "C43_announced_parent_refuted",
    "C43_announcement",
    "C43_finalize",
    "C43_finalize_newest_partial",
    "C43_parents_announced",
    "C43_slot_keeps_newest"
   ],
   "note": "False as stated (refuted): a slot announced once before any account of it is recorded without its parent, so the chain is cut and versions of its ancestors are dropped. Proved for all histories with respect to the recorded parents, and that recorded parents were announced."
  },
  {
   "property": "C44",
   "status": "proved",
   "theorems": [
    "C44_confirmed_read",
    "C44_processed_read",
    "C44_served_partial"
   ],
   "note": "With respect to the recorded parents, for every history; reads that return. C44_served_partial: through the store, an arriving token account is what a processed read returns."
  },
  {
   "property": "C45",
   "status": "partial",
   "theorems": [
    "C45_fuel_enough",
    "C45_reads_end_partial",
    "C45_reads_end_refuted"
   ],
   "note": "False as stated (refuted): a slot recorded as its own parent makes reads loop forever. Proved: reads end whenever recorded parents are acyclic, in particular when announced parents come before their slots."
  },
  {
   "property": "C46",
   "status": "partial",
   "theorems": [
    "C46_closed_multisig_refuted",
    "C46_mint",
    "C46_mint_read_back_partial",
    "C46_multisig",
    "C46_multisig_read_back_partial",
    "C46_named_hides_refuted",
    "C46_prefix_wipe_refuted",
    "C46_read_back_partial",
    "C46_served_partial",
    "C46_token_partial"
   ],
   "note": "False as stated (refuted: closed multisigs stay readable, closing an account wipes accounts sharing the first four bytes of the key, a key named as a mint by any token account is hidden). Proved for all histories: mints and multisigs unconditionally as the last logged delivery, token accounts when no collision and the key is never a mint. C46_served_partial: a pending token account is what finalized reads return once its slot is finalized. C46_mint_read_back_partial, C46_multisig_read_back_partial: the bytes read back are the bytes delivered."
  },
  {
   "property": "C47",
   "status": "partial",
   "theorems": [
    "C47_direct_refuted",
    "C47_late_refuted",
    "C47_pending_order_partial"
   ],
   "note": "False as stated (refuted: finalized deliveries are applied in arrival order, a late pending version can overwrite a newer one). Proved: with deliveries in order, the pending versions taken over never go back."
  },
  {
   "property": "C48",
   "status": "partial",
   "theorems": [
    "C48_condition_refuted",
    "C48_mint_refuted",
    "C48_mints",
    "C48_orphan_refuted",
    "C48_owner_partial",
    "C48_pending_refuted",
    "C48_program_refuted"
   ],
   "note": "False as stated (refuted: the queried program and all conditions but data size, owner and mint are ignored, pending replacements are not checked, stale mint index, orphaned accounts). Proved for all histories: owner and owner+mint queries at finalized return only accounts with these bytes; the mint query returns exactly the matching mints."
  },
  {
   "property": "C49",
   "status": "partial",
   "theorems": [
    "C49_base58_refuted",
    "C49_mint_partial",
    "C49_owner_partial",
    "C49_owner_refuted",
    "C49_pending_refuted"
   ],
   "note": "False as stated (refuted: owner changes are not reindexed, new pending accounts are missing, base58 patterns refused). Proved for all histories: at finalized, owner, owner+mint and mint queries return exactly the readable accounts with these bytes, each once, when keys are used for one purpose, owners (mints) are kept and mints are never closed."
  },
  {
   "property": "C50",
   "status": "partial",
   "theorems": [
    "C50_closed_mint_refuted",
    "C50_load_refuted",
    "C50_no_panic_partial",
    "C50_prefix",
    "C50_query_refuted",
    "C50_same_slot_refuted",
    "C50_unknown_mint_refuted"
   ],
   "note": "Full statement refuted: an unknown or closed mint makes reads panic, a mint finalized or confirmed together with its token account makes the slot notification panic, an owner and unknown mint query panics, a snapshot with an unknown mint panics on load. Proved: histories in which mints are finalized first and never closed run to the end and every read and query is answered."
  },
  {
   "property": "C51",
   "status": "partial",
   "theorems": [
    "C51_empty_refuted",
    "C51_mint_refuted",
    "C51_other_programs",
    "C51_overwrite_refuted",
    "C51_owner_query_partial",
    "C51_reads_partial",
    "C51_refuted",
    "C51_resurrect_refuted",
    "C51_unknown_mint_refuted",
    "C51_unrelated_partial"
   ],
   "note": "False as stated, by concrete witnesses with a lawful LZ4 block codec: create_snapshot compresses without the size prefix load_from_snapshot expects, so the store refuses its own snapshots (C51_refuted, C51_empty_refuted). With the prefix added by hand: mints do not read, queries by mint find nothing, queries by owner and mint panic (C51_mint_refuted); a token account with an undelivered mint makes loading panic (C51_unknown_mint_refuted); loading over a store that knows a mint under another index overwrites an unrelated mint (C51_overwrite_refuted); orphaned records come back (C51_resurrect_refuted). Proved for every history with tidy keys and known mints, every lawful block codec and with the prefix added: finalized reads of token accounts and multisigs (C51_reads_partial), queries by owner (C51_owner_query_partial), and that loading into a store that has not heard of the snapshot's mints leaves unrelated accounts unchanged at every commitment (C51_unrelated_partial)."
  },
  {
   "property": "C52",
   "status": "partial",
   "theorems": [
    "C52_only_first_child_read",
    "C52_reads_are_stored",
    "C52_reads_find_partial",
    "C52_refuted"
   ],
   "note": "Full statement refuted, and worse: with the storages of the repository only the first child in the map is ever asked (C52_only_first_child_read), because a child that does not hold the account answers Ok(None). Proved for children that answer Err for accounts they do not hold."
  },
  {
   "property": "C53",
   "status": "proved",
   "theorems": [
    "C53_each_notified_once",
    "C53_one_child_answers",
    "C53_shared_child_reports_twice_finding",
    "C53_slots_reach_everyone",
    "C53_update_offered_in_turn",
    "C53_visit_order_irrelevant"
   ],
   "note": "For arbitrary children. Extra finding: a child registered for two programs is notified twice per slot and its reports are duplicated."
  },
  {
   "property": "C54",
   "status": "partial",
   "theorems": [
    "C54_account_subscribed_again_refuted",
    "C54_failed_load_never_retried",
    "C54_first_request_subscribes",
    "C54_loaded_program_not_resubscribed_partial",
    "C54_no_second_subscription",
    "C54_program_subscribed_again_refuted",
    "C54_retry_refuted"
   ],
   "note": "No second subscription while loading: proved for all interleavings. Retry after failure refuted, and proved never to happen in any execution. Loaded raw-pattern program queries are not subscribed again; accounts and base58/base64 pattern queries are (refuted)."
  },
  {
   "property": "C55",
   "status": "partial",
   "theorems": [
    "C55_account_answers_from_storage",
    "C55_account_loads_in_vain_finding",
    "C55_answer_before_load_refuted",
    "C55_first_load_complete",
    "C55_loader_answers_after_load",
    "C55_program_answers_from_storage",
    "C55_quiet_answers_complete_partial",
    "C55_timeout_answers_refuted"
   ],
   "note": "Full statement refuted (a concurrent caller is answered from the filters before the snapshot is loaded, or after a timeout/spurious wake-up). Proved for all interleavings: the loading call answers after its snapshot was saved; a query answered from the filters while no load is in progress is covered by completed loads. Also: an answer is the storage's own answer at the moment it is given (C55_program_answers_from_storage, C55_account_answers_from_storage), the first query of a program that is loaded answers with every account of the snapshot that matches (C55_first_load_complete). Finding: loading a single account that no filter selects stores nothing and the call answers None, because subscribing to an account adds no filter (C55_account_loads_in_vain_finding)."
  },
  {
   "property": "C56",
   "status": "proved",
   "theorems": [
    "C56_from_archive",
    "C56_from_file"
   ],
   "note": "Read back through new_from_reader (archives) and new_from_file, for any padding bytes between accounts and any tail."
  },
  {
   "property": "C57",
   "status": "proved",
   "theorems": [
    "C57_any_bytes",
    "C57_lengths_checked"
   ],
   "note": "Every account read lies inside the claimed length and is decoded from its own bytes; lengths above the file length are rejected by new_from_file."
  },
  {
   "property": "C58",
   "status": "partial",
   "theorems": [
    "C58_delivered_part_partial",
    "C58_phantom_refuted",
    "C58_refuted"
   ],
   "note": "False: a truncated archive entry is padded with zeros and accounts that were never delivered are produced (C58_refuted, C58_phantom_refuted). Proved: the accounts that were delivered completely are read exactly."
  },
  {
   "property": "C59",
   "status": "partial",
   "theorems": [
    "C59_accepted_names_partial",
    "C59_other_names_refuted",
    "C59_round_trip"
   ],
   "note": "The written names round trip (proved) and the accepted names are characterised exactly; signs and leading zeros are accepted too (refuted)."
  },
  {
   "property": "C60",
   "status": "proved",
   "theorems": [
    "C60_account_info",
    "C60_account_info_answers",
    "C60_program_answers",
    "C60_with_context",
    "C60_without_context"
   ],
   "note": "For every storage behind the server; without context the minimum context slot is ignored (C60_without_context). What is answered in the other cases (bad key, refusal, unknown account) is C60_account_info_answers and C60_program_answers."
  },
  {
   "property": "C61",
   "status": "proved",
   "theorems": [
    "C61_model_is_one_order",
    "C61_visit_order_irrelevant"
   ],
   "note": ""
  },
  {
   "property": "C62",
   "status": "proved",
   "theorems": [
    "C62_concurrent_calls_never_panic",
    "C62_concurrent_ladder",
    "C62_concurrent_views_never_go_back"
   ],
   "note": "Interleaving model: pieces between lock operations are atomic; the shard lock of the index is modelled per pubkey."
  },
  {
   "property": "C63",
   "status": "partial",
   "theorems": [
    "C63_initialised_accounts_partial",
    "C63_moved_in_refuted",
    "C63_moved_out_refuted"
   ],
   "note": "Full statement refuted in both directions. Proved: initialised accounts are routed by owner and queried exactly as in the responsible child."
  },
  {
   "property": "C64",
   "status": "partial",
   "theorems": [
    "C64_account_poison_spreads_finding",
    "C64_malformed_query_refuted",
    "C64_program_poison_spreads_finding",
    "C64_wellformed_requests_harmless_partial"
   ],
   "note": "Full statement refuted (a malformed memcmp pattern panics while holding the filter lock and poisons it for every later request and update). Proved: with decodable patterns the filter store stays usable in every interleaving. The two ..._spreads_finding theorems say how far the harm goes: the next request for an unknown account (or the next read by a waiting call) poisons a mutex, and from then on all requests that reach it panic and all waiting ones time out."
  },
  {
   "property": "C65",
   "status": "partial",
   "theorems": [
    "C65_refuted",
    "C65_written_files_partial"
   ],
   "note": "False: any byte is taken for a bool (undefined behaviour in Rust). Proved for files that were written by appending accounts."
  },
  {
   "property": "C66",
   "status": "partial",
   "theorems": [
    "C66_foreign_file_refuted",
    "C66_listed_files",
    "C66_missing_file_refuted",
    "C66_unlisted_files",
    "C66_unreadable_entries",
    "C66_whole_archive"
   ],
   "note": "Listed files are delivered and unlisted ones are errors (proved); a file elsewhere in the archive whose name looks like a storage file is taken for one (refuted). C66_whole_archive states it from the bytes of the manifest on; a listed file missing from the archive goes unnoticed (C66_missing_file_refuted)."
  },
  {
   "property": "C67",
   "status": "partial",
   "theorems": [
    "C67_all_or_nothing",
    "C67_load_order_partial",
    "C67_refuted",
    "C67_stream_refuted"
   ],
   "note": "False: the last version in archive order wins whatever its slot, and a snapshot load overwrites newer streamed state. Proved: loading is initialising the token accounts in archive order, and an archive is loaded completely or the load fails."
  },
  {
   "property": "C68",
   "status": "partial",
   "theorems": [
    "C68_filters_hold_partial",
    "C68_filters_only_narrow_partial",
    "C68_refuted",
    "C68_token_state_refuted"
   ],
   "note": "Proved for decodable patterns. An undecodable pattern matches everything and a token account state filter panics (refuted). Filters only narrow the answer: exactly the live accounts of the unfiltered answer that satisfy them (C68_filters_only_narrow_partial)."
  },
  {
   "property": "C69",
   "status": "partial",
   "theorems": [
    "C69_program_refuted",
    "C69_refuted",
    "C69_shown_accounts_partial"
   ],
   "note": "False once an account is closed: the slot becomes 0 or that of another account. Proved between two answers that show a tracked account."
  },
  {
   "property": "C70",
   "status": "partial",
   "theorems": [
    "C70_base58_refuted",
    "C70_base58_text_partial",
    "C70_base64_exact",
    "C70_base64_text"
   ],
   "note": "Base64 answers are exact (proved); base58 data above 128 bytes is replaced by an error text (refuted). The texts themselves: C70_base64_text, C70_base58_text_partial."
  },
  {
   "property": "C71",
   "status": "proved",
   "theorems": [
    "C71_concurrent_reads"
   ],
   "note": "Linearizability of single account reads against any number of concurrent updates and slot notifications."
  },
  {
   "property": "C72",
   "status": "partial",
   "theorems": [
    "C72_exact_partial",
    "C72_no_document_partial",
    "C72_null_refuted",
    "C72_refuted"
   ],
   "note": "False as stated: the reader panics on a bad key, a bad condition or a null program (C72_refuted, C72_null_refuted). C72_exact_partial: text without a JSON value, or with text behind it, is an error; it aborts exactly when the JSON value is none that passes. Text that is no document of the grammar is rejected (C72_no_document_partial)."
  },
  {
   "property": "C73",
   "status": "partial",
   "theorems": [
    "C73_accepts_partial",
    "C73_refuted",
    "C73_unknown_refuted"
   ],
   "note": "False as stated: accounts that are not an array, unknown entries and values that are no objects are accepted as selecting nothing (C73_refuted, C73_unknown_refuted). C73_accepts_partial characterises everything that is accepted and as what."
  },
  {
   "property": "C74",
   "status": "partial",
   "theorems": [
    "C74_delivered_partial",
    "C74_never_reported",
    "C74_open",
    "C74_open_errors",
    "C74_refuted",
    "C74_two_manifests_refuted",
    "C74_unreadable_directory",
    "C74_usable_files_partial"
   ],
   "note": "False as stated: the second flatten_ok drops every error of opening a storage file, so damaged, unlisted and unreadable files vanish silently (C74_refuted, C74_never_reported); with two manifests the directory order decides (C74_two_manifests_refuted). Proved: usable files are delivered exactly, in order, and only listed ones (C74_usable_files_partial, C74_delivered_partial); opening and its errors (C74_open, C74_open_errors)."
  },
  {
   "property": "C75",
   "status": "partial",
   "theorems": [
    "C75_bounded",
    "C75_errors_reported",
    "C75_never_twice",
    "C75_no_threads_refuted",
    "C75_ok_complete",
    "C75_terminates_partial"
   ],
   "note": "Proved for every number of threads except that ending needs at least one thread: with none the loop panics on the first file (C75_no_threads_refuted)."
  },
  {
   "property": "C76",
   "status": "proved",
   "theorems": [
    "C76_cut_anywhere",
    "C76_manifest_round_trip",
    "C76_truncated_manifest"
   ],
   "note": "For every decoder of the bank fields that reads exactly its own encoding; those fields are skipped by the loader."
  },
  {
   "property": "C77",
   "status": "partial",
   "theorems": [
    "C77_compressed_refuted",
    "C77_finalized_partial",
    "C77_payload_is_data",
    "C77_processed_partial",
    "C77_reported_partial",
    "C77_slots"
   ],
   "note": "False for compressed messages: the payload is compressed a second time and the store ignores or misreads the account (C77_compressed_refuted, with a concrete LZ4 block codec). Proved for uncompressed streams over any snapshot loaded before, for token accounts with canonical data whose mint is known (C77_reported_partial, C77_processed_partial, C77_finalized_partial, C77_slots). The contract of the stream library (payload compressed as its type says) is assumed, its source is not in the repository. C77_payload_is_data says what does happen for compressed messages: the payload itself becomes the data."
  },
  {
   "property": "C78",
   "status": "proved",
   "theorems": [
    "C78_token_completes",
    "C78_token_no_deadlock"
   ],
   "note": "Every call is reduced to its lock operations, with every branch and every shard possible; readers are blocked by waiting writers. The order of locks is mint index < (by mint, by owner, key index, pending) < table < shards of mints and multisigs in increasing order. Guards of one call are released in reverse order; panics are left out."
  },
  {
   "property": "C79",
   "status": "proved",
   "theorems": [
    "C79_no_panic"
   ],
   "note": "Calls are cut at their locks and atomics; the conditions are part of the statement (closing mints and unknown mints do panic, see C50). Loading a snapshot concurrently is excluded."
  },
  {
   "property": "C80",
   "status": "proved",
   "theorems": [
    "C80_calls_end",
    "C80_returns"
   ],
   "note": "Well-foundedness of the steps of one call for arbitrary changes by others; blocking is C78."
  },
  {
   "property": "C81",
   "status": "proved",
   "theorems": [
    "C81_get",
    "C81_history",
    "C81_init",
    "C81_load",
    "C81_query",
    "C81_slot",
    "C81_update"
   ],
   "note": "Each public method of the concurrent model, run alone, is equal to the function of the sequential model, panics included; the snapshot writer is only in the sequential model."
  },
  {
   "property": "C82",
   "status": "proved",
   "theorems": [
    "C82_mint",
    "C82_overlap_refuted",
    "C82_owner"
   ],
   "note": "The conditions are part of the statement; without tidy keys or with changing owners it is false already sequentially (C49). While an update is between its row and its index entries a query misses an account that a finalized read has returned (C82_overlap_refuted)."
  },
  {
   "property": "C83",
   "status": "proved",
   "theorems": [
    "C83_labels",
    "C83_overlap_refuted",
    "C83_slots"
   ],
   "note": "For arbitrary calls otherwise, panicking ones excepted (C83_labels, C83_slots). Two overlapping finalizations make the label go back (C83_overlap_refuted)."
  },
  {
   "property": "C84",
   "status": "proved",
   "theorems": [
    "C84_lists",
    "C84_read"
   ],
   "note": "L may be taken as the operations called so far, so the content was delivered before the answer. Equality of content is up to the delegated amount of an account without delegate and the order of multisig signers; lamports are recomputed by the store and not part of it (C38, C53)."
  },
  {
   "property": "C85",
   "status": "partial",
   "theorems": [
    "C85_back_refuted",
    "C85_mint",
    "C85_owner",
    "C85_pending_refuted",
    "C85_read"
   ],
   "note": "Proved for queries by owner or by mint at every commitment (C85_owner, C85_mint) and for reads after a finalized read (C85_read). False for reads below finalized: process_slot_data takes the accounts of a slot out of the pending part before it adds them to the finalized part, so for a while a read returns nothing (C85_pending_refuted) or older content labelled with the newer slot (C85_back_refuted)."
  },
  {
   "property": "C86",
   "status": "proved",
   "theorems": [
    "C86_get",
    "C86_histories",
    "C86_query",
    "C86_slot",
    "C86_update"
   ],
   "note": ""
  },
  {
   "property": "C87",
   "status": "partial",
   "theorems": [
    "C87_complete",
    "C87_no_panic",
    "C87_once",
    "C87_sound"
   ],
   "note": "Held means shown at the commitment, or inserted by a call that has not yet published it (C87_sound). C87_complete assumes that accounts keep their owner and that no filter accepts closed accounts; without the first it is false already of sequential histories (C22)."
  },
  {
   "property": "C88",
   "status": "partial",
   "theorems": [
    "C88_each_account_partial",
    "C88_one_moment_refuted",
    "C88_quiet_partial"
   ],
   "note": "False: a query that runs while a slot is finalized can return one account from before and one from after, a combination the store never shows; create_snapshot is the same query (C88_one_moment_refuted). Proved: a query during which nothing is written returns what get_program_accounts does, up to order (C88_quiet_partial); account by account the answer is not older than what the store showed before the call and not newer than what it shows after the return (C88_each_account_partial)."
  },
  {
   "property": "C89",
   "status": "proved",
   "theorems": [
    "C89_reads_show_ledger",
    "C89_skipped_confirmation_ahead_refuted",
    "C89_skipped_confirmation_behind_refuted",
    "C89_versions_show_ledger"
   ],
   "note": "The condition on skipped confirmations is needed. If the newest confirmed slot is already final and a confirmation skips slots, the walk records the pruned parent of the finalized root with the wrong parent; then a write is served as finalized before its slot is (C89_skipped_confirmation_ahead_refuted) and another one never is, although its slot and the next one are finalized (C89_skipped_confirmation_behind_refuted)."
  },
  {
   "property": "C90",
   "status": "proved",
   "theorems": [
    "C90_queries_show_ledger"
   ],
   "note": "Unfiltered queries may also answer with closed accounts (C23). The conditions on owners are needed (C22_owner_returns_refuted, C22_refunded_refuted)."
  },
  {
   "property": "C91",
   "status": "proved",
   "theorems": [
    "C91_notifications_show_ledger"
   ],
   "note": ""
  },
  {
   "property": "C92",
   "status": "proved",
   "theorems": [
    "C92_close_before_finalized_refuted",
    "C92_mint_reads_show_ledger",
    "C92_multisig_reads_show_ledger",
    "C92_skipped_confirmation_refuted",
    "C92_token_reads_show_ledger",
    "C92_unseen_slot_refuted"
   ],
   "note": "Outside the conditions: confirming a slot of which nothing reached the store, or one whose parent is known only from its writes, hides confirmed writes at every commitment, for good once finalized (C92_unseen_slot_refuted, C92_skipped_confirmation_refuted); an account opened and closed before being finalized is served for ever (C92_close_before_finalized_refuted)."
  },
  {
   "property": "C93",
   "status": "partial",
   "theorems": [
    "C93_handed_over_refuted",
    "C93_mint_queries_show_ledger_partial",
    "C93_opened_refuted",
    "C93_owner_queries_show_ledger_partial"
   ],
   "note": "For accounts that keep their owner (and mint) and, for completeness, are open in the finalized ledger; the queried mint is known. Without: an account opened since the finalized slot is missing at processed and confirmed (C93_opened_refuted); an account handed over in a confirmed slot is still answered to its old owner (C93_handed_over_refuted)."
  },
  {
   "property": "C94",
   "status": "proved",
   "theorems": [
    "C94_confirmed_again_refuted",
    "C94_reports_changes",
    "C94_reports_once"
   ],
   "note": "The notification is assumed not to panic (see C98). A slot confirmed a second time is reported a second time (C94_confirmed_again_refuted)."
  },
  {
   "property": "C95",
   "status": "partial",
   "theorems": [
    "C95_bounds_served",
    "C95_closed_refuted",
    "C95_counts_accounts_partial",
    "C95_latest_slot",
    "C95_slot_conversion",
    "C95_slot_goes_back_refuted"
   ],
   "note": "The gauge is never below the number of readable accounts, and equals the number of accounts delivered while none of them is closed or unwanted. It is never decremented: a closed account stays counted (C95_closed_refuted). The latest-slot gauge shows the last delivery and goes back on an older one (C95_slot_goes_back_refuted)."
  },
  {
   "property": "C96",
   "status": "partial",
   "theorems": [
    "C96_mints_bounded",
    "C96_mints_partial",
    "C96_mints_refuted",
    "C96_pending_bounded",
    "C96_pending_partial",
    "C96_pending_refuted",
    "C96_records",
    "C96_same_store",
    "C96_tokens_bounded",
    "C96_tokens_partial",
    "C96_tokens_refuted"
   ],
   "note": "Stored minus deleted is an upper bound and equals the number of readable token accounts when token keys are used for nothing else; the mint gauge is a lower bound and exact when mints arrive before they are named; the pending gauge is an upper bound and exact without abandoned forks. Outside: C96_tokens_refuted (an unreachable record stays counted), C96_mints_refuted (gauge -1), C96_pending_refuted (versions of abandoned forks stay counted for ever). Loading a snapshot is not counted by these theorems."
  },
  {
   "property": "C97",
   "status": "partial",
   "theorems": [
    "C97_entries_bounded",
    "C97_entries_never_reused_refuted",
    "C97_records_never_reused_refuted",
    "C97_table_never_shrinks"
   ],
   "note": "False as stated in both stores: an account closed and opened again n times leaves n entries (C97_entries_never_reused_refuted) or records (C97_records_never_reused_refuted). Proved instead: entries equal the gauge, are never given back, and are at most one per delivery (C97_entries_bounded); the token table never shrinks (C97_table_never_shrinks)."
  },
  {
   "property": "C98",
   "status": "partial",
   "theorems": [
    "C98_orderly_streams_run_partial",
    "C98_reads_show_ledger_partial",
    "C98_reports_changes_partial",
    "C98_young_mint_refuted"
   ],
   "note": "False as stated: when the mint of an account opened in a slot is confirmed but not yet finalized, the notification that the slot is confirmed panics (C98_young_mint_refuted). Proved when mints are finalized before accounts of them are delivered, and the mints of loaded accounts are loaded, in any order, before the stream starts (C98_orderly_streams_run_partial); with it C92 and C94 hold with nothing assumed about the run of the store (C98_reads_show_ledger_partial, C98_reports_changes_partial)."
  },
  {
   "property": "C99",
   "status": "proved",
   "theorems": [
    "C99_notifications_show_ledger",
    "C99_queries_show_ledger",
    "C99_reads_show_ledger"
   ],
   "note": "The account data can be decompressed and the text patterns of the filters decoded. Accounts that stop being of interest while they are alive are not covered."
  },
  {
   "property": "C100",
   "status": "partial",
   "theorems": [
    "C100_account_info_partial",
    "C100_mint_accounts_partial",
    "C100_mint_context_partial",
    "C100_owner_accounts_partial",
    "C100_owner_context_partial"
   ],
   "note": "The messages are consumed after the archive has been loaded (with both at once the claim fails: C67_stream_refuted); messages are uncompressed (C77_compressed_refuted); each account is in the archive at most once (C67_refuted); every mint is finalized before the first message that needs it (C98_young_mint_refuted); token accounts and mints keep their keys, owners and mints. Missing: lamports and rent epoch (the token storage does not keep them), accounts opened after the last finalized slot in lists (C93_opened_refuted). Requests with context are covered: the slot of the answer and the minimum slot (ServerContextProps.v)."
  },
  {
   "property": "C101",
   "status": "proved",
   "theorems": [
    "C101_replica_queries_show_ledger",
    "C101_replica_reads_show_ledger"
   ],
   "note": "The stream of the fresh store starts exactly after the snapshot (its first slot is a child of the finalized slot); accounts may change owner and be closed once as in C90."
  },
  {
   "property": "C102",
   "status": "proved",
   "theorems": [
    "C102_late_loads_notifications_show_ledger",
    "C102_late_loads_queries_show_ledger",
    "C102_late_loads_reads_show_ledger",
    "C102_load_after_close_refuted"
   ],
   "note": "loads of versions older than the first slot, or of finalized versions again; excluded: accounts closed before they are loaded, for which C102_load_after_close_refuted shows that the old version is served as finalized"
  },
  {
   "property": "C103",
   "status": "partial",
   "theorems": [
    "C103_server_snapshot_refuted",
    "C103_snapshot_answers",
    "C103_snapshot_loads_partial",
    "C103_snapshot_text"
   ],
   "note": "The answers are proved for every storage (C103_snapshot_answers). Loading back is proved for the in-memory account storage, for programs of which every account is admitted by the loading store's filters (C103_snapshot_loads_partial, on top of C29). For the token storage, the one main.rs serves, it is false: the snapshot it answers cannot be loaded (C103_server_snapshot_refuted). The text of the answer is the base64 text of the snapshot (C103_snapshot_text)."
  },
  {
   "property": "C104",
   "status": "partial",
   "theorems": [
    "C104_bootstrap_queries_partial",
    "C104_bootstrap_reads_partial",
    "C104_gap_refuted",
    "C104_moved_refuted"
   ],
   "note": "Proved when the snapshot settles the slot before the first one heard of and the listener has finalized the snapshot's slot when it loads it, for accounts that the listener has not seen closed before (C102_load_after_close_refuted), and for queries of programs whose accounts have not been seen to move to another program before. False otherwise: with a snapshot older than the first slot heard of, which is the usual case when a store subscribes and loads at once, a replaced version is served as finalized for good (C104_gap_refuted); an account seen to move is missing from the query of its finalized owner (C104_moved_refuted). Missing: snapshots ahead of what the listener has finalized."
  },
  {
   "property": "C105",
   "status": "partial",
   "theorems": [
    "C105_false_but_changed_refuted",
    "C105_false_means_unchanged_partial",
    "C105_newer_is_answered_true",
    "C105_token_answer_exact",
    "C105_token_false_but_changed_refuted",
    "C105_token_false_means_unchanged_partial",
    "C105_token_true_but_unchanged_refuted",
    "C105_true_but_unchanged_refuted"
   ],
   "note": "False as stated in both stores. Account store: a finalized delivery with a write version between the confirmed and the finalized one of the same slot replaces the confirmed version and is answered with false (C105_false_but_changed_refuted); a version older than the finalized one is answered with true and nothing changes (C105_true_but_unchanged_refuted). Token store: a delivery answered with false can number a new mint, after which reading the mint panics (C105_token_false_but_changed_refuted); every finalized delivery is answered with true (C105_token_true_but_unchanged_refuted). Proved: false means that nothing changed when the confirmed version is not older than the finalized one, or the mint has a number; a delivery newer than what is shown is answered with true; the exact answer for deliveries that are held pending."
  },
  {
   "property": "C106",
   "status": "proved",
   "theorems": [
    "C106_reads_show_ledger",
    "C106_shares",
    "C106_store_alone",
    "C106_token_alone",
    "C106_token_storage_follows"
   ],
   "note": "For storages registered once. C106_shares holds for arbitrary storages; C106_token_alone and C106_store_alone identify the calls with the histories of the other theorems; C106_reads_show_ledger composes with C92. An update that a storage further ahead accepted may be missing from the share of the storages behind it, which is what the code does."
  },
  {
   "property": "C107",
   "status": "proved",
   "theorems": [
    "C107_account_text",
    "C107_account_text_shows_ledger",
    "C107_program_text",
    "C107_program_text_shows_ledger",
    "C107_snapshot_text"
   ],
   "note": "For the encodings base64 (also the default), base58 and binary; base58 texts above 128 bytes are replaced by an error message (C70_base58_refuted). Not modelled: base64+zstd, jsonParsed, the JSON-RPC envelope and error objects. The numbers of the accounts are u64s."
  },
  {
   "property": "C108",
   "status": "proved",
   "theorems": [
    "C108_arrival_order",
    "C108_arrival_order_lists",
    "C108_known_slot_refuted",
    "C108_queries_refuted",
    "C108_unwanted_refuted"
   ],
   "note": "Proved for batches in which slot and write version tell versions apart, the accounts are tracked or wanted and the slots are not known at another level; program queries and snapshots if no account changes its owner. Each condition is needed: C108_queries_refuted (owner change with a closed version), C108_known_slot_refuted (new account in a slot already confirmed), C108_unwanted_refuted (a version the filters do not want)."
  },
  {
   "property": "C109",
   "status": "proved",
   "theorems": [
    "C109_batch_overtakes",
    "C109_finalized_newer",
    "C109_finalized_refuted",
    "C109_handed_back_refuted",
    "C109_newer_slot",
    "C109_overtake",
    "C109_own_slot_refuted"
   ],
   "note": "The conditions are needed. C109_finalized_refuted: an account re-created in a newer slot is lost if the update comes before the finalized notification that drops the closed account. C109_handed_back_refuted: an account that goes from owner A to B at finalized and back to A in the update is missing from the list of A if the update comes before. C109_own_slot_refuted: for the announced slot itself a new account stays at processed and is not reported if the update comes after."
  },
  {
   "property": "C110",
   "status": "proved",
   "theorems": [
    "C110_announced",
    "C110_announced_first_refuted",
    "C110_arrival_order",
    "C110_batch_overtakes",
    "C110_closed_refuted",
    "C110_overtake",
    "C110_overtake_finalized",
    "C110_same_version_refuted"
   ],
   "note": "The conditions are needed. C110_same_version_refuted: of two versions with the same slot and write version the first stays. C110_announced_first_refuted: a slot announced before anything of it was heard is recorded without its parent, and accounts of the parent are not found at confirmed. C110_closed_refuted: the close of an account whose opening is not finalized yet is ignored, and the store goes on serving the account."
  },
  {
   "property": "C111",
   "status": "proved",
   "theorems": [
    "C111_arrival_order",
    "C111_load_refuted",
    "C111_overtake",
    "C111_owner_refuted"
   ],
   "note": "Loads are left out because the numbers are noticed there. C111_load_refuted: a snapshot with a mint the store already knows writes its data under the number it had in the snapshot, so that a read of another mint returns this mint's account, depending on the order in which the mints were first seen. C111_owner_refuted: the owner condition is needed, since an account that left the token program is heard of only after some account has named it as its mint."
  },
  {
   "property": "C112",
   "status": "proved",
   "theorems": [
    "C112_close_refuted",
    "C112_confirmed_again",
    "C112_finalized_again",
    "C112_finalized_update_again",
    "C112_late_refuted",
    "C112_processed_again",
    "C112_processed_refuted",
    "C112_update_again",
    "C112_update_again_later"
   ],
   "note": "The conditions are needed. C112_late_refuted: an update heard again after its slot was finalized brings back the older of two versions of the slot, also at finalized. C112_processed_refuted: a slot heard of first by its processed notification gets its parent only when the notification is heard a second time, so that accounts of its ancestors are found at confirmed only then. C112_close_refuted: the close of a mint heard twice at finalized is taken the second time for the close of a token account, and an account whose key shares the first four bytes is lost."
  },
  {
   "property": "C113",
   "status": "proved",
   "theorems": [
    "C113_at_least_once"
   ],
   "note": "The exclusions are needed: C111_load_refuted (loads), C111_owner_refuted (owner), C112_late_refuted (a repetition after its slot was finalized), and for versions told apart by slot and write version the refutation under C110."
  },
  {
   "property": "C114",
   "status": "proved",
   "theorems": [
    "C114_again_later",
    "C114_at_least_once",
    "C114_at_least_once_lists",
    "C114_late_refuted"
   ],
   "note": "The conditions are needed. C114_late_refuted: heard again after a newer slot was finalized, an update is answered with true and the store holds the old version again. See also the refutations under C108 (level of the slot, unwanted accounts, change of owner) and C26_update_redelivery_exact, which says exactly when an immediate repetition is felt."
  }
 ]
}