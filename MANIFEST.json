{
 "claims": [
  {
   "property": "C01",
   "status": "proved",
   "theorems": [
    "C01_listing_agrees",
    "C01_no_panic"
   ],
   "note": ""
  },
  {
   "property": "C02",
   "status": "proved",
   "theorems": [
    "C02_insert_tx_preview",
    "C02_insert_checkpoint_preview",
    "C02_apply_update_preview",
    "C02_invalidate_preview",
    "C02_clear_mempool_preview"
   ],
   "note": "Also: the changeset is the exact difference when no limit is set."
  },
  {
   "property": "C03",
   "status": "proved",
   "theorems": [
    "C03_update_result"
   ],
   "note": "Heights below u32::MAX (the code's sentinel value, see C66)."
  },
  {
   "property": "C04",
   "status": "proved",
   "theorems": [
    "C04_reapply_noop"
   ],
   "note": "Heights below u32::MAX (the code's sentinel value, see C66)."
  },
  {
   "property": "C05",
   "status": "proved",
   "theorems": [
    "C05_not_connected",
    "C05_inconsistent",
    "C05_inconsistent_witness",
    "C05_otherwise_accepted"
   ],
   "note": "Heights below u32::MAX (the code's sentinel value, see C66)."
  },
  {
   "property": "C06",
   "status": "proved",
   "theorems": [
    "C06_settled_survives"
   ],
   "note": "Heights below u32::MAX (the code's sentinel value, see C66)."
  },
  {
   "property": "C07",
   "status": "partial",
   "theorems": [
    "C07_confirmed_below_tip_partial",
    "C07_confirmed_below_tip_refuted",
    "C07_confirmed_below_tip_limit_refuted"
   ],
   "note": "False in general: invalidate_checkpoints or limit 0 break it (two witnesses). Holds for histories without them."
  },
  {
   "property": "C08",
   "status": "partial",
   "theorems": [
    "C08_insert_checkpoint_partial",
    "C08_checkpoint_hash_refuted"
   ],
   "note": "False below the tip: the hash is silently replaced (witness). Exact behaviour proved."
  },
  {
   "property": "C09",
   "status": "proved",
   "theorems": [
    "C09_insert_tx_accepted",
    "C09_insert_tx_rejected"
   ],
   "note": "Heights below u32::MAX (the code's sentinel value, see C66)."
  },
  {
   "property": "C10",
   "status": "proved",
   "theorems": [
    "C10_invalidate_exact"
   ],
   "note": ""
  },
  {
   "property": "C100",
   "status": "proved",
   "theorems": [
    "C100_scan",
    "C100_esplora"
   ],
   "note": "For wallets that do not contradict the world except about transactions the scan has to find, and outputs they have not overlooked (the refutation of the opposite is C91's)."
  },
  {
   "property": "C101",
   "status": "partial",
   "theorems": [
    "C101_electrum",
    "C101_electrum_growing",
    "C101_electrum_seen",
    "C101_esplora",
    "C101_esplora_growing",
    "C101_esplora_seen",
    "C101_hidden_refuted"
   ],
   "note": "For every life of the file in a network that only grows, and otherwise unless a reorganisation is hidden from the wallet (no checkpoint at or below the height of a transaction that moved), or if the command has to find the moved transactions (_seen: blocks commit to their transactions); electrum sync also needs the network to know the wallet's unspent transactions (C99_forgotten_refuted). False for hidden reorganisations of transactions the command does not ask for: sync leaves a stale height and later syncs fail."
  },
  {
   "property": "C102",
   "status": "partial",
   "theorems": [
    "C102_noted",
    "C102_never_again",
    "C102_killed_refuted"
   ],
   "note": "For transactions whose entry got into the file. A process killed between broadcasting and writing, or a write that fails there, leaves no trace of the transaction, and the next send spends the same output again (refuted)."
  },
  {
   "property": "C103",
   "status": "partial",
   "theorems": [
    "C103_change_used",
    "C103_not_again",
    "C103_new_above",
    "C103_killed_refuted",
    "C103_shown_refuted"
   ],
   "note": "For transactions whose entry got into the file and that the wallet did not know before, and while the keychains have scripts left. A process killed between broadcasting and writing makes the next one use the same change script, or show it as an address when there is one descriptor (refuted)."
  },
  {
   "property": "C104",
   "status": "partial",
   "theorems": [
    "C104_pays_or_says_why",
    "C104_sends_iff_affordable",
    "C104_dust_refuted",
    "C104_panics_refuted"
   ],
   "note": "For taproot wallets with the secrets, and amounts and weights within modest bounds. False with a coin that costs more to spend than it is worth: smallest first reports insufficient funds where largest first pays. An amount near 2^64 panics in a debug build, and a wallet without secrets panics instead of reporting."
  },
  {
   "property": "C105",
   "status": "partial",
   "theorems": [
    "C105_minable",
    "C105_coinbase_refuted"
   ],
   "note": "For wallets whose coinbase outputs are mature in that block and tips below the lock time threshold. False with a young coinbase output: create_tx does not ask is_mature and spends it (refuted)."
  },
  {
   "property": "C106",
   "status": "partial",
   "theorems": [
    "C106_electrum_fuel",
    "C106_esplora_fuel",
    "C106_electrum",
    "C106_esplora",
    "C106_electrum_refuted",
    "C106_esplora_refuted",
    "C106_pages_refuted"
   ],
   "note": "Once the server settles, within as many rounds as it had requests before; local checkpoints not above its tip; for esplora the pages after a transaction it does not know are not full. False of servers that never settle: one that replaces its tip between any three requests, telling the truth at every moment, or always says a page is full keeps a scan busy for ever (refuted)."
  },
  {
   "property": "C107",
   "status": "partial",
   "theorems": [
    "C107_chain",
    "C107_graph",
    "C107_entry_partial",
    "C107_log_partial",
    "C107_retry_partial",
    "C107_entry_refuted"
   ],
   "note": "Chain and graph in general. For the tracker exactly when it has on record every output of the entry whose script it watches, as it has if they were within the lookahead. False otherwise: an output beyond the lookahead of the first application is found by the second, which brings money to light (refuted)."
  },
  {
   "property": "C108",
   "status": "partial",
   "theorems": [
    "C108_movement_rules",
    "C108_moves_only_in_reorg",
    "C108_below_refuted",
    "C108_limit_refuted"
   ],
   "note": "Exactly when a movement is accepted, and that there is none without a reorganisation. The last rule of the documentation is false: a transaction can be moved below the reorganisation, even below a block both chains have (refuted; a test of the project asserts it). Without checkpoints (limit 0) a transaction can move without a reorganisation (refuted)."
  },
  {
   "property": "C109",
   "status": "proved",
   "theorems": [
    "C109_second_user_panics",
    "C109_both_panic",
    "C109_send_panics",
    "C109_file_refuted"
   ],
   "note": "In the state the example of the documentation ends in, revealing from the external keychain panics. C109_file_refuted: an electrum scan of a wallet with one descriptor for both keychains writes a changeset that makes every later start panic. Debug build; in a release build reveal_next_spk and next_unused_spk panic likewise (by reading), applying additions does not."
  },
  {
   "property": "C11",
   "status": "proved",
   "theorems": [
    "C11_clear_mempool_exact"
   ],
   "note": ""
  },
  {
   "property": "C110",
   "status": "proved",
   "theorems": [
    "C110_new_iff",
    "C110_new_result"
   ],
   "note": ""
  },
  {
   "property": "C111",
   "status": "partial",
   "theorems": [
    "C111_coin_survives",
    "C111_balance",
    "C111_refuted"
   ],
   "note": "False in general (C111_refuted: change of a transaction that spends an unconfirmed payment counts as trusted and goes with the payment). Proved for outputs of transactions that are confirmed or that the wallet made, transitively, from such outputs of its own; given no reorganisation and no transaction at height u32::MAX."
  },
  {
   "property": "C112",
   "status": "partial",
   "theorems": [
    "C112_in_order",
    "C112_fewest_partial",
    "C112_fewest_refuted"
   ],
   "note": "Order, sufficiency and minimality in full, for amounts and weights within modest bounds. That largest first spends as few coins as possible is proved if all coins cost the same to spend and false otherwise: the larger coin may cost more to spend than it is larger (refuted)."
  },
  {
   "property": "C113",
   "status": "partial",
   "theorems": [
    "C113_starts",
    "C113_session_partial",
    "C113_process_partial",
    "C113_balance_refuted",
    "C113_send_refuted"
   ],
   "note": "Starting never panics in any life (kills and failing writes, no power loss). Commands do not panic if the scripts of the wallet have addresses, the funds fit u64 (balance) and the wallet can sign with moderate amounts and weights (send); txids are taken to identify transactions. False without: a server reporting 2^64-1 makes balance panic, and sends panic for an amount of 2^64-1 or without secrets (refuted, debug build)."
  },
  {
   "property": "C114",
   "status": "partial",
   "theorems": [
    "C114_scan",
    "C114_scan_esplora",
    "C114_settled",
    "C114_sync_refuted"
   ],
   "note": "Proved for scan (electrum and esplora; a second esplora scan must have the same gap and parallelism, or keep with its last batch within the first gap). False of sync: without flags it asks for the outputs the wallet knows to be unspent, and the answer may bring outputs to used addresses that the network has spent already; the balance is wrong until the next sync (refuted). Once a sync has left the wallet as it was, every unspent output is unspent in the network (C114_settled)."
  },
  {
   "property": "C115",
   "status": "proved",
   "theorems": [
    "C115_goes_on",
    "C115_settles",
    "C115_right",
    "C115_goes_on_esplora",
    "C115_settles_esplora",
    "C115_right_esplora"
   ],
   "note": "For both commands (with esplora as far as the transactions of a script fit on the pages asked for), given that the network knows the transactions of the wallet (all_known) and that the scripts have addresses. The bound is the number of transactions of the network; C114_sync_refuted shows that one sync is not enough."
  },
  {
   "property": "C116",
   "status": "proved",
   "theorems": [
    "C116_failures",
    "C116_address_list"
   ],
   "note": "C116_failures holds for every tracker and store, without any hypothesis. That a script is used means si_is_used, which C32_unused says."
  },
  {
   "property": "C117",
   "status": "proved",
   "theorems": [
    "C117_additions",
    "C117_txouts",
    "C117_last_used",
    "C117_revealed_all",
    "C117_spks"
   ],
   "note": "For the histories of C34. The outputs are those of the index (si_spk_txouts), which C31 characterises."
  },
  {
   "property": "C12",
   "status": "proved",
   "theorems": [
    "C12_range_by_height",
    "C12_range_by_position",
    "C12_range_txids"
   ],
   "note": "A range whose start is after its end panics, as BTreeSet::range does."
  },
  {
   "property": "C13",
   "status": "partial",
   "theorems": [
    "C13_append_partial",
    "C13_append_monoid",
    "C13_append_limit_refuted"
   ],
   "note": "Holds without a checkpoint limit; false with one (witness)."
  },
  {
   "property": "C14",
   "status": "proved",
   "theorems": [
    "C14_initial_roundtrip"
   ],
   "note": ""
  },
  {
   "property": "C15",
   "status": "proved",
   "theorems": [
    "C15_limit_invariant",
    "C15_prune_exact",
    "C15_apply_under_limit"
   ],
   "note": ""
  },
  {
   "property": "C16",
   "status": "proved",
   "theorems": [
    "C16_txheight_contract",
    "C16_confirmation_time_contract",
    "C16_min_max_exact"
   ],
   "note": ""
  },
  {
   "property": "C17",
   "status": "proved",
   "theorems": [
    "C17_coinbase_maturity",
    "C17_spendable",
    "C17_maturity_overflow_refuted"
   ],
   "note": "For ages below u32::MAX; at age u32::MAX age + 1 overflows (witness)."
  },
  {
   "property": "C18",
   "status": "partial",
   "theorems": [
    "C18_full_txs",
    "C18_full_stays",
    "C18_txouts_partial",
    "C18_txout_lost_refuted",
    "C18_update_merge",
    "C18_keyed",
    "C18_new"
   ],
   "note": "Full transactions: proved outright. Single outputs: proved when all offers agree with one assignment of outputs to txids; otherwise a later insert_txout overwrites (witness)."
  },
  {
   "property": "C19",
   "status": "proved",
   "theorems": [
    "C19_spends_exact",
    "C19_tx_outspends",
    "C19_all_txouts",
    "C19_txouts"
   ],
   "note": ""
  },
  {
   "property": "C20",
   "status": "proved",
   "theorems": [
    "C20_preview",
    "C20_new_txs",
    "C20_new_txouts",
    "C20_order_irrelevant",
    "C20_reapply",
    "C20_replay",
    "C20_replay_appended"
   ],
   "note": ""
  },
  {
   "property": "C21",
   "status": "partial",
   "theorems": [
    "C21_append_partial",
    "C21_append_refuted",
    "C21_monoid"
   ],
   "note": "Holds when the two additions do not give one txid two transactions; false otherwise (same txid, different witness). For additions collected from a history it always holds: C20_replay_appended."
  },
  {
   "property": "C22",
   "status": "proved",
   "theorems": [
    "C22_walk_exact",
    "C22_order_irrelevant",
    "C22_any_callback"
   ],
   "note": ""
  },
  {
   "property": "C23",
   "status": "partial",
   "theorems": [
    "C23_depth_partial",
    "C23_depth_refuted"
   ],
   "note": "The depth is the length of some kept spend path, not of a shortest one (diamond)."
  },
  {
   "property": "C24",
   "status": "partial",
   "theorems": [
    "C24_direct_conflicts",
    "C24_walk_conflicts",
    "C24_fee",
    "C24_fee_coinbase_refuted"
   ],
   "note": "Exact except that a coinbase has fee Some(0) rather than none. Sums below 2^63 assumed (i64)."
  },
  {
   "property": "C25",
   "status": "proved",
   "theorems": [
    "C25_txs_full",
    "C25_no_panic",
    "C25_lookup",
    "C25_listing"
   ],
   "note": "Histories: new, inflate, insert tx/txout/checkpoint, invalidate, update (by a chain graph so built), checkpoint limit; txids determine inputs."
  },
  {
   "property": "C26",
   "status": "proved",
   "theorems": [
    "C26_no_double_spend",
    "C26_consistent"
   ],
   "note": ""
  },
  {
   "property": "C27",
   "status": "partial",
   "theorems": [
    "C27_partial",
    "C27_insert_partial",
    "C27_refuted"
   ],
   "note": "False of the code: a spend of an evicted transaction is accepted. Holds while the chain contains the known parents of its transactions, which insertion keeps for transactions whose known parents are in the chain."
  },
  {
   "property": "C28",
   "status": "proved",
   "theorems": [
    "C28_update",
    "C28_insert",
    "C28_update_evicts",
    "C28_insert_evicts",
    "C28_insert_adds",
    "C28_contains_eviction"
   ],
   "note": ""
  },
  {
   "property": "C29",
   "status": "proved",
   "theorems": [
    "C29_spent_by",
    "C29_full_txout"
   ],
   "note": ""
  },
  {
   "property": "C30",
   "status": "partial",
   "theorems": [
    "C30_inflate",
    "C30_positions_partial",
    "C30_append",
    "C30_positions_refuted"
   ],
   "note": "Success and both errors characterised exactly; inflation also fails when the update itself double spends. Positions are the sparse update's except for transactions evicted by C28."
  },
  {
   "property": "C31",
   "status": "proved",
   "theorems": [
    "C31_no_panic",
    "C31_tracked",
    "C31_spk_at",
    "C31_by_outpoint",
    "C31_listing",
    "C31_in_tx",
    "C31_by_index",
    "C31_scan_result",
    "C31_batch_order",
    "C31_views_refuted"
   ],
   "note": "Outpoints are offered with one fixed output each; without that the two views can disagree (C31_views_refuted)."
  },
  {
   "property": "C32",
   "status": "proved",
   "theorems": [
    "C32_unused",
    "C32_listing",
    "C32_mark",
    "C32_unmark"
   ],
   "note": ""
  },
  {
   "property": "C33",
   "status": "proved",
   "theorems": [
    "C33_sent_received",
    "C33_net_value",
    "C33_relevant"
   ],
   "note": "Totals over u64::MAX panic (shown exactly); net value for totals below 2^63."
  },
  {
   "property": "C34",
   "status": "proved",
   "theorems": [
    "C34_no_panic",
    "C34_stored",
    "C34_nothing_else",
    "C34_listing",
    "C34_monotone"
   ],
   "note": "Reveal targets at most the code's bound 2^30. Histories of all mutating calls; descriptors derive within the bound and do not share scripts; lookaheads at most 2^31."
  },
  {
   "property": "C35",
   "status": "proved",
   "theorems": [
    "C35_fresh",
    "C35_handed_out",
    "C35_next_unused",
    "C35_reserve"
   ],
   "note": "Histories of all mutating calls; descriptors derive within the bound and do not share scripts; lookaheads at most 2^31."
  },
  {
   "property": "C36",
   "status": "partial",
   "theorems": [
    "C36_within",
    "C36_beyond_partial",
    "C36_max_partial",
    "C36_beyond_bound_refuted",
    "C36_unstored_refuted"
   ],
   "note": "Exact for every target up to the bound 2^30, and beyond it while the lookahead stays below the bound. Otherwise false: nothing is revealed, or an index without a script is (witnesses). Histories of all mutating calls; descriptors derive within the bound and do not share scripts; lookaheads at most 2^31."
  },
  {
   "property": "C37",
   "status": "partial",
   "theorems": [
    "C37_bound",
    "C37_whole_range_refuted",
    "C36_beyond_partial"
   ],
   "note": "False: BIP32_MAX_INDEX is 1 << 31 - 1 = 2^30 by operator precedence. Every index up to 2^30 can be revealed (C36_beyond_partial), none beyond."
  },
  {
   "property": "C38",
   "status": "partial",
   "theorems": [
    "C38_exact",
    "C38_target_partial",
    "C38_target_refuted"
   ],
   "note": "False when a lookahead is in force (witness); exact behaviour proved. Histories of all mutating calls; descriptors derive within the bound and do not share scripts; lookaheads at most 2^31."
  },
  {
   "property": "C39",
   "status": "proved",
   "theorems": [
    "C39_gapped"
   ],
   "note": "Histories of all mutating calls; descriptors derive within the bound and do not share scripts; lookaheads at most 2^31."
  },
  {
   "property": "C40",
   "status": "proved",
   "theorems": [
    "C40_comm",
    "C40_assoc",
    "C40_idemp",
    "C40_empty",
    "C40_least",
    "C40_upper",
    "C40_apply",
    "C40_apply_order",
    "C40_replay"
   ],
   "note": "Histories of all mutating calls; descriptors derive within the bound and do not share scripts; lookaheads at most 2^31."
  },
  {
   "property": "C41",
   "status": "partial",
   "theorems": [
    "C41_listing",
    "C41_balance",
    "C41_no_checkpoint_refuted"
   ],
   "note": "Categories and totals exact for histories whose updates keep confirmed transactions at or below their tip and whose checkpoint limit is not 0, totals within u64. With limit 0 a confirmed coinbase makes balance panic (witness). Over every set-up and history of calls (updates in any iteration order), descriptor derivation total and injective up to 2^30, outpoints in range."
  },
  {
   "property": "C42",
   "status": "partial",
   "theorems": [
    "C42_balance_at",
    "C42_coinbase_refuted",
    "C41_listing"
   ],
   "note": "Exact while wallet coinbases are confirmed; an unconfirmed coinbase makes balance_at panic in debug builds (witness). Over every set-up and history of calls (updates in any iteration order), descriptor derivation total and injective up to 2^30, outpoints in range."
  },
  {
   "property": "C43",
   "status": "partial",
   "theorems": [
    "C43_replay",
    "C43_new_indices",
    "C43_view",
    "C43_consistent",
    "C43_lookahead_refuted",
    "C43_unknown_keychain_refuted"
   ],
   "note": "Replay onto a tracker with the same keychains and lookaheads restores everything. With a smaller lookahead revealed indices and funds are lost (witness); an unknown keychain in a scan panics (witness). Over every set-up and history of calls (updates in any iteration order), descriptor derivation total and injective up to 2^30, outpoints in range."
  },
  {
   "property": "C44",
   "status": "partial",
   "theorems": [
    "C44_staging",
    "C44_total",
    "C44_commit",
    "C44_append_assoc",
    "C44_append_default",
    "C44_merged_partial",
    "C44_merged_refuted"
   ],
   "note": "Staging and commit schedules exact for every backend behaviour. That a merged changeset equals its parts applied in turn is proved while payments are within the lookahead, and false otherwise (witness from a run). Over every set-up and history of calls (updates in any iteration order), descriptor derivation total and injective up to 2^30, outpoints in range."
  },
  {
   "property": "C45",
   "status": "proved",
   "theorems": [
    "C45_sessions",
    "C45_history_partial",
    "C45_wallet",
    "C45_persist"
   ],
   "note": "C45_sessions is the full statement. C45_history_partial covers any interleaving with failing appends within stated limits, C45_wallet and C45_persist go through staging and restore a tracker. For every changeset with values in range; the encodings of keychains, positions, transactions and outputs are parameters with the same laws (instantiated in FileStoreExamples.v)."
  },
  {
   "property": "C46",
   "status": "partial",
   "theorems": [
    "C46_crash_partial",
    "C45_history_partial",
    "C46_double_refuted",
    "C46_retry_refuted"
   ],
   "note": "Any failure or crash point of an append to a sound file. False in general: a second crash after fewer bytes than the first can leave a file that loads a changeset nobody appended, and a failed append retried on the same handle loses the entry (witnesses). For every changeset with values in range; the encodings of keychains, positions, transactions and outputs are parameters with the same laws (instantiated in FileStoreExamples.v)."
  },
  {
   "property": "C47",
   "status": "partial",
   "theorems": [
    "C47_replaces",
    "C47_refuted"
   ],
   "note": "False: appending right after opening replaces all entries (proved for every file, and a witness). True after loading (C45). For every changeset with values in range; the encodings of keychains, positions, transactions and outputs are parameters with the same laws (instantiated in FileStoreExamples.v)."
  },
  {
   "property": "C48",
   "status": "partial",
   "theorems": [
    "C48_error_repeats",
    "C48_none_partial",
    "C48_refuted"
   ],
   "note": "False: the same error is returned for ever, the flag is never read (proved for every file, and a witness)."
  },
  {
   "property": "C49",
   "status": "proved",
   "theorems": [
    "C49_roundtrip",
    "C49_cut",
    "C49_rest",
    "C49_positions",
    "C49_keychains"
   ],
   "note": "The integers, options, maps, sets, hashes and outpoints of bincode's standard configuration are modelled from its documentation. For every changeset with values in range; the encodings of keychains, positions, transactions and outputs are parameters with the same laws (instantiated in FileStoreExamples.v)."
  },
  {
   "property": "C50",
   "status": "partial",
   "theorems": [
    "C50_complete_partial",
    "C50_refuted"
   ],
   "note": "False: after a crash with fewer than 12 bytes written the file can never be opened (every such crash point)."
  },
  {
   "property": "C51",
   "status": "proved",
   "theorems": [
    "C51_balance",
    "C51_rate_partial",
    "C51_rate_refuted",
    "C51_whole_rate"
   ],
   "note": "C51_balance is the full statement. Against the exact (not the computed) rate the fee may be half a satoshi short (bound proved, witness), never at whole sat/vB rates. Any typed input in a build with overflow checks; without them for amounts below 2^61, weights below 2^31 and non-negative finite rates up to 2^20 sat/wu. f32 arithmetic is modelled bit for bit."
  },
  {
   "property": "C52",
   "status": "proved",
   "theorems": [
    "C52_error",
    "C52_total",
    "C52_unbounded_refuted"
   ],
   "note": "No panic for modest amounts except the assertion of C53; without the bound the sums overflow (witness). Any typed input in a build with overflow checks; without them for amounts below 2^61, weights below 2^31 and non-negative finite rates up to 2^20 sat/wu. f32 arithmetic is modelled bit for bit."
  },
  {
   "property": "C53",
   "status": "partial",
   "theorems": [
    "C53_strategy_refuted",
    "C53_empty",
    "C53_best_partial"
   ],
   "note": "False: no target and a minimum fee above the fee at the target rate can finish without a strategy (witness); exact condition proved, and minimality of the best strategy otherwise. Any typed input in a build with overflow checks; without them for amounts below 2^61, weights below 2^31 and non-negative finite rates up to 2^20 sat/wu. f32 arithmetic is modelled bit for bit."
  },
  {
   "property": "C54",
   "status": "proved",
   "theorems": [
    "C54_prefix",
    "C54_all",
    "C54_total"
   ],
   "note": "Any selector; no panic for modest amounts. Any typed input in a build with overflow checks; without them for amounts below 2^61, weights below 2^31 and non-negative finite rates up to 2^20 sat/wu. f32 arithmetic is modelled bit for bit."
  },
  {
   "property": "C55",
   "status": "proved",
   "theorems": [
    "C55_found",
    "C55_enough",
    "C55_clock",
    "C55_unbounded_refuted"
   ],
   "note": "Any sort, any round limit or clock that does not run backwards; amounts up to 2^61 and weights up to 2^31, in both build profiles. Any typed input in a build with overflow checks; without them for amounts below 2^61, weights below 2^31 and non-negative finite rates up to 2^20 sat/wu. f32 arithmetic is modelled bit for bit."
  },
  {
   "property": "C56",
   "status": "partial",
   "theorems": [
    "C56_drain_refuted",
    "C56_rounding_refuted",
    "C56_exact_partial",
    "C56_drain_only_partial",
    "C56_by_one_partial"
   ],
   "note": "Refuted: without a target (minimum drain) and by f32 rounding. Proved with a target when the products fit 24 bits; otherwise one satoshi is missing at most for fees up to 2^23. Any typed input in a build with overflow checks; without them for amounts below 2^61, weights below 2^31 and non-negative finite rates up to 2^20 sat/wu. f32 arithmetic is modelled bit for bit."
  },
  {
   "property": "C57",
   "status": "partial",
   "theorems": [
    "C57_optimal_partial",
    "C57_all_refuted"
   ],
   "note": "Optimal among selections adding candidates of positive effective value; refuted over all candidates, since the others are never considered. Any typed input in a build with overflow checks; without them for amounts below 2^61, weights below 2^31 and non-negative finite rates up to 2^20 sat/wu. f32 arithmetic is modelled bit for bit."
  },
  {
   "property": "C58",
   "status": "proved",
   "theorems": [
    "C58_prepared",
    "C58_connects",
    "C60_electrum",
    "C60_esplora",
    "C58_reorg_refuted"
   ],
   "note": "Electrum and Esplora. Beyond the property: while the server reorganises, a local block that is gone can stay in the update (witness). The server is one function from request to answer per request, so it may change its mind between any two."
  },
  {
   "property": "C59",
   "status": "proved",
   "theorems": [
    "C59_electrum",
    "C59_esplora",
    "C59_debug_refuted"
   ],
   "note": "Electrum and Esplora, any answers the types allow (tip below u32::MAX). In a debug build of the Electrum client a height below -1 panics on an assertion before any position is derived (witness). The server is one function from request to answer per request, so it may change its mind between any two."
  },
  {
   "property": "C60",
   "status": "partial",
   "theorems": [
    "C60_electrum",
    "C60_batch_zero_refuted",
    "C60_esplora",
    "C60_mempool_refuted"
   ],
   "note": "Electrum: any stop gap and any batch size but 0 (which scans nothing: witness). Esplora: any stop gap and number of parallel requests; scripts with at most 50 unconfirmed transactions (the server never reports more and the client does not ask: witness). The server is one function from request to answer per request, so it may change its mind between any two."
  },
  {
   "property": "C61",
   "status": "partial",
   "theorems": [
    "C61_partial",
    "C61_one_keychain",
    "C61_batch_refuted",
    "C61_two_keychains_refuted",
    "C61_moved_refuted",
    "C61_esplora_partial",
    "C61_esplora_refuted"
   ],
   "note": "False. Electrum: with two keychains, when a transaction moves between two batches, or when a used script makes forgotten ones of the same batch matter, histories are lost (witnesses); with one keychain otherwise every history is found and the reported index is high enough. Esplora: only the transactions found before the reorganisation are looked up again (witness). After one reorganisation the positions are right, with Electrum also the requested transactions and outpoints are there. The server is one function from request to answer per request, so it may change its mind between any two."
  },
  {
   "property": "C62",
   "status": "partial",
   "theorems": [
    "C62_change_on_disk_partial",
    "C62_session_refuted"
   ],
   "note": "False of a process which runs several commands: a send that fails leaves the change index revealed in memory only, the next one uses it without writing it, and a restart loses the change (refuted). Proved for every life of one command per process, the examples' use, with processes killed anywhere and failing writes."
  },
  {
   "property": "C63",
   "status": "partial",
   "theorems": [
    "C63_plan_within_assets_partial",
    "C63_all_but_locktime",
    "C63_plan_is_a_path",
    "C63_plan_within_assets_refuted"
   ],
   "note": "False of the lock time: planning after(n) compares the maximum lock time with itself, so a plan can need a later lock time or one of the other kind (refuted). Proved for every other requirement, and in full if the assets reach every absolute lock time of the descriptor; a plan is exactly one spending path of a leaf, with the latest lock time and sequence of that path."
  },
  {
   "property": "C64",
   "status": "proved",
   "theorems": [
    "C64_try_complete_exact"
   ],
   "note": "For every plan found by plan_satisfaction and all material; completing never panics."
  },
  {
   "property": "C65",
   "status": "partial",
   "theorems": [
    "C65_expected_weight_partial",
    "C65_expected_weight_with_pk_h",
    "C65_expected_weight_refuted"
   ],
   "note": "False with pk_h: the revealed key has 33 bytes but 32 are expected (refuted, and the exact difference proved). Proved for descriptors without pk_h."
  },
  {
   "property": "C66",
   "status": "partial",
   "theorems": [
    "C06_settled_max_height_refuted"
   ],
   "note": "False: u32::MAX doubles as 'nothing invalidated' (witness)."
  },
  {
   "property": "C67",
   "status": "proved",
   "theorems": [
    "C67_partition",
    "C67_apply",
    "C67_calls",
    "C67_outside"
   ],
   "note": "Every selector whose selected indices are candidates' (the API keeps it so)."
  },
  {
   "property": "C68",
   "status": "proved",
   "theorems": [
    "C68_weight",
    "C68_options"
   ],
   "note": "Weights within u32. Transaction::weight of the bitcoin crate is modelled from its documentation."
  },
  {
   "property": "C69",
   "status": "partial",
   "theorems": [
    "C60_electrum",
    "C69_scripts",
    "C69_unknown_outpoint_refuted",
    "C60_esplora",
    "C69_esplora_plain"
   ],
   "note": "Electrum: outpoints whose transaction the server knows, with any other the scan fails (witness). Esplora: all. The server is one function from request to answer per request, so it may change its mind between any two."
  },
  {
   "property": "C70",
   "status": "proved",
   "theorems": [
    "C70_missing",
    "C70_inflate"
   ],
   "note": "Any chain graph in a consistent state (C26_consistent)."
  },
  {
   "property": "C71",
   "status": "partial",
   "theorems": [
    "C71_times",
    "C71_short_refuted"
   ],
   "note": "A server that sends fewer headers than asked for makes the client panic (witness)."
  },
  {
   "property": "C72",
   "status": "partial",
   "theorems": [
    "C72_sync_partial",
    "C72_sync_times_partial",
    "C72_esplora_partial",
    "C72_refuted"
   ],
   "note": "False: a transaction confirmed between the last common checkpoint and the first reorganised one, replaced by the reorganisation, makes every later update fail with an unresolvable conflict (witness). Proved when what the wallet has below its first reorganised checkpoint is right or found again at another height by the scan itself (local_seen). The server is one function from request to answer per request, so it may change its mind between any two."
  },
  {
   "property": "C73",
   "status": "partial",
   "theorems": [
    "C73_witness_satisfies_partial",
    "C73_required_waits",
    "C73_witness_satisfies_refuted",
    "C73_pk_h_refuted",
    "C73_older_refuted"
   ],
   "note": "False: the arguments of and_v and and_b are in the wrong order, pk_h puts a 33 byte key on the stack, and relative lock times are compared with undefined bits (three refutations by script execution). Proved for well typed scripts where of two joined parts one takes no argument, without pk_h and with plain older values."
  },
  {
   "property": "C74",
   "status": "partial",
   "theorems": [
    "C74_right_keys_partial",
    "C74_right_keys_refuted"
   ],
   "note": "False if the asset is itself an extended key of the descriptor with steps to derive: the hint is empty and the parent key signs (refuted). Proved otherwise, for honest origins and key maps."
  },
  {
   "property": "C75",
   "status": "partial",
   "theorems": [
    "C75_plan_found_partial",
    "C75_planning_ends",
    "C75_plan_found_refuted",
    "C75_planning_panics_refuted",
    "C75_block_locktime_panics_refuted"
   ],
   "note": "False: an or_i is decided by size before lock time kinds are compared, unimplemented fragments stop the program, and so does after with a maximum lock time in blocks (refuted). Proved for leaves whose paths do not mix kinds of lock times; ending proved for the implemented fragments without a block lock time."
  },
  {
   "property": "C76",
   "status": "partial",
   "theorems": [
    "C76_smallest_template_partial",
    "C76_cheapest_plan_refuted"
   ],
   "note": "False of the weight: script and control block sizes are not counted (refuted). Proved for the size of what the path puts on the stack, among leaf spends."
  },
  {
   "property": "C77",
   "status": "partial",
   "theorems": [
    "C77_signing_completes_partial",
    "C77_signing_completes_refuted"
   ],
   "note": "False for a plan that requires nothing: its requirements say legacy and signing panics (refuted). Proved whenever signing returns Ok."
  },
  {
   "property": "C78",
   "status": "partial",
   "theorems": [
    "C78_address_on_disk_partial",
    "C78_session_refuted"
   ],
   "note": "Proved for every life of one command per process. False of several commands in one process without a change keychain (refuted)."
  },
  {
   "property": "C79",
   "status": "proved",
   "theorems": [
    "C79_durable"
   ],
   "note": "For every life of one command per process."
  },
  {
   "property": "C80",
   "status": "proved",
   "theorems": [
    "C80_transaction_balances"
   ],
   "note": "For every state of every session of any number of commands; values, script lengths and weights in range (modest_wallet), hash orders and clock arbitrary."
  },
  {
   "property": "C81",
   "status": "partial",
   "theorems": [
    "C81_fee_rate_partial",
    "C81_pk_h_refuted"
   ],
   "note": "Proved for signatures of 64 bytes, leaves without pk_h and transactions within the weight limit of a block. False with pk_h: a transaction made pays less (refuted in a session)."
  },
  {
   "property": "C82",
   "status": "partial",
   "theorems": [
    "C82_inputs_signed_partial",
    "C82_pk_h_refuted",
    "C82_two_keys_refuted"
   ],
   "note": "Proved for the leaves of C73 (no conjunction of two sides that need the stack, no pk_h, plain older) and the keys of C74. False for pk_h and for two joined keys: the wallet makes and broadcasts a transaction whose witness does not satisfy the leaf (refuted in a session)."
  },
  {
   "property": "C83",
   "status": "proved",
   "theorems": [
    "C83_send_balance"
   ],
   "note": "For every state of every session. Assumed of the broadcast transaction: its txid is new to the wallet and determines its inputs (event_ok, new_to), it does not spend the null outpoint; values in range, checkpoints below the last height."
  },
  {
   "property": "C84",
   "status": "proved",
   "theorems": [
    "C84_balance_exact"
   ],
   "note": ""
  },
  {
   "property": "C85",
   "status": "partial",
   "theorems": [
    "C85_no_double_spend_partial",
    "C85_interleaved_refuted"
   ],
   "note": "Proved against every transaction in the wallet's chain, so for sends one after the other (C83 puts each in the chain). Refuted for two sends whose first halves both run before either broadcast: nothing reserves the coins."
  },
  {
   "property": "C86",
   "status": "proved",
   "theorems": [
    "C86_change_distinct",
    "C86_change_not_given",
    "C86_one_script_refuted",
    "C86_given_before_refuted"
   ],
   "note": "For descriptors with scripts left to reveal; refuted for a change descriptor without a wildcard. Scripts given away before are used as change if there is no change descriptor."
  },
  {
   "property": "C87",
   "status": "proved",
   "theorems": [
    "C87_failed_send"
   ],
   "note": "The change script stays revealed in memory and on disk."
  },
  {
   "property": "C88",
   "status": "proved",
   "theorems": [
    "C88_txout_list"
   ],
   "note": ""
  },
  {
   "property": "C89",
   "status": "proved",
   "theorems": [
    "C89_sync_request"
   ],
   "note": "For descriptors whose scripts have addresses (otherwise listing unused scripts panics)."
  },
  {
   "property": "C90",
   "status": "proved",
   "theorems": [
    "C90_electrum",
    "C90_electrum_times",
    "C90_esplora",
    "C90_lookahead_refuted"
   ],
   "note": "For set-ups without lookahead and any checkpoint limit but 0; with a lookahead, outputs at scripts the scan did not ask about are kept and their spends missed (refuted). Esplora: all scripts within the stop gap, none beyond the reach of a batch; at most 50 unconfirmed transactions per script (C60)."
  },
  {
   "property": "C91",
   "status": "partial",
   "theorems": [
    "C91_electrum",
    "C91_electrum_times",
    "C91_esplora",
    "C91_not_indexed_refuted"
   ],
   "note": "For wallets with any checkpoint limit but 0 and a local chain that shows the fork or where it does not has only what the scan finds again (fit_seen; fit_for, which is stronger, holds afterwards), and for the outputs that the wallet had not overlooked: those of transactions it had before it watched their script are missed for ever (refutation); it overlooks no others."
  },
  {
   "property": "C92",
   "status": "partial",
   "theorems": [
    "C92_life",
    "C92_growing",
    "C92_esplora",
    "C92_esplora_growing",
    "C92_seen",
    "C92_esplora_seen",
    "C92_hidden_refuted"
   ],
   "note": "With any checkpoint limit but 0, changed at will, while worlds are coherent (a block hash or txid names one block or transaction), get higher, and no reorganisation is hidden from the wallet (no_hidden_reorg; see C72: a chain without a checkpoint near a moved transaction cannot be updated); without that condition when the world only grows, or when each synchronisation asks for what a hidden reorganisation has moved (C92_seen). If one does not, the wallet keeps a stale height below checkpoints that agree, and every later synchronisation that finds the transaction is refused (C92_hidden_refuted). Outputs at scripts that the set-up did not watch may be missed (C91_not_indexed_refuted). Electrum and esplora."
  },
  {
   "property": "C93",
   "status": "proved",
   "theorems": [
    "C93_indices_survive"
   ],
   "note": "Histories with a sync that returned an error are excluded: what a later sync then guarantees is up to the operating system."
  },
  {
   "property": "C94",
   "status": "partial",
   "theorems": [
    "C94_after_sync_partial",
    "C94_only_appended_refuted",
    "C94_opens_refuted"
   ],
   "note": "Right after a synced append nothing changes. Otherwise false: entries without derivation indices are not synced, and what is left of one may read as another; the magic bytes of a new file are not synced and the file may not be openable ever after."
  },
  {
   "property": "C95",
   "status": "partial",
   "theorems": [
    "C95_given_away_survive_partial",
    "C95_unsynced_refuted",
    "C95_starts_refuted"
   ],
   "note": "As long as no process stopped between writing an entry with indices and syncing it, and the process gets as far as to load the file. False without: the next process shows the address without syncing (refuted), and what is left of an entry may make every start panic (refuted)."
  },
  {
   "property": "C96",
   "status": "proved",
   "theorems": [
    "C96_history",
    "C96_insert",
    "C96_update",
    "C96_inflate",
    "C96_errors_refuted"
   ],
   "note": "Insertions and their errors are identical; updates too, but for the transaction named by TxInconsistent; inflating but for the second transaction named of a double spend: that these two do depend on the order is C96_errors_refuted."
  },
  {
   "property": "C97",
   "status": "partial",
   "theorems": [
    "C97_session_partial",
    "C97_process_partial",
    "C97_session_keys_partial",
    "C97_process_keys_partial",
    "C97_strategies_refuted",
    "C97_keys_refuted"
   ],
   "note": "For the spender sets and the position map of a scan in every wallet, and for the order of the key map in wallets whose extended keys have wildcards; given the order of the excess strategies. False for the latter: two strategies may have the same waste, and whether there is a change output then depends on the order of the map. False for the key map when a descriptor has an extended key without wildcard: the order decides whether the right key or its parent signs."
  },
  {
   "property": "C98",
   "status": "proved",
   "theorems": [
    "C98_empty_iff",
    "C98_electrum",
    "C98_no_checkpoints_refuted"
   ],
   "note": "For wallets fit for the world (fit_seen: checkpoint limit not 0, nothing false below the fork that the scan does not find again), electrum. With the limit 0 every scan has a changeset, though nothing has changed (C98_no_checkpoints_refuted)."
  },
  {
   "property": "C99",
   "status": "partial",
   "theorems": [
    "C99_sync",
    "C99_esplora",
    "C99_used_refuted",
    "C99_indexed_refuted",
    "C99_forgotten_refuted"
   ],
   "note": "For wallets that do not contradict the world except about transactions the command has to find (fit_seen), whose unspent outputs the network knows (electrum), and outputs they have not overlooked. False without: a payment to a used address is missed without --all, an output known before its script was stored is missed even with it, and with electrum an own unconfirmed transaction the network has forgotten makes every default sync fail (with esplora not)."
  }
 ]
}