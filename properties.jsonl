{"id": "C01", "title": "Every listed transaction has one position, and listing order is chain order", "statement": "After any sequence of operations on a SparseChain (insertions, updates, invalidations, changesets, checkpoint-limit changes), iterating the chain's txids yields each transaction that has a position exactly once, paired with exactly the position the by-txid lookup reports, in increasing (position, txid) order, and yields no transaction without a position.", "quantifier": "every finite history of SparseChain operations, for every position type obeying the ChainPosition contract", "why_tests_cant": "the ordered view and the by-id view are separate containers updated in several places; agreement must hold after every history, not on sampled ones", "anchors": ["bdk_chain/src/sparse_chain.rs: SparseChain::txids, tx_position, apply_changeset", "bdk_chain/src/sparse_chain.rs: ordered_txids, txid_to_position"]}
{"id": "C02", "title": "Previewed changes are exactly the applied changes; errors change nothing", "statement": "For every mutating SparseChain call that has a preview form, the changeset returned by the mutation equals the previewed one, the resulting chain is the old chain with exactly that changeset applied, and if the call returns an error the chain is unchanged.", "quantifier": "every chain state and every argument", "why_tests_cant": "requires equality of whole states for all states and arguments, including every error path", "anchors": ["bdk_chain/src/sparse_chain.rs: insert_tx, insert_tx_preview, insert_checkpoint(_preview), apply_update, determine_changeset, invalidate_checkpoints(_preview), clear_mempool(_preview)"]}
{"id": "C03", "title": "Applying an update makes the chain report the update", "statement": "If apply_update succeeds on a chain without a checkpoint limit, then afterwards every checkpoint of the update is in the chain with the update's hash and every transaction of the update is at the update's position; everything else is as before, except that when the update invalidates checkpoints from some height on, old checkpoints at or above that height which the update does not contain are gone, and old transactions confirmed at or above that height which the update does not mention are unconfirmed.", "quantifier": "every chain and every update for which apply_update returns Ok (heights below u32::MAX, which the code uses as a sentinel; that height itself is C66)", "why_tests_cant": "a full functional specification over unbounded maps; tests check single transitions", "anchors": ["bdk_chain/src/sparse_chain.rs: determine_changeset, apply_update, apply_changeset"]}
{"id": "C04", "title": "Reapplying an update is a no-op", "statement": "If an update was applied successfully to a chain without a checkpoint limit, then determining the changeset of the same update again succeeds with the empty changeset.", "quantifier": "every chain and update (heights below u32::MAX, which the code uses as a sentinel; that height itself is C66)", "why_tests_cant": "needs reasoning about the state produced by an arbitrary earlier merge", "anchors": ["bdk_chain/src/sparse_chain.rs: determine_changeset, apply_update"]}
{"id": "C05", "title": "An update is rejected exactly when it does not connect or contradicts settled positions", "statement": "determine_changeset fails with NotConnected(h) exactly when h is the lowest checkpoint of the chain that the update invalidates (the lowest one above the highest height at which both agree, or the lowest one at all if they agree nowhere; if the update has no checkpoints, or its highest checkpoint is the agreement, nothing is invalidated) and the update has no checkpoint at h; it fails with TxInconsistent exactly when it connects and some transaction of the update has a different position in the chain whose height is at or below the agreement; in all other cases it succeeds. Which inconsistent transaction is reported may depend on hash-map order, whether one is reported does not.", "quantifier": "every chain, every update and every hash-map iteration order (heights below u32::MAX, which the code uses as a sentinel; that height itself is C66)", "why_tests_cant": "the decision depends on unbounded maps and on unspecified iteration order", "anchors": ["bdk_chain/src/sparse_chain.rs: determine_changeset, UpdateError"]}
{"id": "C06", "title": "A settled position survives any successful update", "statement": "If a transaction is confirmed in the chain at a height at or below the point of agreement with an update (or anywhere, when the update invalidates nothing), it still has exactly the same position after the update is applied successfully.", "quantifier": "every chain and every update accepted by apply_update (heights below u32::MAX, which the code uses as a sentinel; that height itself is C66)", "why_tests_cant": "must hold for every reorg shape", "anchors": ["bdk_chain/src/sparse_chain.rs: determine_changeset, UpdateError::TxInconsistent"]}
{"id": "C07", "title": "No confirmed transaction lies above the tip", "statement": "At all times every transaction the chain reports as confirmed has a height not greater than the height of the chain's latest checkpoint, so a chain with confirmed transactions has a checkpoint.", "quantifier": "every history of public operations starting from an empty chain", "why_tests_cant": "an invariant over all histories; balance computation panics when it is broken", "anchors": ["bdk_chain/src/sparse_chain.rs: insert_tx_preview, invalidate_checkpoints, set_checkpoint_limit, prune_checkpoints", "bdk_chain/src/keychain/tracker.rs: balance"]}
{"id": "C08", "title": "Inserting a checkpoint never changes the hash at an existing height", "statement": "insert_checkpoint(height, hash) fails, changing nothing, whenever the chain already has a checkpoint at that height with a different hash; it succeeds otherwise, and a successful insertion only adds that checkpoint.", "quantifier": "every chain and every block id", "why_tests_cant": "documented for all heights; tests only cover the tip", "anchors": ["bdk_chain/src/sparse_chain.rs: insert_checkpoint_preview, InsertCheckpointError", "bdk_chain/src/chain_graph.rs: insert_checkpoint"]}
{"id": "C09", "title": "insert_tx decides by tip height and existing position, and never panics", "statement": "insert_tx(txid, pos) succeeds exactly when pos is not confirmed above the tip and the transaction is not already confirmed at a different position; on success the transaction is at pos and nothing else changed; it never panics.", "quantifier": "every chain, txid and position (heights below u32::MAX, which the code uses as a sentinel; that height itself is C66)", "why_tests_cant": "the implementation routes through update merging with unreachable!/panic branches; only a proof excludes them for all states", "anchors": ["bdk_chain/src/sparse_chain.rs: insert_tx, insert_tx_preview, InsertTxError"]}
{"id": "C10", "title": "Invalidating checkpoints is exact", "statement": "invalidate_checkpoints(h) removes exactly the checkpoints at or above h, makes exactly the transactions confirmed at or above h unconfirmed, and changes nothing else.", "quantifier": "every chain and height", "why_tests_cant": "range boundaries over an abstract position order", "anchors": ["bdk_chain/src/sparse_chain.rs: invalidate_checkpoints, invalidate_checkpoints_preview", "bdk_chain/src/chain_graph.rs: invalidate_checkpoints"]}
{"id": "C11", "title": "Clearing the mempool is exact", "statement": "clear_mempool removes exactly the unconfirmed transactions and changes nothing else.", "quantifier": "every chain", "why_tests_cant": "range boundaries over an abstract position order", "anchors": ["bdk_chain/src/sparse_chain.rs: clear_mempool, clear_mempool_preview"]}
{"id": "C12", "title": "Range queries are exact", "statement": "Listing transactions by height range, by position range or by (position, txid) range returns exactly those entries of the full listing whose height, position or pair lies in the range, in order, for inclusive, exclusive and unbounded ends alike.", "quantifier": "every chain, every range with every bound kind", "why_tests_cant": "combinatorics of bound kinds and min/max sentinel ids over all positions", "anchors": ["bdk_chain/src/sparse_chain.rs: range_txids, range_txids_by_position, range_txids_by_height"]}
{"id": "C13", "title": "Appended chain changesets equal sequential application", "statement": "Appending changeset B to changeset A and applying the result to a SparseChain gives the same chain as applying A and then B.", "quantifier": "every chain and every pair of changesets, with and without a checkpoint limit", "why_tests_cant": "an algebraic law over all changesets; persistence layers depend on it", "anchors": ["bdk_chain/src/sparse_chain.rs: ChangeSet::append, apply_changeset"]}
{"id": "C14", "title": "A chain can be rebuilt from its initial changeset", "statement": "Applying a chain's initial changeset to an empty chain yields the same checkpoints and transaction positions.", "quantifier": "every chain", "why_tests_cant": "round-trip over all states", "anchors": ["bdk_chain/src/sparse_chain.rs: initial_changeset, apply_changeset"]}
{"id": "C15", "title": "The checkpoint limit keeps exactly the most recent checkpoints", "statement": "With a checkpoint limit n set, after every operation the chain has at most n checkpoints, and pruning only ever drops the lowest ones and never touches transactions.", "quantifier": "every chain, limit and operation", "why_tests_cant": "all sizes and limits including 0 and the maximum height", "anchors": ["bdk_chain/src/sparse_chain.rs: set_checkpoint_limit, prune_checkpoints, apply_changeset"]}
{"id": "C16", "title": "The provided position types obey the ordering contract positions rely on", "statement": "For TxHeight and ConfirmationTime, comparing positions agrees with comparing their heights, unconfirmed sorts after every confirmed height, and the minimum/maximum position of a height bound exactly the positions of that height.", "quantifier": "every pair of positions", "why_tests_cant": "order laws over all values, including ties in time", "anchors": ["bdk_chain/src/chain_data.rs: impl ChainPosition for TxHeight, ConfirmationTime", "bdk_chain/src/sparse_chain.rs: ChainPosition"]}
{"id": "C17", "title": "Coinbase maturity and spendability", "statement": "A coinbase output confirmed at height c is mature at height h exactly when h is at least c+99; an output is spendable at height h exactly when it is confirmed at or below h, is mature if it is a coinbase output, and is not spent by a transaction confirmed at or below h.", "quantifier": "every output and height", "why_tests_cant": "boundary arithmetic on u32 including saturation and overflow", "anchors": ["bdk_chain/src/chain_data.rs: FullTxOut::is_mature, is_spendable_at"]}
{"id": "C18", "title": "The graph only grows, to the union of what it was given", "statement": "Inserting transactions, txouts and updates into a TxGraph in any order never loses a full transaction or a txout, a full transaction is never replaced by or degraded to a floating txout, and the full transactions known afterwards are exactly those inserted.", "quantifier": "every history of TxGraph operations", "why_tests_cant": "monotonicity over all histories", "anchors": ["bdk_chain/src/tx_graph.rs: insert_tx, insert_txout, apply_update, apply_additions, determine_additions"]}
{"id": "C19", "title": "The spending index is exact", "statement": "For every non-null outpoint, the graph reports as its spenders exactly the full transactions it contains that have that outpoint among their inputs, whether or not the spent transaction is known.", "quantifier": "every history of TxGraph operations", "why_tests_cant": "index/data agreement after every history", "anchors": ["bdk_chain/src/tx_graph.rs: outspends, tx_outspends, apply_additions"]}
{"id": "C20", "title": "Graph previews are exact and additions replay", "statement": "The additions previewed for an insertion or an update, applied to the graph, give the same graph as the direct mutation; applying an update again yields empty additions; and the additions collected over any history, replayed from an empty graph one by one, rebuild the graph.", "quantifier": "every graph, update and history", "why_tests_cant": "whole-state equalities for all inputs", "anchors": ["bdk_chain/src/tx_graph.rs: insert_tx_preview, insert_txout_preview, determine_additions, apply_additions"]}
{"id": "C21", "title": "Appended graph additions equal sequential application", "statement": "Appending additions B to A and applying the result gives the same graph as applying A and then B.", "quantifier": "every graph and every pair of additions", "why_tests_cant": "an algebraic law over all additions", "anchors": ["bdk_chain/src/tx_graph.rs: Additions::append"]}
{"id": "C22", "title": "Walking descendants visits each reachable descendant exactly once and terminates", "statement": "Walking the descendants of a transaction terminates on every graph, even with cyclic or dangling data, reports no transaction twice, never reports the start again unless it is its own descendant, and reports exactly the transactions reachable through spends when the callback keeps everything; a callback that rejects a transaction prunes only paths through it. The result set does not depend on hash-set order.", "quantifier": "every graph, start, callback and hash-set iteration order", "why_tests_cant": "graph traversal over all graphs", "anchors": ["bdk_chain/src/tx_graph.rs: walk_descendants, TxDescendants"]}
{"id": "C23", "title": "The reported depth of a descendant is its distance", "statement": "The depth handed to the callback of a descendant walk is the length of the shortest spend chain from the start: a transaction directly spending the start has depth 1.", "quantifier": "every graph", "why_tests_cant": "needs all graph shapes: a diamond is enough to differ", "anchors": ["bdk_chain/src/tx_graph.rs: walk_descendants"]}
{"id": "C24", "title": "Direct conflicts and fee computation are exact", "statement": "The direct conflicts of a transaction are exactly the (input index, txid) pairs of other full transactions spending one of its inputs; the computed fee is inputs minus outputs exactly when every spent output is known and the transaction is not a coinbase, and is absent otherwise.", "quantifier": "every graph and transaction", "why_tests_cant": "all graphs", "anchors": ["bdk_chain/src/tx_graph.rs: direct_conflicts_of_tx, calculate_fee"]}
{"id": "C25", "title": "Every chain transaction is available in full", "statement": "In a ChainGraph built and changed only through its consistency-checking API, every transaction that has a chain position is present in full in the graph, so looking up or listing in-chain transactions never panics.", "quantifier": "every history of ChainGraph operations with consistent updates", "why_tests_cant": "an invariant of two structures over all histories; listing panics when it is broken", "anchors": ["bdk_chain/src/chain_graph.rs: ChainGraph::new, insert_tx, apply_update, get_tx_in_chain, transactions_in_chain"]}
{"id": "C26", "title": "No two transactions in the chain double spend", "statement": "In a ChainGraph built and changed only through its consistency-checking API, no two different transactions with chain positions spend the same output, so the chain gives every output at most one spender.", "quantifier": "every history of ChainGraph operations with consistent updates", "why_tests_cant": "an invariant over all histories and all update shapes", "anchors": ["bdk_chain/src/chain_graph.rs: ChainGraph::new, fix_conflicts, insert_tx, apply_update", "bdk_chain/src/sparse_chain.rs: spent_by"]}
{"id": "C27", "title": "No in-chain transaction descends from a double spend", "statement": "In a ChainGraph no transaction with a chain position has an ancestor (known to the graph) that double spends another transaction in the chain or one of its ancestors.", "quantifier": "every history of ChainGraph operations", "why_tests_cant": "documented invariant over transitive ancestry", "anchors": ["bdk_chain/src/chain_graph.rs: ChainGraph (type docs), ChainGraph::new, fix_conflicts"]}
{"id": "C28", "title": "Conflict resolution evicts only unconfirmed transactions, completely", "statement": "When a new transaction conflicts with transactions in the chain, the change is rejected with UnresolvableConflict if some conflicting in-chain transaction (a double spender of an input, or an in-chain descendant of one reached through in-chain transactions) would still be confirmed afterwards; otherwise the change succeeds, and exactly those conflicting unconfirmed transactions are evicted; confirmed transactions are never evicted.", "quantifier": "every chain graph, update and iteration order", "why_tests_cant": "all conflict graphs", "anchors": ["bdk_chain/src/chain_graph.rs: fix_conflicts, determine_changeset, UnresolvableConflict, ChangeSet::contains_eviction"]}
{"id": "C29", "title": "The unspent/spent view is exact", "statement": "The chain's view of an output reports it unspent exactly when no in-chain transaction spends it, and otherwise reports the in-chain spender and its position, independent of hash order.", "quantifier": "every consistent chain graph and outpoint", "why_tests_cant": "must hold for every conflict history", "anchors": ["bdk_chain/src/sparse_chain.rs: full_txout, spent_by", "bdk_chain/src/chain_graph.rs: full_txout"]}
{"id": "C30", "title": "Inflating a sparse update", "statement": "inflate_update succeeds exactly when every transaction of the update that the chain graph lacks is supplied in full; the inflated update then contains every transaction of the update in full, and merging it moves the same transactions to the same positions as the sparse update.", "quantifier": "every chain graph, sparse update and supplied transactions", "why_tests_cant": "all updates", "anchors": ["bdk_chain/src/chain_graph.rs: inflate_update"]}
{"id": "C31", "title": "The script index finds exactly the outputs that pay to tracked scripts", "statement": "After any sequence of script insertions (each index used once) and scans, an output is indexed, under the index of its script, exactly when it was scanned at a time its script was tracked; the by-outpoint and by-index views agree; scanning order of a batch does not matter.", "quantifier": "every history of insertions and scans of consistent outputs", "why_tests_cant": "two indices and all histories", "anchors": ["bdk_chain/src/spk_txout_index.rs: insert_spk, scan, txouts, outputs_in_range"]}
{"id": "C32", "title": "A script that received an output is never reported unused", "statement": "A tracked script index is reported unused exactly when it is not marked used and no output has been scanned for it; marking and unmarking never hide or forge a scanned output; listing unused scripts never panics.", "quantifier": "every history with each index inserted once", "why_tests_cant": "all interleavings of mark, unmark, insert and scan", "anchors": ["bdk_chain/src/spk_txout_index.rs: unused_spks, is_used, mark_used, unmark_used, insert_spk"]}
{"id": "C33", "title": "Sent and received values", "statement": "sent_and_received returns the total of the indexed outputs a transaction spends and the total of its outputs paying tracked scripts; a transaction is relevant exactly when one of the two sets is non-empty.", "quantifier": "every index and transaction", "why_tests_cant": "all transactions", "anchors": ["bdk_chain/src/spk_txout_index.rs: sent_and_received, net_value, is_relevant"]}
{"id": "C34", "title": "Revealed indices never go back and always have their scripts", "statement": "For every keychain the last revealed derivation index never decreases, all scripts up to it are stored and equal the descriptor's derivation at that index, stored scripts form an initial segment reaching at least the lookahead beyond the revealed ones, and every revealed script is watched.", "quantifier": "every history of KeychainTxOutIndex operations with non-overlapping descriptors", "why_tests_cant": "contiguity and lookahead bookkeeping over all histories", "anchors": ["bdk_chain/src/keychain/txout_index.rs: reveal_to_target, set_lookahead, replenish_lookahead, apply_additions, revealed_spks_of_keychain"]}
{"id": "C35", "title": "Fresh addresses are fresh", "statement": "reveal_next_spk returns a script never returned before by it, with additions recording it, unless the descriptor has no wildcard or its index range is exhausted, in which case it returns the last script with empty additions; next_unused_spk returns the lowest revealed unused script if there is one and otherwise a fresh one.", "quantifier": "every history", "why_tests_cant": "all histories; address reuse is a privacy failure", "anchors": ["bdk_chain/src/keychain/txout_index.rs: reveal_next_spk, next_unused_spk, next_index"]}
{"id": "C36", "title": "Revealing to a target reveals exactly that far", "statement": "reveal_to_target(k, t) with t beyond the revealed range leaves the last revealed index at the smaller of t and the largest derivable index, returns exactly the newly revealed scripts in order and the additions recording it; with t within the revealed range it changes nothing and returns nothing; other keychains are untouched.", "quantifier": "every state, keychain and target", "why_tests_cant": "arithmetic at the ends of the index range and with any lookahead", "anchors": ["bdk_chain/src/keychain/txout_index.rs: reveal_to_target, reveal_to_target_multi"]}
{"id": "C37", "title": "The derivation bound is the whole non-hardened range", "statement": "Every non-hardened derivation index (0 to 2^31-1) of a wildcard descriptor can be revealed.", "quantifier": "every index", "why_tests_cant": "the range is too large to enumerate", "anchors": ["bdk_chain/src/keychain/txout_index.rs: BIP32_MAX_INDEX, reveal_to_target"]}
{"id": "C38", "title": "Lookahead to a target stores scripts up to the target", "statement": "After lookahead_to_target(k, t) every script of keychain k below index t is watched, whatever was stored before, and nothing is revealed.", "quantifier": "every state and target", "why_tests_cant": "depends on the prior lookahead state", "anchors": ["bdk_chain/src/keychain/txout_index.rs: lookahead_to_target, replenish_lookahead"]}
{"id": "C39", "title": "Scanning with a lookahead discovers a gapped history", "statement": "Scanning outputs whose derivation indices, in scanning order, never jump more than the lookahead beyond the highest index seen so far (or revealed) indexes all of them and leaves every one of their indices revealed.", "quantifier": "every list of outputs and every lookahead", "why_tests_cant": "gap patterns of any length", "anchors": ["bdk_chain/src/keychain/txout_index.rs: scan, scan_txout, reveal_to_target"]}
{"id": "C40", "title": "Derivation additions form a max-semilattice", "statement": "Derivation additions append commutatively, associatively and idempotently by maximum, applying additions in any order or repeatedly gives the same revealed indices, and replaying all reported additions onto a fresh index with the same descriptors restores the revealed indices.", "quantifier": "all additions and histories", "why_tests_cant": "algebraic laws over all maps", "anchors": ["bdk_chain/src/keychain.rs: DerivationAdditions::append", "bdk_chain/src/keychain/txout_index.rs: apply_additions"]}
{"id": "C41", "title": "The balance accounts for every unspent output exactly once", "statement": "The total of the reported balance equals the sum of the values of the wallet's unspent outputs; each output counts in exactly one category: immature coinbase, confirmed, trusted pending or untrusted pending, as its position, coinbase status and the trust predicate dictate; balance never panics.", "quantifier": "every tracker state and trust predicate", "why_tests_cant": "all wallet states", "anchors": ["bdk_chain/src/keychain/tracker.rs: balance, full_utxos", "bdk_chain/src/keychain.rs: Balance::total"]}
{"id": "C42", "title": "Balance at a height", "statement": "balance_at(h) is the sum of the values of exactly the wallet outputs that are spendable at height h.", "quantifier": "every tracker and height", "why_tests_cant": "all wallet states", "anchors": ["bdk_chain/src/keychain/tracker.rs: balance_at", "bdk_chain/src/chain_data.rs: is_spendable_at"]}
{"id": "C43", "title": "Tracker changes replay", "statement": "Replaying the changesets reported by a tracker, in order, on a fresh tracker with the same descriptors restores the same chain, graph and revealed indices.", "quantifier": "every history of tracker operations", "why_tests_cant": "this is what a wallet relies on after restart", "anchors": ["bdk_chain/src/keychain/tracker.rs: apply_update, apply_changeset", "bdk_file_store/src/file_store.rs: load_into_keychain_tracker"]}
{"id": "C44", "title": "Staging never loses changes", "statement": "Staged changes accumulate in order; a successful commit hands the backend exactly the accumulation of everything staged since the last successful commit and clears the stage; a failed commit keeps it, so the backend eventually receives every staged change exactly once, in order.", "quantifier": "every interleaving of stage and commit and every pattern of backend failures", "why_tests_cant": "all failure schedules", "anchors": ["bdk_chain/src/keychain/persist.rs: Persist::stage, commit"]}
{"id": "C45", "title": "What was appended is what is loaded", "statement": "Loading a store file yields exactly the non-empty changesets appended since its creation, in order, across any number of close/reopen/load/append cycles in which the store is loaded before it is appended to.", "quantifier": "every history of open, load and append", "why_tests_cant": "all histories and all encodings", "anchors": ["bdk_file_store/src/file_store.rs: KeychainStore::new, iter_changesets, append_changeset"]}
{"id": "C46", "title": "A crash while appending loses at most the entry being appended", "statement": "If the process dies after any number of bytes of an append reached the file, then loading yields all entries completed before it (and the new one only if complete), and the next append after loading continues the log as if the torn entry had never been written.", "quantifier": "every file, entry and crash point", "why_tests_cant": "every byte position is a crash point", "anchors": ["bdk_file_store/src/file_store.rs: append_changeset, EntryIter::next"]}
{"id": "C47", "title": "Opening an existing store and appending preserves it", "statement": "Opening an existing store file and appending a changeset never destroys changesets stored earlier.", "quantifier": "every file and changeset", "why_tests_cant": "depends on where the file position is left", "anchors": ["bdk_file_store/src/file_store.rs: KeychainStore::new, new_from_path, append_changeset"]}
{"id": "C48", "title": "The entry iterator stops after an error", "statement": "After the changeset iterator returns an error it returns None forever.", "quantifier": "every file content", "why_tests_cant": "requires all contents and any number of calls", "anchors": ["bdk_file_store/src/file_store.rs: EntryIter::next"]}
{"id": "C49", "title": "The entry encoding round-trips and is self-delimiting", "statement": "Decoding an encoded changeset followed by any bytes returns the changeset and leaves those bytes; no proper prefix of an encoded changeset decodes.", "quantifier": "every changeset and trailing bytes", "why_tests_cant": "all values and all prefixes", "anchors": ["bdk_file_store/src/file_store.rs: append_changeset, EntryIter::next, bincode_options"]}
{"id": "C50", "title": "Creating a store survives a crash", "statement": "If the process dies while a store file is being created, creating or opening it again succeeds with an empty store.", "quantifier": "every crash point", "why_tests_cant": "every byte position is a crash point", "anchors": ["bdk_file_store/src/file_store.rs: new_from_path, KeychainStore::new"]}
{"id": "C51", "title": "Every returned strategy balances", "statement": "When finish succeeds, for each returned strategy the selected value equals the recipients' value plus the drain value plus the fee, no subtraction wraps, the fee is at least the minimum absolute fee and the fee rate times the weight as computed, the drain (if any) is at least the minimum drain value, and the recipients receive at least the target and at most the configured extra.", "quantifier": "every option set, candidate list and selection within value bounds", "why_tests_cant": "all numeric inputs", "anchors": ["bdk_coin_select/src/coin_selector.rs: CoinSelector::finish, ExcessStrategy"]}
{"id": "C52", "title": "finish fails exactly when a constraint is unmet and names the largest shortfall", "statement": "finish fails exactly when the selected value is short of one of the constraints; it reports the largest shortfall and a constraint with that shortfall.", "quantifier": "every option set and selection", "why_tests_cant": "all numeric inputs", "anchors": ["bdk_coin_select/src/coin_selector.rs: CoinSelector::finish, SelectionError"]}
{"id": "C53", "title": "A successful selection always has a strategy", "statement": "When finish succeeds at least one excess strategy is returned, so choosing the best one never panics, and the best strategy has minimal waste.", "quantifier": "every option set and selection", "why_tests_cant": "all numeric inputs", "anchors": ["bdk_coin_select/src/coin_selector.rs: finish, Selection::best_strategy"]}
{"id": "C54", "title": "select_until_finished selects the shortest sufficient prefix", "statement": "select_until_finished keeps everything selected before, adds unselected candidates in order and stops at the first selection that finishes; it fails only if selecting every candidate does not suffice.", "quantifier": "every candidate list and pre-selection", "why_tests_cant": "all lists", "anchors": ["bdk_coin_select/src/coin_selector.rs: select_until_finished"]}
{"id": "C55", "title": "A branch-and-bound solution keeps the pre-selection and meets the targets", "statement": "Any selection returned by coin_select_bnb contains everything pre-selected, reaches the absolute target and the effective target, and does not exceed both upper bounds; the search never reads outside its candidate pool and terminates, whatever the round limit.", "quantifier": "every candidate list, option set and limit", "why_tests_cant": "search over all subsets", "anchors": ["bdk_coin_select/src/bnb.rs: coin_select_bnb, Bnb, BnbIter"]}
{"id": "C56", "title": "A branch-and-bound solution can be finished", "statement": "finish succeeds on every selection returned by coin_select_bnb.", "quantifier": "every candidate list and option set", "why_tests_cant": "depends on floating point rounding for all weights", "anchors": ["bdk_coin_select/src/bnb.rs: coin_select_bnb", "bdk_coin_select/src/coin_selector.rs: finish"]}
{"id": "C57", "title": "Branch and bound is optimal when the target fee rate is not below the long-term rate", "statement": "With an unlimited search and a target fee rate not below the long-term fee rate, the returned selection has the least waste among all selections extending the pre-selection that meet the targets within the upper bounds; if none exists the search returns nothing.", "quantifier": "every candidate list and option set", "why_tests_cant": "optimality over all subsets", "anchors": ["bdk_coin_select/src/bnb.rs: coin_select_bnb, BnbIter::next"]}
{"id": "C58", "title": "Prepared updates connect", "statement": "The update prepared from a local chain and an honest server whose chain does not change contains for every local checkpoint above the last common block the server's hash, so it always connects to the local chain.", "quantifier": "every local chain and server chain at least as high as the local checkpoints", "why_tests_cant": "all fork shapes", "anchors": ["bdk_electrum/src/lib.rs: prepare_update", "bdk_esplora/src/lib.rs: scan"]}
{"id": "C59", "title": "Confirmation heights never exceed the tip", "statement": "Positions derived from server responses are never confirmed above the update's tip, so inserting them never fails with TxTooHigh.", "quantifier": "every server response", "why_tests_cant": "all responses, negative heights included", "anchors": ["bdk_electrum/src/lib.rs: determine_tx_height", "bdk_esplora/src/lib.rs: map_confirmation_time"]}
{"id": "C60", "title": "A scan finds every active script within the stop gap", "statement": "Scanning a keychain against an unchanging server finds every active script whose distance from the previous active one is at most the stop gap, and reports the highest active index found.", "quantifier": "every activity pattern, stop gap and batch size", "why_tests_cant": "all gap patterns and batch boundaries", "anchors": ["bdk_electrum/src/lib.rs: populate_with_spks, scan", "bdk_esplora/src/lib.rs: scan"]}
{"id": "C61", "title": "A scan survives a reorganisation", "statement": "If the server reorganises during a scan, the finished update still contains the history of every script that a scan of the final chain would have found.", "quantifier": "every reorg timing", "why_tests_cant": "schedules of server changes", "anchors": ["bdk_electrum/src/lib.rs: scan, InternalError::Reorg"]}
{"id": "C62", "title": "A change address is persisted before it is used", "statement": "Whenever a command broadcasts a transaction paying to a wallet change script, the store on disk already records that script's derivation index as revealed.", "quantifier": "every sequence of commands in one session, every failure point", "why_tests_cant": "depends on state left behind by earlier failed commands", "anchors": ["bdk_cli_lib/src/lib.rs: handle_commands, create_tx, run_address_cmd"]}
{"id": "C63", "title": "A plan never needs more than the assets allow", "statement": "Whenever planning a spend succeeds, every required signature is for a key some asset key can derive, every required preimage is among the assets, the required sequence does not exceed the available age, and the required lock time does not exceed the maximum lock time.", "quantifier": "every taproot descriptor and asset set", "why_tests_cant": "all policy trees", "anchors": ["bdk_tmp_plan/src/plan_impls.rs: plan_steps, plan_satisfaction_tr"]}
{"id": "C64", "title": "A plan is complete exactly when its requirements are provided", "statement": "try_complete returns a complete witness exactly when every required signature and preimage is supplied, and otherwise reports exactly the missing ones.", "quantifier": "every plan and material", "why_tests_cant": "all policy trees", "anchors": ["bdk_tmp_plan/src/lib.rs: try_complete, requirements"]}
{"id": "C65", "title": "The expected weight is the actual weight", "statement": "For a completed taproot plan with default-sighash signatures and 32-byte preimages, expected_weight equals the weight of the produced witness plus the empty script sig.", "quantifier": "every plan and material", "why_tests_cant": "all policy trees", "anchors": ["bdk_tmp_plan/src/lib.rs: expected_weight", "bdk_tmp_plan/src/template.rs: expected_size"]}
{"id": "C66", "title": "The update rules also hold at the last representable height", "statement": "C03-C06 hold unchanged for chains with checkpoints or transactions at height u32::MAX.", "quantifier": "every chain and update", "why_tests_cant": "one value out of 2^32, used as a sentinel in determine_changeset", "anchors": ["bdk_chain/src/sparse_chain.rs: determine_changeset"]}
{"id": "C67", "title": "Selected and unselected candidates partition the list", "statement": "selected and unselected list exactly the candidates inside and outside the selection, each once and in order of index; apply_selection returns the elements at the selected positions in order.", "quantifier": "every candidate list and selection", "why_tests_cant": "all lists", "anchors": ["bdk_coin_select/src/coin_selector.rs: selected, unselected, Selection::apply_selection"]}
{"id": "C68", "title": "The weight used by coin selection is the transaction's weight", "statement": "With options from fund_outputs and candidates from WeightedValue::new the weight that finish uses is the BIP 141 weight of the transaction spending the selected inputs to the outputs (with or without the drain), up to one weight unit per input if no input has a witness.", "quantifier": "every list of outputs, drain output, inputs and selection", "why_tests_cant": "all lengths, including those where length prefixes grow", "anchors": ["bdk_coin_select/src/coin_selector.rs: fund_outputs, WeightedValue::new, current_weight"]}
{"id": "C69", "title": "A scan finds the transactions and outpoints asked for", "statement": "Scanning an unchanging server reports the position of every requested transaction the server knows, and of the transaction of every requested outpoint and the one spending it, and nothing that was not asked for.", "quantifier": "every set of requested transactions and outpoints", "why_tests_cant": "all histories, scripts shared between outputs", "anchors": ["bdk_electrum/src/lib.rs: populate_with_txids, populate_with_outpoints, scan", "bdk_esplora/src/lib.rs: scan"]}
{"id": "C70", "title": "Missing transactions are listed exactly and suffice", "statement": "missing_full_txs lists exactly the transactions of the update that the graph does not have in full; with them into_keychain_scan succeeds unless the update contains a double spend, and keeps the update's chain and indices.", "quantifier": "every update, graph and transaction list", "why_tests_cant": "all chains and graphs", "anchors": ["bdk_electrum/src/lib.rs: missing_full_txs, into_keychain_scan"]}
{"id": "C71", "title": "Confirmation times are those of the blocks", "statement": "into_confirmation_time_update gives every confirmed transaction the time of its block, leaves unconfirmed ones unconfirmed and keeps checkpoints and indices; it never panics.", "quantifier": "every update and server that knows the block times", "why_tests_cant": "all chains", "anchors": ["bdk_electrum/src/lib.rs: into_confirmation_time_update"]}
{"id": "C72", "title": "A wallet can always synchronise with an honest server", "statement": "Scanning an honest, unchanging server, fetching the missing transactions and applying the update succeeds, puts everything found where the server has it and leaves nothing confirmed that the server does not have there.", "quantifier": "every wallet whose chain was right before a reorganisation of any depth, every server state", "why_tests_cant": "all forks, conflicts and histories", "anchors": ["bdk_electrum/src/lib.rs: scan, missing_full_txs, into_keychain_scan", "bdk_chain/src/chain_graph.rs: apply_update"]}
{"id": "C73", "title": "The witness of a completed plan spends the output", "statement": "When a plan of a taproot descriptor completes with valid signatures and preimages and the transaction waits for the plan's lock time and sequence, the witness is either the signature of the internal key, or the arguments of a leaf script, that script and a control block: executing the script on the arguments succeeds and the control block proves that the script is in the tree.", "quantifier": "every taproot descriptor, asset set and material", "why_tests_cant": "all policy trees and script executions", "anchors": ["bdk_tmp_plan/src/lib.rs: try_complete", "bdk_tmp_plan/src/plan_impls.rs: plan_steps, combine", "bdk_tmp_plan/src/template.rs: to_witness_stack"]}
{"id": "C74", "title": "Signatures are made with the keys the descriptor names", "statement": "sign_with_keymap makes every required signature whose asset key is in the key map with the private key that the descriptor key stands for (tweaked for a key spend), over the right message, leaves everything else alone and reports whether it signed.", "quantifier": "every descriptor, key map, origin and derivation path", "why_tests_cant": "all derivation paths", "anchors": ["bdk_tmp_plan/src/requirements.rs: sign_with_keymap", "bdk_tmp_plan/src/lib.rs: can_derive, path_to_child"]}
{"id": "C75", "title": "Planning fails only if the assets reach no spending path", "statement": "plan_satisfaction ends for every taproot descriptor, and returns nothing only if no asset key derives the internal key and no leaf has a spending path that the assets cover.", "quantifier": "every taproot descriptor and asset set", "why_tests_cant": "all policy trees", "anchors": ["bdk_tmp_plan/src/plan_impls.rs: plan_satisfaction_tr, plan_steps"]}
{"id": "C76", "title": "The cheapest path is planned", "statement": "Among the leaves and paths the assets cover the planned one has the least weight.", "quantifier": "every taproot descriptor and asset set", "why_tests_cant": "minimum over all paths", "anchors": ["bdk_tmp_plan/src/plan_impls.rs: plan_satisfaction_tr, plan_steps, expected_size"]}
{"id": "C77", "title": "Signing what a plan requires completes it", "statement": "If the key map has every asset key of the requirements and the material has the preimages, then after sign_with_keymap the plan completes.", "quantifier": "every descriptor, asset set and key map", "why_tests_cant": "all policy trees", "anchors": ["bdk_tmp_plan/src/requirements.rs: sign_with_keymap", "bdk_tmp_plan/src/lib.rs: requirements, try_complete"]}
{"id": "C78", "title": "An address is persisted before it is shown", "statement": "Whenever a command shows a new address, the store on disk already records its derivation index as revealed.", "quantifier": "every sequence of commands in any processes, processes killed anywhere, failing writes", "why_tests_cant": "crash points and state left behind by failed commands", "anchors": ["bdk_cli_lib/src/lib.rs: run_address_cmd, handle_commands, init"]}
{"id": "C79", "title": "What was given away is recognized for ever", "statement": "Every address shown and every change script broadcast by any earlier process is revealed and recognized by every process started later on the same file.", "quantifier": "every sequence of processes of one command each, killed anywhere, failing writes", "why_tests_cant": "all histories and crash points", "anchors": ["bdk_cli_lib/src/lib.rs: run_address_cmd, handle_commands, init", "bdk_file_store/src/file_store.rs: append_changeset, load_into_keychain_tracker"]}
{"id": "C80", "title": "A transaction the wallet makes balances", "statement": "A transaction made by create_tx spends different unspent outputs of the wallet, pays the recipient what was asked for and what is left after the fee, if at least dust, to a script revealed on the change keychain; it is locked to the tip, has version 2 and signals replaceability.", "quantifier": "every state of every session, every coin selection algorithm, amount and address", "why_tests_cant": "all wallet histories", "anchors": ["bdk_cli_lib/src/lib.rs: create_tx, planned_utxos"]}
{"id": "C81", "title": "A transaction the wallet makes pays the fee rate asked for", "statement": "The fee of a transaction made by create_tx is at least half a satoshi per weight unit of the signed transaction; with change it is exactly that rounded up, and without change it exceeds that by no more than a change output would have cost.", "quantifier": "every state of every session, every coin selection algorithm, amount and address", "why_tests_cant": "all wallets, weights of witnesses", "anchors": ["bdk_cli_lib/src/lib.rs: create_tx", "bdk_coin_select/src/coin_selector.rs: finish, select_until_finished", "bdk_tmp_plan/src/lib.rs: expected_weight"]}
{"id": "C82", "title": "Every input of a transaction the wallet makes is signed", "statement": "Each input of a transaction made by create_tx has a witness that spends its output: a signature of that very transaction with the tweaked internal key, or a leaf the output commits to with arguments that satisfy it.", "quantifier": "every state of every session, every descriptor and key map", "why_tests_cant": "all descriptors and wallets", "anchors": ["bdk_cli_lib/src/lib.rs: create_tx", "bdk_tmp_plan/src/requirements.rs: sign_with_keymap", "bdk_tmp_plan/src/lib.rs: try_complete"]}
{"id": "C83", "title": "Sending takes the payment and the fee from the balance", "statement": "After a successful send to a foreign script the broadcast transaction is in the wallet's chain, the unspent outputs are those before minus its inputs plus its change, and the total balance has gone down by exactly the amount sent plus the fee.", "quantifier": "every state of every session, every algorithm, amount and address", "why_tests_cant": "all wallet histories", "anchors": ["bdk_cli_lib/src/lib.rs: handle_commands, create_tx, run_balance_cmd"]}
{"id": "C84", "title": "The balance command is exact", "statement": "run_balance_cmd shows the sums of the values of the wallet's unspent outputs in a block and not in a block, and panics exactly if a sum exceeds u64.", "quantifier": "every state of every session", "why_tests_cant": "all wallets, hash orders", "anchors": ["bdk_cli_lib/src/lib.rs: run_balance_cmd"]}
{"id": "C85", "title": "The wallet does not spend an output twice", "statement": "No two transactions the wallet broadcasts spend the same output.", "quantifier": "every session, commands and the halves of sends in any order", "why_tests_cant": "all interleavings and wallet histories", "anchors": ["bdk_cli_lib/src/lib.rs: handle_commands, create_tx, planned_utxos"]}
{"id": "C86", "title": "Transactions in flight have their own change script", "statement": "Two transactions prepared in one session have different change scripts unless the broadcast of one failed, and a change script in flight is not given to anyone as an address afterwards, as long as the descriptors have scripts left to reveal.", "quantifier": "every session, commands and the halves of sends in any order", "why_tests_cant": "all interleavings", "anchors": ["bdk_cli_lib/src/lib.rs: handle_commands, run_address_cmd", "bdk_chain/src/keychain/txout_index.rs: mark_used, unmark_used, next_unused_spk"]}
{"id": "C87", "title": "A failed broadcast leaves the wallet as it was", "statement": "When broadcasting fails the chain, the graph, the wallet's outputs and the used flags are as before the send; the change script is unused again unless it has outputs.", "quantifier": "every state of every session", "why_tests_cant": "all wallet histories", "anchors": ["bdk_cli_lib/src/lib.rs: handle_commands", "bdk_chain/src/keychain/txout_index.rs: unmark_used"]}
{"id": "C88", "title": "The listing of outputs is complete", "statement": "run_txo_cmd lists exactly the outputs of the wallet that its flags ask for, each once, and panics exactly if one of them has no address.", "quantifier": "every state of every session and all flags", "why_tests_cant": "all wallets, hash orders", "anchors": ["bdk_cli_lib/src/lib.rs: run_txo_cmd"]}
{"id": "C89", "title": "A sync asks the server for all that is needed", "statement": "The sync commands request exactly the scripts (all, or unused), unconfirmed transactions and unspent outpoints of the wallet that the flags ask for; without flags the unused scripts, the unspent outpoints and the unconfirmed transactions.", "quantifier": "every state of every session and all flags", "why_tests_cant": "all wallets", "anchors": ["bdk_electrum_example/src/main.rs: main", "bdk_esplora_example/src/main.rs: main"]}
{"id": "C90", "title": "A new wallet restored from an honest server has exactly its outputs and funds", "statement": "A wallet with keychains and nothing else that scans an honest server, fetches what is missing and applies the result has the server's tip; its outputs are exactly the outputs of the world at the active scripts within the gap, with position, spender and coinbase flag; its balance is the sum of the unspent ones per category.", "quantifier": "every world, gap, batch size and hash order", "why_tests_cant": "all histories, composition of scan, inflate, apply, index and balance", "anchors": ["bdk_electrum/src/lib.rs: scan, into_keychain_scan", "bdk_esplora/src/lib.rs: scan", "bdk_chain/src/keychain/tracker.rs: apply_update, full_txouts, balance"]}
{"id": "C91", "title": "A used wallet catches up with an honest server", "statement": "A wallet with any history that is not contradicted below the fork scans an honest server and applies the result: this succeeds, and afterwards it has the server's tip, every output of the world at the scripts within the gap with position and spender, nothing confirmed that is not, and can scan again.", "quantifier": "every wallet history, world and fork", "why_tests_cant": "all histories and reorganisations", "anchors": ["bdk_electrum/src/lib.rs: scan, into_keychain_scan", "bdk_esplora/src/lib.rs: scan", "bdk_chain/src/keychain/tracker.rs: apply_update", "bdk_chain/src/keychain/txout_index.rs: scan, store_up_to"]}
{"id": "C92", "title": "A wallet stays right for ever while the world goes on", "statement": "A new wallet with a lookahead that lives through any sequence of new blocks, reorganisations, own calls and synchronisations can always synchronise again, and then has every output of the world at the scripts within the gap with position and spender, and nothing confirmed that is not.", "quantifier": "every sequence of worlds, calls, synchronisations and gaps", "why_tests_cant": "induction over the wallet's life", "anchors": ["bdk_electrum/src/lib.rs: scan, into_keychain_scan", "bdk_chain/src/keychain/tracker.rs: apply_update, insert_tx", "bdk_chain/src/keychain/txout_index.rs: scan, set_lookahead, next_unused_spk"]}
{"id": "C93", "title": "Stored derivation indices survive power losses", "statement": "Whatever power losses hit the store, also during an append, the file can be opened afterwards and reading it yields every changeset with derivation indices whose append returned Ok; of the bytes written since the last sync any may be missing, each for itself, and the length may be that of any moment since.", "quantifier": "every history of openings, appends failing anywhere and power losses in which no sync reports an error, and every surviving content", "why_tests_cant": "arbitrary mixes of old and new bytes, repeated losses", "anchors": ["bdk_file_store/src/file_store.rs: append_changeset, new_from_path, iter_changesets"]}
{"id": "C94", "title": "After a power loss the store yields only what was appended", "statement": "After a power loss the file can be opened and reading it yields changesets that were appended, in order.", "quantifier": "every history of openings, appends and power losses, and every surviving content", "why_tests_cant": "arbitrary mixes of old and new bytes", "anchors": ["bdk_file_store/src/file_store.rs: append_changeset, new_from_path, iter_changesets"]}
{"id": "C95", "title": "What the command line wallet gave away survives power losses", "statement": "Every address shown and every change script broadcast is revealed and recognized by a process started after a power loss.", "quantifier": "every sequence of processes of one command each, killed anywhere, failing writes, and every surviving content", "why_tests_cant": "all histories and crash points, arbitrary mixes of old and new bytes", "anchors": ["bdk_cli_lib/src/lib.rs: run_address_cmd, handle_commands, init", "bdk_file_store/src/file_store.rs: append_changeset"]}
{"id": "C96", "title": "What a tracker holds and shows does not depend on hash iteration orders", "statement": "The same calls, with whatever iteration orders of the hash maps and sets they meet, give the same tracker, changesets, results and errors, and the tracker shows the same outputs and balances; only which of several transactions an error names may differ.", "quantifier": "every history of calls and every pair of iteration orders in each call", "why_tests_cant": "all permutations", "anchors": ["bdk_chain/src/chain_graph.rs: determine_changeset, fix_conflicts, insert_tx, inflate_update, full_txout", "bdk_chain/src/keychain/tracker.rs: apply_update, insert_tx, full_txouts, balance"]}
{"id": "C97", "title": "What the command line wallet does does not depend on hash iteration orders", "statement": "The same commands, with whatever iteration orders of the hash maps and sets they meet, have the same outcome, output, transactions and file.", "quantifier": "every session and process and every pair of iteration orders", "why_tests_cant": "all permutations", "anchors": ["bdk_cli_lib/src/lib.rs: handle_commands, create_tx, planned_utxos, run_balance_cmd, run_txo_cmd", "bdk_coin_select/src/coin_selector.rs: best_strategy"]}
{"id": "C98", "title": "A second synchronisation with an unchanged server changes nothing", "statement": "The changeset of a scan is empty exactly when the scan has no block, position, transaction, output or index that the wallet does not have; after a synchronisation with an honest server a second one that asks for no more has no missing transactions and leaves the wallet as it is, with an empty changeset.", "quantifier": "every wallet history, world, fork and hash order", "why_tests_cant": "all histories and reorganisations", "anchors": ["bdk_electrum/src/lib.rs: scan, missing_full_txs, into_keychain_scan", "bdk_chain/src/keychain/tracker.rs: determine_changeset, apply_update", "bdk_chain/src/sparse_chain.rs: determine_changeset, prune_checkpoints"]}
{"id": "C99", "title": "The sync command catches the wallet up", "statement": "With an honest server the sync command of the electrum and the esplora wallet succeeds in every state in which the wallet does not contradict the network; afterwards it has the tip, its unconfirmed transactions are where the network has them, it knows what became of its unspent outputs and has every output at the scripts the flags ask for; nothing is shown confirmed that is not.", "quantifier": "every state of every session, all flags, worlds and forks", "why_tests_cant": "all histories, composition of request, scan, inflate, apply, append", "anchors": ["bdk_electrum_example/src/main.rs: main", "bdk_esplora_example/src/main.rs: main", "bdk_esplora/src/lib.rs: scan", "bdk_electrum/src/lib.rs: scan_without_keychain, into_keychain_scan", "bdk_cli_lib/src/lib.rs: init"]}
{"id": "C100", "title": "The scan command finds the funds of both descriptors", "statement": "With an honest server the scan command of the electrum and the esplora wallet succeeds in every state in which the wallet does not contradict the network, and afterwards the wallet has every output at the scripts of its descriptors up to the first gap, with position and spender.", "quantifier": "every state of every session, gap, world and fork", "why_tests_cant": "all histories, the whole derivation range", "anchors": ["bdk_electrum_example/src/main.rs: main", "bdk_esplora_example/src/main.rs: main", "bdk_esplora/src/lib.rs: scan", "bdk_electrum/src/lib.rs: scan, into_keychain_scan", "bdk_chain/src/keychain/txout_index.rs: spks_of_all_keychains"]}
{"id": "C101", "title": "The command line wallet stays right for ever", "statement": "Whatever processes have worked on the wallet's file, stopped or killed anywhere, and whatever blocks, payments and reorganisations came in between, a process that opens the file and synchronises with an honest server succeeds, brings the wallet up to date and leaves a file of which the same holds.", "quantifier": "every sequence of processes, commands, kills, failing writes, synchronisations and networks", "why_tests_cant": "induction over lives of file, wallet and network together", "anchors": ["bdk_electrum_example/src/main.rs: main", "bdk_esplora_example/src/main.rs: main", "bdk_cli_lib/src/lib.rs: init, handle_commands", "bdk_file_store/src/file_store.rs: load_into_keychain_tracker, append_changeset", "bdk_chain/src/keychain/tracker.rs: apply_update"]}
{"id": "C102", "title": "The command line wallet spends nothing twice", "statement": "What a send of the command line wallet has broadcast with success is in the chain of the wallet its file then opens to, and no transaction broadcast later spends an output it spends, unless a later entry of the file has taken it out of the chain.", "quantifier": "every sequence of processes, killed anywhere, with failing writes", "why_tests_cant": "induction over lives, composition of create_tx, insert_tx, append and load", "anchors": ["bdk_cli_lib/src/lib.rs: handle_commands, create_tx, planned_utxos, init", "bdk_chain/src/chain_graph.rs: full_txout, insert_tx_preview", "bdk_chain/src/keychain/tracker.rs: full_utxos, insert_tx", "bdk_file_store/src/file_store.rs: append_changeset, load_into_keychain_tracker"]}
{"id": "C103", "title": "The command line wallet gives no address away twice", "statement": "The change script of a transaction broadcast with success is in use for the wallet its file then opens to, and no later process uses it for change or shows it as an address; address new shows an index above all that its keychain ever gave away.", "quantifier": "every sequence of processes, killed anywhere, with failing writes", "why_tests_cant": "induction over lives; hard to reach by tests", "anchors": ["bdk_cli_lib/src/lib.rs: handle_commands, run_address_cmd, create_tx", "bdk_chain/src/keychain/txout_index.rs: derive_next_unused, scan", "bdk_file_store/src/file_store.rs: append_changeset, load_into_keychain_tracker"]}
{"id": "C104", "title": "A payment is made exactly when the wallet can afford it", "statement": "Making a payment never panics and fails only in the selection of coins; the transaction made spends coins that pay for the output and for a fee of half a satoshi per weight unit, and if none is made then all the coins together do not pay; with no coin that costs more than it brings, every algorithm succeeds exactly when some set of coins pays.", "quantifier": "all states of all sessions, amounts, recipients and algorithms", "why_tests_cant": "composition of planning, selection, signing; completeness of the selection", "anchors": ["bdk_cli_lib/src/lib.rs: create_tx, planned_utxos, coin_select_bnb", "bdk_coin_select/src/coin_selector.rs: select_until_finished, finish", "bdk_tmp_plan/src/: plan, try_complete"]}
{"id": "C105", "title": "A transaction the wallet makes can go into the next block", "statement": "A transaction made by create_tx meets what consensus asks of it in every block above the wallet's tip, besides its witnesses: its inputs are outputs in the wallet's chain that nothing there spends, mature and old enough (BIP 68), worth at least the outputs, and its lock time has passed.", "quantifier": "all states of all sessions, amounts, recipients and algorithms, and heights", "why_tests_cant": "composition of selection, lock times and sequences; immature coinbases are rare in tests", "anchors": ["bdk_cli_lib/src/lib.rs: create_tx, planned_utxos", "bdk_chain/src/chain_data.rs: FullTxOut::is_mature", "bdk_chain/src/keychain/tracker.rs: full_utxos"]}
{"id": "C106", "title": "A scan comes to an end", "statement": "Whatever the server answered at first, once it tells the truth about a chain that no longer changes a scan returns or fails after finitely many requests; how long one is willing to wait does not influence the answer.", "quantifier": "every server behaviour before it settles, every world, request and wallet", "why_tests_cant": "liveness: unbounded rounds, nested calls and pages", "anchors": ["bdk_electrum/src/lib.rs: scan, prepare_update", "bdk_esplora/src/lib.rs: scan"]}
{"id": "C107", "title": "A changeset applied twice counts once", "statement": "Applying the same changeset a second time, or the whole log a second time, changes nothing: not the checkpoints, positions, transactions, revealed scripts or outputs; a file that holds an entry twice because a failed append was repeated loads as if it held it once.", "quantifier": "all changesets, states, checkpoint limits, logs and faults that write the whole entry", "why_tests_cant": "idempotence; interplay of pruning, last-wins maps, lookahead and scan order", "anchors": ["bdk_chain/src/sparse_chain.rs: apply_changeset, prune_checkpoints", "bdk_chain/src/tx_graph.rs: apply_additions", "bdk_chain/src/keychain/tracker.rs: apply_changeset", "bdk_chain/src/keychain/txout_index.rs: reveal_to_target, scan", "bdk_file_store/src/file_store.rs: append_changeset, load_into_keychain_tracker"]}
{"id": "C108", "title": "Transactions move only as the documentation says", "statement": "An update that connects is accepted exactly when every transaction it has elsewhere than the chain was unconfirmed, or was confirmed in a block that the update reorganises (above all blocks both have, one of which it replaces) and moves to no height below the reorganisation; no confirmed transaction moves or is lost without a reorganisation.", "quantifier": "every chain without confirmed transactions above its tip, every update and hash-map order", "why_tests_cant": "all pairs of chains; the documentation and a test of the project contradict each other here", "anchors": ["bdk_chain/src/sparse_chain.rs: determine_changeset, apply_update, module documentation"]}
{"id": "C109", "title": "Keychains that share a descriptor cannot both be used", "statement": "Once one keychain has the first script of another, nothing can be revealed from that other keychain or looked ahead to in it, and changes that reveal scripts of both cannot be applied; a command line wallet with one descriptor for both its keychains can never send once it has shown an address.", "quantifier": "all index states, targets, additions; all wallets and payments", "why_tests_cant": "the documentation's own example uses one descriptor twice; the panic comes only with the second keychain", "anchors": ["bdk_chain/src/keychain/txout_index.rs: reveal_to_target, replenish_lookahead, reveal_next_spk, next_unused_spk, documentation", "bdk_cli_lib/src/lib.rs: create_tx, init", "bdk_electrum_example/src/main.rs: main"]}
{"id": "C110", "title": "ChainGraph::new fails for exactly the documented reasons", "statement": "ChainGraph::new succeeds exactly when every transaction of the chain is in the graph in full and no two transactions of the chain double spend; otherwise the error names a real double spend with the positions or, if there is none, exactly the missing transactions.", "quantifier": "every chain, graph and hash order", "why_tests_cant": "all pairs of a chain and a graph", "anchors": ["bdk_chain/src/chain_graph.rs: new"]}
{"id": "C111", "title": "The trusted balance cannot be cancelled by another party", "statement": "As the documentation of Balance::trusted_spendable says, what counts as trusted and spendable is not lost because another party double spends: after every update in which only others were active and no block was reorganised, the trusted spendable balance is at least what it was.", "quantifier": "every reachable wallet, update, trust predicate and hash order", "why_tests_cant": "all conflicts and their descendants; chains of unconfirmed own transactions", "anchors": ["bdk_chain/src/keychain.rs: Balance::trusted_spendable", "bdk_chain/src/keychain/tracker.rs: balance, full_utxos, apply_update", "bdk_chain/src/chain_graph.rs: fix_conflicts"]}
{"id": "C112", "title": "A transaction spends the coins its algorithm names", "statement": "For largest, smallest, oldest and newest first a transaction made by create_tx spends coins that come before all coins left over in the order the name says; they pay for it, and no proper initial part of them would have; largest first never spends more coins than are needed.", "quantifier": "all states of all sessions, amounts, recipients and the four algorithms", "why_tests_cant": "sortedness and minimality of the selection, through planning and f32 fees", "anchors": ["bdk_cli_lib/src/lib.rs: create_tx, planned_utxos", "bdk_coin_select/src/coin_selector.rs: select_until_finished, finish"]}
{"id": "C113", "title": "No command of the wallet panics", "statement": "The command line wallet never panics: neither while it starts on the file of any life, nor in any command or half of a send in any session.", "quantifier": "every life, session, command, amount and failing write", "why_tests_cant": "absence of panics through the whole program: unwraps, expects, overflows, indexing, map lookups", "anchors": ["bdk_cli_lib/src/lib.rs: init, handle_commands, create_tx, run_address_cmd, run_balance_cmd, run_txo_cmd", "bdk_electrum_example/src/main.rs: main", "bdk_esplora_example/src/main.rs: main", "bdk_chain/src/keychain/tracker.rs: insert_tx, apply_update", "bdk_file_store/src/file_store.rs: load_into_keychain_tracker"]}
{"id": "C114", "title": "A command repeated with an unchanged network changes nothing", "statement": "After a scan or a sync command that succeeded, the same command repeated while the network does not change succeeds and leaves the wallet and its file as they are.", "quantifier": "every state of every session, world, gap, flags, batch size and hash order", "why_tests_cant": "composition of request, scan, inflate, apply and append, twice; the second request depends on the first answer", "anchors": ["bdk_electrum_example/src/main.rs: main", "bdk_electrum/src/lib.rs: scan, scan_without_keychain, into_keychain_scan", "bdk_cli_lib/src/lib.rs: init", "bdk_file_store/src/file_store.rs: append_changeset"]}
{"id": "C115", "title": "Repeated syncs converge", "statement": "While the network does not change, sync repeated often enough stops changing the wallet: after more successful syncs than the network has transactions every further one succeeds and changes neither the wallet nor the file, and then every output the wallet takes for unspent is unspent in the network, where the wallet has it.", "quantifier": "every state of every session, world, set of flags, batch size, hash order; a different honest server each time", "why_tests_cant": "one sync is not enough (C114); convergence needs a measure over what is in its place", "anchors": ["bdk_electrum_example/src/main.rs: main", "bdk_electrum/src/lib.rs: scan, scan_without_keychain, into_keychain_scan", "bdk_chain/src/keychain/tracker.rs: apply_update", "bdk_file_store/src/file_store.rs: append_changeset"]}
{"id": "C116", "title": "A command reports what it did", "statement": "A command of the command line wallet returns the error of the store exactly if one of the changesets it handed over could not be stored, and the error of the broadcast exactly if the broadcast failed; address list shows exactly the revealed scripts of the keychain in order, each with whether it is used.", "quantifier": "every command, wallet, amount, failing write and broadcast; every state of every session", "why_tests_cant": "all combinations of two writes and a broadcast in one command; errors passed on through several layers", "anchors": ["bdk_cli_lib/src/lib.rs: handle_commands, run_address_cmd", "bdk_file_store/src/file_store.rs: append_changeset"]}
{"id": "C117", "title": "Summaries of an index and of a changeset say what is there", "statement": "After any history of calls the outputs of a keychain are listed completely and in order, the last used index of one keychain or of all is the highest one with an output, the revealed scripts of all keychains are the first ones of each as far as revealed, and the scripts of a keychain are its whole range; the transactions a changeset is said to add are those not in the chain before it is applied and in it afterwards.", "quantifier": "all histories of calls; all chains and changesets", "why_tests_cant": "unbounded histories and derivation ranges; range bounds over pairs", "anchors": ["bdk_chain/src/keychain/txout_index.rs: txouts_of_keychain, last_used_index, last_used_indices, spks_of_keychain, revealed_spks_of_all_keychains", "bdk_chain/src/sparse_chain.rs: changeset_additions"]}
