# Formal model of bdk_core_staging: design and trusted base

The Rust source in `/repo` was read as text; nothing in it was built, run or
changed.  Everything here is a hand-written Gallina model plus theorems about it.

## Layout

* `rocq/theories/*Model.v` – the model, one file per Rust source file.  Every
  definition cites the file and lines it models and says where it simplifies.
  No proofs in these files.
* `rocq/theories/*Spec.v` – small independent specifications used by theorem
  statements (plain predicates on observable effects).
* `rocq/theories/*Proofs.v` – lemmas and proofs.
* `rocq/theories/Props*.v` – only the property theorems, each closed with
  `exact <lemma>`, each followed by `Print Assumptions`, with an `Example`
  beside it showing a concrete non-trivial case that meets its hypotheses.

## Modelling conventions

* `u32`, `u64`, `i64` values are `N`/`Z`.  Where overflow can matter it is
  explicit (`Panic Overflow`, i.e. the debug profile's checked arithmetic).
* `&mut self` methods return the new value; `Result`/`Option` are data;
  `panic!`, `expect`, `unreachable!`, `debug_assert!` are an explicit `Panic`.
* `BTreeMap`, `HashMap` are `gmap`; `BTreeSet` is `gset` and iterating it sorts;
  wherever a Rust `HashMap`/`HashSet` iteration order can influence a result,
  the order is an explicit argument (an arbitrary permutation) and theorems
  quantify over it.
* A transaction is a record with its txid as a field; that the txid determines
  the inputs and outputs (collision resistance) is an explicit hypothesis on the
  transactions in play in the theorems that need it.
* Descriptor derivation, the bincode codec's payload types, servers, clocks and
  files are explicit parameters/oracles with stated laws, never axioms.
* `f32` arithmetic is IEEE binary32 via the standard library's `SpecFloat`.

## Trusted base

* The Coq 8.16.1 kernel (`vm_compute` included, which some examples and witnesses
  use), and `coqc`/`make` as drivers.
* Libraries: the Coq standard library and std++ 1.8 (definitions and proved lemmas
  only; no axiom of std++ is used).
* `Print Assumptions` under every property theorem: all report
  *Closed under the global context*, i.e. no axiom at all, neither of the standard
  library nor ours.  (Should a theorem ever list one, it is named here.)
* That the model says what the code says.  This is by reading: each definition
  cites file and lines.  As a check, the project's own tests are run on the model
  (`Conform*.v`): every test function of `bdk_chain/tests`, of
  `bdk_file_store/tests`, the unit tests of `keychain.rs`, `sparse_chain.rs` and
  `coin_selector.rs`, and the examples with assertions in the documentation of
  `bdk_chain`, translated by hand, with the results they assert, and evaluated by
  the kernel; all agree.  The tests in `bnb.rs` do not compile in the project (they
  refer to modules it does not have); they are run with taproot inputs and outputs
  in place of the missing tester, three of them on smaller numbers (as are the two of
  `sparse_chain.rs`), and agree too.
  Mutation tests (`seeded/LOG.jsonl`) check that the theorems notice changes of the
  model.
* The hypotheses of the theorems (ranges, no txid collisions, injective descriptor
  derivation, iteration orders being permutations...), each spelled out in the
  statement and met by a concrete example.

## What is modelled

| Rust | Model | State |
|------|-------|-------|
| `bdk_chain/src/chain_data.rs` | `ChainDataModel.v` | positions, block ids, full txouts: all; `Display`, consensus encodings, `serde` not |
| `bdk_chain/src/sparse_chain.rs` | `SparseChainModel.v` | all functions; `Display`/`Error` impls not |
| `bdk_chain/src/tx_graph.rs` | `TxGraphModel.v` | all functions but the borrowing wrappers |
| `bdk_chain/src/chain_graph.rs` | `ChainGraphModel.v` | all functions |
| `bdk_chain/src/spk_txout_index.rs` | `SpkIndexModel.v` | all functions |
| `bdk_chain/src/keychain/txout_index.rs`, `DerivationAdditions` | `KeychainIndexModel.v` | all functions; descriptor derivation is a class parameter |
| `bdk_chain/src/keychain.rs`, `keychain/tracker.rs`, `keychain/persist.rs` | `TrackerModel.v` | all functions; accessors returning references are field projections |
| bincode 2 / serde derive for `KeychainChangeSet` (`#[derive(Serialize, Deserialize)]` in `keychain.rs`, `chain_graph.rs`, `sparse_chain.rs`, `tx_graph.rs`, `chain_data.rs`) | `CodecModel.v` | integers, options, maps, sets, hashes, outpoints, positions, the changeset; the encodings of `Transaction`, `TxOut` and the keychain type are parameters with laws; a length field larger than memory (only in a corrupt file) is not modelled |
| `bdk_file_store/src/file_store.rs`, `lib.rs` | `FileStoreModel.v` | all functions; the file is bytes plus a position; writes may stop at any byte, truncation and sync may fail, reads do not fail; data once written survives a crash of the process; for power loss see `PowerModel.v` |
| `bdk_file_store/src/file_store.rs`, `append_changeset`, `new_from_path` | `PowerModel.v` | which writes and truncations are on the disk: everything up to the last `sync_data` that succeeded; of what came later the length is that of some moment since, and every byte that of some moment, each for itself, or zero where the file did not reach (`survives`). The directory entry of the file is not modelled; a sync that returns an error ends the store histories of C93, and in C95 counts as not having synced |
| `bdk_coin_select/src/coin_selector.rs`, `lib.rs` | `CoinSelectModel.v` | all functions, in both build profiles (overflow checks on or off); `Display` not; `Transaction::weight` and `VarInt::len` of the bitcoin crate from their documentation, without overflow |
| `bdk_coin_select/src/bnb.rs` | `BnbModel.v` | all functions; the sort is a parameter; a time limit is the list of answers of the clock, one per item |
| `bdk_electrum/src/lib.rs` | `ElectrumModel.v` | all functions; the server is a table of answers per request (`ESnap`), another one for every request, so it may change or lie at any point; loops that end only because of what the server says carry fuel (`Unfinished`) |
| `bdk_esplora/src/lib.rs` | `EsploraModel.v` | all functions; the threads of one batch run one after the other |
| `bdk_tmp_plan/src/lib.rs`, `plan_impls.rs`, `template.rs`, `requirements.rs` | `PlanModel.v` | all functions; one case for the four hash fragments; script encoding, taproot trees, control blocks and lock times of the bitcoin and miniscript crates from their documentation; hashing, derivation and signing are a class parameter (`KeyEnv`), signature hashes are arguments |
| `bdk_cli_lib/src/lib.rs`, the commands of `bdk_electrum_example/src/main.rs` and `bdk_esplora_example/src/main.rs` | `CliModel.v` | addresses, balances, outputs, `create_tx`, `Send`, the scans after the server answered (from the request on in `CliSyncModel.v`), `init`; what goes outside is a list of events (writes with their fault, addresses shown, broadcasts with their result); a script without an address, which panics after a write, is an error; hash orders, unstable sorts and the clock are an argument (`Choices`), descriptors, dust values, txids and signature hashes a class (`CliEnv`); the mutexes are steps of an interleaving (`CliSpec.v`); `Broadcast` of a given transaction and printing not |
| client programs | `ClientModel.v` | results with a request counter: value, error of the server, panic, out of fuel |
| Rust's integers and `f32` | `MachineModel.v` | checked/wrapping arithmetic; binary32 by the standard library's `SpecFloat`; saturating `as` casts, `ceil` |

## Per property plan

| id | modelled | method |
|----|----------|--------|
| C01–C15 | `sparse_chain.rs`, generic in the position type | invariants by induction over operation lists; whole-map functional specs; refutations with concrete witnesses where the documentation is wrong (C07, C08, C13 with a limit) |
| C16, C17 | `chain_data.rs` | order laws, arithmetic |
| C18–C24 | `tx_graph.rs` | union/monotonicity invariants, index exactness, DFS with explicit stack: termination measure, reachability; C23 refuted by a diamond |
| C25–C30 | `chain_graph.rs` | invariant over histories; C27 refuted; eviction characterised by the walk specification |
| C31–C33 | `spk_txout_index.rs` | invariants over histories |
| C34–C40 | `keychain/txout_index.rs`, `keychain.rs` | invariants over histories, derivation as parameter; C37, C38 refuted |
| C41–C43 | `keychain/tracker.rs` | sums over filtered maps; replay as refinement |
| C44 | `keychain/persist.rs` | refinement to a log, arbitrary failure schedule |
| C45–C50 | `file_store.rs` | byte-level file with position; crash = any prefix of the write; codec as record of laws plus a concrete bincode varint instance; C47, C48, C50 refuted |
| C51–C57, C67, C68 | `coin_selector.rs`, `bnb.rs` | arithmetic; search invariant; optimality by induction on the search tree; C53, C56 refuted in corner cases |
| C58–C61, C69–C71 | `bdk_electrum`, `bdk_esplora` | server as oracle, a world it tells the truth about (Electrum: `world_ok`; Esplora: `world_sane`, 25 confirmed transactions per page and at most 50 unconfirmed ones per script; tip below `u32::MAX`); C61 refuted by schedules (two keychains, a moved transaction, a batch cut short) and proved for one keychain outside these, C60 by batch size 0 and by a script with more than 50 unconfirmed transactions |
| C72 | scan, inflate and apply together | composition of C58, C60, C70, C71 with C05, C28; refuted by a reorganisation between two checkpoints |
| C90, C91 | scan, inflate, apply, index and balance of a whole wallet | composition of C72 with the index: which scripts a scan reveals, which outputs get indexed (`synced`); for new wallets the index is exactly the scripts within the gap; refuted with a lookahead (C90) and for outputs found before their script was watched (C91) |
| C92 | the same wallet over its whole life | invariant `alive` by induction over `life` (worlds, own calls, synchronisations): the local chain agrees with the world where it can tell, every known transaction is one of the worlds', outputs at the scripts of the set-up are indexed; hence `fit_for` of C91 always holds and none of these is overlooked; for any kind of positions, with both servers. Where a reorganisation is hidden (no checkpoint at or below a moved transaction tells of it) `fit_seen` takes its place: the scan finds the transaction again (`C92_seen`, `C92_esplora_seen`); a scan that does not leaves the wallet stuck (`C92_hidden_refuted`) |
| C99, C100 | the commands `sync` and `scan` of both wallets from the request to the file (`CliSyncModel.v`) | composition of C89 (what is asked), C69 (what is found), C71 (inflate), C91 (what is applied) and the append; the scripts of `scan` are the whole derivation range. Nothing happens to the wallet while its lock is given up during the request |
| C101 | the file, the wallet and the network together: processes of one command each, killed between two events, and synchronisations, while the network changes (`dwells`, `CliLifeSpec.v`) | invariant of C92 over the wallet that the entries on disk amount to, after every event; C99 and C100 for the next process, whose hypothesis on the wallet is thereby discharged. Where a reorganisation does not show in the checkpoints, the hypothesis `seen_again` says the command has to find what moved (`PropsCliLife2.v`). A synchronisation that gets no answer leaves what `balance` leaves: nothing new. Transactions the wallet sends are not replaced by different ones with the same id in any network of the family |
| C102, C103 | what is broadcast, spent and given away over the whole life of a file (`CliSendSpec.v`) | C62's invariant between any two events of a life; `full_utxos` never shows an output spent by a transaction in the chain, entries only take a transaction out of the chain by naming it, and indices, scripts and marks of use only grow; refuted for processes killed between broadcasting and writing |
| C104 | whether a payment can be made at all, from the unspent outputs, the plans and BIP 141 weights (`CliPaySpec.v`) | `create_tx` of C79–C83 is shown total on the way through planning, selecting (either nothing more to select or enough), changing, signing; what the selector missed is compared with the cost of every list of coins; refuted for coins that cost more than they bring, huge amounts and watch-only wallets |
| C105 | the rules of a block for lock time, BIP 68 sequences, coinbase maturity, spent outputs and values (`CliMineSpec.v`) | from C80's account of the inputs, lock time and sequences; refuted for a young coinbase, whose output `create_tx` spends |
| C106 | the loops of the scans, whose `fuel` bounds rounds, nested calls and pages (`EndsSpec.v`) | what ends with some fuel ends the same way with more; every round makes a request, and a round that starts after the server has settled is the last one; refuted for servers that never settle |
| C107 | changesets applied, entries stored twice (`TwiceSpec.v`) | pruning between what it keeps and what it was given keeps the same; last-wins maps are idempotent; what a scan records it reveals, so the second scan writes what is there; exact condition for the tracker, refuted beyond the lookahead |
| C108 | the rules for moving transactions in the documentation of `sparse_chain.rs` (`MoveSpec.v`) | what is not settled (C05) is unconfirmed or above the agreement, and then a checkpoint of the chain there is replaced; the lower bound of the documentation refuted by a test of the project |
| C109 | keychains with a common first script (`SharedSpec.v`) | the first script is the first a reveal stores, and storing it again panics; induction over the additions for both; the wallet file that cannot be opened by computation |
| C110 | `ChainGraph::new` against `txs_full` and `no_double_spend` of the chain graph it would make | induction over the listing with `walk_conflicts` (C24, C28) |
| C111 | `secure` (confirmed, or made from own secure outputs), `others_only`, `no_reorg` (`TrustSpec.v`) | induction over `secure`: nothing secure conflicts with what an update brings in (C28, C108), so it stays and its outputs stay unspent; sums by C41; the payment taken back by computation |
| C112 | `spent_before`, the order each algorithm's name says (`CliPickSpec.v`), coins and `pay` of C104 | insertion sort sorts; C54 gives the shortest sufficient prefix of the sorted candidates, read back as coins; the k largest values have the largest sum of any k; a larger coin that costs more to spend by computation |
| C113 | `addressable`, `countable_funds`, `may_pay`, `fair` (`CliCalmSpec.v`), lives and sessions of C78 | every branch of every command is followed to `Ret`, from the session invariant (C78), totality of create_tx (C104), of loading (C90) and of the tracker's updates; overflowing sums and missing secrets by computation |
| C114 | sessions, worlds, `in_gap`, `true_output`, `w_spent` of C91 and C99 | a run of the command that ends well is a scan and an update of C98 (`wallet_asks`), whose second scan has an empty changeset; `in_sync` of C99 between a wallet and itself; three syncs by computation; esplora: where a scan stops is determined (`scanned_once`), so the second one finds no more (`scanned_less`, `AgainEsploraSpec.v`) |
| C115 | `SettleSpec.v`: `syncs` (n successful syncs at any honest servers), `all_known`; `in_sync` of C99 | exactly what is asked for is found (`sync_start`); a wallet at the tip never moves a transaction from its place, and each sync puts one more there or there is nothing left to place (`sync_progress`), after which the changeset is empty (`sync_nothing`); so the transactions of the network that are not in their place are counted down; esplora likewise (`SettleEsploraProofs.v`) |
| C116 | `ReportSpec.v`: `store_fails` (a changeset that is not empty meets a fault; a failing sync only matters with indices); `derived` of C34 | every part of a command tells of the appends and broadcasts it made (`told`), by cases; `create_tx` never returns the error of the store; the list is that of C34 |
| C117 | stated over the stored outputs and `derived` of C34 | invariant of the index (every output is at an index of a known keychain below its range's end), sorted lists, one fold over the keychains (`collect_ok`) |
| C98 | a second scan with nothing new | `nothing_new` is equivalent to an empty changeset (C98_empty_iff); a complete scan that asks for no more than an earlier complete one finds nothing else (`scan_complete`, both directions) |
| C93–C95 | the store and the command line wallet under power loss | invariant over `store_life` resp. `power_life`: a prefix of whole entries, with all that was promised in it, is in every moment of the disk; decoders read streams (`LeafStreams`), so any suffix leaves that prefix decodable; replays of entries without indices reveal nothing new |
| C96, C97 | hash iteration orders in `chain_graph.rs`, `tracker.rs`, `bdk_cli_lib` | the model takes the orders as arguments; two runs with different ones are compared step by step. The walk over conflicts is the same because at most one transaction of the chain spends an output; with the keys in another order plans are the same but for which asset key stands for a key of the descriptor, and that one's secret is the same for an honest wallet; C97 refuted for the map of excess strategies, and for the key map when a descriptor has an extended key without wildcard |
| C62, C78, C79 | `bdk_cli_lib` and the examples | lives: processes of one command each on one file, killed anywhere, with failing writes; invariant: the file replays to a wallet equivalent to the one in memory; refuted for several commands in one process |
| C80, C81, C82 | `create_tx` of `bdk_cli_lib`, down to coin selection, plans and signing | any state a session of commands reaches satisfies the wallet invariant; inversion of `create_tx` (`made`), the lemmas of C51-C54, C65, C73, C74; the weight is BIP 141's for the signed transaction. Assumed, not modelled: amounts, script lengths and weights in range (`modest_wallet`); signatures of 64 bytes that the verifier accepts; C81 and C82 for the leaves and keys for which C65, C73 and C74 hold |
| C83–C89 | sends, balances, listings and sync requests of `bdk_cli_lib` and the examples | effect of `insert_tx` on the wallet's outputs; session invariant for change scripts in flight (used and revealed until a broadcast fails); C85 refuted for interleaved sends, C86 for change descriptors with one script |
| C63–C65, C73–C77 | `bdk_tmp_plan` | induction on policy terms; spending paths, miniscript types and script execution as an independent specification (`ScriptSpec.v`), soundness of spending paths proved against execution; C63 (lock time), C65, C73–C77 refuted by witnesses |

Not modelled: cryptography (script execution only as far as taproot leaves of
miniscript need it, in `ScriptSpec.v`), network and OS behaviour beyond
the oracles above, memory, threads, wall-clock time, argument parsing, printing.
