(** Model of the [Sync] and [Scan] commands of bdk_electrum_example/src/main.rs and bdk_esplora_example/src/main.rs
    from the lists asked for to the store.
    [CliModel] has what they ask for and what they do with the result. *)
From Verif Require Export CliModel ElectrumModel EsploraModel.
#[local] Open Scope prog_scope.

Section keychains.
Context `{!DescEnv} `{Countable K, !Ord K}.
(** bdk_chain/src/keychain/txout_index.rs:238-250.  The iterators are the lists of their elements. *)
Definition spks_of_all_keychains (x : KIndex K) : gmap K (list (N * Script)) :=
  (λ d, range_spks d 0 (bip32_max + 1)) <$> ki_keychains x.
End keychains.

Section commands.
Context `{!DescEnv, !CliEnv} {C : Codec (KChangeSet Keychain TxHeight)}.
Implicit Types (x : Tracker Keychain TxHeight) (w : World TxHeight) (ch : Choices TxHeight) (srv : nat → ESnap).

(** [batch_transaction_get], bdk_electrum_example/src/main.rs:228-230: the transactions in the order asked for, or an error.
    The server answers a batch at one moment. *)
Fixpoint batch_txs (s : ESnap) (l : list Txid) : result (list Tx) ClientError :=
  match l with
  | [] => Ok []
  | i :: l =>
      match es_tx s i with
      | Err e => Err e
      | Ok t => match batch_txs s l with Err e => Err e | Ok ts => Ok (t :: ts) end
      end
  end.

(** bdk_electrum_example/src/main.rs:225-247.  [po] is the order in which the positions of the update are visited
    (a [HashMap]). *)
Definition electrum_finish srv ch (po : SparseChain TxHeight → list (Txid * TxHeight)) w (e : ElectrumUpdate Keychain TxHeight)
    : prog (World TxHeight * list (event TxHeight) * result unit CliError) :=
  let cg := tr_cg (w_tracker w) in
  new_txs ⇐ req srv (λ s, batch_txs s (missing_full_txs e (cg_graph cg)));
  r ⇐ lift (into_keychain_scan (ch_hash ch (inflate_graph cg (eu_chain e) new_txs)) e new_txs cg);
  match r with
  | Err _ => ret (w, [], Err EUpdate)
  | Ok sc => lift (electrum_apply ch w sc (po (eu_chain e)))
  end.

(** bdk_electrum_example/src/main.rs:125-247 [Sync].  Nothing happens to the tracker while its lock is given up. *)
Definition electrum_sync (dbg : bool) srv (fuel : nat) ch po (f : SyncFlags) (batch : nat) w
    : prog (World TxHeight * list (event TxHeight) * result unit CliError) :=
  '(spks, txids, outs) ⇐ lift (sync_request ch (w_tracker w) f);
  c ⇐ scan_without_keychain dbg srv fuel (sc_cps (cg_chain (tr_cg (w_tracker w)))) spks txids outs batch;
  electrum_finish srv ch po w (mkEU c ∅).

(** bdk_electrum_example/src/main.rs:84-127, 225-247 [Scan] *)
Definition electrum_scan (dbg : bool) srv (fuel : nat) ch po (stop_gap : N) (batch : nat) w
    : prog (World TxHeight * list (event TxHeight) * result unit CliError) :=
  e ⇐ scan dbg srv fuel (sc_cps (cg_chain (tr_cg (w_tracker w)))) (spks_of_all_keychains (tr_index (w_tracker w))) [] [] stop_gap batch;
  electrum_finish srv ch po w e.
End commands.

Section esplora.
Context `{!DescEnv, !CliEnv} {C : Codec (KChangeSet Keychain ConfirmationTime)}.
Implicit Types (w : World ConfirmationTime) (ch : Choices ConfirmationTime) (srv : nat → PSnap) (po : SparseChain ConfirmationTime → list (Txid * ConfirmationTime)).

(** bdk_esplora_example/src/main.rs:130-236 [Sync].  Nothing happens to the tracker while its lock is given up.  What is
    asked for is as in the electrum example ([sync_request]). *)
Definition esplora_sync_cmd srv (fuel : nat) ch po (f : SyncFlags) (parallel : nat) w
    : prog (World ConfirmationTime * list (event ConfirmationTime) * result unit CliError) :=
  '(spks, txids, outs) ⇐ lift (sync_request ch (w_tracker w) f);
  u ⇐ ps_scan_without_keychain srv (ch_hash ch) fuel (sc_cps (cg_chain (tr_cg (w_tracker w)))) spks txids outs parallel;
  lift (esplora_apply ch w (kscan_of_cg u) (po (cg_chain u))).

(** bdk_esplora_example/src/main.rs:75-129 [Scan] *)
Definition esplora_scan_cmd srv (fuel : nat) ch po (stop_gap : N) (parallel : nat) w
    : prog (World ConfirmationTime * list (event ConfirmationTime) * result unit CliError) :=
  sc ⇐ ps_scan srv (ch_hash ch) fuel (sc_cps (cg_chain (tr_cg (w_tracker w)))) (spks_of_all_keychains (tr_index (w_tracker w))) [] [] stop_gap parallel;
  lift (esplora_apply ch w sc (po (cg_chain (ks_update sc)))).
End esplora.
