(** Model of bdk_esplora/src/lib.rs.  Iterators of scripts are finite lists.  The threads of
    one batch (:132-165) are run one after the other: they share nothing, and since the
    server may answer every request differently, any interleaving of their requests is an
    execution of the model with another server. *)
From Verif Require Export ClientModel ChainGraphModel TrackerModel.
#[local] Open Scope prog_scope.

(** [esplora_client::TxStatus], the fields used (lib.rs:143, 297) *)
Record TxStatus := mkStatus {
  st_confirmed : bool;
  st_height : option N;
  st_time : option N
}.
(** [esplora_client::Tx]: the txid the server gives (:150), [to_tx()] (:181) and the status *)
Record EsploraTx := mkETx { et_txid : Txid; et_tx : Tx; et_status : TxStatus }.
(** [esplora_client::OutputStatus], the fields used (lib.rs:236-240) *)
Record OutputStatus := mkOStatus { os_txid : option Txid; os_status : option TxStatus }.

(** What an esplora server would answer at one moment (lib.rs:96, 106-107, 140, 209, 233, 240, 268). *)
Record PSnap := mkPSnap {
  ps_block_hash : N → result BlockHash ClientError;
  ps_height : result N ClientError;
  ps_tip_hash : result BlockHash ClientError;
  ps_script_txs : Script → option Txid → result (list EsploraTx) ClientError;
  ps_tx : Txid → result (option Tx) ClientError;
  ps_tx_status : Txid → result (option TxStatus) ClientError;
  ps_output_status : Txid → N → result (option OutputStatus) ClientError
}.

(** lib.rs:296-303 *)
Definition map_confirmation_time (s : TxStatus) (height_at_start : N) : ConfirmationTime :=
  match st_time s, st_height s with
  | Some time, Some height =>
      if height <=? height_at_start then CtConfirmed height time else CtUnconfirmed
  | _, _ => CtUnconfirmed
  end.

Section esplora.
(** [ho g] is the iteration order of the spender sets of the graph [g]. *)
Context (srv : nat → PSnap) (ho : TxGraph → OutPoint → list Txid).
Implicit Types (u : ChainGraph ConfirmationTime) (local : gmap N BlockHash).

(** lib.rs:181-194, :216-227, :251-262: insert a transaction; other errors than
    [TxTooHigh] are ignored *)
Definition ps_insert u (t : Tx) (ct : ConfirmationTime) : outcome (ChainGraph ConfirmationTime) :=
  match cg_insert_tx (ho (cg_graph u)) u t ct with
  | Panic => Panic
  | Ret (Ok (u', _)) => Ret u'
  | Ret (Err (CgTxChain (TxTooHigh _ _ _))) => Panic
  | Ret (Err (CgTxChain (TxMovedUnexpectedly _ _ _))) => Ret u
  | Ret (Err (CgTxConflict _)) => Ret u
  end.
(** lib.rs:177-195, :248-263 *)
Fixpoint ps_insert_all (tip : N) u (l : list (Tx * TxStatus)) : outcome (ChainGraph ConfirmationTime) :=
  match l with
  | [] => Ret u
  | (t, s) :: l => u ← ps_insert u t (map_confirmation_time s tip); ps_insert_all tip u l
  end.

(** lib.rs:93-104 *)
Fixpoint ps_prepare_loop (l : list (N * BlockHash)) u : prog (ChainGraph ConfirmationTime) :=
  match l with
  | [] => ret u
  | (h, x) :: l =>
      y ⇐ req srv (λ s, ps_block_hash s h);
      r ⇐ lift (cg_insert_checkpoint u (mkBlockId h y));
      match r with
      | Err _ => lift Panic
      | Ok (u', _) => if y =? x then ret u' else ps_prepare_loop l u'
      end
  end.

(** lib.rs:147-158; [last().unwrap()] *)
Fixpoint more_pages (fuel : nat) (spk : Script) (related : list EsploraTx) : prog (list EsploraTx) :=
  match fuel with
  | O => unfinished
  | S fuel =>
      match last related with
      | None => lift Panic
      | Some e =>
          new ⇐ req srv (λ s, ps_script_txs s spk (Some (et_txid e)));
          let related := related ++ new in
          if (length new <? 25)%nat then ret related else more_pages fuel spk related
      end
  end.
(** lib.rs:140-161: what one thread does *)
Definition related_txs (fuel : nat) (spk : Script) : prog (list EsploraTx) :=
  related ⇐ req srv (λ s, ps_script_txs s spk None);
  if (25 <=? length (filter (λ e, st_confirmed (et_status e) = true) related))%nat
  then more_pages fuel spk related else ret related.
(** lib.rs:132-165 *)
Fixpoint fetch_batch (fuel : nat) (l : list (N * Script)) : prog (list (N * list EsploraTx)) :=
  match l with
  | [] => ret []
  | (i, spk) :: l =>
      r ⇐ related_txs fuel spk;
      rs ⇐ fetch_batch fuel l;
      ret ((i, r) :: rs)
  end.
(** lib.rs:169-196: the state is [update], [last_active_index], [empty_scripts] *)
Fixpoint join_batch (tip : N) (l : list (N * list EsploraTx)) u (active : option N) (empty : N)
  : outcome (ChainGraph ConfirmationTime * option N * N) :=
  match l with
  | [] => Ret (u, active, empty)
  | (i, []) :: l => join_batch tip l u active (empty + 1)
  | (i, related) :: l =>
      u ← ps_insert_all tip u ((λ e, (et_tx e, et_status e)) <$> related);
      join_batch tip l u (Some i) 0
  end.
(** lib.rs:131-201; the scripts used up in every round but the last bound the rounds *)
Fixpoint keychain_loop (rounds fuel : nat) (stop_gap : N) (parallel : nat) (tip : N)
  (spks : list (N * Script)) u (active : option N) (empty : N)
  : prog (ChainGraph ConfirmationTime * option N) :=
  match rounds with
  | O => unfinished
  | S rounds =>
      let batch := take parallel spks in
      rs ⇐ fetch_batch fuel batch;
      '(u, active, empty) ⇐ lift (join_batch tip rs u active empty);
      if bool_decide (batch = []) || (stop_gap <=? empty) then ret (u, active)
      else keychain_loop rounds fuel stop_gap parallel tip (drop parallel spks) u active empty
  end.
(** lib.rs:126-206 *)
Fixpoint keychains_loop `{Countable K} (fuel : nat) (stop_gap : N) (parallel : nat) (tip : N)
  (l : list (K * list (N * Script))) u (m : gmap K N) : prog (ChainGraph ConfirmationTime * gmap K N) :=
  match l with
  | [] => ret (u, m)
  | (k, spks) :: l =>
      '(u, active) ⇐ keychain_loop (S (length spks)) fuel stop_gap parallel tip spks u None 0;
      keychains_loop fuel stop_gap parallel tip l u (match active with Some i => <[k := i]> m | None => m end)
  end.
(** lib.rs:208-228; both requests are made before the match *)
Fixpoint ps_txids_loop (tip : N) (l : list Txid) u : prog (ChainGraph ConfirmationTime) :=
  match l with
  | [] => ret u
  | i :: l =>
      t ⇐ req srv (λ s, ps_tx s i);
      s ⇐ req srv (λ s, ps_tx_status s i);
      match t, s with
      | Some t, Some s =>
          u ⇐ lift (ps_insert u t (map_confirmation_time s tip)); ps_txids_loop tip l u
      | _, _ => ps_txids_loop tip l u
      end
  end.
(** lib.rs:231-246 *)
Definition outpoint_txs (o : OutPoint) : prog (list (Tx * TxStatus)) :=
  t ⇐ req srv (λ s, ps_tx s (op_txid o));
  s ⇐ req srv (λ s, ps_tx_status s (op_txid o));
  match t, s with
  | Some t, Some s =>
      os ⇐ req srv (λ s, ps_output_status s (op_txid o) (op_vout o));
      match os with
      | Some (mkOStatus (Some i) (Some s')) =>
          t' ⇐ req srv (λ s, ps_tx s i);
          match t' with Some t' => ret [(t, s); (t', s')] | None => ret [(t, s)] end
      | _ => ret [(t, s)]
      end
  | _, _ => ret []
  end.
(** lib.rs:230-264 *)
Fixpoint ps_outpoints_loop (tip : N) (l : list OutPoint) u : prog (ChainGraph ConfirmationTime) :=
  match l with
  | [] => ret u
  | o :: l =>
      txs ⇐ outpoint_txs o;
      u ⇐ lift (ps_insert_all tip u txs);
      ps_outpoints_loop tip l u
  end.

(** lib.rs:79-293 and, for the call at :282, :50-75 with [usize::MAX] of a 64-bit machine.
    Each nested call uses one unit of fuel; so does each page of a script. *)
Fixpoint ps_scan (fuel : nat) {K} `{Countable K, !Ord K} local (keychain_spks : gmap K (list (N * Script)))
  (txs : list Txid) (outpoints : list OutPoint) (stop_gap : N) (parallel_requests : nat)
  : prog (KScan K ConfirmationTime) :=
  match fuel with
  | O => unfinished
  | S fuel =>
      let parallel := Nat.max parallel_requests 1 in
      u ⇐ ps_prepare_loop (reverse (bmap_list local)) cg_default;
      height ⇐ req srv ps_height;
      hash ⇐ req srv ps_tip_hash;
      r ⇐ lift (cg_insert_checkpoint u (mkBlockId height hash));
      match r with
      | Err _ => ps_scan fuel local keychain_spks txs outpoints stop_gap parallel
      | Ok (u, _) =>
          '(u, active) ⇐ keychains_loop fuel stop_gap parallel height (bmap_list keychain_spks) u ∅;
          u ⇐ ps_txids_loop height txs u;
          u ⇐ ps_outpoints_loop height outpoints u;
          reorg ⇐ match latest_checkpoint (cg_chain u) with
                  | Some b => y ⇐ req srv (λ s, ps_block_hash s (bi_height b)); ret (negb (y =? bi_hash b))
                  | None => ret false
                  end;
          if (reorg : bool) then
            s ⇐ ps_scan fuel (K:=N) local {[ 0 := [] ]} (txids (cg_chain u)).*2 [] u64_max parallel;
            ret (mkKScan (ks_update s) active)
          else ret (mkKScan u active)
      end
  end.
(** lib.rs:50-75; [usize::MAX] of a 64-bit machine.  The indices are truncated to [u32]. *)
Definition ps_scan_without_keychain (fuel : nat) local (spks : list Script) (txs : list Txid)
  (outpoints : list OutPoint) (parallel_requests : nat) : prog (ChainGraph ConfirmationTime) :=
  s ⇐ ps_scan fuel (K:=N) local {[ 0 := imap (λ i s, (N.of_nat i mod 2 ^ 32, s)) spks ]} txs outpoints u64_max parallel_requests;
  ret (ks_update s).
End esplora.
