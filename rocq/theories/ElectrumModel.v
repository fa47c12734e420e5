(** Model of bdk_electrum/src/lib.rs.  Iterators of scripts are finite lists. *)
From Verif Require Export ClientModel ChainGraphModel TrackerModel.
#[local] Open Scope prog_scope.

(** [electrum_client::GetHistoryRes], the fields used: [tx_hash], [height: i32] *)
Notation History := (list (Txid * Z)) (only parsing).

(** What an electrum server would answer at one moment.  A header is its block hash
    (:183, :348); of a batch of headers only the times are used (:288-293). *)
Record ESnap := mkESnap {
  es_header : N → result BlockHash ClientError;
  es_tip : result (N * BlockHash) ClientError;
  es_tx : Txid → result Tx ClientError;
  es_history : Script → result History ClientError;
  es_histories : list Script → result (list History) ClientError;
  es_times : list N → result (list N) ClientError
}.

(** lib.rs:210-215 *)
Record ElectrumUpdate (K P : Type) `{Countable K, Countable P} := mkEU {
  eu_chain : SparseChain P;
  eu_active : gmap K N
}.
Global Arguments mkEU {_ _ _ _ _ _} _ _.
Global Arguments eu_chain {_ _ _ _ _ _} _.
Global Arguments eu_active {_ _ _ _ _ _} _.

(** lib.rs:386, the genesis coinbase txid (a txid is displayed in reverse byte order;
    this is the number of its bytes in memory order) *)
Definition genesis_txid : Txid := 0x3ba3edfd7a7b12b27ac72c3e67768f617fc81bc3888a51323a9fb8aa4b1e5e4a.

(** lib.rs:384-409; [dbg] tells whether [debug_assert!] is compiled in *)
Definition determine_tx_height (dbg : bool) (raw : Z) (tip : N) (t : Txid) : outcome TxHeight :=
  if t =? genesis_txid then Ret (Confirmed 0)
  else if (raw <=? 0)%Z then
    if dbg && negb ((raw =? 0)%Z || (raw =? -1)%Z) then Panic else Ret Unconfirmed
  else let h := Z.to_N raw in
    if tip <? h then Ret Unconfirmed else Ret (Confirmed h).

(** lib.rs:475-484, :522-531, :580-591: insert a transaction; [false] is
    [Err(InternalError::Reorg)] *)
Definition insert_found (u : SparseChain TxHeight) (t : Txid) (h : TxHeight)
  : outcome (SparseChain TxHeight * bool) :=
  match insert_tx u t h with
  | Panic => Panic
  | Ret (Ok (u', _)) => Ret (u', true)
  | Ret (Err (TxTooHigh _ _ _)) => Panic
  | Ret (Err (TxMovedUnexpectedly _ _ _)) => Ret (u, false)
  end.

(** lib.rs:577-592: the history of one script *)
Fixpoint insert_history (dbg : bool) (tip : N) (u : SparseChain TxHeight) (l : History)
  : outcome (SparseChain TxHeight * bool) :=
  match l with
  | [] => Ret (u, true)
  | (t, raw) :: l =>
      h ← determine_tx_height dbg raw tip t;
      '(u, ok) ← insert_found u t h;
      if (ok : bool) then insert_history dbg tip u l else Ret (u, false)
  end.

Section electrum.
Context (dbg : bool) (srv : nat → ESnap).
Implicit Types (u : SparseChain TxHeight) (local : gmap N BlockHash).

(** lib.rs:330-335 and :101-106; [as u32] keeps the low 32 bits *)
Definition get_tip : prog BlockId :=
  d ⇐ req srv es_tip; ret (mkBlockId (d.1 `mod` 2 ^ 32) d.2).

(** lib.rs:345-359 *)
Fixpoint prepare_loop (l : list (N * BlockHash)) u : prog (SparseChain TxHeight) :=
  match l with
  | [] => ret u
  | (h, x) :: l =>
      y ⇐ req srv (λ s, es_header s h);
      r ⇐ lift (insert_checkpoint u (mkBlockId h y));
      match r with
      | Err _ => lift Panic
      | Ok (u', _) => if y =? x then ret u' else prepare_loop l u'
      end
  end.
(** lib.rs:338-377 *)
Fixpoint prepare_update (fuel : nat) local : prog (SparseChain TxHeight) :=
  match fuel with
  | O => unfinished
  | S fuel =>
      u ⇐ prepare_loop (reverse (bmap_list local)) sc_default;
      tip ⇐ get_tip;
      r ⇐ lift (insert_checkpoint u tip);
      match r with
      | Ok (u', _) => ret u'
      | Err _ => prepare_update fuel local
      end
  end.

(** lib.rs:441-485: the loop over the history of the outpoint's script; the state is
    [update], [full_txs], [has_residing], [has_spending].  [None] is the [Reorg] error. *)
Fixpoint outpoint_history (o : OutPoint) (t : Tx) (tip : N) (l : History) u (full : gmap Txid Tx)
  (residing spending : bool) : prog (SparseChain TxHeight * option (gmap Txid Tx)) :=
  match l with
  | [] => ret (u, Some full)
  | (i, raw) :: l =>
      if residing && spending then ret (u, Some full)
      else if i =? op_txid o then
        if residing then outpoint_history o t tip l u full residing spending
        else
          let full := <[i := t]> full in
          h ⇐ lift (determine_tx_height dbg raw tip i);
          r ⇐ lift (insert_found u i h);
          if r.2 then outpoint_history o t tip l r.1 full true spending else ret (r.1, None)
      else if spending then outpoint_history o t tip l u full residing spending
      else
        s ⇐ match full !! i with Some s => ret s | None => req srv (λ s, es_tx s i) end;
        let full := <[i := s]> full in
        if existsb (λ p, bool_decide (p = o)) (tx_in s) then
          h ⇐ lift (determine_tx_height dbg raw tip i);
          r ⇐ lift (insert_found u i h);
          if r.2 then outpoint_history o t tip l r.1 full residing true else ret (r.1, None)
        else outpoint_history o t tip l u full residing false
  end.
(** lib.rs:428-486 *)
Fixpoint outpoints_loop (tip : N) (l : list OutPoint) u (full : gmap Txid Tx)
  : prog (SparseChain TxHeight * option (gmap Txid Tx)) :=
  match l with
  | [] => ret (u, Some full)
  | o :: l =>
      t ⇐ req srv (λ s, es_tx s (op_txid o));
      if dbg && negb (txid t =? op_txid o) then lift Panic else
      match tx_out t !! N.to_nat (op_vout o) with
      | None => outpoints_loop tip l u full
      | Some x =>
          hist ⇐ req srv (λ s, es_history s (txo_spk x));
          r ⇐ outpoint_history o t tip hist u full false false;
          match r.2 with
          | Some full => outpoints_loop tip l r.1 full
          | None => ret (r.1, None)
          end
      end
  end.
(** lib.rs:418-488 *)
Definition populate_with_outpoints u (l : list OutPoint)
  : prog (SparseChain TxHeight * option (gmap Txid Tx)) :=
  match latest_checkpoint u with
  | None => lift Panic
  | Some tip => outpoints_loop (bi_height tip) l u ∅
  end.

(** lib.rs:500-532; [false] is the [Reorg] error *)
Fixpoint txids_loop (tip : N) (l : list Txid) u : prog (SparseChain TxHeight * bool) :=
  match l with
  | [] => ret (u, true)
  | i :: l =>
      a ⇐ ask srv (λ s, es_tx s i);
      match a with
      | Err Protocol => txids_loop tip l u
      | Err e => λ n, Failed n e
      | Ok t =>
          match tx_out t with
          | [] => lift Panic
          | x :: _ =>
              hist ⇐ req srv (λ s, es_history s (txo_spk x));
              match List.find (λ e : Txid * Z, e.1 =? i) hist with
              | None => txids_loop tip l u
              | Some e =>
                  h ⇐ lift (determine_tx_height dbg e.2 tip e.1);
                  r ⇐ lift (insert_found u i h);
                  if r.2 then txids_loop tip l r.1 else ret (r.1, false)
              end
          end
      end
  end.
(** lib.rs:492-534 *)
Definition populate_with_txids u (l : list Txid) : prog (SparseChain TxHeight * bool) :=
  match latest_checkpoint u with
  | None => lift Panic
  | Some tip => txids_loop (bi_height tip) l u
  end.

Section spks.
Context `{Countable J, !Ord J}.
Implicit Types (scanned : gmap J (Script * bool)).

(** How the loop over one batch ends: [Err(Reorg)], [return Ok(scanned_spks)], or the
    batch is used up and [unused_spk_count] is what it is; lib.rs:564-593. *)
Inductive batch_end :=
| BatchReorg (u : SparseChain TxHeight)
| BatchStop (u : SparseChain TxHeight) (scanned : gmap J (Script * bool))
| BatchMore (u : SparseChain TxHeight) (unused : N) (scanned : gmap J (Script * bool)).

(** lib.rs:564-593 *)
Fixpoint spks_batch (stop_gap tip : N) (l : list (J * Script * History)) u (unused : N) scanned
  : outcome batch_end :=
  match l with
  | [] => Ret (BatchMore u unused scanned)
  | ((i, spk), []) :: l =>
      let scanned := <[i := (spk, false)]> scanned in
      let unused := unused + 1 in
      if stop_gap <? unused then Ret (BatchStop u scanned)
      else spks_batch stop_gap tip l u unused scanned
  | ((i, spk), hist) :: l =>
      let scanned := <[i := (spk, true)]> scanned in
      '(u, ok) ← insert_history dbg tip u hist;
      if (ok : bool) then spks_batch stop_gap tip l u 0 scanned else Ret (BatchReorg u)
  end.
(** lib.rs:554-594.  Every round but the last consumes a script, so one more than their
    number is fuel enough.  The result is the update, the scripts left
    in the iterator, and the scanned scripts or [None] for the [Reorg] error. *)
Fixpoint spks_loop (fuel : nat) (stop_gap : N) (batch_size : nat) (tip : N) (spks : list (J * Script)) u
  (unused : N) scanned : prog (SparseChain TxHeight * list (J * Script) * option (gmap J (Script * bool))) :=
  match fuel with
  | O => unfinished
  | S fuel =>
      match take batch_size spks with
      | [] => ret (u, spks, Some scanned)
      | batch =>
          let spks := drop batch_size spks in
          hists ⇐ req srv (λ s, es_histories s batch.*2);
          e ⇐ lift (spks_batch stop_gap tip (zip batch hists) u unused scanned);
          match e with
          | BatchReorg u => ret (u, spks, None)
          | BatchStop u scanned => ret (u, spks, Some scanned)
          | BatchMore u unused scanned => spks_loop fuel stop_gap batch_size tip spks u unused scanned
          end
      end
  end.
(** lib.rs:538-595 *)
Definition populate_with_spks (stop_gap : N) (batch_size : nat) u (spks : list (J * Script))
  : prog (SparseChain TxHeight * list (J * Script) * option (gmap J (Script * bool))) :=
  let tip := match latest_checkpoint u with Some b => bi_height b | None => 0 end in
  spks_loop (S (length spks)) stop_gap batch_size tip spks u 0 ∅.
End spks.

Section scan.
Context `{Countable K, !Ord K}.
Implicit Types (scanned : gmap (K * N) (Script * bool)) (requests : list (K * list (N * Script))).

(** lib.rs:159-162: [extend], later entries win; the map given is the new one *)
Definition add_keychain_spks (k : K) (new : gmap N (Script * bool)) scanned : gmap (K * N) (Script * bool) :=
  foldl (λ m (e : N * (Script * bool)), <[(k, e.1) := e.2]> m) scanned (bmap_list new).
(** lib.rs:149-164: the iterators come back advanced.  The [continue] of :157 goes on with
    the next keychain. *)
Fixpoint scan_keychains (stop_gap : N) (batch_size : nat) requests u scanned
  : prog (list (K * list (N * Script)) * SparseChain TxHeight * gmap (K * N) (Script * bool)) :=
  match requests with
  | [] => ret ([], u, scanned)
  | (k, spks) :: requests =>
      '(u, rest, new) ⇐ populate_with_spks stop_gap batch_size u spks;
      let scanned := match new with Some new => add_keychain_spks k new scanned | None => scanned end in
      '(requests, u, scanned) ⇐ scan_keychains stop_gap batch_size requests u scanned;
      ret ((k, rest) :: requests, u, scanned)
  end.

(** lib.rs:133-148: scripts scanned in an earlier round; [None] is the [continue] of :144 *)
Definition rescan (stop_gap : N) (batch_size : nat) u scanned
  : prog (SparseChain TxHeight * option (gmap (K * N) (Script * bool))) :=
  if bool_decide (scanned = ∅) then ret (u, Some scanned)
  else
    '(u, _, new) ⇐ populate_with_spks stop_gap batch_size u
                     ((λ e : K * N * (Script * bool), (e.1, e.2.1)) <$> bmap_list scanned);
    ret (u, (λ new, new ∪ scanned) <$> new).

(** lib.rs:129-189.  [fuel] bounds the rounds (and the calls in prepare_update). *)
Fixpoint scan_loop (fuel : nat) local (txids : list Txid) (outpoints : list OutPoint) (stop_gap : N)
  (batch_size : nat) requests scanned : prog (SparseChain TxHeight * gmap (K * N) (Script * bool)) :=
  match fuel with
  | O => unfinished
  | S fuel =>
      let again := scan_loop fuel local txids outpoints stop_gap batch_size in
      u ⇐ prepare_update (S fuel) local;
      '(u, re) ⇐ match requests with
                 | [] => ret (u, Some scanned)
                 | _ => rescan stop_gap batch_size u scanned
                 end;
      match re with
      | None => again requests scanned
      | Some scanned =>
          '(requests, u, scanned) ⇐ scan_keychains stop_gap batch_size requests u scanned;
          '(u, ok) ⇐ populate_with_txids u txids;
          if negb ok then again requests scanned else
          '(u, ok) ⇐ populate_with_outpoints u outpoints;
          match ok with
          | None => again requests scanned
          | Some _ =>
              match latest_checkpoint u with
              | None => lift Panic
              | Some tip =>
                  y ⇐ req srv (λ s, es_header s (bi_height tip));
                  if bi_hash tip =? y then ret (u, scanned) else again requests scanned
              end
          end
      end
  end.

(** lib.rs:194-198: the last active entry in [(k, 0)..=(k, u32::MAX)] *)
Definition last_active (k : K) scanned : option N :=
  (λ e : K * N * (Script * bool), e.1.2) <$>
  last (filter (λ e : K * N * (Script * bool),
          (above_lo (Incl (k, 0)) e.1 ∧ below_hi (Incl (k, u32_max)) e.1) ∧ e.2.2 = true) (bmap_list scanned)).
(** lib.rs:191-200 *)
Definition last_active_indices (ks : list K) scanned : gmap K N :=
  list_to_map (omap (λ k, pair k <$> last_active k scanned) ks).

(** lib.rs:108-206 *)
Definition scan (fuel : nat) local (keychain_spks : gmap K (list (N * Script))) (txids : list Txid)
  (outpoints : list OutPoint) (stop_gap : N) (batch_size : nat) : prog (ElectrumUpdate K TxHeight) :=
  let requests := bmap_list keychain_spks in
  '(u, scanned) ⇐ scan_loop fuel local txids outpoints stop_gap batch_size requests ∅;
  ret (mkEU u (last_active_indices requests.*1 scanned)).
End scan.
End electrum.

(** lib.rs:75-97; [usize::MAX] of a 64-bit machine *)
Definition scan_without_keychain (dbg : bool) (srv : nat → ESnap) (fuel : nat) (local : gmap N BlockHash)
  (spks : list Script) (txids : list Txid) (outpoints : list OutPoint) (batch_size : nat)
  : prog (SparseChain TxHeight) :=
  e ⇐ scan dbg srv fuel local {[ 0 := imap (λ i s, (N.of_nat i, s)) spks ]} txids outpoints u64_max batch_size;
  ret (eu_chain e).

Section update.
Context `{Countable K, !Ord K} `{ChainPosition P}.
(** lib.rs:236-246 *)
Definition missing_full_txs (e : ElectrumUpdate K P) (g : TxGraph) : list Txid :=
  (filter (λ pt, get_tx g pt.2 = None) (txids (eu_chain e))).*2.
(** lib.rs:252-267 *)
Definition into_keychain_scan (ho : OutPoint → list Txid) (e : ElectrumUpdate K P) (new_txs : list Tx)
  (cg : ChainGraph P) : outcome (result (KScan K P) (NewError P)) :=
  match inflate_update ho cg (eu_chain e) new_txs with
  | Panic => Panic
  | Ret (Err x) => Ret (Err x)
  | Ret (Ok u) => Ret (Ok (mkKScan u (eu_active e)))
  end.
End update.

(** lib.rs:300-309 *)
Fixpoint convert_loop (times : gmap N N) (l : list (TxHeight * Txid)) (u : SparseChain ConfirmationTime)
  : outcome (SparseChain ConfirmationTime) :=
  match l with
  | [] => Ret u
  | (h, i) :: l =>
      ct ← match h with
           | Confirmed h => match times !! h with Some t => Ret (CtConfirmed h t) | None => Panic end
           | Unconfirmed => Ret CtUnconfirmed
           end;
      r ← insert_tx u i ct;
      match r with Ok (u', _) => convert_loop times l u' | Err _ => Panic end
  end.
(** lib.rs:276-294: collecting into a map, later entries win *)
Definition height_times (heights times : list N) : gmap N N :=
  foldl (λ m (e : N * N), <[e.1 := e.2]> m) ∅ (zip heights times).
(** lib.rs:272-315 *)
Definition into_confirmation_time_update `{Countable K, !Ord K} (srv : nat → ESnap)
  (e : ElectrumUpdate K TxHeight) : prog (ElectrumUpdate K ConfirmationTime) :=
  l ⇐ lift (range_txids_by_height (eu_chain e) Unb (Excl Unconfirmed));
  let heights := omap (λ pt : TxHeight * Txid, match pt.1 with Confirmed h => Some h | Unconfirmed => None end) l in
  if existsb (λ pt : TxHeight * Txid, negb (th_is_confirmed pt.1)) l then lift Panic else
  ts ⇐ req srv (λ s, es_times s heights);
  u ⇐ lift (convert_loop (height_times heights ts) (txids (eu_chain e))
              (from_checkpoints ((λ kv, mkBlockId kv.1 kv.2) <$> bmap_list (sc_cps (eu_chain e)))));
  ret (mkEU u (eu_active e)).
