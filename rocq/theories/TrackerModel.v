(** Model of bdk_chain/src/keychain/tracker.rs, of the scan, changeset and balance types of
    bdk_chain/src/keychain.rs, and of bdk_chain/src/keychain/persist.rs.  The type parameters
    [T], [T2] are fixed to the modelled transaction type. *)
From Verif Require Export ChainGraphModel KeychainIndexModel ChainDataModel.

(** tracker.rs:20-24 *)
Record Tracker (K P : Type) `{Countable K, Countable P} := mkTr {
  tr_index : KIndex K;
  tr_cg : ChainGraph P
}.
Global Arguments mkTr {_ _ _ _ _ _} _ _.
Global Arguments tr_index {_ _ _ _ _ _} _.
Global Arguments tr_cg {_ _ _ _ _ _} _.

(** keychain.rs:144-149 *)
Record KChangeSet (K P : Type) `{Countable K} := mkKCS {
  kcs_indices : DerivationAdditions K;
  kcs_cg : CgChangeSet P
}.
Global Arguments mkKCS {_ _ _ _} _ _.
Global Arguments kcs_indices {_ _ _ _} _.
Global Arguments kcs_cg {_ _ _ _} _.

(** keychain.rs:103-108 *)
Record KScan (K P : Type) `{Countable K, Countable P} := mkKScan {
  ks_update : ChainGraph P;
  ks_active : gmap K N
}.
Global Arguments mkKScan {_ _ _ _ _ _} _ _.
Global Arguments ks_update {_ _ _ _ _ _} _.
Global Arguments ks_active {_ _ _ _ _ _} _.

(** keychain.rs:219-228 *)
Record Balance := mkBalance {
  bal_immature : N;
  bal_trusted : N;
  bal_untrusted : N;
  bal_confirmed : N
}.
(** keychain.rs:213 [#[derive(Default)]] *)
Definition bal_default : Balance := mkBalance 0 0 0 0.
(** keychain.rs:235-237 *)
Definition trusted_spendable (b : Balance) : outcome N := add_u64 (bal_confirmed b) (bal_trusted b).
(** keychain.rs:240-242 *)
Definition bal_total (b : Balance) : outcome N :=
  s ← add_u64 (bal_confirmed b) (bal_trusted b);
  s ← add_u64 s (bal_untrusted b);
  add_u64 s (bal_immature b).
(** keychain.rs:258-265 *)
Definition bal_add (a b : Balance) : outcome Balance :=
  i ← add_u64 (bal_immature a) (bal_immature b);
  t ← add_u64 (bal_trusted a) (bal_trusted b);
  u ← add_u64 (bal_untrusted a) (bal_untrusted b);
  c ← add_u64 (bal_confirmed a) (bal_confirmed b);
  Ret (mkBalance i t u c).

Section tracker.
Context `{!DescEnv} `{Countable K, !Ord K} `{ChainPosition P}.
(** [ho] as in ChainGraphModel, [ord] the order of the update's position map. *)
Implicit Types (x : Tracker K P) (cs : KChangeSet K P) (s : KScan K P) (ho : OutPoint → list Txid).

(** tracker.rs:289-296 *)
Definition tr_default : Tracker K P := mkTr ki_default cg_default.
(** keychain.rs:151-158 *)
Definition kcs_default : KChangeSet K P := mkKCS ∅ cgs_default.
(** keychain.rs:162-164 *)
Definition kcs_is_empty cs : bool := cgs_is_empty (kcs_cg cs) && da_is_empty (kcs_indices cs).
(** keychain.rs:171-179 *)
Definition kcs_append (a b : KChangeSet K P) : KChangeSet K P :=
  mkKCS (da_append (kcs_indices a) (kcs_indices b)) (cgs_append (kcs_cg a) (kcs_cg b)).
(** keychain.rs:182-189 *)
Definition kcs_of_cg (c : CgChangeSet P) : KChangeSet K P := mkKCS ∅ c.
(** keychain.rs:191-198 *)
Definition kcs_of_indices (m : DerivationAdditions K) : KChangeSet K P := mkKCS m cgs_default.
(** keychain.rs:119-126 *)
Definition kscan_of_cg (u : ChainGraph P) : KScan K P := mkKScan u ∅.

(** tracker.rs:38-40 *)
Definition tr_add_keychain x (k : K) (d : Desc) : outcome (Tracker K P) :=
  i ← add_keychain (tr_index x) k d; Ret (mkTr i (tr_cg x)).
(** tracker.rs:58-60 *)
Definition tr_set_checkpoint_limit x (l : option nat) : Tracker K P :=
  mkTr (tr_index x) (cg_set_checkpoint_limit (tr_cg x) l).

(** tracker.rs:74-80: the entries above what is revealed *)
Definition new_indices x (m : gmap K N) : DerivationAdditions K :=
  filter (λ ki, match last_revealed_index (tr_index x) ki.1 with Some e => e <? ki.2 | None => true end = true) m.
(** tracker.rs:66-86 *)
Definition tr_determine_changeset ho x s (ord : list (Txid * P))
  : outcome (result (KChangeSet K P) (CgUpdateError P)) :=
  match cg_determine_changeset ho (tr_cg x) (ks_update s) ord with
  | Panic => Panic
  | Ret (Err e) => Ret (Err e)
  | Ret (Ok cs) => Ret (Ok (mkKCS (new_indices x (ks_active s)) cs))
  end.
(** tracker.rs:110-118; the outputs offered to the index are those of the additions
    (chain_graph.rs:492-496, tx_graph.rs:509-513), what the scan reports is dropped *)
Definition tr_apply_changeset x cs : outcome (Tracker K P) :=
  i ← ki_apply_additions (tr_index x) (kcs_indices cs);
  r ← ki_scan i (ad_txouts (cgs_graph (kcs_cg cs)));
  Ret (mkTr r.1 (cg_apply_changeset (tr_cg x) (kcs_cg cs))).
(** tracker.rs:94-104 *)
Definition tr_apply_update ho x s (ord : list (Txid * P))
  : outcome (result (Tracker K P * KChangeSet K P) (CgUpdateError P)) :=
  match tr_determine_changeset ho x s ord with
  | Panic => Panic
  | Ret (Err e) => Ret (Err e)
  | Ret (Ok cs) => x' ← tr_apply_changeset x cs; Ret (Ok (x', cs))
  end.
(** tracker.rs:166-174 *)
Definition tr_insert_checkpoint_preview x (b : BlockId) : outcome (result (KChangeSet K P) InsertCheckpointError) :=
  match cg_insert_checkpoint_preview (tr_cg x) b with
  | Panic => Panic
  | Ret (Err e) => Ret (Err e)
  | Ret (Ok c) => Ret (Ok (kcs_of_cg c))
  end.
(** tracker.rs:183-190 *)
Definition tr_insert_checkpoint x (b : BlockId) : outcome (result (Tracker K P * KChangeSet K P) InsertCheckpointError) :=
  match tr_insert_checkpoint_preview x b with
  | Panic => Panic
  | Ret (Err e) => Ret (Err e)
  | Ret (Ok cs) => x' ← tr_apply_changeset x cs; Ret (Ok (x', cs))
  end.
(** tracker.rs:197-206 *)
Definition tr_insert_tx_preview ho x (t : Tx) (p : P) : outcome (result (KChangeSet K P) (CgInsertTxError P)) :=
  match cg_insert_tx_preview ho (tr_cg x) t p with
  | Panic => Panic
  | Ret (Err e) => Ret (Err e)
  | Ret (Ok c) => Ret (Ok (kcs_of_cg c))
  end.
(** tracker.rs:215-223 *)
Definition tr_insert_tx ho x (t : Tx) (p : P) : outcome (result (Tracker K P * KChangeSet K P) (CgInsertTxError P)) :=
  match tr_insert_tx_preview ho x t p with
  | Panic => Panic
  | Ret (Err e) => Ret (Err e)
  | Ret (Ok cs) => x' ← tr_apply_changeset x cs; Ret (Ok (x', cs))
  end.

(** tracker.rs:125-129 *)
Definition full_txouts ho x : list (K * N * FullTxOut P) :=
  omap (λ e, (λ f, (e.1.1, f)) <$> cg_full_txout ho (tr_cg x) e.1.2) (si_txouts_list (ki_inner (tr_index x))).
(** tracker.rs:136-139 *)
Definition full_utxos ho x : list (K * N * FullTxOut P) :=
  filter (λ kf, fto_spent_by kf.2 = None) (full_txouts ho x).

(** tracker.rs:244-269: one round of the loop.  The trust predicate is a function of the
    keychain (an [FnMut] could also count its calls). *)
Definition balance_step (tip : option N) (trust : K → bool) (b : Balance) (kf : K * N * FullTxOut P) : outcome Balance :=
  let v := txo_value (fto_txout kf.2) in
  let conf := (c ← add_u64 (bal_confirmed b) v; Ret (mkBalance (bal_immature b) (bal_trusted b) (bal_untrusted b) c)) in
  match pos_height (fto_pos kf.2) with
  | Confirmed _ =>
      if fto_on_coinbase kf.2 then
        match tip with
        | None => Panic
        | Some h =>
            m ← is_mature kf.2 h;
            if (m : bool) then conf
            else i ← add_u64 (bal_immature b) v; Ret (mkBalance i (bal_trusted b) (bal_untrusted b) (bal_confirmed b))
        end
      else conf
  | Unconfirmed =>
      if trust kf.1.1
      then t ← add_u64 (bal_trusted b) v; Ret (mkBalance (bal_immature b) t (bal_untrusted b) (bal_confirmed b))
      else u ← add_u64 (bal_untrusted b) v; Ret (mkBalance (bal_immature b) (bal_trusted b) u (bal_confirmed b))
  end.
(** tracker.rs:238-277 *)
Definition balance ho x (trust : K → bool) : outcome Balance :=
  foldl (λ r kf, b ← r; balance_step (bi_height <$> latest_checkpoint (cg_chain (tr_cg x))) trust b kf)
    (Ret bal_default) (full_utxos ho x).
(** tracker.rs:281-286 *)
Definition balance_at ho x (h : N) : outcome N :=
  foldl (λ r kf, s ← r; b ← is_spendable_at kf.2 h;
           if (b : bool) then add_u64 s (txo_value (fto_txout kf.2)) else Ret s)
    (Ret 0) (full_txouts ho x).
End tracker.

(** ** Persist *)

(** persist.rs:61-86: what a backend does with a changeset; it may change even when it fails.
    [load_into_keychain_tracker] is in FileStoreModel. *)
Class Backend (K P B E : Type) `{Countable K} := backend_append : B → KChangeSet K P → B * result unit E.

(** persist.rs:21-24 *)
Record Persist (K P B : Type) `{Countable K} := mkPersist {
  pe_backend : B;
  pe_stage : KChangeSet K P
}.
Global Arguments mkPersist {_ _ _ _ _} _ _.
Global Arguments pe_backend {_ _ _ _ _} _.
Global Arguments pe_stage {_ _ _ _ _} _.

Section persist.
Context `{Countable K} `{ChainPosition P} `{!Backend K P B E}.
(** persist.rs:28-33 *)
Definition pe_new (b : B) : Persist K P B := mkPersist b kcs_default.
(** persist.rs:38-44 *)
Definition pe_stage_change (p : Persist K P B) (cs : KChangeSet K P) : Persist K P B :=
  mkPersist (pe_backend p) (kcs_append (pe_stage p) cs).
(** persist.rs:54-58 *)
Definition pe_commit (p : Persist K P B) : Persist K P B * result unit E :=
  match backend_append (pe_backend p) (pe_stage p) with
  | (b, Err e) => (mkPersist b (pe_stage p), Err e)
  | (b, Ok _) => (mkPersist b kcs_default, Ok tt)
  end.
End persist.
