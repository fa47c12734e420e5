(** Model of bdk_cli_lib/src/lib.rs and of the commands of bdk_electrum_example/src/main.rs and
    bdk_esplora_example/src/main.rs which work on a tracker and a store.
    Parsing of arguments and descriptors, the [Mutex]es (taken for one step each, as noted) and
    what is printed beside addresses are not modelled.  [dbg] is the build profile of the coin
    selection (MachineModel); sums of values here panic on overflow as in a debug build. *)
From Verif Require PlanModel BnbModel.
From Verif Require Export FileStoreModel.
Local Open Scope N_scope.

(** lib.rs:154-160, with the derived [Ord] *)
Inductive Keychain := External | Internal.
Global Instance Keychain_eq_dec : EqDecision Keychain.
Proof. solve_decision. Defined.
Global Instance Keychain_countable : Countable Keychain :=
  inj_countable' (λ k, match k with External => false | Internal => true end)
                 (λ b, if (b : bool) then Internal else External) ltac:(by intros []).
Global Instance Keychain_ord : Ord Keychain := λ a b,
  match a, b with
  | External, Internal => Lt
  | Internal, External => Gt
  | _, _ => Eq
  end.
(** lib.rs:155: the derived serde of an enum writes the number of the variant *)
Definition keychain_codec : Codec Keychain := {|
  enc k := enc_uint (match k with External => 0 | Internal => 1 end);
  dec := dbind (dec_uint false) (λ n, if n =? 0 then dret External else if n =? 1 then dret Internal else dfail)
|}.

(** lib.rs:75-81 *)
Inductive CoinSelectionAlgo := LargestFirst | SmallestFirst | OldestFirst | NewestFirst | BranchAndBound.
(** lib.rs:123-134 *)
Inductive AddressCmd := AddrNext | AddrNew | AddrList (change : bool) | AddrIndex.
(** lib.rs:137-152 *)
Record TxOutCmd := mkTxOutCmd { tc_spent : bool; tc_unspent : bool; tc_confirmed : bool; tc_unconfirmed : bool }.

(** An input and a transaction as [create_tx] fills them (lib.rs:437-454); the script sig stays
    empty, PlanModel never gives one. *)
Record CtxIn := mkCtxIn { ci_prev : OutPoint; ci_sequence : N; ci_witness : list (list N) }.
Record Ctx := mkCtx { ct_version : N; ct_lock_time : N; ct_in : list CtxIn; ct_out : list TxOut }.

(** What the code asks of the bitcoin and miniscript libraries; lib.rs lines at each. *)
Class CliEnv := {
  desc_at : Desc → N → PlanModel.Descriptor;          (* at_derivation_index, lib.rs:388, 680 *)
  dust_value : Desc → N;                              (* lib.rs:400-405; descriptor_ext.rs:8-13 *)
  script_len : Script → N;                            (* size of a script in bytes *)
  has_address : Script → bool;                        (* Address::from_script is Ok, lib.rs:206, 228, 296 *)
  ctx_txid : Ctx → Txid;                              (* Transaction::txid *)
  ctx_rest : Ctx → N;                                 (* what the tracker keeps of a transaction without looking at it *)
  sighash_key : Ctx → list TxOut → nat → option N;    (* SighashCache, key path of an input *)
  sighash_leaf : Ctx → list TxOut → nat → list N → option N
}.

(** The order of the elements a [HashMap] or [HashSet] hands out, of the elements a sort leaves
    equal, and the clock of the search: [outspends] under lib.rs:246, 274-280, 671; the assets of
    lib.rs:323-326; [excess_strategies] under :426; the sort and the clock under :421. *)
Record Choices (P : Type) := mkChoices {
  ch_hash : TxGraph → OutPoint → list Txid;
  ch_keys : list PlanModel.DescKey;
  ch_strategies : list (CoinSelectModel.ExcessStrategyKind * CoinSelectModel.ExcessStrategy) →
                  list (CoinSelectModel.ExcessStrategyKind * CoinSelectModel.ExcessStrategy);
  ch_sort : (nat * CoinSelectModel.WeightedValue → nat * CoinSelectModel.WeightedValue → comparison) →
            list (nat * CoinSelectModel.WeightedValue) → list (nat * CoinSelectModel.WeightedValue);
  ch_clock : list BnbModel.tick
}.
Global Arguments mkChoices {_} _ _ _ _ _.
Global Arguments ch_hash {_} _.
Global Arguments ch_keys {_} _.
Global Arguments ch_strategies {_} _.
Global Arguments ch_sort {_} _.
Global Arguments ch_clock {_} _.

(** What a command returns when it fails ([anyhow::Error], lib.rs:533); the lines of each. *)
Inductive CliError :=
| EStore                                              (* append_changeset, lib.rs:202, 565, 587 *)
| ESelection (e : CoinSelectModel.SelectionError)     (* lib.rs:422, 424 *)
| ESigning (e : PlanModel.SigningError)               (* lib.rs:490 *)
| EIncomplete                                         (* lib.rs:508-510 *)
| EBroadcast                                          (* lib.rs:606 *)
| EMoved                                              (* lib.rs:594 *)
| EConflict                                           (* lib.rs:596 *)
| EUpdate                                             (* apply_update, determine_changeset *)
| EOpen                                               (* new_from_path, lib.rs:652 *)
| ENoAddress.                                         (* the panic of an [unwrap] after a write, lib.rs:207 *)

(** [slice::sort_by_key] (lib.rs:332-344) is stable: an insertion sort. *)
Fixpoint insert_by {A} (le : A → A → bool) (a : A) (l : list A) : list A :=
  match l with [] => [a] | b :: l' => if le a b then a :: l else b :: insert_by le a l' end.
Definition stable_sort {A} (le : A → A → bool) (l : list A) : list A := foldr (insert_by le) [] l.

(** [LockTime::from_height] (lib.rs:442): heights below the threshold *)
Definition locktime_of_height (h : N) : N := if h <? 500000000 then h else 0.
(** [Sequence::ENABLE_RBF_NO_LOCKTIME] (lib.rs:449) *)
Definition rbf_sequence : N := 4294967293.
(** The literal [0.5] (lib.rs:399) *)
Definition f32_half : MachineModel.f32 := SpecFloat.S754_finite false 8388608%positive (-24)%Z.

(** What a command does to the outside, in order: it hands a changeset to the store (with the
    fault that hits it there), shows an address, or broadcasts a transaction (with the change
    address it uses and whether that succeeds): lib.rs:202, 207, 565, 577, 587 and the [main]s. *)
Inductive event (P : Type) :=
| EvAppend (cs : KChangeSet Keychain P) (e : fault)
| EvAddress (k : Keychain) (i : N) (s : Script)
| EvBroadcast (t : Ctx) (change : option (Keychain * N)) (ok : bool).
Global Arguments EvAppend {_} _ _.
Global Arguments EvAddress {_} _ _ _.
Global Arguments EvBroadcast {_} _ _ _.

(** The tracker and the store of a process (lib.rs:528-548), with the faults to come: one for each changeset
    handed over, none when they run out. *)
Record World (P : Type) `{Countable P} := mkWorld {
  w_tracker : Tracker Keychain P;
  w_file : File;
  w_faults : list fault
}.
Global Arguments mkWorld {_ _ _} _ _ _.
Global Arguments w_tracker {_ _ _} _.
Global Arguments w_file {_ _ _} _.
Global Arguments w_faults {_ _ _} _.

Section cli.
Context `{!DescEnv, !CliEnv, !PlanModel.KeyEnv} `{ChainPosition P} {C : Codec (KChangeSet Keychain P)}.
Implicit Types (x : Tracker Keychain P) (w : World P) (ch : Choices P) (km : PlanModel.KeyMap).
Notation Plan := (PlanModel.Plan PlanModel.DescKey).
Notation Assets := (PlanModel.Assets PlanModel.DescKey).

(** What the tracker sees of a transaction, lib.rs:581 *)
Definition ctx_tx (t : Ctx) : Tx := mkTx (ctx_txid t) (ci_prev <$> ct_in t) (ct_out t) (ctx_rest t).
(** Storing a changed tracker or index behind their locks, lib.rs:190, 556, 580 *)
Definition with_tracker w x : World P := mkWorld x (w_file w) (w_faults w).
Definition with_index x (i : KIndex Keychain) : Tracker Keychain P := mkTr i (tr_cg x).

(** [db.append_changeset(&cs)?], lib.rs:202, 565, 587; main.rs:242 of bdk_electrum_example *)
Definition db_append w (cs : KChangeSet Keychain P) : World P * event P * result unit CliError :=
  let e := default NoFault (head (w_faults w)) in
  let r := append_changeset (w_file w) cs e in
  (mkWorld (w_tracker w) r.1 (tail (w_faults w)), EvAppend cs e,
   match r.2 with Ok _ => Ok tt | Err _ => Err EStore end).

(** lib.rs:671-685: the plans of some outputs; one without a plan is left out *)
Fixpoint plan_utxos (ks : gmap Keychain Desc) (a : Assets) (l : list (Keychain * N * FullTxOut P))
    : outcome (list (Plan * FullTxOut P)) :=
  match l with
  | [] => Ret []
  | kf :: l =>
      match ks !! kf.1.1 with
      | None => Panic
      | Some d =>
          p ← PlanModel.plan_satisfaction (desc_at d kf.1.2) a;
          r ← plan_utxos ks a l;
          Ret match p with Some p => (p, kf.2) :: r | None => r end
      end
  end.
(** lib.rs:666-686 *)
Definition planned_utxos ch x (a : Assets) : outcome (list (Plan * FullTxOut P)) :=
  plan_utxos (ki_keychains (tr_index x)) a (full_utxos (ch_hash ch (cg_graph (tr_cg x))) x).

(** lib.rs:332-344 *)
Definition sort_candidates (algo : CoinSelectionAlgo) (l : list (Plan * FullTxOut P)) : list (Plan * FullTxOut P) :=
  match algo with
  | LargestFirst => stable_sort (λ a b, txo_value (fto_txout b.2) <=? txo_value (fto_txout a.2)) l
  | SmallestFirst => stable_sort (λ a b, txo_value (fto_txout a.2) <=? txo_value (fto_txout b.2)) l
  | OldestFirst => stable_sort (λ a b, bool_decide (ord_le (fto_pos a.2) (fto_pos b.2))) l
  | NewestFirst => stable_sort (λ a b, bool_decide (ord_le (fto_pos b.2) (fto_pos a.2))) l
  | BranchAndBound => l
  end.

(** lib.rs:349-355; [as _] is [as u32] *)
Definition weigh (dbg : bool) (c : Plan * FullTxOut P) : outcome CoinSelectModel.WeightedValue :=
  w ← PlanModel.expected_weight c.1;
  CoinSelectModel.wv_new dbg (Z.of_N (txo_value (fto_txout c.2))) (MachineModel.wrap MachineModel.U32 (Z.of_N w))
    (match PlanModel.witness_version c.1 with Some _ => true | None => false end).

(** lib.rs:363-372 *)
Definition change_keychain x : Keychain :=
  match ki_keychains (tr_index x) !! Internal with Some _ => Internal | None => External end.

(** lib.rs:419-425 *)
Definition run_selection (dbg : bool) ch (algo : CoinSelectionAlgo) (s : CoinSelectModel.CoinSelector)
    : outcome (result CoinSelectModel.Selection CoinSelectModel.SelectionError) :=
  match algo with
  | BranchAndBound =>
      r ← BnbModel.coin_select_bnb dbg (ch_sort ch) (BnbModel.Duration (ch_clock ch)) s;
      match r with
      | None => r ← CoinSelectModel.select_until_finished dbg s; Ret r.1
      | Some s' => CoinSelectModel.finish dbg s'
      end
  | _ => r ← CoinSelectModel.select_until_finished dbg s; Ret r.1
  end.

(** lib.rs:473-513: sign and complete one input after the other, from input [i] on; what comes
    back are the witnesses *)
Fixpoint sign_inputs km (t : Ctx) (prevouts : list TxOut) (i : nat) (l : list Plan)
    : outcome (result (list (list (list N))) CliError) :=
  match l with
  | [] => Ret (Ok [])
  | p :: l =>
      req ← PlanModel.requirements p;
      if PlanModel.requires_hash_preimages req then Panic
      else
        s ← PlanModel.sign_with_keymap (PlanModel.r_sigs req) km (sighash_key t prevouts i) (sighash_leaf t prevouts i)
              0 PlanModel.no_material;
        match s.1 with
        | Err e => Ret (Err (ESigning e))
        | Ok false => Panic
        | Ok true =>
            st ← PlanModel.try_complete p s.2;
            match st with
            | PlanModel.Incomplete _ => Ret (Err EIncomplete)
            | PlanModel.Complete wit =>
                r ← sign_inputs km t prevouts (S i) l;
                Ret match r with Err e => Err e | Ok ws => Ok (wit :: ws) end
            end
        end
  end.

(** lib.rs:398-411 *)
Definition create_opts (dbg : bool) (d : Desc) (value : N) (addr cspk : Script) (cw : N) : outcome CoinSelectModel.CoinSelectorOpt :=
  o ← CoinSelectModel.opt_fund_outputs dbg [(Z.of_N value, Z.of_N (script_len addr))] (0%Z, Z.of_N (script_len cspk))
        (MachineModel.wrap MachineModel.U32 (Z.of_N cw));
  Ret (CoinSelectModel.mkOpt (CoinSelectModel.o_target o) (CoinSelectModel.o_extra o) f32_half (CoinSelectModel.o_long_rate o)
         (CoinSelectModel.o_min_fee o) (CoinSelectModel.o_base o) (CoinSelectModel.o_drain o) (CoinSelectModel.o_spend_drain o)
         (Z.of_N (dust_value d))).

(** lib.rs:437-467: the transaction before it is signed *)
Definition unsigned_tx x (selected : list (Plan * FullTxOut P)) (outs : list TxOut) : Ctx :=
  mkCtx 2
    (match latest_checkpoint (cg_chain (tr_cg x)) with Some b => locktime_of_height (bi_height b) | None => 0 end)
    ((λ c, mkCtxIn (fto_outpoint c.2) (default rbf_sequence (PlanModel.p_sequence c.1)) []) <$> selected)
    outs.
(** lib.rs:500 *)
Definition put_witnesses (t : Ctx) (ws : list (list (list N))) : Ctx :=
  mkCtx (ct_version t) (ct_lock_time t)
    (zip_with (λ i v, mkCtxIn (ci_prev i) (ci_sequence i) v) (ct_in t) ws) (ct_out t).

(** lib.rs:311-522.  The tracker is changed in place: the change address stays revealed also when
    an error is returned. *)
Definition create_tx (dbg : bool) ch km x (value : N) (addr : Script) (algo : CoinSelectionAlgo)
    : outcome (Tracker Keychain P *
               result (Ctx * option (DerivationAdditions Keychain * (Keychain * N))) CliError) :=
  let a : Assets := PlanModel.mkAssets (ch_keys ch) None None [] in
  cands ← planned_utxos ch x a;
  let cands := sort_candidates algo cands in
  wvs ← CoinSelectModel.all_ret (weigh dbg <$> cands);
  let ck := change_keychain x in
  '(ix, is, ad) ← next_unused_spk (tr_index x) ck;
  let x := with_index x ix in
  match ki_keychains ix !! ck with
  | None => Panic
  | Some d =>
      cp ← PlanModel.plan_satisfaction (desc_at d (fst is)) a;
      match cp with
      | None => Panic
      | Some cp =>
          cw ← PlanModel.expected_weight cp;
          o ← create_opts dbg d value addr (snd is) cw;
          r ← run_selection dbg ch algo (CoinSelectModel.cs_new wvs o);
          match r with
          | Err e => Ret (x, Err (ESelection e))
          | Ok sn =>
              '(_, es) ← CoinSelectModel.best_strategy (ch_strategies ch (CoinSelectModel.sn_strategies sn));
              selected ← CoinSelectModel.apply_selection sn cands;
              let outs := mkTxOut value addr ::
                match CoinSelectModel.es_drain es with Some v => [mkTxOut (Z.to_N v) (snd is)] | None => [] end in
              let t := unsigned_tx x selected outs in
              ws ← sign_inputs km t ((λ c, fto_txout c.2) <$> selected) 0 (fst <$> selected);
              Ret (x, match ws with
                      | Err e => Err e
                      | Ok ws =>
                          Ok (put_witnesses t ws,
                              match CoinSelectModel.es_drain es with
                              | Some _ => Some (da_append ∅ ad, (ck, fst is))
                              | None => None end)
                      end)
          end
      end
  end.

(** lib.rs:549-575: the part of [Send] under the first lock *)
Definition send_prepare (dbg : bool) ch km w (value : N) (addr : Script) (algo : CoinSelectionAlgo)
    : outcome (World P * list (event P) * result (Ctx * option (Keychain * N)) CliError) :=
  '(x, r) ← create_tx dbg ch km (w_tracker w) value addr algo;
  let w := with_tracker w x in
  match r with
  | Err e => Ret (w, [], Err e)
  | Ok (t, None) => Ret (w, [], Ok (t, None))
  | Ok (t, Some (ad, ki)) =>
      let '(w, ev, r) := db_append w (kcs_of_indices ad) in
      match r with
      | Err e => Ret (w, [ev], Err e)
      | Ok _ =>
          let x := w_tracker w in
          Ret (with_tracker w (with_index x (ki_mark_used (tr_index x) ki.1 ki.2).1), [ev], Ok (t, Some ki))
      end
  end.

(** lib.rs:577-608: the part of [Send] from the broadcast on, whose result is [ok] *)
Definition send_finish ch w (t : Ctx) (change : option (Keychain * N)) (ok : bool)
    : outcome (World P * list (event P) * result unit CliError) :=
  let x := w_tracker w in
  let ev := EvBroadcast t change ok in
  if ok then
    r ← tr_insert_tx (ch_hash ch (cg_graph (tr_cg x))) x (ctx_tx t) pos_unconfirmed;
    match r with
    | Ok (x, cs) =>
        let '(w, ev', r) := db_append (with_tracker w x) cs in Ret (w, [ev; ev'], r)
    | Err (CgTxChain (TxTooHigh _ _ _)) => Panic
    | Err (CgTxChain (TxMovedUnexpectedly _ _ _)) => Ret (w, [ev], Err EMoved)
    | Err (CgTxConflict _) => Ret (w, [ev], Err EConflict)
    end
  else
    match change with
    | None => Ret (w, [ev], Err EBroadcast)
    | Some (k, i) =>
        r ← ki_unmark_used (tr_index x) k i;
        Ret (with_tracker w (with_index x r.1), [ev], Err EBroadcast)
    end.

(** lib.rs:180-209, 211-215 for [Next] and [New].  A script without an address panics after the
    write, which [Panic] would lose: an error here. *)
Definition hand_out w (r : KIndex Keychain * (N * Script) * DerivationAdditions Keychain)
    : outcome (World P * list (event P) * result unit CliError) :=
  let '(ix, is, ad) := r in
  let '(w, ev, r) := db_append (with_tracker w (with_index (w_tracker w) ix)) (kcs_of_indices ad) in
  match r with
  | Err e => Ret (w, [ev], Err e)
  | Ok _ => if has_address (snd is) then Ret (w, [ev; EvAddress External (fst is) (snd is)], Ok tt) else Ret (w, [ev], Err ENoAddress)
  end.
(** lib.rs:216-237: what [List] shows: index, script and whether it is used; [None] is a panic *)
Definition address_list x (change : bool) : outcome (list (N * Script * bool)) :=
  let k := if change then Internal else External in
  l ← revealed_spks_of_keychain (tr_index x) k;
  CoinSelectModel.all_ret ((λ is, if has_address is.2
                                  then Ret (is, si_is_used (ki_inner (tr_index x)) (k, is.1)) else Panic) <$> l).
(** lib.rs:180-240; [Index] (:216-221) shows the revealed indices *)
Definition run_address_cmd w (c : AddressCmd) : outcome (World P * list (event P) * result unit CliError) :=
  match c with
  | AddrNext => r ← next_unused_spk (tr_index (w_tracker w)) External; hand_out w r
  | AddrNew => r ← reveal_next_spk (tr_index (w_tracker w)) External; hand_out w r
  | AddrList change => _ ← address_list (w_tracker w) change; Ret (w, [], Ok tt)
  | AddrIndex => Ret (w, [], Ok tt)
  end.

(** lib.rs:242-257: what is shown as confirmed and unconfirmed *)
Definition run_balance_cmd ch x : outcome (N * N) :=
  foldl (λ r kf,
    '(c, u) ← r;
    let v := txo_value (fto_txout kf.2) in
    match pos_height (fto_pos kf.2) with
    | Confirmed _ => c ← add_u64 c v; Ret (c, u)
    | Unconfirmed => u ← add_u64 u v; Ret (c, u)
    end) (Ret (0, 0)) (full_utxos (ch_hash ch (cg_graph (tr_cg x))) x).

(** lib.rs:264-307: the outputs shown; one whose script has no address panics ([unwrap], :296) *)
Definition run_txo_cmd ch x (c : TxOutCmd) : outcome (list (Keychain * N * FullTxOut P)) :=
  let ho := ch_hash ch (cg_graph (tr_cg x)) in
  let l := match tc_unspent c, tc_spent c with
           | true, false => full_utxos ho x
           | false, true => filter (λ kf, is_Some (fto_spent_by kf.2)) (full_txouts ho x)
           | _, _ => full_txouts ho x
           end in
  let l := match tc_confirmed c, tc_unconfirmed c with
           | true, false => filter (λ kf, th_is_confirmed (pos_height (fto_pos kf.2)) = true) l
           | false, true => filter (λ kf, th_is_confirmed (pos_height (fto_pos kf.2)) = false) l
           | _, _ => l
           end in
  CoinSelectModel.all_ret ((λ kf, if has_address (txo_spk (fto_txout kf.2)) then Ret kf else Panic) <$> l).

(** ** The sync and scan commands of the examples *)

(** bdk_electrum_example/src/main.rs:24-41 [Sync] *)
Record SyncFlags := mkSyncFlags { sf_unused : bool; sf_utxos : bool; sf_unconfirmed : bool; sf_all : bool }.
(** bdk_electrum_example/src/main.rs:135-141, bdk_esplora_example/src/main.rs:140-146 *)
Definition sync_flags (f : SyncFlags) : SyncFlags :=
  if negb (sf_all f || sf_unused f || sf_utxos f || sf_unconfirmed f) then mkSyncFlags true true true false
  else if sf_all f then mkSyncFlags false (sf_utxos f) (sf_unconfirmed f) true
  else f.
(** bdk_electrum_example/src/main.rs:143-206, bdk_esplora_example/src/main.rs:148-211: the scripts,
    outpoints and txids asked for; showing an unused script as an address panics if it has none
    ([unwrap]) *)
Definition sync_request ch x (f : SyncFlags) : outcome (list Script * list Txid * list OutPoint) :=
  let f := sync_flags f in
  let ix := ki_inner (tr_index x) in
  let all := if sf_all f then snd <$> bmap_list (si_spks ix) else [] in
  unused ← (if sf_unused f then
              l ← si_unused_spks ix Unb Unb;
              CoinSelectModel.all_ret ((λ s, if has_address s then Ret s else Panic) <$> (snd <$> (l : list (Keychain * N * Script))))
            else Ret []);
  txids ← (if sf_unconfirmed f then range_txids_by_height (cg_chain (tr_cg x)) (Incl Unconfirmed) Unb else Ret []);
  Ret (all ++ unused, snd <$> (txids : list (P * Txid)),
       if sf_utxos f then (λ kf, fto_outpoint kf.2) <$> full_utxos (ch_hash ch (cg_graph (tr_cg x))) x else []).

(** bdk_electrum_example/src/main.rs:235-244: determine, persist, apply.  [sc] is what the scan
    returned. *)
Definition electrum_apply ch w (sc : KScan Keychain P) (ord : list (Txid * P))
    : outcome (World P * list (event P) * result unit CliError) :=
  let x := w_tracker w in
  r ← tr_determine_changeset (ch_hash ch (cg_graph (tr_cg x))) x sc ord;
  match r with
  | Err _ => Ret (w, [], Err EUpdate)
  | Ok cs =>
      let '(w, ev, r) := db_append w cs in
      match r with
      | Err e => Ret (w, [ev], Err e)
      | Ok _ => x ← tr_apply_changeset (w_tracker w) cs; Ret (with_tracker w x, [ev], Ok tt)
      end
  end.
(** bdk_esplora_example/src/main.rs:122-128, 229-235: apply, then persist *)
Definition esplora_apply ch w (sc : KScan Keychain P) (ord : list (Txid * P))
    : outcome (World P * list (event P) * result unit CliError) :=
  let x := w_tracker w in
  r ← tr_apply_update (ch_hash ch (cg_graph (tr_cg x))) x sc ord;
  match r with
  | Err _ => Ret (w, [], Err EUpdate)
  | Ok (x, cs) => let '(w, ev, r) := db_append (with_tracker w x) cs in Ret (w, [ev], r)
  end.

(** ** Commands and processes *)

(** The commands (lib.rs:49-72 and the [main]s of the examples), with the result of the broadcast
    and of the scan *)
Inductive Command :=
| CmdAddress (c : AddressCmd)
| CmdBalance
| CmdTxOut (c : TxOutCmd)
| CmdSend (value : N) (addr : Script) (algo : CoinSelectionAlgo) (ok : bool)
| CmdElectrum (sc : KScan Keychain P) (ord : list (Txid * P))
| CmdEsplora (sc : KScan Keychain P) (ord : list (Txid * P)).

(** lib.rs:524-614 (and the [main]s).  Here nothing happens between the two halves of [Send]. *)
Definition handle_command (dbg : bool) ch km w (c : Command)
    : outcome (World P * list (event P) * result unit CliError) :=
  match c with
  | CmdAddress c => run_address_cmd w c
  | CmdBalance => _ ← run_balance_cmd ch (w_tracker w); Ret (w, [], Ok tt)
  | CmdTxOut c => _ ← run_txo_cmd ch (w_tracker w) c; Ret (w, [], Ok tt)
  | CmdSend value addr algo ok =>
      '(w, evs, r) ← send_prepare dbg ch km w value addr algo;
      match r with
      | Err e => Ret (w, evs, Err e)
      | Ok (t, change) => '(w, evs', r) ← send_finish ch w t change ok; Ret (w, evs ++ evs', r)
      end
  | CmdElectrum sc ord => electrum_apply ch w sc ord
  | CmdEsplora sc ord => esplora_apply ch w sc ord
  end.

(** lib.rs:633-650: the tracker before anything is loaded *)
Definition fresh_tracker (limit : nat) (ext : Desc) (int : option Desc) : outcome (Tracker Keychain P) :=
  x ← tr_add_keychain (tr_set_checkpoint_limit tr_default (Some limit)) External ext;
  match int with Some d => tr_add_keychain x Internal d | None => Ret x end.
(** lib.rs:616-664, on what is at the path; an error while loading is only shown.  The result is
    what is then at the path, and the state if the process gets that far. *)
Definition init (limit : nat) (ext : Desc) (int : option Desc) (d : option bytes) (create_fault : option nat)
    (faults : list fault) : outcome (bytes * result (World P) CliError) :=
  x ← fresh_tracker limit ext int;
  match fs_new_from_path d create_fault with
  | (b, Err _) => Ret (b, Err EOpen)
  | (b, Ok f) =>
      match load_into_keychain_tracker f x with
      | None | Some Panic => Panic
      | Some (Ret (x, f, _)) => Ret (b, Ok (mkWorld x f faults))
      end
  end.
(** The [main]s (bdk_electrum_example/src/main.rs:49-247, bdk_esplora_example/src/main.rs:50-240): one command *)
Definition process (dbg : bool) (limit : nat) (ext : Desc) (int : option Desc) km (d : option bytes)
    (create_fault : option nat) (faults : list fault) ch (c : Command) : outcome (bytes * list (event P) * result unit CliError) :=
  '(b, r) ← init limit ext int d create_fault faults;
  match r with
  | Err e => Ret (b, [], Err e)
  | Ok w => '(w, evs, r) ← handle_command dbg ch km w c; Ret (f_bytes (w_file w), evs, r)
  end.
End cli.
Global Arguments Command _ {_ _}.
