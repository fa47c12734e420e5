(** Specification vocabulary for the command line wallet (C62, C78-). *)
From Verif Require CoinSelectSpec BnbSpec ScriptSpec PlanSpec.
From Verif Require Export CliModel FileStoreSpec.
Local Open Scope N_scope.

Section spec.
Context `{!DescEnv, !CliEnv, !PlanModel.KeyEnv} `{ChainPosition P} {C : Codec (KChangeSet Keychain P)}.
Implicit Types (x y : Tracker Keychain P) (w : World P) (ch : Choices P) (evs : list (event P)).

(** ** The keychains of a wallet *)
Definition keychains (ext : Desc) (int : option Desc) (k : Keychain) : option Desc :=
  match k with External => Some ext | Internal => int end.
(** The calls that set its index up. *)
Definition adds (ext : Desc) (int : option Desc) : list (ki_op Keychain) :=
  KiAdd External ext :: match int with Some d => [KiAdd Internal d] | None => [] end.

(** The wallet has revealed script [s] as index [i] of keychain [k], and recognizes it. *)
Definition reveals_spk x (k : Keychain) (i : N) (s : Script) : Prop :=
  i < n_revealed (tr_index x) k ∧ si_spk_at (ki_inner (tr_index x)) (k, i) = Some s ∧
  si_index_of_spk (ki_inner (tr_index x)) s = Some (k, i).

(** ** What a wallet did *)
(** The entries which reached the file. *)
Definition logged evs : list (KChangeSet Keychain P) :=
  recorded (omap (λ ev, match ev with EvAppend cs e => if reached cs e then Some cs else None | _ => None end) evs).
(** The changeset is in range; txids determine inputs ([W]). *)
Definition event_ok (wf : KChangeSet Keychain P → Prop) (W : Txid → list OutPoint) (ev : event P) : Prop :=
  match ev with
  | EvAppend cs _ => wf cs
  | EvAddress _ _ _ => True
  | EvBroadcast t _ _ => ctx_txid t ≤ max_txid ∧ ci_prev <$> ct_in t = W (ctx_txid t)
  end.
(** Hash orders are permutations, scans come from the libraries. *)
Definition command_ok A W s ch (c : Command P) : Prop :=
  hash_fun_ok (ch_hash ch) ∧
  match c with
  | CmdElectrum sc ord | CmdEsplora sc ord => tr_op_ok A W s (TrUpdate (ch_hash ch) sc ord)
  | _ => True
  end.

(** ** The life of a wallet: one process after another on one path *)
Record Proc := mkProc {
  pr_create : option nat;      (* fault while the file is created *)
  pr_faults : list fault;
  pr_ch : Choices P;
  pr_cmd : Command P
}.
(** Writing fails only before the first byte, if at all. *)
Definition whole (e : fault) : Prop := e = NoFault ∨ e = SyncFails ∨ e = WriteFails 0.
(** All of the file can be read. *)
Definition reads (d : option bytes) : Prop :=
  match d with
  | None => True
  | Some b => ∃ a f, aggregate_changeset (mkFile b (length magic)) = Some (Ret (a, f, Ok tt))
  end.
(** The file after what the events wrote to it. *)
Definition disk (f : File) evs : File :=
  foldl (λ f ev, match ev with EvAppend cs e => (append_changeset f cs e).1 | _ => f end) f evs.
(** What is at the path once a process got as far as these events. *)
Definition left_behind (limit : nat) ext int (d : option bytes) (p : Proc) evs : bytes :=
  match init limit ext int d (pr_create p) (pr_faults p) with
  | Ret (_, Ok w) => f_bytes (disk (w_file w) evs)
  | Ret (b, Err _) => b
  | Panic => default [] d
  end.
(** Each process runs the same wallet, to its end or until it is killed between two events (killed
    while it writes is a fault of the write); after a torn write, no process tears its own on top
    before one has written in full. *)
Inductive life (wf : KChangeSet Keychain P → Prop) (W : Txid → list OutPoint) (dbg : bool) (limit : nat)
    (ext : Desc) (int : option Desc) (km : PlanModel.KeyMap) : option bytes → list (event P) → Prop :=
| life_new : life wf W dbg limit ext int km None []
| life_process d evs p b evs1 evs2 r :
    life wf W dbg limit ext int km d evs →
    command_ok (keychains ext int) W (adds ext int) (pr_ch p) (pr_cmd p) →
    process dbg limit ext int km d (pr_create p) (pr_faults p) (pr_ch p) (pr_cmd p) = Ret (b, evs1 ++ evs2, r) →
    Forall (event_ok wf W) (evs1 ++ evs2) →
    (reads d ∨ ∀ cs e, EvAppend cs e ∈ evs1 ++ evs2 → whole e) →
    life wf W dbg limit ext int km (Some (left_behind limit ext int d p evs1)) (evs ++ evs1).

(** The wallet as a process opens it. *)
Definition opens (limit : nat) ext int (b : bytes) y : Prop :=
  ∀ create faults, ∃ f, init limit ext int (Some b) create faults = Ret (b, Ok (mkWorld y f faults)).
(** A script given away: an address shown, or a change output broadcast. *)
Definition given_away evs (k : Keychain) (i : N) (s : Script) : Prop :=
  EvAddress k i s ∈ evs ∨
  ∃ t ok r v, EvBroadcast t (Some (k, i)) ok ∈ evs ∧ ct_out t = [r; mkTxOut v s].

(** ** Sessions: one process, several threads *)
(** The steps threads take, each under the lock: whole commands, or the two halves of [Send] with
    other steps between them.  [FinishSend n ok]: the broadcast of the [n]-th transaction prepared
    returns. *)
Inductive action :=
| Run (c : Command P)
| PrepareSend (value : N) (addr : Script) (algo : CoinSelectionAlgo)
| FinishSend (n : nat) (ok : bool).
Definition prepared : Type := list (Ctx * option (Keychain * N)).
Definition act (dbg : bool) (km : PlanModel.KeyMap) (st : World P * prepared) ch (a : action)
    : outcome (World P * prepared * list (event P)) :=
  match a with
  | Run c => '(w, evs, _) ← handle_command dbg ch km st.1 c; Ret (w, st.2, evs)
  | PrepareSend value addr algo =>
      '(w, evs, r) ← send_prepare dbg ch km st.1 value addr algo;
      Ret (w, st.2 ++ match r with Ok tc => [tc] | Err _ => [] end, evs)
  | FinishSend n ok =>
      match st.2 !! n with
      | None => Ret (st, [])
      | Some (t, change) => '(w, evs, _) ← send_finish ch st.1 t change ok; Ret (w, st.2, evs)
      end
  end.
Fixpoint acts (dbg : bool) (km : PlanModel.KeyMap) (st : World P * prepared) (l : list (Choices P * action))
    : outcome (World P * prepared * list (event P)) :=
  match l with
  | [] => Ret (st, [])
  | (ch, a) :: l =>
      '(st, evs) ← act dbg km st ch a; '(st, evs') ← acts dbg km st l; Ret (st, evs ++ evs')
  end.
(** Hash orders are permutations, scans come from the libraries. *)
Definition action_ok A W s ch (a : action) : Prop :=
  hash_fun_ok (ch_hash ch) ∧ match a with Run c => command_ok A W s ch c | _ => True end.
(** A process opened the file of a life and is now in this state, having prepared these
    transactions and done this to the outside. *)
Definition in_session (wf : KChangeSet Keychain P → Prop) W dbg limit ext int km w (pr : prepared) evs : Prop :=
  ∃ d evs0 create faults b w0 l,
    life wf W dbg limit ext int km d evs0 ∧ init limit ext int d create faults = Ret (b, Ok w0) ∧
    Forall (λ p, action_ok (keychains ext int) W (adds ext int) p.1 p.2) l ∧
    acts dbg km (w0, []) l = Ret (w, pr, evs) ∧ Forall (event_ok wf W) evs.

(** ** Transactions *)
(** Hash maps hand out all they hold, a sort keeps its elements, the clock does not go backwards. *)
Definition choices_ok ch : Prop :=
  hash_fun_ok (ch_hash ch) ∧ (∀ l, ch_strategies ch l ≡ₚ l) ∧ (∀ cmp l, ch_sort ch cmp l ≡ₚ l) ∧
  BnbSpec.clock_ok (BnbModel.Duration (ch_clock ch)).
(** The plan for index [i] of descriptor [d] with the keys of the wallet. *)
Definition plans ch (d : Desc) (i : N) (p : PlanModel.Plan PlanModel.DescKey) : Prop :=
  PlanModel.plan_satisfaction (desc_at d i) (PlanModel.mkAssets (ch_keys ch) None None []) = Ret (Some p).
(** Amounts, scripts and witnesses whose sums stay in range: values up to 2^61 satoshi, scripts up to
    10000 bytes, all inputs together of a weight up to 2^30. *)
Definition modest_wallet ext int ch x (value : N) (addr : Script) : Prop :=
  let utxos := full_utxos (ch_hash ch (cg_graph (tr_cg x))) x in
  value ≤ 2 ^ 61 ∧ script_len addr ≤ 10000 ∧ sumN (value_of <$> utxos) ≤ 2 ^ 61 ∧
  (∀ k d, keychains ext int k = Some d → dust_value d ≤ 2 ^ 61 ∧ ∀ i s, derive d i = Some s → script_len s ≤ 10000) ∧
  ∃ M, M ≤ 4000000 ∧ (1 + N.of_nat (length utxos)) * (160 + M) ≤ 2 ^ 30 ∧
    ∀ k d i p n, keychains ext int k = Some d → plans ch d i p → PlanModel.expected_weight p = Ret n → n ≤ M.
(** The inputs of [t] are these outputs, different ones, all of the wallet and not spent. *)
Definition spends x (t : Ctx) (sel : list (Keychain * N * FullTxOut P)) : Prop :=
  ci_prev <$> ct_in t = (λ kf, fto_outpoint kf.2) <$> sel ∧ NoDup (ci_prev <$> ct_in t) ∧
  ∀ ki f, (ki, f) ∈ sel → owned x ki f ∧ fto_spent_by f = None.
(** [t] spends outputs of the wallet and leaves [fee] of their value to the miner. *)
Definition pays_fee x (t : Ctx) (fee : N) : Prop :=
  ∃ sel, spends x t sel ∧ sumN (value_of <$> sel) = sumN (txo_value <$> ct_out t) + fee.
(** Nothing of the wallet pays to [addr]. *)
Definition foreign ext int (addr : Script) : Prop := ∀ k d i, keychains ext int k = Some d → derive d i ≠ Some addr.
(** The transactions broadcast. *)
Definition broadcasts evs : list Ctx := omap (λ ev, match ev with EvBroadcast t _ _ => Some t | _ => None end) evs.
(** The wallet has [t] in its chain. *)
Definition has_sent x (t : Ctx) : Prop :=
  in_chain (tr_cg x) (ctx_txid t) ∧ get_tx (cg_graph (tr_cg x)) (ctx_txid t) = Some (ctx_tx t).
(** The unspent outputs of the wallet. *)
Definition unspent x (ki : Keychain * N) (f : FullTxOut P) : Prop := owned x ki f ∧ fto_spent_by f = None.
(** Output 1 of [t], which is not in a block. *)
Definition change_output (t : Ctx) (u : TxOut) : FullTxOut P :=
  mkFullTxOut (mkOutPoint (ctx_txid t) 1) u pos_unconfirmed None (is_coin_base (ctx_tx t)).
(** The outputs of [txout] with these flags: giving both of a pair is giving neither. *)
Definition asked_for (c : TxOutCmd) (f : FullTxOut P) : Prop :=
  (tc_unspent c = true → tc_spent c = false → fto_spent_by f = None) ∧
  (tc_unspent c = false → tc_spent c = true → is_Some (fto_spent_by f)) ∧
  (tc_confirmed c = true → tc_unconfirmed c = false → ∃ h, pos_height (fto_pos f) = Confirmed h) ∧
  (tc_confirmed c = false → tc_unconfirmed c = true → pos_height (fto_pos f) = Unconfirmed).
(** The weight of [t] as BIP 141 defines it. *)
Definition ctx_weight (t : Ctx) : Z :=
  CoinSelectSpec.bip141_weight
    ((λ i, CoinSelectSpec.mkTI 0 ((λ e : list N, Z.of_nat (length e)) <$> ci_witness i)) <$> ct_in t)
    ((λ o, (Z.of_N (txo_value o), Z.of_N (script_len (txo_spk o)))) <$> ct_out t).

(** ** Witnesses *)
(** [t] before it was signed *)
Definition stripped (t : Ctx) : Ctx :=
  mkCtx (ct_version t) (ct_lock_time t) ((λ i, mkCtxIn (ci_prev i) (ci_sequence i) []) <$> ct_in t) (ct_out t).
(** What a script that is executed for an input with sequence [seq] sees of [t]: signatures are checked for
    the message [msg] by [valid]. *)
Definition leaf_ctx (valid : N → list N → list N → bool) (t : Ctx) (seq : N) (msg : option N) : ScriptSpec.script_ctx :=
  ScriptSpec.mkCtx (λ key sig, match msg with Some m => valid m key sig | None => false end)
    PlanModel.hash_bytes (ct_lock_time t) (ct_version t) seq.
(** The witness of input [j], whose output is locked by [tr]: a signature for the transaction with the tweaked
    internal key, or a leaf that [tr] commits to with what satisfies it. *)
Definition input_signed (R : PlanSpec.Keyring) (valid : N → list N → list N → bool) (t : Ctx) (pv : list TxOut) (j : nat)
    (tr : PlanModel.Tr) (i : CtxIn) : Prop :=
  (∃ sk msg, PlanSpec.key_secret R (PlanModel.tr_internal tr) = Some sk ∧ sighash_key (stripped t) pv j = Some msg
     ∧ ci_witness i = [PlanModel.schnorr_sign (PlanModel.tap_tweak sk (PlanModel.merkle_root tr)) msg])
  ∨ ∃ leaf args cb, leaf ∈ PlanModel.iter_scripts tr
     ∧ ci_witness i = args ++ [PlanModel.script_bytes leaf; cb] ∧ ScriptSpec.opens tr (PlanModel.script_bytes leaf) cb
     ∧ ScriptSpec.satisfies (leaf_ctx valid t (ci_sequence i)
         (sighash_leaf (stripped t) pv j (PlanModel.tap_leaf_hash (PlanModel.script_bytes leaf)))) (PlanModel.encode leaf) args.
(** The keys the plans of the wallet sign with are where their origins say, and no asset is itself a key of a
    descriptor with steps to derive. *)
Definition honest_keys (R : PlanSpec.Keyring) ext int ch : Prop :=
  ∀ k d i p r key, keychains ext int k = Some d → plans ch d i p → PlanModel.requirements p = Ret r →
    key ∈ PlanSpec.req_keys (PlanModel.r_sigs r) →
    PlanSpec.honest_origin R (PlanModel.pk_asset key) ∧ PlanSpec.honest_origin R (PlanModel.pk_key key) ∧ PlanSpec.not_itself_derived key.
(** The leaves of the descriptors have scripts, no conjunctions with two sides to satisfy, no [pk_h], no [older] with other bits. *)
Definition simple_leaves ext int : Prop :=
  ∀ k d i tr leaf, keychains ext int k = Some d → desc_at d i = PlanModel.DTr tr → leaf ∈ PlanModel.iter_scripts tr →
    PlanSpec.well_typed leaf ∧ PlanSpec.one_sided leaf = true ∧ PlanSpec.no_pk_h leaf = true ∧ PlanSpec.plain_older leaf = true.
End spec.
Global Arguments Proc _ {_ _}.
Global Arguments action _ {_ _}.
