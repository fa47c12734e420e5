(** Concrete lives of command line wallets that send (C102). *)
From Verif Require Export CliSendProofs CliExamples2.
Local Open Scope N_scope.
Local Existing Instances ex_env cli_env PlanExamples.toy_env kcs_codec.

(** ** Lives whose processes get as far as some number of events *)
Section run.
Context (W : Txid → list OutPoint) (limit : nat) (ext : Desc) (int : option Desc).
Fixpoint lived (d : option bytes) (evs : list (event TxHeight)) (ps : list (Proc TxHeight * nat)) : option (option bytes * list (event TxHeight)) :=
  match ps with
  | [] => Some (d, evs)
  | (p, n) :: ps =>
      match process true limit ext int cli_km d (pr_create p) (pr_faults p) (pr_ch p) (pr_cmd p) with
      | Ret (b, evs', r) =>
          if forallb (event_okb W) evs' && (readsb d || forallb (λ ev, match ev with EvAppend _ e => wholeb e | _ => true end) evs')
          then lived (Some (left_behind limit ext int d p (take n evs'))) (evs ++ take n evs') ps else None
      | Panic => None
      end
  end.
Lemma lived_ok ps : ∀ d evs d' evs', Forall (λ p, command_ok (keychains ext int) W (adds ext int) (pr_ch p) (pr_cmd p)) ps.*1 →
  life kcs_wf W true limit ext int cli_km d evs → lived d evs ps = Some (d', evs') → life kcs_wf W true limit ext int cli_km d' evs'.
Proof.
  induction ps as [|[p n] ps IH]; intros d evs d' evs' Hps Hl E; cbn [lived] in E; [by injection E as <- <-|].
  cbn [fmap list_fmap] in Hps. apply Forall_cons in Hps as [Hp Hps]. destruct (process _ _ _ _ _ _ _ _ _ _) as [[[b evs1] r]|] eqn:Ep; [|done].
  destruct (_ && _) eqn:Eb; [|done]. apply andb_true_iff in Eb as [E1 E2]. rewrite <- (take_drop n evs1) in Ep.
  eapply IH; [done| |exact E]. eapply (life_process _ _ _ _ _ _ _ d evs p b (take n evs1) (drop n evs1)); [done|done|exact Ep| |]; rewrite take_drop.
  - apply (forallb_ok (event_okb W)); [apply event_okb_ok|done].
  - apply orb_true_iff in E2 as [E2|E2]; [left|right].
    + unfold readsb, reads in *. destruct d as [b0|]; [|done].
      destruct (aggregate_changeset (mkFile b0 (length magic))) as [[[[a f] [[]|]]|]|]; [eauto|done..].
    + intros cs e Hin. rewrite forallb_forall in E2. apply elem_of_list_In, E2 in Hin. unfold whole.
      destruct e as [|[|j]| |]; cbn in Hin; try done; auto.
Qed.
Lemma lived_obs ps {B} (g : option bytes → list (event TxHeight) → B) o :
  Forall (λ p, command_ok (keychains ext int) W (adds ext int) (pr_ch p) (pr_cmd p)) ps.*1 →
  match lived None [] ps with Some (d, evs) => Some (g d evs) | None => None end = Some o →
  ∃ d evs, life kcs_wf W true limit ext int cli_km d evs ∧ g d evs = o.
Proof.
  intros Hps E. destruct (lived _ _ _) as [[d evs]|] eqn:El; [|done]. injection E as <-. exists d, evs. split; [|done].
  eapply lived_ok; [exact Hps|apply life_new|exact El].
Qed.
End run.

(** ** Two sends (C102) *)
Definition send_proc (faults : list fault) (value : N) : Proc TxHeight := mkProc None faults cli_ch (CmdSend value 7 LargestFirst true).
Definition scan_proc : Proc TxHeight := mkProc None [] cli_ch (CmdElectrum cli_scan cli_ord).
Definition all : nat := 100.
Lemma lived_more W limit ext int ps : ∀ d evs d' evs', lived W limit ext int d evs ps = Some (d', evs') → ∃ k, evs' = evs ++ k.
Proof.
  induction ps as [|[p n] ps IH]; intros d evs d' evs' E; cbn [lived] in E; [injection E as <- <-; exists []; by rewrite app_nil_r|].
  destruct (process _ _ _ _ _ _ _ _ _ _) as [[[b evs1] r]|]; [|done]. destruct (_ && _); [|done].
  apply IH in E as [k ->]. exists (take n evs1 ++ k). by rewrite <- app_assoc.
Qed.
Lemma send_procs_ok l : Forall (λ p, p = scan_proc ∨ ∃ fs v, p = send_proc fs v) l →
  Forall (λ p, command_ok (keychains 1 (Some 3)) cliW (adds 1 (Some 3)) (pr_ch p) (pr_cmd p)) l.
Proof. intros Hl. eapply Forall_impl; [exact Hl|]. intros p [->|(fs & v & ->)]; by apply cli_command_ok. Qed.
(** A process is killed when it has broadcast; or the entry cannot be written. *)
Definition ins_obs (evs : list (event TxHeight)) :=
  omap (λ ev, match ev with EvBroadcast t _ true => Some (ctx_txid t, ci_prev <$> ct_in t) | _ => None end) evs.
Lemma twice ps : Forall (λ p, p = scan_proc ∨ ∃ fs v, p = send_proc fs v) ps.*1 →
  match lived cliW 10 1 (Some 3) None [] ps with Some (d, evs) => Some (ins_obs evs) | _ => None end =
    Some [(41000, [mkOutPoint 21 0]); (31000, [mkOutPoint 21 0])] →
  ∃ d evs t1 c1 t2 c2, life kcs_wf cliW true 10 1 (Some 3) cli_km d evs ∧ EvBroadcast t1 c1 true ∈ evs ∧ EvBroadcast t2 c2 true ∈ evs ∧
    ctx_txid t1 ≠ ctx_txid t2 ∧ double_spends t1 t2.
Proof.
  intros Hps E. destruct (lived_obs cliW 10 1 (Some 3) ps (λ _ evs, ins_obs evs) _ (send_procs_ok _ Hps) E) as (d & evs & Hl & Ho).
  assert (∀ i l, (i, l) ∈ ins_obs evs → ∃ t c, EvBroadcast t c true ∈ evs ∧ ctx_txid t = i ∧ ci_prev <$> ct_in t = l) as Hin.
  { intros i l Hi. apply elem_of_list_omap in Hi as (ev & Hev & Hi). destruct ev as [| |t c []]; try done. injection Hi as <- <-. eauto. }
  destruct (Hin 41000 [mkOutPoint 21 0]) as (t1 & c1 & H1 & I1 & J1). { rewrite Ho. left. }
  destruct (Hin 31000 [mkOutPoint 21 0]) as (t2 & c2 & H2 & I2 & J2). { rewrite Ho. right. left. }
  exists d, evs, t1, c1, t2, c2. do 3 (split; [done|]). split; [by rewrite I1, I2|]. exists (mkOutPoint 21 0). rewrite J1, J2. split; [done|]. split; left.
Qed.
Lemma killed_twice : ∃ d evs t1 c1 t2 c2, life kcs_wf cliW true 10 1 (Some 3) cli_km d evs ∧ EvBroadcast t1 c1 true ∈ evs ∧ EvBroadcast t2 c2 true ∈ evs ∧
    ctx_txid t1 ≠ ctx_txid t2 ∧ double_spends t1 t2.
Proof.
  apply (twice [(scan_proc, all); (send_proc [] 40000, 2%nat); (send_proc [] 30000, all)]); [|vm_compute; reflexivity].
  repeat (apply Forall_cons; split); first [left; reflexivity|right; eexists _, _; reflexivity|constructor].
Qed.

(** Two sends, the second of which spends the change of the first. *)
Definition dropsb (i : Txid) (cs : KChangeSet Keychain TxHeight) : bool :=
  match cs_txids (cgs_chain (kcs_cg cs)) !! i with Some None => true | _ => false end.
Definition sends_obs : option (bool * list (Txid * list OutPoint) * bool * list (Txid * list OutPoint)) :=
  match lived cliW 10 1 (Some 3) None [] [(scan_proc, all); (send_proc [] 40000, all)] with
  | Some (Some b, e1) =>
      match opened 10 1 (Some 3) b, lived cliW 10 1 (Some 3) (Some b) e1 [(send_proc [] 20000, all)] with
      | Some w, Some (d, evs) =>
          Some (in_chainb (cg_chain (tr_cg (w_tracker w))) 41000, ins_obs e1,
                forallb (λ cs, negb (dropsb 41000 cs)) (logged (take 1 (drop (length e1) evs))), 
                match drop (length e1) evs with [_; EvBroadcast t _ true; _] => [(ctx_txid t, ci_prev <$> ct_in t)] | _ => [] end)
      | _, _ => None
      end
  | _ => None
  end.
Lemma sends_example : ∃ d b y e1 e2 e3 t1 c1 t2 c2, life kcs_wf cliW true 10 1 (Some 3) cli_km (Some b) e1 ∧ opens 10 1 (Some 3) b y ∧
  EvBroadcast t1 c1 true ∈ e1 ∧ in_chain (tr_cg y) (ctx_txid t1) ∧
  life kcs_wf cliW true 10 1 (Some 3) cli_km d (e1 ++ e2 ++ EvBroadcast t2 c2 true :: e3) ∧ (∀ cs, cs ∈ logged e2 → ¬ drops cs (ctx_txid t1)) ∧
  ci_prev <$> ct_in t1 = [mkOutPoint 21 0] ∧ ci_prev <$> ct_in t2 = [mkOutPoint (ctx_txid t1) 1].
Proof.
  assert (sends_obs = Some (true, [(41000, [mkOutPoint 21 0])], true, [(21000, [mkOutPoint 41000 1])])) as E by (vm_compute; reflexivity).
  unfold sends_obs in E.
  destruct (lived _ _ _ _ _ _ _) as [[[b|] e1]|] eqn:E1; [|discriminate E|discriminate E].
  destruct (opened _ _ _ _) as [w|] eqn:Ew; [|discriminate E].
  destruct (lived cliW 10 1 (Some 3) (Some b) e1 _) as [[d evs]|] eqn:E2; [|discriminate E].
  assert (life kcs_wf cliW true 10 1 (Some 3) cli_km (Some b) e1) as Hl1.
  { refine (lived_ok cliW 10 1 (Some 3) _ _ _ _ _ _ (life_new _ _ _ _ _ _ _) E1). apply send_procs_ok. cbn [fmap list_fmap fst]. repeat (apply Forall_cons; split); first [left; reflexivity|right; eexists _, _; reflexivity|constructor]. }
  assert (life kcs_wf cliW true 10 1 (Some 3) cli_km d evs) as Hl2.
  { refine (lived_ok cliW 10 1 (Some 3) _ _ _ _ _ _ Hl1 E2). apply send_procs_ok. cbn [fmap list_fmap fst]. repeat (apply Forall_cons; split); first [left; reflexivity|right; eexists _, _; reflexivity|constructor]. }
  apply lived_more in E2 as [k ->]. apply opened_opens in Ew. clear E1. rewrite drop_app in E. injection E as Ec Eo Ed Ek.
  destruct k as [|e2 [|[| |t2 c2 []] [|e3 []]]]; try done. injection Ek as I2 J2.
  assert (∃ t c, EvBroadcast t c true ∈ e1 ∧ ctx_txid t = 41000 ∧ ci_prev <$> ct_in t = [mkOutPoint 21 0]) as (t1 & c1 & H1 & I1 & J1).
  { assert ((41000, [mkOutPoint 21 0]) ∈ ins_obs e1) as Hi by (rewrite Eo; left).
    apply elem_of_list_omap in Hi as (ev & Hev & Hi). destruct ev as [| |t c []]; try done. injection Hi as <- <-. eauto. }
  exists d, b, (w_tracker w), e1, [e2], [e3], t1, c1, t2, c2. split; [done|]. split; [done|]. split; [done|]. rewrite I1. split.
  { unfold in_chain. unfold in_chainb in Ec. by destruct (sc_pos _ !! _). }
  split; [done|]. split; [|done]. intros cs Hcs Hd. rewrite forallb_forall in Ed. cbn [take] in Ed. apply elem_of_list_In, Ed in Hcs.
  unfold dropsb in Hcs. unfold drops in Hd. by rewrite Hd in Hcs.
Qed.
Lemma readsb_ok b : readsb (Some b) = true → reads (P := TxHeight) (Some b).
Proof. unfold readsb, reads. destruct (aggregate_changeset (mkFile b (length magic))) as [[[[a f] [[]|]]|]|]; [eauto|done..]. Qed.
Definition noted_obs : option (bool * list (Txid * list OutPoint) * bool) :=
  match lived cliW 10 1 (Some 3) None [] [(scan_proc, all)] with
  | Some (Some b, e1) =>
      match process true 10 1 (Some 3) cli_km (Some b) None [] cli_ch (CmdSend 40000 7 LargestFirst true) with
      | Ret (b', evs, Ok tt) => Some (readsb (Some b), (λ t, (ctx_txid t, ci_prev <$> ct_in t)) <$> broadcasts evs, forallb (event_okb cliW) evs)
      | _ => None
      end
  | _ => None
  end.
Lemma noted_example : ∃ b e1 b' evs, life kcs_wf cliW true 10 1 (Some 3) cli_km (Some b) e1 ∧ hash_fun_ok (ch_hash cli_ch) ∧
  process true 10 1 (Some 3) cli_km (Some b) None [] cli_ch (CmdSend 40000 7 LargestFirst true) = Ret (b', evs, Ok tt) ∧
  Forall (event_ok kcs_wf cliW) evs ∧ reads (Some b) ∧ (λ t, (ctx_txid t, ci_prev <$> ct_in t)) <$> broadcasts evs = [(41000, [mkOutPoint 21 0])].
Proof.
  assert (noted_obs = Some (true, [(41000, [mkOutPoint 21 0])], true)) as E by (vm_compute; reflexivity).
  unfold noted_obs in E. destruct (lived _ _ _ _ _ _ _) as [[[b|] e1]|] eqn:E1; [|discriminate E|discriminate E].
  destruct (process true 10 1 (Some 3) cli_km (Some b) _ _ _ _) as [[[b' evs] [[]|]]|] eqn:Ep; [|discriminate E|discriminate E].
  assert (life kcs_wf cliW true 10 1 (Some 3) cli_km (Some b) e1) as Hl1.
  { refine (lived_ok cliW 10 1 (Some 3) _ _ _ _ _ _ (life_new _ _ _ _ _ _ _) E1). apply send_procs_ok. cbn [fmap list_fmap fst].
    repeat (apply Forall_cons; split); first [left; reflexivity|right; eexists _, _; reflexivity|constructor]. }
  clear E1. injection E as Hr Ho He. exists b, e1, b', evs. split; [exact Hl1|]. split; [apply exho_ok|]. split; [exact Ep|]. clear Ep.
  split; [apply (forallb_ok (event_okb cliW)); [apply event_okb_ok|done]|]. split; [|exact Ho].
  by apply readsb_ok.
Qed.

(** ** Addresses (C103) *)
Definition adr_proc (c : AddressCmd) : Proc TxHeight := mkProc None [] cli_ch (CmdAddress c).
Lemma opened_init limit ext int b w : opened limit ext int b = Some w → init limit ext int (Some b) None [] = Ret (b, Ok w).
Proof. unfold opened. destruct (init _ _ _ _ _ _) as [[b' [w'|]]|] eqn:E; try done. case_bool_decide as Hb; [|done]. intros [= ->]. by subst b'. Qed.
Lemma room_full ext int (x : Tracker Keychain TxHeight) :
  (n_revealed (tr_index x) External <? cap ext) && match int with Some d => n_revealed (tr_index x) Internal <? cap d | None => true end = true →
  ∀ k d, keychains ext int k = Some d → n_revealed (tr_index x) k < cap d.
Proof. intros [H1 H2]%andb_true_iff k d. destruct k; cbn [keychains]; [intros [= <-]; by apply N.ltb_lt|intros ->; by apply N.ltb_lt]. Qed.
(** The change of a first send, and that of a second one. *)
Definition again_obs : option (Txid * option (Keychain * N)) :=
  match lived cliW 10 1 (Some 3) None [] [(scan_proc, all)] with
  | Some (Some b0, e0) =>
    match opened 10 1 (Some 3) b0, process true 10 1 (Some 3) cli_km (Some b0) None [] cli_ch (CmdSend 40000 7 LargestFirst true) with
    | Some w, Ret (b, [a; EvBroadcast t (Some (Internal, 0)) true; a'] as evs, Ok tt) =>
        if readsb (Some b0) && forallb (event_okb cliW) evs && bool_decide (get_tx (cg_graph (tr_cg (w_tracker w))) (ctx_txid t) = None)
        then Some (ctx_txid t, Some (Internal, 0)) else None
    | _, _ => None
    end
  | _ => None
  end.
Lemma change_example : ∃ b0 e0 b t e1 e2 w, life kcs_wf cliW true 10 1 (Some 3) cli_km (Some b0) e0 ∧ hash_fun_ok (ch_hash cli_ch) ∧
  process true 10 1 (Some 3) cli_km (Some b0) None [] cli_ch (CmdSend 40000 7 LargestFirst true) =
    Ret (b, [e1; EvBroadcast t (Some (Internal, 0)) true; e2], Ok tt) ∧
  Forall (event_ok kcs_wf cliW) [e1; EvBroadcast t (Some (Internal, 0)) true; e2] ∧ reads (Some b0) ∧
  init 10 1 (Some 3) (Some b0) None [] = Ret (b0, Ok w) ∧ get_tx (cg_graph (tr_cg (w_tracker w))) (ctx_txid t) = None.
Proof.
  assert (again_obs = Some (41000, Some (Internal, 0))) as E by (vm_compute; reflexivity). unfold again_obs in E.
  destruct (lived _ _ _ _ _ _ _) as [[[b0|] e0]|] eqn:E1; [|discriminate E|discriminate E].
  destruct (opened _ _ _ _) as [w|] eqn:Ew; [|discriminate E].
  destruct (process true 10 1 (Some 3) cli_km (Some b0) _ _ _ _) as [[[b evs] r]|] eqn:Ep; [|discriminate E].
  assert (life kcs_wf cliW true 10 1 (Some 3) cli_km (Some b0) e0) as Hl1.
  { refine (lived_ok cliW 10 1 (Some 3) _ _ _ _ _ _ (life_new _ _ _ _ _ _ _) E1). apply send_procs_ok. cbn [fmap list_fmap fst].
    repeat (apply Forall_cons; split); first [left; reflexivity|right; eexists _, _; reflexivity|constructor]. }
  clear E1. apply opened_init in Ew.
  destruct evs as [|a [|ev [|a' [|]]]]; try discriminate E; destruct ev as [| |t [[[] [|]]|] []]; try discriminate E.
  destruct r as [[]|]; [|discriminate E].
  destruct (readsb _ && _ && _) eqn:Eb; [|discriminate E]. apply andb_true_iff in Eb as [[Eb1 Eb2]%andb_true_iff Eb3]. clear E.
  exists b0, e0, b, t, a, a', w. split; [exact Hl1|]. split; [apply exho_ok|]. split; [exact Ep|]. clear Ep.
  split; [apply (forallb_ok (event_okb cliW)); [apply event_okb_ok|done]|]. split; [by apply readsb_ok|]. split; [exact Ew|]. by apply bool_decide_eq_true in Eb3.
Qed.
Definition fresh_obs : option (Script * bool * option (Keychain * N)) :=
  match lived cliW 10 1 (Some 3) None [] [(scan_proc, all); (send_proc [] 40000, all)] with
  | Some (Some b, e1) =>
    match opened 10 1 (Some 3) b, process true 10 1 (Some 3) cli_km (Some b) None [] cli_ch (CmdSend 20000 7 LargestFirst true) with
    | Some w, Ret (b', [a; EvBroadcast t c true; a'], Ok tt) =>
        let x := tr_index (w_tracker w) in
        match si_spk_at (ki_inner x) (Internal, 0) with
        | Some sp =>
            if (0 <? n_revealed x Internal) && bool_decide (si_index_of_spk (ki_inner x) sp = Some (Internal, 0)) && si_is_used (ki_inner x) (Internal, 0)
            then Some (sp, (n_revealed x External <? cap 1) && (n_revealed x Internal <? cap 3), c) else None
        | None => None
        end
    | _, _ => None
    end
  | _ => None
  end.
Lemma fresh_example : ∃ b y e1 w b' t a a' sp, life kcs_wf cliW true 10 1 (Some 3) cli_km (Some b) e1 ∧ opens 10 1 (Some 3) b y ∧
  reveals_spk y Internal 0 sp ∧ si_is_used (ki_inner (tr_index y)) (Internal, 0) = true ∧
  init 10 1 (Some 3) (Some b) None [] = Ret (b, Ok w) ∧ (∀ k d, keychains 1 (Some 3) k = Some d → n_revealed (tr_index (w_tracker w)) k < cap d) ∧
  process true 10 1 (Some 3) cli_km (Some b) None [] cli_ch (CmdSend 20000 7 LargestFirst true) =
    Ret (b', [a; EvBroadcast t (Some (Internal, 1)) true; a'], Ok tt) ∧ hash_fun_ok (ch_hash cli_ch).
Proof.
  assert (fresh_obs = Some (exs 3 0, true, Some (Internal, 1))) as E by (vm_compute; reflexivity). unfold fresh_obs in E.
  destruct (lived _ _ _ _ _ _ _) as [[[b|] e1]|] eqn:E1; [|discriminate E|discriminate E].
  destruct (opened _ _ _ _) as [w|] eqn:Ew; [|discriminate E].
  destruct (process true 10 1 (Some 3) cli_km (Some b) _ _ _ _) as [[[b' evs] r]|] eqn:Ep; [|discriminate E].
  assert (life kcs_wf cliW true 10 1 (Some 3) cli_km (Some b) e1) as Hl1.
  { refine (lived_ok cliW 10 1 (Some 3) _ _ _ _ _ _ (life_new _ _ _ _ _ _ _) E1). apply send_procs_ok. cbn [fmap list_fmap fst].
    repeat (apply Forall_cons; split); first [left; reflexivity|right; eexists _, _; reflexivity|constructor]. }
  clear E1. pose proof (opened_opens _ _ _ _ _ Ew) as Ho. apply opened_init in Ew.
  destruct evs as [|a [|[| |t c []] [|a' [|]]]]; try discriminate E. destruct r as [[]|]; [|discriminate E]. cbv zeta in E.
  destruct (si_spk_at _ _) as [sp|] eqn:Es; [|discriminate E]. destruct (_ && _ && _) eqn:Eb in E; [|discriminate E].
  apply andb_true_iff in Eb as [[Eb1 Eb2]%andb_true_iff Eb3]. injection E as _ Er ->. apply bool_decide_eq_true in Eb2. apply N.ltb_lt in Eb1.
  exists b, (w_tracker w), e1, w, b', t, a, a', sp. split; [exact Hl1|]. split; [exact Ho|]. split; [split; [exact Eb1|]; split; [exact Es|exact Eb2]|].
  split; [exact Eb3|]. split; [exact Ew|]. split; [by apply (room_full 1 (Some 3))|]. split; [exact Ep|]. apply exho_ok.
Qed.
(** [address new] after addresses and change. *)
Lemma adr_procs_ok int l : Forall (λ p, p = scan_proc ∨ (∃ fs v, p = send_proc fs v) ∨ ∃ c, p = adr_proc c) l →
  Forall (λ p, command_ok (keychains 1 int) cliW (adds 1 int) (pr_ch p) (pr_cmd p)) l.
Proof.
  intros Hl. eapply Forall_impl; [exact Hl|]. intros p [->|[(fs & v & ->)|(c & ->)]]; (split; [apply exho_ok|]); [apply scan_ok_int|done..].
Qed.
Definition new_obs : option (list (Keychain * N * Script) * bool * list (Keychain * N * Script)) :=
  let shows evs := omap (λ ev : event TxHeight, match ev with EvAddress k i s => Some (k, i, s) | _ => None end) evs in
  match lived cliW 10 1 (Some 3) None [] [(scan_proc, all); (adr_proc AddrNext, all); (adr_proc AddrNew, all)] with
  | Some (Some b, e1) =>
    match opened 10 1 (Some 3) b, process true 10 1 (Some 3) cli_km (Some b) None [] cli_ch (CmdAddress AddrNew) with
    | Some w, Ret (b', evs, Ok tt) => Some (shows e1, n_revealed (tr_index (w_tracker w)) External <? cap 1, shows evs)
    | _, _ => None
    end
  | _ => None
  end.
Lemma new_example : ∃ b e1 w b' evs, life kcs_wf cliW true 10 1 (Some 3) cli_km (Some b) e1 ∧ init 10 1 (Some 3) (Some b) None [] = Ret (b, Ok w) ∧
  n_revealed (tr_index (w_tracker w)) External < cap 1 ∧
  process true 10 1 (Some 3) cli_km (Some b) None [] cli_ch (CmdAddress AddrNew) = Ret (b', evs, Ok tt) ∧
  EvAddress External 1 (exs 1 1) ∈ e1 ∧ EvAddress External 2 (exs 1 2) ∈ e1 ∧ EvAddress External 3 (exs 1 3) ∈ evs.
Proof.
  assert (new_obs = Some ([(External, 1, exs 1 1); (External, 2, exs 1 2)], true, [(External, 3, exs 1 3)])) as E by (vm_compute; reflexivity).
  unfold new_obs in E. destruct (lived _ _ _ _ _ _ _) as [[[b|] e1]|] eqn:E1; [|discriminate E|discriminate E].
  destruct (opened _ _ _ _) as [w|] eqn:Ew; [|discriminate E].
  destruct (process true 10 1 (Some 3) cli_km (Some b) _ _ _ _) as [[[b' evs] [[]|]]|] eqn:Ep; [|discriminate E|discriminate E].
  assert (life kcs_wf cliW true 10 1 (Some 3) cli_km (Some b) e1) as Hl1.
  { refine (lived_ok cliW 10 1 (Some 3) _ _ _ _ _ _ (life_new _ _ _ _ _ _ _) E1). apply adr_procs_ok. cbn [fmap list_fmap fst].
    repeat (apply Forall_cons; split); first [left; reflexivity|right; left; eexists _, _; reflexivity|right; right; eexists; reflexivity|constructor]. }
  clear E1. apply opened_init in Ew. cbv zeta in E. injection E as Es Er Et. apply N.ltb_lt in Er.
  exists b, e1, w, b', evs. split; [exact Hl1|]. split; [exact Ew|]. split; [exact Er|]. split; [exact Ep|]. clear Ep Ew Hl1 Er.
  assert (∀ (l : list (event TxHeight)) k i s, (k, i, s) ∈ omap (λ ev : event TxHeight, match ev with EvAddress k i s => Some (k, i, s) | _ => None end) l → EvAddress k i s ∈ l) as Hin.
  { intros l k i s Hi. apply elem_of_list_omap in Hi as (ev & Hev & Hi). destruct ev as [| |]; try done. by injection Hi as -> -> ->. }
  split; [|split]; apply Hin; [rewrite Es; left|rewrite Es; right; left|rewrite Et; left].
Qed.
(** Killed between broadcasting and writing: the same change script again, *)
Definition changes_obs (evs : list (event TxHeight)) :=
  omap (λ ev, match ev with EvBroadcast t c true => Some (ctx_txid t, c) | _ => None end) evs.
Lemma killed_change : ∃ d evs t1 t2, life kcs_wf cliW true 10 1 (Some 3) cli_km d evs ∧ EvBroadcast t1 (Some (Internal, 0)) true ∈ evs ∧
  EvBroadcast t2 (Some (Internal, 0)) true ∈ evs ∧ ctx_txid t1 ≠ ctx_txid t2.
Proof.
  destruct (lived_obs cliW 10 1 (Some 3) [(scan_proc, all); (send_proc [] 40000, 2%nat); (send_proc [] 30000, all)] (λ _ evs, changes_obs evs)
    [(41000, Some (Internal, 0)); (31000, Some (Internal, 0))]) as (d & evs & Hl & Ho); [|vm_compute; reflexivity|].
  { apply send_procs_ok. repeat (apply Forall_cons; split); first [left; reflexivity|right; eexists _, _; reflexivity|constructor]. }
  assert (∀ i c, (i, c) ∈ changes_obs evs → ∃ t, EvBroadcast t c true ∈ evs ∧ ctx_txid t = i) as Hin.
  { intros i l Hi. apply elem_of_list_omap in Hi as (ev & Hev & Hi). destruct ev as [| |t c []]; try done. injection Hi as <- <-. eauto. }
  destruct (Hin 41000 (Some (Internal, 0))) as (t1 & H1 & I1). { rewrite Ho. left. }
  destruct (Hin 31000 (Some (Internal, 0))) as (t2 & H2 & I2). { rewrite Ho. right. left. }
  exists d, evs, t1, t2. do 3 (split; [done|]). by rewrite I1, I2.
Qed.
(** and shown as an address to receive on. *)
Lemma killed_address : ∃ d e1 e2 t r v s, life kcs_wf cliW true 10 1 None cli_km d (e1 ++ e2) ∧ EvBroadcast t (Some (External, 1)) true ∈ e1 ∧
  ct_out t = [r; mkTxOut v s] ∧ EvAddress External 1 s ∈ e2.
Proof.
  destruct (lived_obs cliW 10 1 None [(scan_proc, all); (send_proc [] 40000, 2%nat); (adr_proc AddrNext, all)]
    (λ _ evs, (omap (λ ev, match ev with EvBroadcast t c true => Some (c, ct_out t) | _ => None end) (take 3 evs),
               omap (λ ev, match ev with EvAddress k i s => Some (k, i, s) | _ => None end) (drop 3 evs)))
    ([(Some (External, 1), [mkTxOut 40000 7; mkTxOut 59692 (exs 1 1)])], [(External, 1, exs 1 1)])) as (d & evs & Hl & Ho); [|vm_compute; reflexivity|].
  { apply adr_procs_ok. cbn [fmap list_fmap fst].
    repeat (apply Forall_cons; split); first [left; reflexivity|right; left; eexists _, _; reflexivity|right; right; eexists; reflexivity|constructor]. }
  injection Ho as H1 H2. assert ((Some (External, 1), [mkTxOut 40000 7; mkTxOut 59692 (exs 1 1)]) ∈
    omap (λ ev : event TxHeight, match ev with EvBroadcast t c true => Some (c, ct_out t) | _ => None end) (take 3 evs)) as (ev & Hev & Hb)%elem_of_list_omap by (rewrite H1; left).
  assert ((External, 1, exs 1 1) ∈ omap (λ ev : event TxHeight, match ev with EvAddress k i s => Some (k, i, s) | _ => None end) (drop 3 evs))
    as (ev' & Hev' & Hb')%elem_of_list_omap by (rewrite H2; left).
  destruct ev as [| |t c []]; try done. injection Hb as -> Ht. destruct ev' as [|k i s|]; try done. injection Hb' as -> -> ->.
  exists d, (take 3 evs), (drop 3 evs), t, (mkTxOut 40000 7), 59692, (exs 1 1). rewrite take_drop. done.
Qed.
Lemma good_one : good_env (keychains 1 None).
Proof.
  destruct cli_good as [G1 G2].
  assert (∀ k d, keychains 1 None k = Some d → keychains 1 (Some 3) k = Some d) as Hk by (by intros []).
  split; [intros k d Hd; by eapply G1, Hk|]. intros k k' d d' i i' sp Hd Hd'. by apply G2; apply Hk.
Qed.
