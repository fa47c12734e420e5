(** Concrete cases and witnesses for independence of hash iteration orders (C96, C97). *)
From Verif Require Export HashProofs HashCliProofs TrackerExamples CliExamples2.
Local Open Scope N_scope.
Local Existing Instances ex_env PlanExamples.toy_env kcs_codec.

(** ** C96 *)
(** [tr_h] with every order turned round. *)
Definition hs_h : list (tr_op N TxHeight) :=
  (λ op, match op with
         | TrUpdate _ sc ord => TrUpdate exho_rev sc (reverse ord)
         | TrTx _ t p => TrTx exho_rev t p
         | _ => op
         end) <$> tr_h.
Lemma hs_h_ok : Forall (tr_op_ok exA trW tr_s) hs_h.
Proof.
  apply Forall_fmap. eapply Forall_impl; [exact tr_h_ok|]. intros [o|ho sc ord|ho t p|b|l]; cbn [compose tr_op_ok]; try done.
  - intros (_ & Ho & Hr). split; [apply exho_rev_ok|]. split; [|done]. by rewrite reverse_Permutation.
  - intros (_ & Hr). split; [apply exho_rev_ok|done].
Qed.
Lemma hs_h_same : Forall2 same_call tr_h hs_h.
Proof. unfold hs_h. apply Forall2_fmap_r, Forall_Forall2_diag, Forall_true. by intros [o|ho sc ord|ho t p|b|l]. Qed.
(** Two spenders of one output in the graph (one of them in the chain): the orders differ. *)
Definition hs_g : TxGraph := cg_graph (cg_after exCG [CgTx exho cgD (Confirmed 5)]).
Lemma hs_differ : exho hs_g (mkOutPoint 11 0) = [13; 14] ∧ exho_rev hs_g (mkOutPoint 11 0) = [14; 13].
Proof. split; vm_compute; reflexivity. Qed.
Lemma hs_runs : ∃ x0 x l1, tr_setup tr_s None = Ret (x0 : Tracker N TxHeight) ∧ tr_run x0 tr_h = Ret (x, l1) ∧ length l1 = 9%nat.
Proof.
  destruct (tr_obs_Some tr_s tr_h (λ _ l1, length l1) 9%nat) as (x0 & x & l1 & E0 & E1 & E2); [vm_compute; reflexivity|].
  by exists x0, x, l1.
Qed.
(** A confirmed transaction and a conflicting insertion. *)
Definition hs_ops : list (cg_op TxHeight) := [CgTx exho cgD (Confirmed 5)].
Lemma hs_ops_ok : Forall (usable cgW) hs_ops.
Proof. apply Forall_cons; split; [|constructor]. split; [|done]. split; [apply exho_ok|]. split; vm_compute; done. Qed.
Definition hs_cg : ChainGraph TxHeight := cg_after exCG hs_ops.
Lemma hs_built : built cgW hs_cg.
Proof. apply after_built, hs_ops_ok. exact exCG_built. Qed.

(** Two transactions of the chain which an update has at other heights. *)
Definition inc_ops a b : list (cg_op TxHeight) :=
  [CgCheckpoint (mkBlockId 0 100); CgCheckpoint (mkBlockId 10 110); CgTx exho cgA (Confirmed a); CgTx exho cgC (Confirmed b)].
Lemma inc_ops_ok a b : a ≤ u32_max → b ≤ u32_max → Forall (usable cgW) (inc_ops a b).
Proof.
  intros Ha Hb. unfold inc_ops. repeat (apply Forall_cons; split; [split; [|exact I]|]); [..|constructor].
  - vm_compute. discriminate.
  - vm_compute. discriminate.
  - split; [apply exho_ok|]. split; [vm_compute; discriminate|]. split; [exact Ha|reflexivity].
  - split; [apply exho_ok|]. split; [vm_compute; discriminate|]. split; [exact Hb|reflexivity].
Qed.
Definition inc_cg : ChainGraph TxHeight := cg_after cg_default (inc_ops 5 6).
Definition inc_u : ChainGraph TxHeight := cg_after cg_default (inc_ops 4 4).
Lemma inc_built a b : a ≤ u32_max → b ≤ u32_max → built cgW (cg_after cg_default (inc_ops a b)).
Proof. intros. apply after_built; [apply built_default|]. by apply inc_ops_ok. Qed.
Definition inc_ord : list (Txid * TxHeight) := [(11, Confirmed 4); (13, Confirmed 4)].
Lemma inc_ord_ok : inc_ord ≡ₚ map_to_list (sc_pos (cg_chain inc_u)).
Proof. apply (bool_decide_unpack _). vm_compute. done. Qed.
(** Three transactions of a chain spend one output. *)
Definition tri : list Tx := [mkTx 31 [mkOutPoint 90 0] [mkTxOut 5 7] 0; mkTx 32 [mkOutPoint 90 0] [mkTxOut 6 7] 0; mkTx 33 [mkOutPoint 90 0] [mkTxOut 7 7] 0].
Definition tri_c : SparseChain TxHeight :=
  foldl (λ c t, match insert_tx c (txid t) Unconfirmed with Ret (Ok (c', _)) => c' | _ => c end) sc_default tri.
Definition tri_g : TxGraph := inflate_graph cg_default tri_c tri.
Lemma tri_conflict : inflate_update (exho tri_g) cg_default tri_c tri = Ret (Err (NewConflict (Unconfirmed, 31) (Unconfirmed, 32))) ∧
  inflate_update (exho_rev tri_g) cg_default tri_c tri = Ret (Err (NewConflict (Unconfirmed, 31) (Unconfirmed, 33))).
Proof. split; vm_compute; reflexivity. Qed.

(** ** C97 *)
(** Commands under two orders of the spender sets. *)
Definition hs_ch : Choices TxHeight := mkChoices exho_rev (ch_keys cli_ch) (ch_strategies cli_ch) (ch_sort cli_ch) (ch_clock cli_ch).
Lemma hs_ch_same : same_choices cli_ch hs_ch.
Proof. done. Qed.

Definition hs_acts (ch : Choices TxHeight) : list (Choices TxHeight * action TxHeight) :=
  [(ch, Run (CmdSend 40000 7 LargestFirst true)); (ch, Run CmdBalance); (ch, Run (CmdElectrum cli_scan cli_ord))].
Section ses.
Local Existing Instance cli_env.
Lemma hs_acts_ok : Forall (λ p, action_ok (keychains 1 (Some 3)) cliW (adds 1 (Some 3)) p.1 p.2) (hs_acts cli_ch) ∧
  Forall (λ p, action_ok (keychains 1 (Some 3)) cliW (adds 1 (Some 3)) p.1 p.2) (hs_acts hs_ch) ∧ Forall2 same_action (hs_acts cli_ch) (hs_acts hs_ch).
Proof.
  split; [|split].
  - unfold hs_acts. repeat (apply Forall_cons; split); [..|constructor]; (split; [apply exho_ok|]); (split; [apply exho_ok|]); try done. apply cli_scan_ok.
  - unfold hs_acts. repeat (apply Forall_cons; split); [..|constructor]; (split; [apply exho_rev_ok|]); (split; [apply exho_rev_ok|]); try done.
    destruct cli_scan_ok as [_ H]. split; [apply exho_rev_ok|exact H].
  - repeat constructor.
Qed.
Definition hs_obs (w : World TxHeight) (pr : prepared) (evs : list (event TxHeight)) :=
  match acts true cli_km (w, pr) (hs_acts cli_ch) with
  | Ret (_, evs') => if forallb (event_okb cliW) evs' then Some (length (broadcasts evs')) else None
  | Panic => None
  end.
Lemma hs_session : ∃ w pr evs st evs', in_session kcs_wf cliW true 10 1 (Some 3) cli_km w pr evs ∧
  acts true cli_km (w, pr) (hs_acts cli_ch) = Ret (st, evs') ∧ Forall (event_ok kcs_wf cliW) evs' ∧ length (broadcasts evs') = 1%nat.
Proof.
  destruct (ran_obs (Some 3) (cli_found ++ []) hs_obs 1%nat) as (w & pr & evs & Hs & Ho).
  { by apply found_acts. }
  { vm_compute. reflexivity. }
  unfold hs_obs in Ho. destruct (acts true cli_km (w, pr) (hs_acts cli_ch)) as [[st evs']|] eqn:E; [|done].
  destruct (forallb _ _) eqn:Ef; [|done]. injection Ho as Ho. exists w, pr, evs, st, evs'. split; [exact Hs|]. split; [exact E|]. split; [|exact Ho].
  eapply forallb_ok; [|exact Ef]. intros ev Hev. by apply event_okb_ok.
Qed.
End ses.

(** Descriptors with a leaf of six keys beside an internal key of nobody, and orders of the strategies as stored and reversed. *)
Fixpoint six (d i : N) (n : nat) : PlanModel.term :=
  match n with
  | O => PlanModel.TCheck (PlanModel.TPkK (PlanModel.XPub None 7 [d; i; 0] 0))
  | S n => PlanModel.TAndV (PlanModel.TVerify (PlanModel.TCheck (PlanModel.TPkK (PlanModel.XPub None 7 [d; i; N.of_nat (S n)] 0)))) (six d i n)
  end.
Definition six_env : CliEnv := {|
  desc_at d i := PlanModel.DTr (PlanModel.mkTr (PlanModel.Single None 99) (Some (PlanModel.TapLeaf (six d i 5))));
  dust_value _ := 330;
  script_len _ := 34;
  has_address _ := true;
  ctx_txid t := 1000 + match ct_out t with o :: _ => txo_value o | [] => 0 end;
  ctx_rest _ := 0;
  sighash_key _ _ _ := Some 5;
  sighash_leaf _ _ _ _ := Some 5
|}.
Definition rev_ch : Choices TxHeight := mkChoices exho (ch_keys cli_ch) (@reverse _) (ch_sort cli_ch) (ch_clock cli_ch).
Lemma rev_ch_ok : choices_ok rev_ch.
Proof. split; [intros g; apply exho_ok|]. split; [intros; apply reverse_Permutation|]. split; [intros; apply stable_sort_perm|]. cbn. apply not_elem_of_nil. Qed.
Section tie.
Context (E : CliEnv) (v : N) (o1 o2 : list TxOut).
Local Existing Instance E | 0.
Definition tie_obs (w : World TxHeight) :=
  match create_tx true cli_ch cli_km (w_tracker w) v 7 LargestFirst, create_tx true rev_ch cli_km (w_tracker w) v 7 LargestFirst with
  | Ret (_, Ok (t, c)), Ret (_, Ok (t', c')) => Some (ct_out t, snd <$> c, ct_out t', snd <$> c')
  | _, _ => None
  end.
Definition tie : Prop := ∃ w pr evs x1 t1 x2 t2 a, in_session kcs_wf cliW true 10 1 (Some 3) cli_km w pr evs ∧
  create_tx true cli_ch cli_km (w_tracker w) v 7 LargestFirst = Ret (x1, Ok (t1, None)) ∧
  create_tx true rev_ch cli_km (w_tracker w) v 7 LargestFirst = Ret (x2, Ok (t2, Some (a, (Internal, 0)))) ∧
  ct_out t1 = o1 ∧ ct_out t2 = o2.
Lemma tie_from_obs : (found E ≫= λ p, tie_obs p.1.1) = Some (o1, None, o2, Some (Internal, 0)) → tie.
Proof.
  intros Ho. destruct (found E) as [[[w pr] evs]|] eqn:Ef; [|done].
  cbn [mbind option_bind fst] in Ho. unfold tie_obs in Ho.
  destruct (create_tx true cli_ch _ _ _ _ _) as [[x1 [[t1 c1]|]]|] eqn:E1; try done.
  destruct (create_tx true rev_ch _ _ _ _ _) as [[x2 [[t2 c2]|]]|] eqn:E2; try done.
  injection Ho as H1 H2 H3 H4. destruct c1 as [[]|]; [done|]. destruct c2 as [[a ki]|]; [|done]. cbn in H4. injection H4 as ->.
  exists w, pr, evs, x1, t1, x2, t2, a. split; [by apply found_session|]. done.
Qed.
End tie.
Lemma six_tie : tie six_env 99013 [mkTxOut 99013 7] [mkTxOut 99013 7; mkTxOut 397 (exs 3 0)].
Proof. apply tie_from_obs. vm_compute. reflexivity. Qed.

(** ** Keys in another order *)
Definition hk_ch : Choices TxHeight := mkChoices exho_rev [cli_key 3; cli_key 1] (ch_strategies cli_ch) (ch_sort cli_ch) (ch_clock cli_ch).
Section keys.
Local Existing Instance cli_env.
Lemma cli_wallet_honest : honest_wallet PlanExamples.toy_ring 1 (Some 3) cli_km.
Proof.
  split; [exact PlanExamples.toy_ring_laws|]. split; [exact cli_km_honest|]. split.
  { intros k [v Hk]. unfold cli_km in Hk. apply lookup_insert_Some in Hk as [[<- _]|[_ Hk]]; [done|]. by apply lookup_singleton_Some in Hk as [<- _]. }
  intros k (kc & d & i & tr & Hd & Ht & Hn). injection Ht as <-. destruct Hn as [->|(t & Ht & _)]; [|by apply elem_of_nil in Ht].
  split; [done|]. unfold cli_km. rewrite lookup_insert_ne, lookup_singleton_ne; [done|discriminate..].
Qed.
Lemma cli_same_but_keys : same_but_keys cli_km cli_ch hk_ch.
Proof. split; [|split; [|done]]; vm_compute; [apply perm_swap || reflexivity..]. Qed.
Lemma hk_acts_ok : Forall (λ p, action_ok (keychains 1 (Some 3)) cliW (adds 1 (Some 3)) p.1 p.2) (hs_acts hk_ch) ∧
  Forall2 (same_action_by (same_but_keys cli_km)) (hs_acts cli_ch) (hs_acts hk_ch).
Proof.
  split.
  - unfold hs_acts. repeat (apply Forall_cons; split); [..|constructor]; (split; [apply exho_rev_ok|]); (split; [apply exho_rev_ok|]); try done.
    destruct cli_scan_ok as [_ H]. split; [apply exho_rev_ok|exact H].
  - pose proof cli_same_but_keys. repeat (apply Forall2_cons; split); try apply Forall2_nil; try done; by split.
Qed.
End keys.

(** Outputs of the receiving descriptor are spent through a key without wildcard, m/2, beside an internal key of someone else;
    those of the change descriptor through m/3/*. *)
Definition def_key : PlanModel.DescKey := PlanModel.XPub None 7 [2] 0.
Definition def_env : CliEnv := {|
  desc_at d i := PlanModel.DTr (if d =? 1 then PlanModel.mkTr (PlanModel.XPub None 8 [1; i] 0) (Some (PlanModel.TapLeaf (PlanModel.TCheck (PlanModel.TPkK def_key))))
                                else PlanModel.mkTr (PlanModel.XPub None 7 [3; i] 0) None);
  dust_value _ := 330;
  script_len _ := 34;
  has_address _ := true;
  ctx_txid t := 1000 + match ct_out t with o :: _ => txo_value o | [] => 0 end;
  ctx_rest _ := 0;
  sighash_key _ _ _ := Some 5;
  sighash_leaf _ _ _ _ := Some 5
|}.
Definition def_km : PlanModel.KeyMap := {[ def_key := PlanModel.SecXPrv 7; cli_key 3 := PlanModel.SecXPrv 7 ]}.
Definition def_ch (ks : list PlanModel.DescKey) : Choices TxHeight := mkChoices exho ks id (ch_sort cli_ch) [].
Lemma def_ch_ok ks : choices_ok (def_ch ks).
Proof. split; [intros g; apply exho_ok|]. split; [done|]. split; [intros; apply stable_sort_perm|]. cbn. apply not_elem_of_nil. Qed.
Lemma def_km_keys : (map_to_list def_km).*1 ≡ₚ [def_key; cli_key 3].
Proof. vm_compute. first [reflexivity|apply perm_swap]. Qed.
Lemma def_km_honest : PlanSpec.honest_keymap PlanExamples.toy_ring def_km ∧ ∀ k, is_Some (def_km !! k) → PlanSpec.honest_origin PlanExamples.toy_ring k.
Proof.
  assert (∀ k s, def_km !! k = Some s → (k = def_key ∨ k = cli_key 3) ∧ s = PlanModel.SecXPrv 7) as Hk.
  { intros k s Hk. unfold def_km in Hk. apply lookup_insert_Some in Hk as [[<- <-]|[_ Hk]]; [by auto|]. apply lookup_singleton_Some in Hk as [<- <-]. auto. }
  split; [intros k s [[-> | ->] ->]%Hk; done|]. intros k [s [[-> | ->] _]%Hk]; done.
Qed.
Section found_keys.
Local Existing Instance def_env | 0.
Definition found_def : option (World TxHeight * prepared * list (event TxHeight)) :=
  match init 10 1 (Some 3) None None [] with
  | Ret (_, Ok w) =>
      match acts true def_km (w, []) cli_found with
      | Ret (w, pr, evs) =>
          if forallb (λ ev, match ev with EvAppend cs _ => ckcsb cs | EvAddress _ _ _ => true | _ => false end) evs then Some (w, pr, evs) else None
      | Panic => None
      end
  | _ => None
  end.
Lemma found_def_session w pr evs : found_def = Some (w, pr, evs) → in_session kcs_wf cliW true 10 1 (Some 3) def_km w pr evs.
Proof.
  unfold found_def. destruct (init _ _ _ _ _ _) as [[b [w0|]]|] eqn:Ei; try done. destruct (acts _ _ _ _) as [[[w1 pr1] evs1]|] eqn:Ea; [|done].
  destruct (forallb _ _) eqn:Ef; [|done]. intros [= -> -> ->].
  exists None, [], None, [], b, w0, cli_found. split; [apply life_new|]. split; [exact Ei|]. split; [|split; [exact Ea|]].
  - repeat (apply Forall_cons; split; [|]); [| |constructor]; (split; [apply exho_ok|]); (split; [apply exho_ok|]); [done|]. apply cli_scan_ok.
  - eapply forallb_ok; [|exact Ef]. intros [] Hev; cbn in *; [by apply ckcsb_ok|done|done].
Qed.
Definition def_obs (ks : list PlanModel.DescKey) (w : World TxHeight) :=
  match create_tx true (def_ch ks) def_km (w_tracker w) 40000 7 LargestFirst with
  | Ret (_, Ok (t, _)) => Some ((λ i, hd [] (ci_witness i)) <$> ct_in t)
  | _ => None
  end.
Lemma def_obs_made ks w o : def_obs ks w = Some o → ∃ x t c, create_tx true (def_ch ks) def_km (w_tracker w) 40000 7 LargestFirst = Ret (x, Ok (t, c)) ∧
  (λ i, hd [] (ci_witness i)) <$> ct_in t = o.
Proof.
  unfold def_obs. destruct (create_tx _ _ _ _ _ _ _) as [[x [[t c]|]]|]; [|discriminate..]. intros [= <-]. exists x, t, c. split; reflexivity.
Qed.
Lemma def_keys_matter : ∃ w pr evs x t c x' t' c', in_session kcs_wf cliW true 10 1 (Some 3) def_km w pr evs ∧
  create_tx true (def_ch [def_key; cli_key 3]) def_km (w_tracker w) 40000 7 LargestFirst = Ret (x, Ok (t, c)) ∧
  create_tx true (def_ch [cli_key 3; def_key]) def_km (w_tracker w) 40000 7 LargestFirst = Ret (x', Ok (t', c')) ∧
  (λ i, hd [] (ci_witness i)) <$> ct_in t = [PlanModel.schnorr_sign 7 5] ∧
  (λ i, hd [] (ci_witness i)) <$> ct_in t' = [PlanModel.schnorr_sign (PlanExamples.toy_child 7 [2]) 5].
Proof.
  assert ((found_def ≫= λ p, def_obs [def_key; cli_key 3] p.1.1 ≫= λ a, def_obs [cli_key 3; def_key] p.1.1 ≫= λ b, Some (a, b)) =
    Some ([PlanModel.schnorr_sign 7 5], [PlanModel.schnorr_sign (PlanExamples.toy_child 7 [2]) 5])) as Ho by (vm_compute; reflexivity).
  destruct found_def as [[[w pr] evs]|] eqn:Ef; [|discriminate]. cbn [mbind option_bind fst] in Ho.
  destruct (def_obs [def_key; cli_key 3] w) as [a|] eqn:E1; [|discriminate].
  destruct (def_obs [cli_key 3; def_key] w) as [b|] eqn:E2; [|discriminate].
  cbn [mbind option_bind] in Ho. assert (a = [PlanModel.schnorr_sign 7 5]) as -> by congruence.
  assert (b = [PlanModel.schnorr_sign (PlanExamples.toy_child 7 [2]) 5]) as -> by congruence.
  apply def_obs_made in E1 as (x & t & c & E1 & F1). apply def_obs_made in E2 as (x' & t' & c' & E2 & F2).
  exists w, pr, evs, x, t, c, x', t', c'. split; [exact (found_def_session _ _ _ Ef)|]. split; [exact E1|]. split; [exact E2|]. split; [exact F1|exact F2].
Qed.
End found_keys.
