(** What one synchronisation does to a wallet (C90-C92). *)
From Verif Require Export RestoreProofs4.

Section step.
Context `{!DescEnv} `{Countable K, !Ord K, !OrdLaws K}.
Context (A : K → option Desc) (HA : good_env A).
Context (W : Txid → list OutPoint) (w : World) (Hw : world_ok w) (Hsane : world_sane W w).
Context (Htx : ∀ t a, w_tx w t = Some a → tx_ok a).

Lemma asked_scan gap kspks txids ops (x x' : Tracker K TxHeight) :
  cg_ok (tr_cg x) → inputs_by_txid W (cg_graph (tr_cg x)) → fit_seen w (w_position w) (sought w kspks txids ops gap) x → scripts_of (tr_index x) kspks →
  wallet_asks w gap kspks txids ops x x' →
  ∃ sc ho ord cs, fit_seen w (w_position w) (in_chain (ks_update sc)) x ∧ scan_ok w (w_position w) x (within w gap kspks) sc ∧ hash_fun_ok ho ∧
    ord ≡ₚ map_to_list (sc_pos (cg_chain (ks_update sc))) ∧ tr_apply_update (ho (cg_graph (tr_cg x))) x sc ord = Ret (Ok (x', cs)).
Proof using Hw Hsane OrdLaws0.
  intros Hcg Hin Hfit Hsp (srv & dbg & fuel & n & n' & batch & e & new_txs & ho1 & ho & sc & ord & cs &
    Hsrv & Hb & Htxids & Hops & Es & Hnew & Hall & Hho1 & Hho & Hord & Ei & Ea).
  pose proof Hfit as (_ & _ & _ & Htrue & Hag).
  destruct (electrum_ok W w Hw Hsane srv Hsrv dbg fuel x kspks txids ops gap batch Hcg Hin Hag (ls_low _ _ _ _ Htrue) Hsp Hb Htxids Hops n) as (n2 & e2 & Es2 & He).
  rewrite Es in Es2. injection Es2 as <- <-. destruct (He new_txs ho1 Hnew Hall Hho1) as (sc2 & Ei2 & Hch & Hso & Hfound).
  rewrite Ei in Ei2. injection Ei2 as <-. exists sc, ho, ord, cs. rewrite Hch. split; [by eapply fit_seen_mono|done].
Qed.
Lemma sync_scan gap kspks (x x' : Tracker K TxHeight) :
  cg_ok (tr_cg x) → inputs_by_txid W (cg_graph (tr_cg x)) → fit_for w (w_position w) x → scripts_of (tr_index x) kspks →
  wallet_sync w gap kspks x x' →
  ∃ sc ho ord cs, scan_ok w (w_position w) x (within w gap kspks) sc ∧ hash_fun_ok ho ∧
    ord ≡ₚ map_to_list (sc_pos (cg_chain (ks_update sc))) ∧ tr_apply_update (ho (cg_graph (tr_cg x))) x sc ord = Ret (Ok (x', cs)).
Proof using Hw Hsane OrdLaws0.
  intros Hcg Hin Hfit Hsp (txids & ops & Hsy).
  destruct (asked_scan gap kspks txids ops x x' Hcg Hin (fit_for_seen _ _ _ _ Hfit) Hsp Hsy) as (sc & ho & ord & cs & _ & Hr). by exists sc, ho, ord, cs.
Qed.
Lemma sync_ok hs gap kspks (x x' : Tracker K TxHeight) :
  ki_inv A hs (tr_index x) → cg_ok (tr_cg x) → inputs_by_txid W (cg_graph (tr_cg x)) → fit_for w (w_position w) x →
  scripts_of (tr_index x) kspks → wallet_sync w gap kspks x x' →
  cg_ok (tr_cg x') ∧ inputs_by_txid W (cg_graph (tr_cg x')) ∧ ∃ hs', ki_inv A hs' (tr_index x').
Proof using All.
  intros Hi Hcg Hin Hfit Hsp Hsy. destruct (sync_scan gap kspks x x' Hcg Hin Hfit Hsp Hsy) as (sc & ho & ord & cs & Hso & Hho & Hord & Ea).
  apply (fit_for_seen w (w_position w) (in_chain (ks_update sc))) in Hfit. destruct Hfit as (Hlim & Hbm & Hcbt & Htrue & Hag).
  destruct (synced A HA W w (w_position w) Hw Hsane ltac:(done) Htx x hs _ sc Hso Hi Hcg Hin Hbm Hcbt Htrue Hag ho ord Hho Hord)
    as (x2 & cs2 & hs' & E & _ & Hok & Hi' & _ & _ & _ & G & _). rewrite Ea in E. injection E as <- <-.
  split; [done|]. split; [|by exists hs']. intros t a. rewrite G. destruct (get_tx (cg_graph (tr_cg x)) t) as [b|] eqn:Eb.
  - intros [= <-]. by apply Hin.
  - intros Ha%(so_tx _ _ _ _ _ Hso). by apply (ws_inputs W w Hsane).
Qed.
(** A new wallet is fit for every world. *)
Lemma new_fit s lim (x : Tracker K TxHeight) : ki_hist_ok A s → only_adds s → lim ≠ Some 0%nat → tr_setup s lim = Ret x → fit_for w (w_position w) x.
Proof using HA W OrdLaws0.
  intros Hs Ha Hlim Ex. destruct (setup_fresh A W w (w_position w) s lim x HA Hs Ha Hlim Ex) as (_ & _ & _ & _ & _ & _ & _ & _ & H1' & H2' & H3' & H4' & H5' & _). done.
Qed.
End step.
