(** Concrete chain graphs used to show that theorem hypotheses are satisfiable, and
    as witnesses of refutations. *)
From Verif Require Export ChainGraphProofs4 ChainExamples GraphExamples.

(** The state after some calls ([Panic] never occurs, by [built_no_panic]). *)
Definition cg_after `{ChainPosition P} (cg : ChainGraph P) (ops : list (cg_op P)) : ChainGraph P :=
  foldl (λ cg op, match cg_step cg op with Ret cg' => cg' | Panic => cg end) cg ops.
Definition usable `{ChainPosition P} (W : Txid → list OutPoint) (op : cg_op P) : Prop :=
  cg_op_ok W op ∧ match op with CgUpdate _ u _ => built W u | _ => True end.
Lemma after_built `{ChainPositionLaws P} W (ops : list (cg_op P)) : ∀ cg,
  built W cg → Forall (usable W) ops → built W (cg_after cg ops).
Proof.
  unfold cg_after. induction ops as [|op ops IH]; intros cg Hb HF; [done|].
  apply Forall_cons in HF as [[Hop Hu] HF]. cbn [foldl].
  destruct (built_no_panic W cg op Hb Hop) as (cg' & E & Hb'); [by intros ho u ord -> |].
  rewrite E. by apply IH.
Qed.

(** Iteration orders: as stored, and reversed. *)
Definition exho (g : TxGraph) (o : OutPoint) : list Txid := elements (outspends g o).
Lemma exho_ok : hash_fun_ok exho. Proof. by intros g o. Qed.
Definition exho_rev (g : TxGraph) (o : OutPoint) : list Txid := reverse (elements (outspends g o)).
Lemma exho_rev_ok : hash_fun_ok exho_rev. Proof. intros g o. apply reverse_Permutation. Qed.

(** 11 and 12 both spend output 90:0; 13 spends 11:0; 14 also spends 11:0. *)
Definition cgA : Tx := mkTx 11 [mkOutPoint 90 0] [mkTxOut 500 7] 0.
Definition cgB : Tx := mkTx 12 [mkOutPoint 90 0] [mkTxOut 400 7; mkTxOut 50 8] 0.
Definition cgC : Tx := mkTx 13 [mkOutPoint 11 0; mkOutPoint 91 0] [mkTxOut 450 7] 0.
Definition cgD : Tx := mkTx 14 [mkOutPoint 11 0] [mkTxOut 440 7] 0.
Definition cgE : Tx := mkTx 15 [mkOutPoint 12 1] [mkTxOut 40 7] 0.
Definition cgW (i : Txid) : list OutPoint :=
  match i with
  | 11 => tx_in cgA | 12 => tx_in cgB | 13 => tx_in cgC | 14 => tx_in cgD | 15 => tx_in cgE | _ => []
  end.
Definition ops1 : list (cg_op TxHeight) :=
  [CgCheckpoint (mkBlockId 0 100); CgCheckpoint (mkBlockId 10 110); CgTx exho cgA Unconfirmed;
   CgTx exho cgC Unconfirmed; CgTxout (mkOutPoint 91 0) (mkTxOut 9 9)].
Lemma ops1_ok : Forall (usable cgW) ops1.
Proof.
  repeat (apply Forall_cons; split; [split; [|done]|]); [| | | | |constructor]; try done;
    (split; [apply exho_ok|]); split; vm_compute; try done; split; done.
Qed.
(** 11 and 13 unconfirmed. *)
Definition exCG : ChainGraph TxHeight := cg_after cg_default ops1.
Lemma exCG_built : built cgW exCG.
Proof. apply after_built, ops1_ok. apply built_default. Qed.
Lemma exCG_ok : cg_ok exCG. Proof. apply (built_ok cgW), exCG_built. Qed.
Definition exCGho : OutPoint → list Txid := exho (cg_graph exCG).
Lemma exCGho_ok : hash_order (cg_graph exCG) exCGho. Proof. apply exho_ok. Qed.

(** An update confirming 12 (and with it a spend of it, unconfirmed). *)
Definition ops2 : list (cg_op TxHeight) :=
  [CgCheckpoint (mkBlockId 10 110); CgCheckpoint (mkBlockId 11 111);
   CgTx exho cgB (Confirmed 11); CgTx exho cgE Unconfirmed].
Lemma ops2_ok : Forall (usable cgW) ops2.
Proof.
  repeat (apply Forall_cons; split; [split; [|done]|]); [| | | |constructor]; try done;
    (split; [apply exho_ok|]); split; vm_compute; try done; split; done.
Qed.
Definition exUG : ChainGraph TxHeight := cg_after cg_default ops2.
Lemma exUG_built : built cgW exUG.
Proof. apply after_built, ops2_ok. apply built_default. Qed.
Lemma exUG_ok : cg_ok exUG. Proof. apply (built_ok cgW), exUG_built. Qed.
Definition exUGord : list (Txid * TxHeight) := [(15, Unconfirmed); (12, Confirmed 11)].
Lemma exUGord_ok : exUGord ≡ₚ map_to_list (sc_pos (cg_chain exUG)).
Proof. apply (bool_decide_unpack _). vm_compute. done. Qed.
(** The same state, with 11 confirmed. *)
Definition ops3 : list (cg_op TxHeight) := [CgTx exho_rev cgA (Confirmed 9)].
Lemma ops3_ok : Forall (usable cgW) ops3.
Proof.
  apply Forall_cons; split; [|constructor]. split; [|done]. split; [apply exho_rev_ok|]. vm_compute. done.
Qed.
Definition exCGc : ChainGraph TxHeight := cg_after exCG ops3.
Lemma exCGc_ok : cg_ok exCGc. Proof. apply (built_ok cgW), after_built, ops3_ok. apply exCG_built. Qed.

(** Merging the update, then a spend of the evicted 11. *)
Definition ops4 : list (cg_op TxHeight) := [CgUpdate exho_rev exUG exUGord; CgTx exho cgD Unconfirmed].
Lemma ops4_ok : Forall (usable cgW) ops4.
Proof.
  apply Forall_cons; split; [|apply Forall_cons; split; [|constructor]]; split; [| |split; [apply exho_ok|]|done].
  - split; [apply exho_rev_ok|apply exUGord_ok].
  - apply exUG_built.
  - vm_compute. done.
Qed.
Definition exCGd : ChainGraph TxHeight := cg_after exCG ops4.
Lemma exCGd_built : built cgW exCGd.
Proof. apply after_built, ops4_ok. apply exCG_built. Qed.

Definition parents_in_chainb (cg : ChainGraph TxHeight) : bool :=
  forallb (λ it, match it.2 with
    | Whole t => negb (in_chainb (cg_chain cg) it.1) ||
        forallb (λ o, match get_tx (cg_graph cg) (op_txid o) with
          | Some _ => in_chainb (cg_chain cg) (op_txid o) | None => true end) (tx_in t)
    | _ => true end) (map_to_list (tg_txs (cg_graph cg))).
Lemma parents_in_chainb_ok cg : parents_in_chainb cg = true → parents_in_chain cg.
Proof.
  unfold parents_in_chainb. rewrite forallb_forall.
  intros Hall i b Hi [[tb Hb] (t & Ht & o & Ho & Hn & Hob)].
  apply get_tx_Some, elem_of_map_to_list, elem_of_list_In, Hall in Ht. cbn [fst snd] in Ht.
  apply in_chainb_iff in Hi. rewrite Hi in Ht. cbn [negb orb] in Ht. rewrite forallb_forall in Ht.
  apply elem_of_list_In, Ht in Ho. rewrite Hob, Hb in Ho. by apply in_chainb_iff.
Qed.
Lemma exCG_parents : parents_in_chain exCG.
Proof. apply parents_in_chainb_ok. vm_compute. reflexivity. Qed.

(** A sparse update with 12 new and 13 known. *)
Definition ex30 : SparseChain TxHeight :=
  mkChain {[ 10 := 110; 11 := 111 ]} {[ (Confirmed 11, 12); (Unconfirmed, 13) ]}
          {[ 12 := Confirmed 11; 13 := Unconfirmed ]} None.
Lemma ex30_ok : chain_ok ex30. Proof. apply chain_okb_ok. vm_compute. done. Qed.

Lemma positions_witness (cg : ChainGraph TxHeight) c txs ho ord i :
  cg_ok cg → chain_ok c → hash_order (cg_graph cg) ho → ord ≡ₚ map_to_list (sc_pos c) →
  match inflate_update (exho (inflate_graph cg c txs)) cg c txs with
  | Ret (Ok u) =>
      match cg_apply_update ho cg u ord, apply_update (cg_chain cg) c ord with
      | Ret (Ok (cg', cs)), Ret (Ok (c', ccs)) =>
          sc_pos c !! i = Some Unconfirmed ∧ sc_pos c' !! i = Some Unconfirmed ∧ sc_pos (cg_chain cg') !! i = None
      | _, _ => False
      end
  | _ => False end →
  ∃ (cg u cg' : ChainGraph TxHeight) c' cs ccs ho ord txs i,
    cg_ok cg ∧ hash_order (cg_graph cg) ho ∧ ord ≡ₚ map_to_list (sc_pos (cg_chain u)) ∧
    inflate_update (exho (inflate_graph cg (cg_chain u) txs)) cg (cg_chain u) txs = Ret (Ok u) ∧
    cg_apply_update ho cg u ord = Ret (Ok (cg', cs)) ∧
    apply_update (cg_chain cg) (cg_chain u) ord = Ret (Ok (c', ccs)) ∧
    sc_pos (cg_chain u) !! i = Some Unconfirmed ∧ sc_pos c' !! i = Some Unconfirmed ∧
    sc_pos (cg_chain cg') !! i = None.
Proof.
  intros Hok Hc Hho Hord Hx.
  pose proof (inflate_spec (exho (inflate_graph cg c txs)) cg c txs Hok Hc (exho_ok _)) as Hs. cbn zeta in Hs.
  destruct (inflate_update (exho (inflate_graph cg c txs)) cg c txs) as [[u|]|] eqn:E1; [|done..].
  destruct Hs as (<- & _).
  destruct (cg_apply_update ho cg u ord) as [[[cg' cs]|]|] eqn:E2; [|done..].
  destruct (apply_update (cg_chain cg) (cg_chain u) ord) as [[[c' ccs]|]|] eqn:E3; [|done..].
  exists cg, u, cg', c', cs, ccs, ho, ord, txs, i. done.
Qed.
