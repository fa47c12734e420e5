(** Concrete histories of a script index. *)
From Verif Require Export SpkIndexProofs.

(** Scripts 7, 8, 9 under indices 0, 1, 2; script 9 is inserted after it was first paid. *)
Definition spkW (o : OutPoint) : TxOut :=
  match op_txid o, op_vout o with
  | 50, 0 => mkTxOut 100 7
  | 50, 1 => mkTxOut 30 9
  | 51, 0 => mkTxOut 40 9
  | 51, 3 => mkTxOut 25 7
  | _, _ => mkTxOut 1 1
  end.
Definition spk_scan1 : list (OutPoint * TxOut) :=
  [(mkOutPoint 50 0, mkTxOut 100 7); (mkOutPoint 50 1, mkTxOut 30 9)].
Definition spk_scan2 : list (OutPoint * TxOut) :=
  [(mkOutPoint 51 0, mkTxOut 40 9); (mkOutPoint 51 3, mkTxOut 25 7); (mkOutPoint 51 4, mkTxOut 1 1)].
Definition spk_h : list (si_op N) :=
  [SiSpk 0 7; SiSpk 1 8; SiScan spk_scan1; SiMark 1; SiSpk 2 9; SiSpk 3 10; SiSpk 4 7; SiScan spk_scan2; SiMark 3; SiUnmark 3;
   SiUnmark 0].
Lemma spk_h_scans_ok : scans_ok spk_h.
Proof.
  intros l o u Hl Ho. unfold spk_h in Hl. repeat (apply elem_of_cons in Hl as [Hl|Hl]; [try done|]); [| |by apply elem_of_nil in Hl];
    injection Hl as ->; repeat (apply elem_of_cons in Ho as [[= -> ->]|Ho]; [vm_compute; done|]); by apply elem_of_nil in Ho.
Qed.
Lemma spk_h_consistent : consistent spkW spk_h.
Proof.
  intros l o u Hl Ho. unfold spk_h in Hl. repeat (apply elem_of_cons in Hl as [Hl|Hl]; [try done|]); [| |by apply elem_of_nil in Hl];
    injection Hl as ->; repeat (apply elem_of_cons in Ho as [[= -> ->]|Ho]; [vm_compute; done|]); by apply elem_of_nil in Ho.
Qed.
Lemma spk_h_once : indices_once spk_h.
Proof. apply (bool_decide_unpack _). vm_compute. done. Qed.
(** Observations of the state after [spk_h]. *)
Definition spk_obs {A} (f : SpkIndex N → A) : option A :=
  match si_run spk_h with Ret x => Some (f x) | Panic => None end.

(** Offering one outpoint first with a tracked script and then with another. *)
Definition spk_bad : list (si_op N) :=
  [SiSpk 0 7; SiSpk 1 8; SiScan [(mkOutPoint 50 0, mkTxOut 100 7)]; SiScan [(mkOutPoint 50 0, mkTxOut 100 8)]].
(** A transaction spending a tracked and an untracked output and paying scripts 7 and 1. *)
Definition spk_tx : Tx := mkTx 60 [mkOutPoint 50 0; mkOutPoint 50 1] [mkTxOut 60 7; mkTxOut 20 1; mkTxOut 5 9] 0.
Lemma spk_bad_views : ∃ (h : list (si_op N)), scans_ok h ∧ indices_once h ∧
  match si_run h with
  | Ret x => (0, mkOutPoint 50 0) ∈ si_spk_txouts x ∧ si_txout x (mkOutPoint 50 0) = Some (1, mkTxOut 100 8)
  | Panic => False
  end.
Proof.
  exists spk_bad. split; [|split].
  - intros l o u Hl Ho. unfold spk_bad in Hl. repeat (apply elem_of_cons in Hl as [Hl|Hl]; [try done|]); [| |by apply elem_of_nil in Hl];
    injection Hl as ->; repeat (apply elem_of_cons in Ho as [[= -> ->]|Ho]; [vm_compute; done|]); by apply elem_of_nil in Ho.
  - apply (bool_decide_unpack _). vm_compute. done.
  - vm_compute. split; reflexivity.
Qed.
Lemma spk_scan2_batch : spk_scan2 ≡ₚ reverse spk_scan2 ∧ (∀ o u u', (o, u) ∈ spk_scan2 → (o, u') ∈ spk_scan2 → u = u').
Proof.
  split; [symmetry; apply reverse_Permutation|]. intros o u u' Hu Hu'.
  assert (∀ v, (o, v) ∈ spk_scan2 → v = spkW o) as Hv; [|by rewrite (Hv _ Hu), (Hv _ Hu')].
  intros v Hin. repeat (apply elem_of_cons in Hin as [[= -> ->]|Hin]; [done|]). by apply elem_of_nil in Hin.
Qed.
