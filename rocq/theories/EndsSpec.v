(** Vocabulary for C106: a scan comes to an end. *)
From Verif Require Export ScanSpec EsploraSpec.

(** The program has returned, failed or panicked. *)
Definition ended {A} (r : run A) : Prop := r ≠ Unfinished.
(** What [p] does when it ends, [p'] does too. *)
Definition agrees {A} (p p' : prog A) : Prop := ∀ n, ended (p n) → p' n = p n.
(** Whatever the electrum server said to the first [n0] requests (of a process that may have
    started long ago), from then on it tells the truth about [w]. *)
Definition settles (w : World) (n0 : nat) (srv : nat → ESnap) : Prop := ∀ n, (n0 ≤ n)%nat → electrum_honest w (srv n).
(** The same of an esplora server; a page after a transaction that is no longer confirmed in
    the history of the script is not a full one. *)
Definition ps_settles (w : World) (time : N → N) (n0 : nat) (srv : nat → PSnap) : Prop :=
  ∀ n, (n0 ≤ n)%nat → esplora_honest w time (srv n) ∧
    ∀ k t l, ps_script_txs (srv n) k (Some t) = Ok l → t ∉ w_confirmed w k → (length l < 25)%nat.
