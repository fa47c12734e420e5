(** Cases for C98. *)
From Verif Require Import BaseProofs RestoreProofs7.
From Verif Require Export RestoreExamples.

Local Existing Instance ex_env.

(** Shorter lists of scripts. *)
Definition ag_kspks : gmap N (list (N * Script)) := {[ 0 := ex_list 1 5; 1 := ex_list 3 12 ]}.
Lemma ag_scripts (i : KIndex N) : two_keychains i = true → scripts_of i ag_kspks.
Proof.
  intros Hk k l Hl. assert (∃ l', rs_kspks !! k = Some l' ∧ l `prefix_of` l') as (l' & Hl' & Hp).
  { unfold ag_kspks in Hl. apply lookup_insert_Some in Hl as [[<- <-]|[Hne [<- <-]%lookup_singleton_Some]].
    - exists (ex_list 1 12). split; [done|]. by exists (drop 5 (ex_list 1 12)).
    - exists (ex_list 3 12). split; [done|]. by exists []. }
  destruct (rs_scripts i Hk k l' Hl') as (d & Hd & Hds). exists d. split; [done|]. intros p j s Hps. by apply Hds; eapply prefix_lookup.
Qed.
Lemma ag_no_more : asks_no_more 2 1 rs_kspks ag_kspks [24; 99] [24] [mkOutPoint 21 0; mkOutPoint 23 5] [mkOutPoint 21 0].
Proof.
  split; [lia|]. split; [|split; set_solver]. intros k l Hl.
  unfold ag_kspks in Hl. apply lookup_insert_Some in Hl as [[<- <-]|[Hne [<- <-]%lookup_singleton_Some]].
  - exists (ex_list 1 12). split; [done|]. by exists (drop 5 (ex_list 1 12)).
  - exists (ex_list 3 12). split; [done|]. by exists [].
Qed.
Definition kcs_emptyb (cs : KChangeSet N TxHeight) : bool := kcs_is_empty cs.
Lemma ag_obs : (x ← rs_old Confirmed Unconfirmed; y ← el_asks rs_w 2 rs_kspks [24; 99] [mkOutPoint 21 0; mkOutPoint 23 5] x;
    z ← el_asks rs_w 1 ag_kspks [24] [mkOutPoint 21 0] y.1;
    Some (two_keychains (tr_index x), two_keychains (tr_index y.1), fit_check rs_w (w_position rs_w) x, kcs_emptyb y.2, kcs_emptyb z.2, rs_show y.1)) =
  Some (true, true, true, false, true, rs_result').
Proof. vm_compute. reflexivity. Qed.
(** A wallet that keeps no checkpoints *)
Lemma ag_zero_obs : new_obs rs_s (Some 0%nat) (λ x, y ← el_asks rs_w 2 rs_kspks [] [] x; z ← el_asks rs_w 2 rs_kspks [] [] y.1;
    Some (two_keychains (tr_index x), two_keychains (tr_index y.1), negb (kcs_emptyb y.2) && negb (kcs_emptyb z.2),
      (bmap_list (cs_cps (cgs_chain (kcs_cg z.2))), size (kcs_indices z.2), size (ad_tx (cgs_graph (kcs_cg z.2))),
       match tr_cg y.1, tr_cg z.1 with mkCG c _, mkCG c' _ => bool_decide (sc_pos c = sc_pos c') && bool_decide (sc_cps c = sc_cps c') end))) =
  Some (true, true, true, ([(120, Some 1120)], 0%nat, 0%nat, true)).
Proof. vm_compute. reflexivity. Qed.
