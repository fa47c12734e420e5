(** Proofs for C105. *)
From Verif Require Export CliProofs4 CliMineSpec.
Local Open Scope N_scope.

Section mine.
Context `{!DescEnv, !CliEnv, !PlanModel.KeyEnv} `{ChainPositionLaws P}.
Context `{C : !Codec (KChangeSet Keychain P)}.
Context (W : Txid → list OutPoint) (dbg : bool) (ext : Desc) (int : option Desc) (km : PlanModel.KeyMap).
Context (HA : good_env (keychains ext int)).
Implicit Types (x : Tracker Keychain P) (ch : Choices P) (f : FullTxOut P).

Lemma create_tx_minable ch x value addr algo x' t change tip h : good W ext int x → choices_ok ch → modest_wallet ext int ch x value addr →
  create_tx dbg ch km x value addr algo = Ret (x', Ok (t, change)) →
  tip_is x tip → tip < 500000000 → tip < h →
  (∀ ki f, unspent x ki f → mature_at h f) → minable x t h.
Proof using C HA H5.
  intros Hx Hch Hm E Ht Hlt Hh Hmat.
  destruct (create_tx_ok W dbg ext int km HA ch x value addr algo x' t change Hx Hch Hm E) as ((fee & sel & Hsp & Hv) & _ & Hlock & Hseq & _).
  exists sel. split; [done|]. split; [lia|]. split. { right. left. rewrite (Hlock tip Ht Hlt). done. }
  destruct Hsp as (Hin & _ & Hun).
  assert (length (ct_in t) = length sel) as Hlen by (apply (f_equal length) in Hin; by rewrite !fmap_length in Hin).
  apply Forall2_same_length_lookup_2; [done|]. intros n i [ki f] Hi Hf. split.
  - left. rewrite (Hseq i) by (by eapply elem_of_list_lookup_2). done.
  - eapply (Hmat ki). apply Hun. by eapply elem_of_list_lookup_2.
Qed.
End mine.
