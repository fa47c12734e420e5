(** Specification vocabulary for applying a changeset a second time (C107). *)
From Verif Require Export TrackerSpec.

Section spec.
Context `{!DescEnv} `{Countable K, !Ord K} `{ChainPosition P}.
Implicit Types (x : Tracker K P) (cs : KChangeSet K P) (k : K).

(** The wallet has on record every output of the changeset whose script it watches. *)
Definition all_recorded x cs : Prop :=
  ∀ o u k i, (o, u) ∈ cs_outs cs → si_index_of_spk (ki_inner (tr_index x)) (txo_spk u) = Some (k, i) →
    si_txout (ki_inner (tr_index x)) o = Some (k, i, u).
End spec.
