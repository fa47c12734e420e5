(** Specification vocabulary for power loss in the life of the command line wallet (C93). *)
From Verif Require Export PowerSpec CliSpec.
Local Open Scope N_scope.

Section spec.
Context `{!DescEnv, !CliEnv, !PlanModel.KeyEnv} `{ChainPosition P} {C : Codec (KChangeSet Keychain P)}.
Implicit Types (d : Disk) (evs : list (event P)).

(** The disk and the file after what the events wrote. *)
Definition dk_events d (f : File) evs : Disk * File :=
  foldl (λ df ev, match ev with EvAppend cs e => (dk_append df.1 df.2 cs e, (append_changeset df.2 cs e).1) | _ => df end) (d, f) evs.
(** The disk once a process got as far as these events. *)
Definition dk_behind (limit : nat) ext int (d : option Disk) (p : Proc P) evs : Disk :=
  let d0 := default (match pr_create p with None => dk_new | Some j => dk_create j end) d in
  match init limit ext int (dk_view <$> d) (pr_create p) (pr_faults p) with
  | Ret (_, Ok w) => (dk_events d0 (w_file w) evs).1
  | _ => d0
  end.
(** As [life], with what of the file is on the disk. *)
Inductive power_life (wf : KChangeSet Keychain P → Prop) (W : Txid → list OutPoint) (dbg : bool) (limit : nat)
    (ext : Desc) (int : option Desc) (km : PlanModel.KeyMap) : option Disk → list (event P) → Prop :=
| power_new : power_life wf W dbg limit ext int km None []
| power_process (d : option Disk) evs p b evs1 evs2 r :
    power_life wf W dbg limit ext int km d evs →
    command_ok (keychains ext int) W (adds ext int) (pr_ch p) (pr_cmd p) →
    process dbg limit ext int km (dk_view <$> d) (pr_create p) (pr_faults p) (pr_ch p) (pr_cmd p) = Ret (b, evs1 ++ evs2, r) →
    Forall (event_ok wf W) (evs1 ++ evs2) →
    (reads (dk_view <$> d) ∨ ∀ cs e, EvAppend cs e ∈ evs1 ++ evs2 → whole e) →
    power_life wf W dbg limit ext int km (Some (dk_behind limit ext int d p evs1)) (evs ++ evs1).
(** No process stopped, and no sync failed, after an entry with derivation indices was written in full and before it was synced. *)
Definition synced evs : Prop :=
  ∀ cs e, EvAppend cs e ∈ evs → da_is_empty (kcs_indices cs) = true ∨ e = NoFault ∨ reached cs e = false.
End spec.
