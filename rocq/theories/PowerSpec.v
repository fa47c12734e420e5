(** Specification vocabulary for power loss (C93). *)
From Verif Require Export PowerModel FileStoreSpec.

(** The content of the file at some time since the last sync. *)
Definition moment (d : Disk) (b : bytes) : Prop := ∃ k, b = foldl sys_apply (dk_synced d) (take k (dk_pending d)).
(** What may be there after power was lost: the length of some moment; every byte as of some moment, each for itself, or zero
    where the file did not reach at some moment. *)
Definition survives (d : Disk) (b : bytes) : Prop :=
  (∃ m, moment d m ∧ length b = length m) ∧
  ∀ i x, b !! i = Some x → (∃ m, moment d m ∧ m !! i = Some x) ∨ (x = byte_of 0 ∧ ∃ m, moment d m ∧ m !! i = None).

(** A decoder that reads from a stream: it looks at what it consumes and no further. *)
Definition streams {A} (p : bytes → dres A) : Prop :=
  ∀ b a r, p b = DOk a r → ∃ c, b = c ++ r ∧ ∀ r', p (c ++ r') = DOk a r'.
Class LeafStreams (K P : Type) `{!LeafCodecs K P} : Prop := {
  leaf_k_streams : streams (@dec _ leaf_k);
  leaf_p_streams : streams (@dec _ leaf_p);
  leaf_tx_streams : streams (@dec _ leaf_tx);
  leaf_txout_streams : streams (@dec _ leaf_txout)
}.

Section power.
Context `{!DescEnv} `{Countable K, !Ord K} `{ChainPosition P} {C : Codec (KChangeSet K P)}.
Implicit Types (d : Disk) (cs : KChangeSet K P) (acc l : list (KChangeSet K P)).

(** The append told the caller that these derivation indices are stored. *)
Definition promised cs (r : result unit IoError) : list (KChangeSet K P) :=
  match r with Ok _ => if da_is_empty (kcs_indices cs) then [] else [cs] | Err _ => [] end.
(** The life of a store: opened and loaded, appended to with failures at any point, dropped, and hit by power losses; after a
    failed append it is opened again before the next.  [h] is the open store, the list what was promised. *)
Inductive store_life (wf : KChangeSet K P → Prop) : Disk → option File → list (KChangeSet K P) → Prop :=
| st_new f : fs_new_from_path None None = (magic, Ok f) → store_life wf dk_new (Some f) []
| st_create j : store_life wf (dk_create j) None []
| st_open d h acc f f' : store_life wf d h acc → fs_new (mkFile (dk_view d) 0) = Ok f → load f = Some f' → store_life wf d (Some f') acc
| st_append d f acc cs e f' r : store_life wf d (Some f) acc → wf cs → e ≠ SyncFails → append_changeset f cs e = (f', r) →
    store_life wf (dk_append d f cs e) (match r with Ok _ => Some f' | Err _ => None end) (acc ++ promised cs r)
| st_drop d h acc : store_life wf d h acc → store_life wf d None acc
| st_power d h acc b : store_life wf d h acc → survives d b → store_life wf (mkDisk b []) None acc
(** while it appends, before the sync is done *)
| st_power_append d f acc cs b : store_life wf d (Some f) acc → wf cs → survives (dk_append d f cs SyncFails) b →
    store_life wf (mkDisk b []) None acc.

(** The entries a file yields until the end or an error. *)
Definition yields (b : bytes) l : Prop :=
  ∃ f f' r, fs_new (mkFile b 0) = Ok f ∧ it_for (S (length b)) (λ l cs, Ret (l ++ [cs])) [] (iter_changesets f) = Some (Ret (l, f', r)).
End power.
