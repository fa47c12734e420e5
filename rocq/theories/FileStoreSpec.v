(** Specification vocabulary for the file store (C45-C48, C50). *)
From Verif Require Export FileStoreModel CodecSpec TrackerSpec.

Section spec.
Context `{!DescEnv} `{Countable K, !Ord K} `{ChainPosition P} {C : Codec (KChangeSet K P)}.
Implicit Types (f : File) (cs : KChangeSet K P) (l : list (KChangeSet K P)).

(** A file holding the entries [l]. *)
Definition log_bytes l : bytes := magic ++ (l ≫= enc).
(** Opening the file at its path once more. *)
Definition reopen f : result File FileError := fs_new (mkFile (f_bytes f) 0).

(** ** Histories of a store *)
Inductive fs_op :=
| FsOpen                         (* drop the store and open the file again *)
| FsRead (n : nat)               (* [iter_changesets], then [n] calls of [next] *)
| FsAppend (cs : KChangeSet K P) (e : fault).
Fixpoint next_n (n : nat) (it : EntryIter) : EntryIter :=
  match n with O => it | S n => next_n n (it_next (V := KChangeSet K P) it).1 end.
Definition fs_step f (op : fs_op) : File :=
  match op with
  | FsOpen => match reopen f with Ok f' => f' | Err _ => f end
  | FsRead n => it_file (next_n n (iter_changesets f))
  | FsAppend cs e => (append_changeset f cs e).1
  end.
Definition fs_run f (h : list fs_op) : File := foldl fs_step f h.

(** What a reader of the documentation expects: a list of entries, the number of bytes of a torn entry
    behind them, and before which entry the handle is, if it is at the start of one. *)
Record fs_ghost := mkGhost { gh_log : list (KChangeSet K P); gh_tail : nat; gh_at : option nat }.
Definition gh_step (g : fs_ghost) (op : fs_op) : fs_ghost :=
  match op with
  | FsOpen => mkGhost (gh_log g) (gh_tail g) (Some 0%nat)
  | FsRead n => mkGhost (gh_log g) (gh_tail g) (Some (n `min` length (gh_log g))%nat)
  | FsAppend cs e =>
      if kcs_is_empty cs then g
      else match gh_at g with
      | None => g
      | Some k =>
          let done := mkGhost (take k (gh_log g) ++ [cs]) 0 (Some (S k)) in
          match e with
          | WriteFails j =>
              if bool_decide (j = 0%nat) then g
              else if bool_decide (length (enc cs) ≤ j)%nat then done
              else mkGhost (gh_log g) j None
          | _ => done
          end
      end
  end.
Definition gh_run (g : fs_ghost) (h : list fs_op) : fs_ghost := foldl gh_step g h.
(** Appends happen where the handle is at the start of an entry or at the end; one that leaves bytes
    behind it (it failed before truncating) happens at the end, and covers a torn entry if there is one. *)
Definition fs_op_ok (wf : KChangeSet K P → Prop) (g : fs_ghost) (op : fs_op) : Prop :=
  match op with
  | FsAppend cs e =>
      wf cs ∧ is_Some (gh_at g) ∧
      match e with
      | NoFault | SyncFails => True
      | WriteFails j => j = 0%nat ∨ gh_at g = Some (length (gh_log g)) ∧ (gh_tail g ≤ j `min` length (enc cs))%nat
      | TruncFails => gh_at g = Some (length (gh_log g)) ∧ (gh_tail g ≤ length (enc cs))%nat
      end
  | _ => True
  end.
Fixpoint fs_hist_ok wf (g : fs_ghost) (h : list fs_op) : Prop :=
  match h with [] => True | op :: h => fs_op_ok wf g op ∧ fs_hist_ok wf (gh_step g op) h end.
Definition gh_new : fs_ghost := mkGhost [] 0 (Some 0%nat).

(** ** Sessions: open, load, append *)
Definition load f : option File :=
  match aggregate_changeset f with Some (Ret (_, f', _)) => Some f' | _ => None end.
Definition append_all f l : File := foldl (λ f cs, (append_changeset f cs NoFault).1) f l.
Definition session f l : option File :=
  match reopen f with Ok f1 => f2 ← load f1; Some (append_all f2 l) | Err _ => None end.
Fixpoint sessions f (ls : list (list (KChangeSet K P))) : option File :=
  match ls with [] => Some f | l :: ls => f ← session f l; sessions f ls end.
(** Changesets that are written at all. *)
Definition recorded l : list (KChangeSet K P) := filter (λ cs, kcs_is_empty cs = false) l.
End spec.

Section spec2.
Context `{!DescEnv} `{Countable K, !Ord K} `{ChainPosition P} {C : Codec (KChangeSet K P)}.
(** Whether all bytes of the entry reach the file. *)
Definition reached (cs : KChangeSet K P) (e : fault) : bool :=
  match e with WriteFails j => bool_decide (length (enc cs) ≤ j)%nat | _ => true end.
(** Part of the entry reaches the file. *)
Definition leaves_torn (cs : KChangeSet K P) (e : fault) : bool :=
  negb (kcs_is_empty cs) &&
  match e with WriteFails j => bool_decide (0 < j < length (enc cs))%nat | _ => false end.
(** A fault that happens before anything is written. *)
Definition clean (e : fault) : Prop := e = NoFault ∨ e = WriteFails 0.
(** Staging and committing each changeset at once. *)
Definition commit_each (l : list (KChangeSet K P)) : list (pe_op K P) := l ≫= λ cs, [PeStage cs; PeCommit].
End spec2.
