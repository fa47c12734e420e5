(** Model of what of the file store's writes is on the disk: the system calls of
    bdk_file_store/src/file_store.rs and the one that makes them last, [sync_data] (:165). *)
From Verif Require Export FileStoreModel.

(** Writing at a position (file_store.rs:70, 146) and changing the length (file_store.rs:160). *)
Inductive sysop := SWrite (pos : nat) (b : bytes) | SSetLen (n : nat).
Definition sys_apply (b : bytes) (o : sysop) : bytes :=
  match o with
  | SWrite pos d => f_bytes (write (mkFile b pos) d)
  | SSetLen n => f_bytes (set_len (mkFile b 0) n)
  end.
(** The file as of the last sync, and what was done to it since (file_store.rs:165). *)
Record Disk := mkDisk { dk_synced : bytes; dk_pending : list sysop }.
(** What every process sees; file_store.rs:64-67 *)
Definition dk_view (d : Disk) : bytes := foldl sys_apply (dk_synced d) (dk_pending d).
(** One call more; file_store.rs:146, 160 *)
Definition dk_do (d : Disk) (o : sysop) : Disk := mkDisk (dk_synced d) (dk_pending d ++ [o]).
(** [File::sync_data] that succeeds, file_store.rs:165 *)
Definition dk_sync (d : Disk) : Disk := mkDisk (dk_view d) [].
(** A new file: the magic bytes are written (file_store.rs:69-71) and not synced *)
Definition dk_new : Disk := mkDisk [] [SWrite 0 magic].

(** A new file whose creation stopped after [j] bytes; file_store.rs:69-71 *)
Definition dk_create (j : nat) : Disk := mkDisk [] [SWrite 0 (take j magic)].

Section append.
Context `{Countable K, !Ord K} `{ChainPosition P} {C : Codec (KChangeSet K P)}.
(** What [append_changeset] does to the disk: file_store.rs:138-169; only changes of derivation
    indices are synced (:164-166) *)
Definition dk_append (d : Disk) (f : File) (cs : KChangeSet K P) (e : fault) : Disk :=
  if kcs_is_empty cs then d
  else match e with
  | WriteFails j => dk_do d (SWrite (f_pos f) (take j (enc cs)))
  | TruncFails => dk_do d (SWrite (f_pos f) (enc cs))
  | NoFault | SyncFails =>
      let d := dk_do (dk_do d (SWrite (f_pos f) (enc cs))) (SSetLen (f_pos f + length (enc cs))) in
      if da_is_empty (kcs_indices cs) then d
      else match e with SyncFails => d | _ => dk_sync d end
  end.
End append.
