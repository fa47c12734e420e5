(** Model of bdk_file_store/src/file_store.rs and of its [PersistBackend] (bdk_file_store/src/lib.rs).
    A [File] is the content of the file on disk and the position of the handle.  Reading, seeking and
    opening do not fail; writing, truncating and syncing may, as given by an explicit fault. *)
From Verif Require Export CodecModel.

(** The file behind the handle (file_store.rs:27 [db_file]). *)
Record File := mkFile { f_bytes : bytes; f_pos : nat }.
(** [Seek::seek(SeekFrom::Start(pos))], file_store.rs:89, 266 *)
Definition seek (f : File) (pos : nat) : File := mkFile (f_bytes f) pos.
(** [Write::write_all], file_store.rs:70, 146: over the bytes at the position, leaving what lies beyond; a hole is filled with zeros *)
Definition write (f : File) (b : bytes) : File :=
  mkFile (take (f_pos f) (f_bytes f) ++ replicate (f_pos f - length (f_bytes f)) (byte_of 0) ++ b ++
          drop (f_pos f + length b) (f_bytes f))
         (f_pos f + length b).
(** [File::set_len], file_store.rs:160 *)
Definition set_len (f : File) (n : nat) : File :=
  mkFile (take n (f_bytes f) ++ replicate (n - length (f_bytes f)) (byte_of 0)) (f_pos f).

(** file_store.rs:18-21 *)
Definition magic : bytes := byte_of <$> [98; 100; 107; 102; 115; 48; 48; 48; 48; 48; 48; 48].

(** file_store.rs:172-178 *)
Inductive FileError := FeIo | FeInvalidMagic (b : bytes).
(** file_store.rs:205-211; reading does not fail here but for the end of the file *)
Inductive IterError := IeBincode (e : dec_error).
(** An [io::Error] of writing, truncating or syncing, file_store.rs:141. *)
Inductive IoError := IoFailed.

(** file_store.rs:43-57 *)
Definition fs_new (f : File) : result File FileError :=
  let f := seek f 0 in
  if bool_decide (length (f_bytes f) < length magic)%nat then Err FeIo
  else let b := take (length magic) (f_bytes f) in
    if bool_decide (b = magic) then Ok (seek f (length magic)) else Err (FeInvalidMagic b).
(** file_store.rs:60-75: the path holds a file or not; [fault] lets writing the magic bytes fail
    after some bytes.  The file left at the path, and the store. *)
Definition fs_new_from_path (d : option bytes) (fault : option nat) : bytes * result File FileError :=
  match d with
  | Some b => (b, fs_new (mkFile b 0))
  | None =>
      match fault with
      | Some j => (f_bytes (write (mkFile [] 0) (take j magic)), Err FeIo)
      | None => let f := write (mkFile [] 0) magic in (f_bytes f, fs_new f)
      end
  end.

Section iter.
Context `{CV : Codec V}.
(** file_store.rs:230-234 *)
Record EntryIter := mkIter { it_file : File; it_error : bool }.
(** file_store.rs:236-244 *)
Definition it_new (f : File) : EntryIter := mkIter f false.
(** file_store.rs:252-272: decoding moves the position past the entry; on an error the position is restored *)
Definition read_entry (f : File) : File * option (result V IterError) :=
  let pos := f_pos f in
  match dec (drop pos (f_bytes f)) with
  | DOk v rest => (seek f (pos + (length (drop pos (f_bytes f)) - length rest)), Some (Ok v))
  | DErr e =>
      if bool_decide (e = Eof) && bool_decide (pos = length (f_bytes f)) then (seek f (length (f_bytes f)), None)
      else (seek f pos, Some (Err (IeBincode e)))
  end.
(** file_store.rs:252-279: the flag is set but not read *)
Definition it_next (it : EntryIter) : EntryIter * option (result V IterError) :=
  let '(f, r) := read_entry (it_file it) in
  (mkIter f (match r with Some (Err _) => true | _ => it_error it end), r).
(** A [for] loop over the iterator which stops at the first error ([?], file_store.rs:110-112, 128-130).
    [None] when the fuel runs out, which FileStoreProofs excludes. *)
Fixpoint it_for {S} (fuel : nat) (f : S → V → outcome S) (s : S) (it : EntryIter)
    : option (outcome (S * File * result unit IterError)) :=
  match fuel with
  | O => None
  | S fuel =>
      let '(it, r) := it_next it in
      match r with
      | None => Some (Ret (s, it_file it, Ok tt))
      | Some (Err e) => Some (Ret (s, it_file it, Err e))
      | Some (Ok v) => match f s v with Panic => Some Panic | Ret s => it_for fuel f s it end
      end
  end.
(** file_store.rs:85-92 *)
Definition iter_changesets (f : File) : EntryIter := it_new (seek f (length magic)).
End iter.

(** What can go wrong while appending: the write stops after [j] bytes, truncating or syncing fails.
    A crash there leaves the same bytes.  file_store.rs:146, 160, 165. *)
Inductive fault := NoFault | WriteFails (j : nat) | TruncFails | SyncFails.

Section store.
Context `{!DescEnv} `{Countable K, !Ord K} `{ChainPosition P} {C : Codec (KChangeSet K P)}.
Implicit Types (f : File) (cs : KChangeSet K P).

(** file_store.rs:106-117 *)
Definition aggregate_changeset f : option (outcome (KChangeSet K P * File * result unit IterError)) :=
  it_for (S (length (f_bytes f))) (λ a cs, Ret (kcs_append a cs)) kcs_default (iter_changesets f).
(** file_store.rs:124-132 *)
Definition load_into_keychain_tracker f (x : Tracker K P)
    : option (outcome (Tracker K P * File * result unit IterError)) :=
  it_for (S (length (f_bytes f))) tr_apply_changeset x (iter_changesets f).
(** file_store.rs:138-169 *)
Definition append_changeset f cs (e : fault) : File * result unit IoError :=
  if kcs_is_empty cs then (f, Ok tt)
  else match e with
  | WriteFails j => (write f (take j (enc cs)), Err IoFailed)
  | _ =>
      let f := write f (enc cs) in
      match e with
      | TruncFails => (f, Err IoFailed)
      | _ =>
          let f := set_len f (f_pos f) in
          if negb (da_is_empty (kcs_indices cs)) && (match e with SyncFails => true | _ => false end)
          then (f, Err IoFailed) else (f, Ok tt)
      end
  end.
(** bdk_file_store/src/lib.rs:9-32, with the faults to come: one for each call, none when they run out. *)
Record StoreBackend := mkSB { sb_file : File; sb_faults : list fault }.
Global Instance store_backend : Backend K P StoreBackend IoError := λ b cs,
  let r := append_changeset (sb_file b) cs (default NoFault (head (sb_faults b))) in
  (mkSB r.1 (tail (sb_faults b)), r.2).
End store.
