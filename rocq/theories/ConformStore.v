(** The tests of bdk_file_store/tests/test_file_store.rs, run on the model. *)
From Verif Require Import FileStoreModel ConformChain ConformGraph ConformKeychain.
From Coq Require Import Strings.String.
Local Existing Instance test_env.

(** The codecs of the test's types: [TestKeychain] is an enum, the transaction
    and output encodings are not reached
    (bdk_file_store/tests/test_file_store.rs:54-60). *)
Definition store_leaves : LeafCodecs N TxHeight := {|
  leaf_k := u32_codec;
  leaf_p := txheight_codec;
  leaf_tx := {| enc _ := []; dec _ := DErr Invalid |};
  leaf_txout := {| enc _ := []; dec _ := DErr Invalid |}
|}.
Local Existing Instances store_leaves kcs_codec.

(** bdk_file_store/tests/test_file_store.rs:72-75 *)
Example magic_bytes : magic = list_byte_of_string "bdkfs0000000".
Proof. vm_compute. reflexivity. Qed.

(** bdk_file_store/tests/test_file_store.rs:77-88 *)
Example new_fails_if_file_is_too_short : fs_new (mkFile (take 11 magic) 0) = Err FeIo.
Proof. vm_compute. reflexivity. Qed.

(** bdk_file_store/tests/test_file_store.rs:90-105 *)
Example new_fails_if_magic_bytes_are_invalid :
  let b := list_byte_of_string "ldkfs0000000" in fs_new (mkFile b 0) = Err (FeInvalidMagic b).
Proof. vm_compute. reflexivity. Qed.

(** bdk_file_store/tests/test_file_store.rs:107-158;
    what the first read yields, and the bytes of the file at the end *)
Definition truncates_run : outcome (bool * list byte * list byte) :=
  x ← tr_add_keychain (tr_default (K := N) (P := TxHeight)) External 1;
  '(_, _, ad) ← reveal_to_target (tr_index x) External 21;
  let cs := kcs_of_indices (P := TxHeight) ad in
  let data := magic ++ replicate 1988 (byte_of 255) in
  match fs_new (mkFile data 0) with
  | Err _ => Panic
  | Ok f =>
      let '(it, r) := it_next (V := KChangeSet N TxHeight) (iter_changesets f) in
      match append_changeset (it_file it) cs NoFault with
      | (f', Ok _) =>
          Ret (match r with Some (Err (IeBincode _)) => true | _ => false end, f_bytes f', magic ++ enc cs)
      | _ => Panic
      end
  end.
(** bdk_file_store/tests/test_file_store.rs:107-158;
    the entry is one map of one entry and four empty collections *)
Example append_changeset_truncates_invalid_bytes :
  let expected := magic ++ (byte_of <$> [1; 0; 21; 0; 0; 0; 0]%N) in
  truncates_run = Ret (true, expected, expected).
Proof. vm_compute. reflexivity. Qed.
