(** Model of the byte encoding of changesets: bincode 2 with [config::standard()] (variable length
    integers, little endian) over serde's derived implementations, as used by
    bdk_file_store/src/file_store.rs:146-150, 255-256.  bincode, serde and the [bitcoin] crate are not
    in /repo; this file models what they are documented to do for the types of the changeset. *)
From Coq Require Export Strings.Byte.
From Verif Require Export TrackerModel.

Notation bytes := (list byte) (only parsing).
Global Instance byte_eq_decision : EqDecision byte := Byte.byte_eq_dec.
(** The decoder's errors, file_store.rs:257-263: [DecodeError::Io] with kind [UnexpectedEof], and
    all others. *)
Inductive dec_error := Eof | Invalid.
Global Instance dec_error_eq_dec : EqDecision dec_error.
Proof. solve_decision. Defined.
(** A decoded value and the bytes not read (file_store.rs:254). *)
Inductive dres (A : Type) := DOk (a : A) (rest : bytes) | DErr (e : dec_error).
Global Arguments DOk {_} _ _.
Global Arguments DErr {_} _.

(** Sequencing decoders; part of bincode, used at file_store.rs:254. *)
Definition dbind {A B} (p : bytes → dres A) (f : A → bytes → dres B) : bytes → dres B :=
  λ b, match p b with DOk a r => f a r | DErr e => DErr e end.
Definition dret {A} (a : A) : bytes → dres A := λ b, DOk a b.
Definition dfail {A} : bytes → dres A := λ _, DErr Invalid.

(** file_store.rs:36: [Serialize + DeserializeOwned] *)
Class Codec (A : Type) := { enc : A → bytes; dec : bytes → dres A }.

(** ** Integers *)
(** [u8] as a byte (bincode, file_store.rs:146, 254). *)
Definition byte_of (n : N) : byte := default Byte.x00 (Byte.of_N n).
(** bincode's reader: [read_exact] of [n] bytes (file_store.rs:254) *)
Definition read (n : N) : bytes → dres bytes :=
  λ b, if bool_decide (n ≤ N.of_nat (length b)) then DOk (take (N.to_nat n) b) (drop (N.to_nat n) b) else DErr Eof.
(** [to_le_bytes] of a [k]-byte integer (bincode, file_store.rs:146) *)
Fixpoint le_bytes (k : nat) (n : N) : bytes :=
  match k with O => [] | S k => byte_of (n mod 256) :: le_bytes k (n / 256) end.
(** [from_le_bytes] (bincode, file_store.rs:254); of [k] bytes; of one *)
Fixpoint of_le (b : bytes) : N := match b with [] => 0 | x :: b => Byte.to_N x + 256 * of_le b end.
Definition dec_le (k : N) : bytes → dres N := dbind (read k) (λ b, dret (of_le b)).
Definition dec_u8 : bytes → dres N := dbind (read 1) (λ b, dret (of_le b)).
(** bincode's variable length integers ([config::standard()], file_store.rs:149): below 251 one
    byte, else a marker and 2, 4 or 8 bytes. *)
Definition enc_uint (n : N) : bytes :=
  if n <? 251 then [byte_of n]
  else if n <? 65536 then byte_of 251 :: le_bytes 2 n
  else if n <? 4294967296 then byte_of 252 :: le_bytes 4 n
  else byte_of 253 :: le_bytes 8 n.
(** Reading (file_store.rs:254) a [u32] refuses the 8 byte marker, a [u64] (and [usize]) takes it. *)
Definition dec_uint (wide : bool) : bytes → dres N :=
  dbind dec_u8 (λ m,
    if m <? 251 then dret m
    else if m =? 251 then dec_le 2
    else if m =? 252 then dec_le 4
    else if (m =? 253) && wide then dec_le 8
    else dfail).
Definition u32_codec : Codec N := {| enc := enc_uint; dec := dec_uint false |}.
Definition u64_codec : Codec N := {| enc := enc_uint; dec := dec_uint true |}.

(** ** Sequences *)
(** Running a decoder [n] times, stopping at the first error ([n] may be anything a corrupt
    file says); bincode, file_store.rs:254. *)
Fixpoint rep_pos {S} (p : positive) (f : S → bytes → dres S) (s : S) : bytes → dres S :=
  match p with
  | xH => f s
  | xO p => dbind (rep_pos p f s) (rep_pos p f)
  | xI p => dbind (dbind (f s) (rep_pos p f)) (rep_pos p f)
  end.
Definition rep {S} (n : N) (f : S → bytes → dres S) (s : S) : bytes → dres S :=
  match n with N0 => dret s | Npos p => rep_pos p f s end.

(** [(A, B)] and structs: one after the other (serde's derive, sparse_chain.rs:897-907) *)
Definition pair_codec {A B} (CA : Codec A) (CB : Codec B) : Codec (A * B) := {|
  enc p := enc p.1 ++ enc p.2;
  dec := dbind dec (λ a, dbind dec (λ b, dret (a, b)))
|}.
(** [Option] (sparse_chain.rs:905): a byte 0 or 1 *)
Definition option_codec {A} (C : Codec A) : Codec (option A) := {|
  enc o := match o with None => [byte_of 0] | Some a => byte_of 1 :: enc a end;
  dec := dbind dec_u8 (λ m, if m =? 0 then dret None else if m =? 1 then dbind dec (λ a, dret (Some a)) else dfail)
|}.
(** [BTreeMap] (sparse_chain.rs:905-906): its length as [u64], then the entries in order; reading inserts one by one *)
Definition map_codec `{Ord K, Countable K} {V} (CK : Codec K) (CV : Codec V) : Codec (gmap K V) := {|
  enc m := enc_uint (N.of_nat (length (bmap_list m))) ++ (bmap_list m ≫= @enc _ (pair_codec CK CV));
  dec := dbind (dec_uint true) (λ n, rep n (λ m, dbind (@dec _ (pair_codec CK CV)) (λ kv, dret (<[kv.1 := kv.2]> m))) ∅)
|}.
(** [BTreeSet] (tx_graph.rs:456) *)
Definition set_codec `{Ord A, Countable A} (C : Codec A) : Codec (gset A) := {|
  enc X := enc_uint (N.of_nat (length (bset_list X))) ++ (bset_list X ≫= enc);
  dec := dbind (dec_uint true) (λ n, rep n (λ X, dbind dec (λ a, dret ({[ a ]} ∪ X))) ∅)
|}.
(** Byte strings (bincode, file_store.rs:254): their length, then the bytes *)
Definition dec_bytes : bytes → dres bytes := dbind (dec_uint true) read.

(** ** The types of a changeset *)
(** Hashes: a byte string that must have 32 bytes, most significant first in the model's numbering
    (Base.v); [BlockHash] and [Txid] of sparse_chain.rs:905-906 *)
Definition hash_codec : Codec N := {|
  enc h := enc_uint 32 ++ reverse (le_bytes 32 h);
  dec := dbind dec_bytes (λ b, if bool_decide (length b = 32%nat) then dret (of_le (reverse b)) else dfail)
|}.
(** [OutPoint { txid, vout }] (tx_graph.rs:457) *)
Definition outpoint_codec : Codec OutPoint := {|
  enc o := @enc _ hash_codec (op_txid o) ++ @enc _ u32_codec (op_vout o);
  dec := dbind (@dec _ hash_codec) (λ t, dbind (@dec _ u32_codec) (λ v, dret (mkOutPoint t v)))
|}.
(** chain_data.rs:9-18: enum variants by number *)
Definition txheight_codec : Codec TxHeight := {|
  enc p := match p with Confirmed h => enc_uint 0 ++ enc_uint h | Unconfirmed => enc_uint 1 end;
  dec := dbind (dec_uint false) (λ m, if m =? 0 then dbind (dec_uint false) (λ h, dret (Confirmed h))
                                      else if m =? 1 then dret Unconfirmed else dfail)
|}.
(** chain_data.rs:73-83 *)
Definition conftime_codec : Codec ConfirmationTime := {|
  enc p := match p with CtConfirmed h t => enc_uint 0 ++ enc_uint h ++ enc_uint t | CtUnconfirmed => enc_uint 1 end;
  dec := dbind (dec_uint false) (λ m,
    if m =? 0 then dbind (dec_uint false) (λ h, dbind (dec_uint true) (λ t, dret (CtConfirmed h t)))
    else if m =? 1 then dret CtUnconfirmed else dfail)
|}.

(** Transactions and outputs are encoded by the [bitcoin] crate, keychains and positions by the
    application's types: parameters (the type parameters of file_store.rs:26 and tx_graph.rs:456-457). *)
Class LeafCodecs (K P : Type) := {
  leaf_k : Codec K;
  leaf_p : Codec P;
  leaf_tx : Codec Tx;
  leaf_txout : Codec TxOut
}.

Section changeset.
Context `{Countable K, !Ord K} `{!LeafCodecs K P}.
(** sparse_chain.rs:897-907 *)
Definition chain_cs_codec : Codec (ChangeSet P) :=
  let CA := map_codec u32_codec (option_codec hash_codec) in
  let CB := map_codec hash_codec (option_codec leaf_p) in {|
  enc cs := @enc _ CA (cs_cps cs) ++ @enc _ CB (cs_txids cs);
  dec := dbind (@dec _ CA) (λ a, dbind (@dec _ CB) (λ b, dret (mkChangeSet a b)))
|}.
(** tx_graph.rs:442-458 *)
Definition additions_codec : Codec Additions :=
  let CA := set_codec leaf_tx in
  let CB := map_codec outpoint_codec leaf_txout in {|
  enc ad := @enc _ CA (ad_tx ad) ++ @enc _ CB (ad_txout ad);
  dec := dbind (@dec _ CA) (λ a, dbind (@dec _ CB) (λ b, dret (mkAdditions a b)))
|}.
(** chain_graph.rs:433-449 *)
Definition cg_cs_codec : Codec (CgChangeSet P) := {|
  enc cs := @enc _ chain_cs_codec (cgs_chain cs) ++ @enc _ additions_codec (cgs_graph cs);
  dec := dbind (@dec _ chain_cs_codec) (λ a, dbind (@dec _ additions_codec) (λ b, dret (mkCGS a b)))
|}.
(** keychain.rs:46-59 and :131-149: derivation indices, then the chain graph's changes *)
Definition kcs_codec : Codec (KChangeSet K P) :=
  let CA := map_codec leaf_k u32_codec in {|
  enc cs := @enc _ CA (kcs_indices cs) ++ @enc _ cg_cs_codec (kcs_cg cs);
  dec := dbind (@dec _ CA) (λ a, dbind (@dec _ cg_cs_codec) (λ b, dret (mkKCS a b)))
|}.
End changeset.
