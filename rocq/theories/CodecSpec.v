(** Specification vocabulary for the encoding of changesets (C49). *)
From Verif Require Export CodecModel.

(** [c] is what is left of [b] when it is cut short. *)
Definition cut_short (c b : bytes) : Prop := ∃ x d, b = c ++ x :: d.

(** What a log of entries needs of an encoding, for the values [wf]: it round-trips whatever follows;
    an encoding cut short reads as an unexpected end of file; what is not read is left as it was; and
    every entry takes at least a byte. *)
Record codec_ok {A} (C : Codec A) (wf : A → Prop) : Prop := {
  co_roundtrip a r : wf a → dec (enc a ++ r) = DOk a r;
  co_cut a b : wf a → cut_short b (enc a) → dec b = DErr Eof;
  co_rest b a r : dec b = DOk a r → ∃ c, c ≠ [] ∧ b = c ++ r
}.

(** Ranges of the integers and hashes of a changeset. *)
Definition u32 (n : N) : Prop := n ≤ u32_max.
Definition u64 (n : N) : Prop := n ≤ u64_max.
Definition hash (n : N) : Prop := n ≤ max_txid.

(** Maps and sets of values in range, no longer than a [u64]. *)
Definition map_range `{Countable K} {V} (wk : K → Prop) (wv : V → Prop) (m : gmap K V) : Prop :=
  u64 (N.of_nat (size m)) ∧ ∀ k v, m !! k = Some v → wk k ∧ wv v.
Definition set_range `{Countable A} (w : A → Prop) (X : gset A) : Prop :=
  u64 (N.of_nat (size X)) ∧ ∀ a, a ∈ X → w a.
Definition option_range {A} (w : A → Prop) (o : option A) : Prop := match o with Some a => w a | None => True end.

(** The encodings of the [bitcoin] crate and of the application are assumed good on [wf_*]. *)
Class LeafWf (K P : Type) := {
  wf_k : K → Prop;
  wf_p : P → Prop;
  wf_tx : Tx → Prop;
  wf_txout : TxOut → Prop
}.
Class LeafOk (K P : Type) `{!LeafCodecs K P, !LeafWf K P} : Prop := {
  leaf_k_ok : codec_ok leaf_k wf_k;
  leaf_p_ok : codec_ok leaf_p wf_p;
  leaf_tx_ok : codec_ok leaf_tx wf_tx;
  leaf_txout_ok : codec_ok leaf_txout wf_txout
}.
(** Values a changeset of the program can hold. *)
Definition kcs_wf `{Countable K} `{!LeafWf K P} (cs : KChangeSet K P) : Prop :=
  map_range wf_k u32 (kcs_indices cs) ∧
  map_range u32 (option_range hash) (cs_cps (cgs_chain (kcs_cg cs))) ∧
  map_range hash (option_range wf_p) (cs_txids (cgs_chain (kcs_cg cs))) ∧
  set_range wf_tx (ad_tx (cgs_graph (kcs_cg cs))) ∧
  map_range (λ o, hash (op_txid o) ∧ u32 (op_vout o)) wf_txout (ad_txout (cgs_graph (kcs_cg cs))).
