(** Specification vocabulary for scanning: what a program may end with, what an honest
    server knows, which scripts a scan with a stop gap must find. *)
From Verif Require Export SparseChainSpec ChainGraphSpec ElectrumModel EsploraModel.

(** The program never panics and whatever it returns satisfies [Q]. *)
Definition safe {A} (p : prog A) (Q : A → Prop) : Prop :=
  ∀ n, match p n with Done _ a => Q a | Crashed => False | Failed _ _ | Unfinished => True end.
(** The program always returns a value, and it satisfies [Q]. *)
Definition ends {A} (p : prog A) (Q : A → Prop) : Prop := ∀ n, ∃ n' a, p n = Done n' a ∧ Q a.

(** What the world looks like: a chain of blocks, the height of each transaction ([None]:
    not in a block), the transactions that touch a script, the transactions themselves. *)
Record World := mkWorld {
  w_tip : N;
  w_block : N → BlockHash;
  w_height : Txid → option N;
  w_history : Script → list Txid;
  w_tx : Txid → option Tx
}.
Record world_ok (w : World) : Prop := {
  wo_tip : w_tip w < u32_max;
  wo_height : ∀ t h, w_height w t = Some h → h ≤ w_tip w;
  wo_txid : ∀ s t, t ∈ w_history w s → t ≤ max_txid;
  wo_tx : ∀ t x, w_tx w t = Some x → txid x = t ∧ tx_out x ≠ [];
  wo_known : ∀ s t, t ∈ w_history w s → is_Some (w_tx w t);
  wo_creates : ∀ t x o, w_tx w t = Some x → o ∈ tx_out x → t ∈ w_history w (txo_spk o);
  wo_spends : ∀ t x p y o, w_tx w t = Some x → p ∈ tx_in x → w_tx w (op_txid p) = Some y →
    tx_out y !! N.to_nat (op_vout p) = Some o → t ∈ w_history w (txo_spk o)
}.
(** Transaction [t] spends outpoint [o], and no other transaction does. *)
Definition w_spends (w : World) (o : OutPoint) (t : Txid) : Prop :=
  (∃ x, w_tx w t = Some x ∧ o ∈ tx_in x) ∧
  ∀ t' x, w_tx w t' = Some x → o ∈ tx_in x → t' = t.

(** Where the world has a transaction. *)
Definition w_position (w : World) (t : Txid) : TxHeight :=
  match w_height w t with Some h => Confirmed h | None => Unconfirmed end.

(** What electrum says about the height of a transaction: 0 or -1 when unconfirmed.  The
    coinbase of the genesis block is in block 0, so electrum's answer for it is 0 as well. *)
Definition electrum_height (w : World) (t : Txid) (raw : Z) : Prop :=
  match w_height w t with
  | Some h => raw = Z.of_N h ∧ (h = 0 ↔ t = genesis_txid)
  | None => (raw = 0 ∨ raw = -1)%Z ∧ t ≠ genesis_txid
  end.
Definition electrum_history (w : World) (s : Script) (l : list (Txid * Z)) : Prop :=
  l.*1 = w_history w s ∧ ∀ t raw, (t, raw) ∈ l → electrum_height w t raw.
(** An electrum server that tells the truth about [w]. *)
Record electrum_honest (w : World) (s : ESnap) : Prop := {
  eh_header : ∀ h, h ≤ w_tip w → es_header s h = Ok (w_block w h);
  eh_tip : es_tip s = Ok (w_tip w, w_block w (w_tip w));
  eh_tx : ∀ t, es_tx s t = match w_tx w t with Some x => Ok x | None => Err Protocol end;
  eh_history : ∀ k, ∃ l, es_history s k = Ok l ∧ electrum_history w k l;
  eh_histories : ∀ ks, ∃ ls, es_histories s ks = Ok ls ∧ Forall2 (electrum_history w) ks ls
}.

(** Responses the protocol and the types allow: heights of [u32] blocks, 32-byte txids,
    transactions with an output; in the debug profile also no height below -1 and the
    transaction asked for. *)
Record electrum_typed (dbg : bool) (s : ESnap) : Prop := {
  et_tip : ∀ h x, es_tip s = Ok (h, x) → h < u32_max;
  et_history : ∀ k l t raw, es_history s k = Ok l → (t, raw) ∈ l → t ≤ max_txid ∧ (dbg = true → -1 ≤ raw)%Z;
  et_histories : ∀ ks ls l t raw, es_histories s ks = Ok ls → l ∈ ls → (t, raw) ∈ l →
    t ≤ max_txid ∧ (dbg = true → -1 ≤ raw)%Z;
  et_tx_out : ∀ t x, es_tx s t = Ok x → tx_out x ≠ [] ∧ (dbg = true → txid x = t)
}.

(** The scripts a scan asked for, with what the world says about their activity. *)
Definition activity (w : World) (spks : list (N * Script)) : list bool :=
  (λ e : N * Script, negb (bool_decide (w_history w e.2 = []))) <$> spks.
(** [m] consecutive inactive scripts lie before position [p]. *)
Definition gap_before (m : N) (act : list bool) (p : nat) : Prop :=
  ∃ s : nat, N.of_nat s + m ≤ N.of_nat p ∧
    ∀ i : nat, (s ≤ i)%nat → N.of_nat i < N.of_nat s + m → act !! i = Some false.
(** Script [p] of the list is active and no more than [gap] inactive ones in a row come
    before it. *)
Definition within_gap (gap : N) (act : list bool) (p : nat) : Prop :=
  act !! p = Some true ∧ ¬ gap_before (gap + 1) act p.
(** Index [i] belongs to an active script within the gap. *)
Definition found_index (w : World) (gap : N) (spks : list (N * Script)) (i : N) : Prop :=
  ∃ p s, spks !! p = Some (i, s) ∧ within_gap gap (activity w spks) p.

(** What the chain of the update built for [local] should look like: the server's blocks at
    the tip and at every local height above all the common blocks, and at the last common
    one. *)
Definition connects (w : World) (local : gmap N BlockHash) (cps : gmap N BlockHash) : Prop :=
  ∀ h, cps !! h = if bool_decide (h = w_tip w ∨
                    (is_Some (local !! h) ∧
                     map_Forall (λ k x, h < k → x ≠ w_block w k) local))
                  then Some (w_block w h) else None.

(** [t] is the transaction of outpoint [o] or spends it. *)
Definition around (w : World) (o : OutPoint) (t : Txid) : Prop :=
  t = op_txid o ∨ ∃ x, w_tx w t = Some x ∧ o ∈ tx_in x.
(** There is an output [o]. *)
Definition w_output (w : World) (o : OutPoint) : Prop :=
  ∃ x z, w_tx w (op_txid o) = Some x ∧ tx_out x !! N.to_nat (op_vout o) = Some z.
(** The transaction of an outpoint that exists is in the chain, and so is the one that
    spends it. *)
Definition outpoint_found (w : World) (c : SparseChain TxHeight) (o : OutPoint) : Prop :=
  ∀ x z, w_tx w (op_txid o) = Some x → tx_out x !! N.to_nat (op_vout o) = Some z →
    is_Some (sc_pos c !! op_txid o) ∧ ∀ s, s ≠ op_txid o → w_spends w o s → is_Some (sc_pos c !! s).

(** A chain that is fit to be an update: consistent, heights below [u32::MAX], every
    confirmed transaction at or below some checkpoint. *)
Definition usable_update `{ChainPosition P} (u : SparseChain P) : Prop :=
  chain_ok u ∧ below_max u ∧ confirmed_below_tip u.

(** What a scan should come back with. *)
Record scan_complete (w : World) `{Countable K} (local : gmap N BlockHash) (kspks : gmap K (list (N * Script)))
  (txids : list Txid) (outpoints : list OutPoint) (gap : N) (e : ElectrumUpdate K TxHeight) : Prop := {
  (** a proper chain *)
  sf_usable : usable_update (eu_chain e);
  (** the right blocks *)
  sf_blocks : connects w local (sc_cps (eu_chain e));
  (** the right positions *)
  sf_true : ∀ t p, sc_pos (eu_chain e) !! t = Some p → p = w_position w t;
  (** every transaction of every active script within the gap *)
  sf_scripts : ∀ k l p i s t, kspks !! k = Some l → l !! p = Some (i, s) → within_gap gap (activity w l) p →
    t ∈ w_history w s → is_Some (sc_pos (eu_chain e) !! t);
  (** the transactions asked for *)
  sf_txids : ∀ t, t ∈ txids → is_Some (w_tx w t) → is_Some (sc_pos (eu_chain e) !! t);
  (** the outpoints asked for *)
  sf_outpoints : ∀ o, o ∈ outpoints → outpoint_found w (eu_chain e) o;
  (** nothing that was not asked for *)
  sf_only : ∀ t, is_Some (sc_pos (eu_chain e) !! t) →
    (∃ k l p i s, kspks !! k = Some l ∧ l !! p = Some (i, s) ∧ within_gap gap (activity w l) p ∧ t ∈ w_history w s) ∨
    t ∈ txids ∧ is_Some (w_tx w t) ∨ ∃ o, o ∈ outpoints ∧ w_output w o ∧ around w o t;
  (** the highest active index of each keychain, if its indices are different *)
  sf_active : map_Forall (λ _ l, NoDup l.*1 ∧ Forall (λ i, i ≤ u32_max) l.*1) kspks →
    ∀ k j, eu_active e !! k = Some j ↔
      ∃ l, kspks !! k = Some l ∧ found_index w gap l j ∧ ∀ i, found_index w gap l i → i ≤ j
}.

(** ** Syncing a wallet (C72) *)
(** The server's transactions fit together: the txid determines the inputs ([W]), no two of
    them double spend, the parents of each are known, and so is what is in a block. *)
Record world_sane (W : Txid → list OutPoint) (w : World) : Prop := {
  ws_inputs : ∀ t x, w_tx w t = Some x → tx_in x = W t;
  ws_conflict : ∀ a b x y, w_tx w a = Some x → w_tx w b = Some y → double_spend x y → a = b;
  ws_parents : ∀ t x o, w_tx w t = Some x → o ∈ tx_in x → o ≠ null_outpoint → is_Some (w_tx w (op_txid o));
  ws_block : ∀ t h, w_height w t = Some h → is_Some (w_tx w t)
}.
(** What the wallet's chain has to do with the server's: its checkpoints are those of one
    chain of blocks, none above the server's tip; and a confirmed transaction with no
    checkpoint up to its height reorganised away is where the server has it. *)
Record local_true `{ChainPosition P} (w : World) (wpos : Txid → P) (c : SparseChain P) : Prop := {
  lt_low : ∀ h, is_Some (sc_cps c !! h) → h ≤ w_tip w;
  lt_fork : ∀ a b x, a ≤ b → sc_cps c !! b = Some (w_block w b) → sc_cps c !! a = Some x → x = w_block w a;
  lt_pos : ∀ t p h, sc_pos c !! t = Some p → pos_height p = Confirmed h →
    (∀ k x, k ≤ h → sc_cps c !! k = Some x → x = w_block w k) → p = wpos t
}.
(** [t] is what a scan has to find: it has to do with an active script within the gap, or is one of the transactions, or makes one of the
    outpoints or is the one that spends it. *)
Definition sought (w : World) `{Countable K} (kspks : gmap K (list (N * Script))) (txids : list Txid) (outpoints : list OutPoint) (gap : N) (t : Txid) : Prop :=
  (∃ k l p i s, kspks !! k = Some l ∧ l !! p = Some (i, s) ∧ within_gap gap (activity w l) p ∧ t ∈ w_history w s) ∨
  t ∈ txids ∧ is_Some (w_tx w t) ∨ ∃ o, o ∈ outpoints ∧ w_output w o ∧ (t = op_txid o ∨ w_spends w o t).
(** Like [local_true], but a transaction that the server has told again ([found]) may be elsewhere if no checkpoint from its height on is one of
    the server's. *)
Record local_seen `{ChainPosition P} (w : World) (wpos : Txid → P) (found : Txid → Prop) (c : SparseChain P) : Prop := {
  ls_low : ∀ h, is_Some (sc_cps c !! h) → h ≤ w_tip w;
  ls_fork : ∀ a b x, a ≤ b → sc_cps c !! b = Some (w_block w b) → sc_cps c !! a = Some x → x = w_block w a;
  ls_pos : ∀ t p h, sc_pos c !! t = Some p → pos_height p = Confirmed h →
    (∀ k x, k ≤ h → sc_cps c !! k = Some x → x = w_block w k) →
    p = wpos t ∨ found t ∧ ∀ k x, h ≤ k → sc_cps c !! k = Some x → x ≠ w_block w k
}.
