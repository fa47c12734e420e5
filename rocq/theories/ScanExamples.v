(** Concrete worlds and servers for scanning. *)
From Verif Require Export ElectrumProofs5.

(** ** A server that tells the truth about a world *)
Definition honest_history (w : World) (s : Script) : list (Txid * Z) :=
  (λ t, (t, match w_height w t with Some h => Z.of_N h | None => 0%Z end)) <$> w_history w s.
Definition honest (w : World) : ESnap := {|
  es_header h := if h <=? w_tip w then Ok (w_block w h) else Err Protocol;
  es_tip := Ok (w_tip w, w_block w (w_tip w));
  es_tx t := match w_tx w t with Some x => Ok x | None => Err Protocol end;
  es_history s := Ok (honest_history w s);
  es_histories l := Ok (honest_history w <$> l);
  es_times l := Ok (repeat 0 (length l))
|}.
Lemma honest_honest (w : World) :
  (∀ s t, t ∈ w_history w s → t ≠ genesis_txid ∧ w_height w t ≠ Some 0) → electrum_honest w (honest w).
Proof.
  intros Hg.
  assert (Hh: ∀ s, electrum_history w s (honest_history w s)).
  { intros s. split.
    - unfold honest_history. rewrite <- list_fmap_compose. simpl. by rewrite list_fmap_id.
    - intros t raw Hin. apply elem_of_list_fmap in Hin as (t' & [= <- ->] & Hin). destruct (Hg s t Hin) as [H1 H2].
      unfold electrum_height. destruct (w_height w t) as [h|]; [|by split; [left|]].
      split; [done|]. split; [intros ->; done|done]. }
  split.
  - intros h Hle. simpl. destruct (N.leb_spec h (w_tip w)); [done|lia].
  - done.
  - done.
  - intros s. by eexists.
  - intros l. eexists. split; [done|]. induction l; constructor; auto.
Qed.

(** ** A world with three transactions *)
Definition ex_txA : Tx := mkTx 7 [mkOutPoint 1 0] [mkTxOut 100 20; mkTxOut 50 21] 0.
Definition ex_txB : Tx := mkTx 8 [mkOutPoint 7 0] [mkTxOut 90 30] 0.
Definition ex_txC : Tx := mkTx 9 [mkOutPoint 7 1] [mkTxOut 40 22] 0.
Definition ex_world (tip : N) (block : N → BlockHash) (heightA : N) : World := {|
  w_tip := tip;
  w_block := block;
  w_height t := if t =? 7 then Some heightA else if t =? 8 then Some 5 else None;
  w_history s := if s =? 20 then [7; 8] else if s =? 21 then [7; 9] else if s =? 30 then [8]
                 else if s =? 22 then [9] else [];
  w_tx t := if t =? 7 then Some ex_txA else if t =? 8 then Some ex_txB else if t =? 9 then Some ex_txC else None
|}.
Lemma ex_world_ok tip block heightA : tip < u32_max → 5 ≤ tip → heightA ≤ 5 → world_ok (ex_world tip block heightA).
Proof.
  intros H1 H2 H3. split; simpl.
  - done.
  - intros t h. destruct (t =? 7); [intros [= <-]; lia|]. destruct (t =? 8); [intros [= <-]; lia|done].
  - intros s t. repeat (destruct (s =? _)); rewrite ?elem_of_cons, ?elem_of_nil; intros Hx;
      (assert (t = 7 ∨ t = 8 ∨ t = 9) as [-> | [-> | ->]] by tauto); by vm_compute.
  - intros t x. destruct (N.eqb_spec t 7) as [-> |]; [by intros [= <-]|].
    destruct (N.eqb_spec t 8) as [-> |]; [by intros [= <-]|]. destruct (N.eqb_spec t 9) as [-> |]; [by intros [= <-]|done].
  - intros s t. repeat (destruct (s =? _)); rewrite ?elem_of_cons, ?elem_of_nil; intros Hx;
      (assert (t = 7 ∨ t = 8 ∨ t = 9) as [-> | [-> | ->]] by tauto); eexists; reflexivity.
  - intros t x o. destruct (N.eqb_spec t 7) as [-> |]; [intros [= <-]|].
    { intros [-> | [-> | []%elem_of_nil]%elem_of_cons]%elem_of_cons; simpl; left. }
    destruct (N.eqb_spec t 8) as [-> |]; [intros [= <-]|].
    { intros [-> | []%elem_of_nil]%elem_of_cons; simpl; left. }
    destruct (N.eqb_spec t 9) as [-> |]; [intros [= <-]|done].
    intros [-> | []%elem_of_nil]%elem_of_cons; simpl; left.
  - intros t x p y o. destruct (N.eqb_spec t 7) as [-> |]; [intros [= <-]|].
    { intros [-> | []%elem_of_nil]%elem_of_cons; by simpl. }
    destruct (N.eqb_spec t 8) as [-> |]; [intros [= <-]|].
    { intros [-> | []%elem_of_nil]%elem_of_cons; simpl. intros [= <-]. simpl. intros [= <-]. simpl. right. left. }
    destruct (N.eqb_spec t 9) as [-> |]; [intros [= <-]|done].
    intros [-> | []%elem_of_nil]%elem_of_cons; simpl. intros [= <-]. simpl. intros [= <-]. simpl. right. left.
Qed.
Lemma ex_world_honest tip block heightA : heightA ≠ 0 → electrum_honest (ex_world tip block heightA) (honest (ex_world tip block heightA)).
Proof.
  intros Hz. apply honest_honest. intros s t. simpl.
  repeat (destruct (s =? _)); rewrite ?elem_of_cons, ?elem_of_nil; intros Hx;
    (assert (t = 7 ∨ t = 8 ∨ t = 9) as [-> | [-> | ->]] by tauto); (split; [by vm_compute|]); simpl; congruence.
Qed.

(** Tip 6; keychain 0 has two inactive scripts in a row, keychain 1 one active script *)
Definition ex_w : World := ex_world 6 (N.add 50) 3.
Definition ex_local : gmap N BlockHash := {[ 2 := 52; 3 := 53; 4 := 99 ]}.
Definition ex_kspks : gmap N (list (N * Script)) :=
  {[ 0 := [(0, 10); (1, 20); (2, 11); (3, 12); (4, 22); (5, 13)]; 1 := [(0, 30); (1, 14)] ]}.
Definition ex_scan (w : World) (kspks : gmap N (list (N * Script))) (txids : list Txid) (outpoints : list OutPoint)
  (gap : N) (batch : nat) : run (ElectrumUpdate N TxHeight) :=
  scan true (λ _, honest w) 3 ex_local kspks txids outpoints gap batch 0%nat.
(** What the update says: requests made, blocks, positions, highest active indices *)
Definition show {K} `{Countable K, !Ord K} (r : run (ElectrumUpdate K TxHeight)) :
  option (nat * list (N * BlockHash) * list (Txid * TxHeight) * list (K * N)) :=
  match r with
  | Done n e => Some (n, bmap_list (sc_cps (eu_chain e)), bmap_list (sc_pos (eu_chain e)), bmap_list (eu_active e))
  | _ => None
  end.
Lemma ex_w_ok : world_ok ex_w ∧ electrum_honest ex_w (honest ex_w).
Proof. split; [by apply ex_world_ok|by apply ex_world_honest]. Qed.
Lemma ex_local_low : ∀ h, is_Some (ex_local !! h) → h ≤ w_tip ex_w.
Proof.
  intros h. unfold ex_local. intros [x Hx].
  apply lookup_insert_Some in Hx as [[<- _]|[_ Hx]]; [done|].
  apply lookup_insert_Some in Hx as [[<- _]|[_ Hx]]; [done|].
  by apply lookup_singleton_Some in Hx as [<- _].
Qed.
Lemma ex_scan_gap2 : show (ex_scan ex_w ex_kspks [] [] 2 2) =
  Some (8%nat, [(3, 53); (4, 54); (6, 56)], [(7, Confirmed 3); (8, Confirmed 5); (9, Unconfirmed)], [(0, 4); (1, 0)]).
Proof. vm_compute. reflexivity. Qed.
Lemma ex_scan_gap1 : show (ex_scan ex_w ex_kspks [] [] 1 2) =
  Some (7%nat, [(3, 53); (4, 54); (6, 56)], [(7, Confirmed 3); (8, Confirmed 5)], [(0, 1); (1, 0)]).
Proof. vm_compute. reflexivity. Qed.
Lemma ex_scan_others : show (ex_scan ex_w ∅ [8; 11] [mkOutPoint 7 1; mkOutPoint 9 0] 1 1) =
  Some (12%nat, [(3, 53); (4, 54); (6, 56)], [(7, Confirmed 3); (8, Confirmed 5); (9, Unconfirmed)], []).
Proof. vm_compute. reflexivity. Qed.
(** with batches of no script nothing is found *)
Lemma ex_scan_batch0 : show (ex_scan ex_w ex_kspks [] [] 2 0) = Some (4%nat, [(3, 53); (4, 54); (6, 56)], [], []).
Proof. vm_compute. reflexivity. Qed.
Lemma ex_within_gap : within_gap 2 (activity ex_w [(0, 10); (1, 20); (2, 11); (3, 12); (4, 22); (5, 13)]) 4.
Proof.
  split; [done|]. intros (s & Hs & Hall). assert (s = 0 ∨ s = 1)%nat as [-> | ->] by lia.
  - specialize (Hall 1%nat). vm_compute in Hall. assert (Some true = Some false) as [=]. apply Hall; [lia|done].
  - specialize (Hall 1%nat). vm_compute in Hall. assert (Some true = Some false) as [=]. apply Hall; [lia|done].
Qed.

(** ** Servers that reorganise once *)
Definition reorg (n0 : nat) (wA wB : World) : nat → ESnap := λ n, if (n <? n0)%nat then honest wA else honest wB.
Lemma reorg_honest n0 tA bA hA tB bB hB : hA ≠ 0 → hB ≠ 0 →
  (∀ n, (n < n0)%nat → electrum_honest (ex_world tA bA hA) (reorg n0 (ex_world tA bA hA) (ex_world tB bB hB) n)) ∧
  (∀ n, (n0 ≤ n)%nat → electrum_honest (ex_world tB bB hB) (reorg n0 (ex_world tA bA hA) (ex_world tB bB hB) n)).
Proof.
  intros HA HB. unfold reorg. split; intros n Hn; destruct (Nat.ltb_spec n n0); try lia; by apply ex_world_honest.
Qed.
(** the tip, block 6, is replaced *)
Definition ex_tip_gone : World := ex_world 6 (λ h, if h =? 6 then 99 else 50 + h) 3.
(** blocks 4 to 6 are replaced, transaction 7 moves to block 4 *)
Definition ex_moved : World := ex_world 7 (λ h, if h <? 4 then 50 + h else 90 + h) 4.
Lemma ex_reorg_worlds_ok : world_ok ex_w ∧ world_ok ex_tip_gone ∧ world_ok ex_moved.
Proof. split_and!; by apply ex_world_ok. Qed.

(** Two keychains; the first one's scripts are inactive *)
Definition ex_two : gmap N (list (N * Script)) := {[ 0 := [(0, 100); (1, 101); (2, 102)]; 1 := [(0, 20)] ]}.
Lemma ex_two_before :
  show (scan true (λ _, honest ex_w) 3 ∅ ex_two [] [] 1 2 0%nat) =
    Some (4%nat, [(6, 56)], [(7, Confirmed 3); (8, Confirmed 5)], [(1, 0)]).
Proof. vm_compute. reflexivity. Qed.
Lemma ex_two_after :
  show (scan true (λ _, honest ex_tip_gone) 3 ∅ ex_two [] [] 1 2 0%nat) =
    Some (4%nat, [(6, 99)], [(7, Confirmed 3); (8, Confirmed 5)], [(1, 0)]).
Proof. vm_compute. reflexivity. Qed.
Lemma ex_two_reorg :
  show (scan true (reorg 3 ex_w ex_tip_gone) 3 ∅ ex_two [] [] 1 2 0%nat) = Some (8%nat, [(6, 99)], [], [(1, 0)]).
Proof. vm_compute. reflexivity. Qed.
(** One keychain; both its scripts are active and transaction 7 moves in between *)
Definition ex_one : gmap N (list (N * Script)) := {[ 0 := [(0, 20); (1, 21)] ]}.
Lemma ex_one_after :
  show (scan true (λ _, honest ex_moved) 3 ∅ ex_one [] [] 20 1 0%nat) =
    Some (4%nat, [(7, 97)], [(7, Confirmed 4); (8, Confirmed 5); (9, Unconfirmed)], [(0, 1)]).
Proof. vm_compute. reflexivity. Qed.
Lemma ex_one_reorg :
  show (scan true (reorg 2 ex_w ex_moved) 3 ∅ ex_one [] [] 20 1 0%nat) = Some (6%nat, [(7, 97)], [], []).
Proof. vm_compute. reflexivity. Qed.
(** The local chain has block 5; it is replaced after the server said it has it *)
Lemma ex_stale_reorg :
  show (scan true (reorg 1 ex_w ex_moved) 3 {[ 5 := 55 ]} ex_one [] [] 20 1 0%nat) =
    Some (5%nat, [(5, 55); (7, 97)], [(7, Confirmed 4); (8, Confirmed 5); (9, Unconfirmed)], [(0, 1)]).
Proof. vm_compute. reflexivity. Qed.
Lemma ex_reorg_found : w_block ex_moved (w_tip ex_w) = 96 ∧ w_block ex_w (w_tip ex_w) = 56 ∧
  show (scan true (reorg 4 ex_w ex_moved) 3 ∅ ex_one [8] [mkOutPoint 7 0] 20 1 0%nat) =
    Some (16%nat, [(7, 97)], [(7, Confirmed 4); (8, Confirmed 5); (9, Unconfirmed)], [(0, 1)]).
Proof. split_and!; vm_compute; reflexivity. Qed.
Lemma first_within_gap gap w l e : active w e.2 = true → within_gap gap (activity w (e :: l)) 0.
Proof. intros Ha. split; [simpl; by f_equal|]. intros (s & Hs & _). lia. Qed.

(** ** Servers that lie about heights *)
Definition lying (raw : Z) : nat → ESnap := λ _, {|
  es_header h := es_header (honest ex_w) h;
  es_tip := es_tip (honest ex_w);
  es_tx t := es_tx (honest ex_w) t;
  es_history s := Ok (if s =? 20 then [(7, raw); (8, 5%Z)] else []);
  es_histories l := Ok ((λ s, if s =? 20 then [(7, raw); (8, 5%Z)] else []) <$> l);
  es_times l := Err OtherError
|}.
Definition ahead : nat → ESnap := lying 7.
Definition below : nat → ESnap := lying (-2).
Lemma lying_typed dbg raw : (dbg = true → -1 ≤ raw)%Z → ∀ n, electrum_typed dbg (lying raw n).
Proof.
  intros Hr n. pose proof (honest_typed ex_w dbg _ (proj1 ex_w_ok) (proj2 ex_w_ok)) as Hh.
  assert (Hent: ∀ s t x, (t, x) ∈ (if s =? 20 then [(7, raw); (8, 5%Z)] else []) → t ≤ max_txid ∧ (dbg = true → -1 ≤ x)%Z).
  { intros s t x. destruct (s =? 20); [|by intros []%elem_of_nil].
    intros [[= -> ->]|[[= -> ->]|[]%elem_of_nil]%elem_of_cons]%elem_of_cons; (split; [by vm_compute|]); [done|lia]. }
  split.
  - apply (et_tip _ _ Hh).
  - intros k l t x [= <-]. apply Hent.
  - intros ks ls l t x [= <-] Hl. apply elem_of_list_fmap in Hl as (s & -> & _). apply Hent.
  - apply (et_tx_out _ _ Hh).
Qed.
Lemma ahead_typed : ∀ n, electrum_typed true (ahead n).
Proof. apply lying_typed. lia. Qed.
Lemma below_typed : ∀ n, electrum_typed false (below n).
Proof. by apply lying_typed. Qed.
Lemma ex_ahead : show (scan true ahead 3 ∅ {[ 0 := [(0, 20)] ]} [] [] 5 5 0%nat) =
  Some (3%nat, [(6, 56)], [(7, Unconfirmed); (8, Confirmed 5)], [(0, 0)]).
Proof. vm_compute. reflexivity. Qed.
Lemma ex_below : scan true below 3 ∅ ({[ 0 := [(0, 20)] ]} : gmap N _) [] [] 5 5 0%nat = Crashed.
Proof. vm_compute. reflexivity. Qed.
