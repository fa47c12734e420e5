(** Model of bdk_chain/src/keychain/txout_index.rs and of [DerivationAdditions]
    (bdk_chain/src/keychain.rs:40-99). *)
From Verif Require Export SpkIndexModel.

(** Descriptors, by identity: two descriptors are equal ([assert_eq!] in [add_keychain])
    when their identities are. *)
Notation Desc := N (only parsing).
(** What the code asks of a descriptor: [has_wildcard] (txout_index.rs:310, 381, 619) and
    [derived_descriptor(..).script_pubkey()] (:629-631; [None] is a derivation error).
    Deriving keys and compiling scripts is not modelled; this is the parameter for it. *)
Class DescEnv := {
  has_wildcard : Desc → bool;
  derive : Desc → N → option Script
}.

(** txout_index.rs:13: [1 << 31 - 1] parses as [1 << (31 - 1)] *)
Definition bip32_max : N := N.shiftl 1 (31 - 1).

(** [u32 + u32] in the debug profile (txout_index.rs:214, 219, 233, 323, 385, 394, 400, 424) *)
Definition add_u32 (a b : N) : outcome N := if bool_decide (a + b ≤ u32_max) then Ret (a + b) else Panic.

(** keychain.rs:59 *)
Notation DerivationAdditions K := (gmap K N) (only parsing).
(** keychain.rs:78-86: entries present in both become the maximum and are removed from
    [other], the rest of [other] is moved over *)
Definition da_append `{Countable K} (a b : DerivationAdditions K) : DerivationAdditions K :=
  let a' := map_imap (λ k i, Some (match b !! k with Some j => N.max j i | None => i end)) a in
  let b' := filter (λ kv, a !! kv.1 = None) b in
  b' ∪ a'.
(** keychain.rs:63-65 *)
Definition da_is_empty `{Countable K} (a : DerivationAdditions K) : bool := bool_decide (a = ∅).

(** txout_index.rs:61-70 *)
Record KIndex (K : Type) `{Countable K} := mkKI {
  ki_inner : SpkIndex (K * N);
  ki_keychains : gmap K Desc;
  ki_revealed : gmap K N;
  ki_lookahead : gmap K N
}.
Global Arguments mkKI {_ _ _} _ _ _ _.
Global Arguments ki_inner {_ _ _} _.
Global Arguments ki_keychains {_ _ _} _.
Global Arguments ki_revealed {_ _ _} _.
Global Arguments ki_lookahead {_ _ _} _.

Section keychain_index.
Context `{!DescEnv} `{Countable K, !Ord K}.
Implicit Types (x : KIndex K) (k : K).

(** txout_index.rs:611-633, for the half-open range of [n] indices from [i]: stop at the
    first index that is not 0 without a wildcard, is above the bound, or does not derive *)
Fixpoint range_spks_go (d : Desc) (n : nat) (i : N) : list (N * Script) :=
  match n with
  | O => []
  | S n =>
      if has_wildcard d || bool_decide (i = 0) then
        if bool_decide (i ≤ bip32_max) then
          match derive d i with
          | Some s => (i, s) :: range_spks_go d n (i + 1)
          | None => []
          end
        else []
      else []
  end.
(** txout_index.rs:611-634.  The range [lo..hi]; [lo..=hi] is [lo..hi+1] (an inclusive range does not overflow);
    [0..] stops at the bound, so is [0..bip32_max + 1]. *)
Definition range_spks (d : Desc) (lo hi : N) : list (N * Script) := range_spks_go d (N.to_nat (hi - lo)) lo.

(** txout_index.rs:72-81 *)
Definition ki_default : KIndex K := mkKI si_default ∅ ∅ ∅.
Definition with_inner x (s : SpkIndex (K * N)) : KIndex K := mkKI s (ki_keychains x) (ki_revealed x) (ki_lookahead x).

(** txout_index.rs:214, 385: index after the last revealed one *)
Definition next_reveal x k : outcome N :=
  match ki_revealed x !! k with None => Ret 0 | Some v => add_u32 v 1 end.
(** txout_index.rs:215, 386 *)
Definition lookahead_of x k : N := default 0 (ki_lookahead x !! k).
(** txout_index.rs:228-234 *)
Definition next_store_index x k : outcome N :=
  match last (filter (λ kv, ord_le (k, 0) kv.1 ∧ ord_lt kv.1 (k, u32_max)) (bmap_list (si_spks (ki_inner x)))) with
  | None => Ret 0
  | Some kv => add_u32 kv.1.2 1
  end.
(** txout_index.rs:221-224, 405-408: insert scripts, asserting they were not there *)
Fixpoint store_spks (s : SpkIndex (K * N)) k (l : list (N * Script)) : outcome (SpkIndex (K * N)) :=
  match l with
  | [] => Ret s
  | (i, spk) :: l =>
      let r := si_insert_spk s (k, i) spk in
      if r.2 then store_spks r.1 k l else Panic
  end.

(** txout_index.rs:142-148 *)
Definition add_keychain x k (d : Desc) : outcome (KIndex K) :=
  match ki_keychains x !! k with
  | Some d' => if bool_decide (d = d') then Ret x else Panic
  | None => Ret (mkKI (ki_inner x) (<[k := d]> (ki_keychains x)) (ki_revealed x) (ki_lookahead x))
  end.
(** txout_index.rs:211-226 *)
Definition replenish_lookahead x k : outcome (KIndex K) :=
  match ki_keychains x !! k with
  | None => Panic
  | Some d =>
      ns ← next_store_index x k;
      nr ← next_reveal x k;
      e ← add_u32 nr (lookahead_of x k);
      s ← store_spks (ki_inner x) k (range_spks d ns e);
      Ret (with_inner x s)
  end.
Definition with_lookahead x (m : gmap K N) : KIndex K := mkKI (ki_inner x) (ki_keychains x) (ki_revealed x) m.
(** txout_index.rs:180-183 *)
Definition set_lookahead x k (la : N) : outcome (KIndex K) :=
  replenish_lookahead (with_lookahead x (<[k := la]> (ki_lookahead x))) k.
(** txout_index.rs:162-167 *)
Definition set_lookahead_for_all x (la : N) : outcome (KIndex K) :=
  foldl (λ s kd, x ← s; set_lookahead x kd.1 la) (Ret x) (bmap_list (ki_keychains x)).
(** txout_index.rs:197-209 *)
Definition lookahead_to_target x k (t : N) : outcome (KIndex K) :=
  ns ← next_store_index x k;
  if bool_decide (ns < t) then
    let old := ki_lookahead x !! k in
    x' ← replenish_lookahead (with_lookahead x (<[k := t - ns]> (ki_lookahead x))) k;
    Ret (with_lookahead x' (match old with
      | Some la => <[k := la]> (ki_lookahead x')
      | None => delete k (ki_lookahead x') end))
  else Ret x.
(** txout_index.rs:188-192 *)
Definition lookahead_to_target_multi x (m : gmap K N) : outcome (KIndex K) :=
  foldl (λ s kt, x ← s; lookahead_to_target x kt.1 kt.2) (Ret x) (bmap_list m).

(** txout_index.rs:258-265 *)
Definition spks_of_keychain x k : outcome (list (N * Script)) :=
  match ki_keychains x !! k with None => Panic | Some d => Ret (range_spks d 0 (bip32_max + 1)) end.
(** txout_index.rs:280-289; the range [(k, 0)..(k, next)] is never invalid *)
Definition revealed_spks_of_keychain x k : outcome (list (N * Script)) :=
  nr ← next_reveal x k;
  Ret ((λ kv, (kv.1.2, kv.2)) <$>
    filter (λ kv, ord_le (k, 0) kv.1 ∧ ord_lt kv.1 (k, nr)) (bmap_list (si_spks (ki_inner x)))).

(** txout_index.rs:305-325 *)
Definition next_index x k : outcome (N * bool) :=
  match ki_keychains x !! k with
  | None => Panic
  | Some d =>
      match ki_revealed x !! k with
      | None => Ret (0, true)
      | Some i =>
          if negb (has_wildcard d) then Ret (0, false)
          else if bool_decide (bip32_max < i) then Panic
          else if bool_decide (i = bip32_max) then Ret (i, false)
          else n ← add_u32 i 1; Ret (n, true)
      end
  end.

(** txout_index.rs:375-437; the returned iterator is the list of what it yields *)
Definition reveal_to_target x k (t : N) : outcome (KIndex K * list (N * Script) * DerivationAdditions K) :=
  match ki_keychains x !! k with
  | None => Panic
  | Some d =>
      let t := if has_wildcard d then t else 0 in
      ns ← next_store_index x k;
      nr ← next_reveal x k;
      let la := lookahead_of x k in
      lo ← add_u32 nr la;
      hi ← add_u32 t la;
      let ri0 := if bool_decide (nr ≤ t ∧ t < lo) then Some t else None in
      let new := range_spks d lo (hi + 1) in
      s ← store_spks (ki_inner x) k (filter (λ is, ns ≤ is.1) new);
      let ri := foldl (λ r is, if bool_decide (is.1 ≤ t) then Some is.1 else r) ri0 new in
      match ri with
      | Some i =>
          if match ki_revealed x !! k with Some old => bool_decide (old < i) | None => true end then
            i1 ← add_u32 i 1;
            Ret (mkKI s (ki_keychains x) (<[k := i]> (ki_revealed x)) (ki_lookahead x),
                 range_spks d nr i1, {[ k := i ]})
          else Panic
      | None => Ret (with_inner x s, [], ∅)
      end
  end.
(** txout_index.rs:340-359; the returned map of iterators in order of keychain *)
Definition reveal_to_target_multi x (m : gmap K N) :
    outcome (KIndex K * gmap K (list (N * Script)) * DerivationAdditions K) :=
  foldl (λ s kt,
    '(x, spks, ad) ← s;
    '(x', new, ad') ← reveal_to_target x kt.1 kt.2;
    if da_is_empty ad' then Ret (x', spks, ad)
    else Ret (x', <[kt.1 := new]> spks, da_append ad ad')) (Ret (x, ∅, ∅)) (bmap_list m).
(** txout_index.rs:606-608 *)
Definition ki_apply_additions x (m : DerivationAdditions K) : outcome (KIndex K) :=
  '(x', _, _) ← reveal_to_target_multi x m; Ret x'.

(** txout_index.rs:117-122 *)
Definition ki_scan_txout x (o : OutPoint) (u : TxOut) : outcome (KIndex K * DerivationAdditions K) :=
  let r := si_scan_txout (ki_inner x) o u in
  match r.2 with
  | Some ki => '(x', _, ad) ← reveal_to_target (with_inner x r.1) ki.1 ki.2; Ret (x', ad)
  | None => Ret (with_inner x r.1, ∅)
  end.
(** txout_index.rs:108-112 *)
Definition ki_scan x (l : list (OutPoint * TxOut)) : outcome (KIndex K * DerivationAdditions K) :=
  foldl (λ s ou, '(x, ad) ← s; '(x', ad') ← ki_scan_txout x ou.1 ou.2; Ret (x', da_append ad ad'))
    (Ret (x, ∅)) l.

(** txout_index.rs:453-461 *)
Definition reveal_next_spk x k : outcome (KIndex K * (N * Script) * DerivationAdditions K) :=
  n ← next_index x k;
  '(x', _, ad) ← reveal_to_target x k n.1;
  match si_spk_at (ki_inner x') (k, n.1) with
  | None => Panic
  | Some s => Ret (x', (n.1, s), ad)
  end.
(** txout_index.rs:548-550 *)
Definition ki_mark_used x k (i : N) : KIndex K * bool :=
  let r := si_mark_used (ki_inner x) (k, i) in (with_inner x r.1, r.2).
(** txout_index.rs:559-561 *)
Definition ki_unmark_used x k (i : N) : outcome (KIndex K * bool) :=
  r ← si_unmark_used (ki_inner x) (k, i); Ret (with_inner x r.1, r.2).
(** txout_index.rs:564-573; listing every unused index runs the [expect] of
    [SpkTxOutIndex::unused_spks] on all of them, while the code's iterator only does so on
    those consumed *)
Definition unused_spks_of_keychain x k : outcome (list (N * Script)) :=
  nr ← next_reveal x k;
  l ← si_unused_spks (ki_inner x) (Incl (k, 0)) (Excl (k, nr));
  Ret ((λ is, (is.1.2, is.2)) <$> (l : list (K * N * Script))).
(** txout_index.rs:499-512 *)
Definition next_unused_spk x k : outcome (KIndex K * (N * Script) * DerivationAdditions K) :=
  l ← unused_spks_of_keychain x k;
  match l with
  | [] => reveal_next_spk x k
  | is :: _ => Ret (x, is, ∅)
  end.
(** txout_index.rs:474-485 and 525-536: mark the index and look its script up again *)
Definition reserve (r : KIndex K * (N * Script) * DerivationAdditions K) k :
    outcome (KIndex K * (N * Script) * DerivationAdditions K) :=
  let '(x, is, ad) := r in
  let x' := (ki_mark_used x k is.1).1 in
  match si_spk_at (ki_inner x') (k, is.1) with
  | None => Panic
  | Some s => Ret (x', (is.1, s), ad)
  end.
(** txout_index.rs:474-485 *)
Definition reveal_and_reserve_next_spk x k := r ← reveal_next_spk x k; reserve r k.
(** txout_index.rs:525-536 *)
Definition reserve_next_unused_spk x k := r ← next_unused_spk x k; reserve r k.

(** txout_index.rs:577-584 *)
Definition txouts_of_keychain x k : outcome (list (N * OutPoint)) :=
  l ← si_outputs_in_range (ki_inner x) (Incl (k, 0)) (Excl (k, u32_max));
  Ret ((λ io, (io.1.2, io.2)) <$> (l : list (K * N * OutPoint))).
(** txout_index.rs:588-590 *)
Definition last_used_index x k : outcome (option N) :=
  l ← txouts_of_keychain x k; Ret (fst <$> last (l : list (N * OutPoint))).
(** txout_index.rs:594-602 *)
Definition last_used_indices x : outcome (gmap K N) :=
  foldl (λ s kd, m ← s; i ← last_used_index x kd.1;
           Ret (match i with Some i => <[kd.1 := i]> m | None => m end)) (Ret ∅) (bmap_list (ki_keychains x)).
(** txout_index.rs:335-337 *)
Definition last_revealed_index x k : option N := ki_revealed x !! k.
(** txout_index.rs:270-277 *)
Definition revealed_spks_of_all_keychains x : outcome (gmap K (list (N * Script))) :=
  foldl (λ s kd, m ← s; l ← revealed_spks_of_keychain x kd.1; Ret (<[kd.1 := l]> m)) (Ret ∅)
    (bmap_list (ki_keychains x)).
End keychain_index.
