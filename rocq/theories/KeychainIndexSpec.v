(** Specification vocabulary for the keychain index (C34-C40). *)
From Verif Require Export KeychainIndexModel SpkIndexSpec.

Section spec.
Context `{!DescEnv} `{Countable K, !Ord K}.
Implicit Types (k : K) (x : KIndex K).

(** Number of scripts of a descriptor within the index's bound. *)
Definition cap (d : Desc) : N := if has_wildcard d then bip32_max + 1 else 1.
(** All of them derive. *)
Definition good_desc (d : Desc) : Prop := ∀ i, i < cap d → is_Some (derive d i).
(** The descriptors a client uses for its keychains: they derive, and no two keychains or
    indices share a script. *)
Definition good_env (A : K → option Desc) : Prop :=
  (∀ k d, A k = Some d → good_desc d) ∧
  (∀ k k' d d' i i' s, A k = Some d → A k' = Some d' → i < cap d → i' < cap d' →
     derive d i = Some s → derive d' i' = Some s → k = k' ∧ i = i').

(** Calls that change the index. *)
Inductive ki_op :=
| KiAdd (k : K) (d : Desc)
| KiLook (k : K) (n : N)
| KiLookAll (n : N)
| KiLookTo (k : K) (t : N)
| KiLookToMulti (m : gmap K N)
| KiReveal (k : K) (t : N)
| KiRevealMulti (m : gmap K N)
| KiNext (k : K)
| KiNextUnused (k : K)
| KiReserve (k : K)
| KiReserveUnused (k : K)
| KiMark (k : K) (i : N)
| KiUnmark (k : K) (i : N)
| KiScan (l : list (OutPoint * TxOut)).

(** The new state, the address handed out if any, and the reported additions. *)
Definition ki_res : Type := KIndex K * option (K * N * Script) * DerivationAdditions K.
Definition addr_res k (r : outcome (KIndex K * (N * Script) * DerivationAdditions K)) : outcome ki_res :=
  match r with Ret (x, is, ad) => Ret (x, Some (k, is.1, is.2), ad) | Panic => Panic end.
Definition state_res (r : outcome (KIndex K)) : outcome ki_res :=
  match r with Ret x => Ret (x, None, ∅) | Panic => Panic end.
Definition ki_step x (op : ki_op) : outcome ki_res :=
  match op with
  | KiAdd k d => state_res (add_keychain x k d)
  | KiLook k n => state_res (set_lookahead x k n)
  | KiLookAll n => state_res (set_lookahead_for_all x n)
  | KiLookTo k t => state_res (lookahead_to_target x k t)
  | KiLookToMulti m => state_res (lookahead_to_target_multi x m)
  | KiReveal k t => match reveal_to_target x k t with Ret (x, _, ad) => Ret (x, None, ad) | Panic => Panic end
  | KiRevealMulti m => match reveal_to_target_multi x m with Ret (x, _, ad) => Ret (x, None, ad) | Panic => Panic end
  | KiNext k => addr_res k (reveal_next_spk x k)
  | KiNextUnused k => addr_res k (next_unused_spk x k)
  | KiReserve k => addr_res k (reveal_and_reserve_next_spk x k)
  | KiReserveUnused k => addr_res k (reserve_next_unused_spk x k)
  | KiMark k i => Ret ((ki_mark_used x k i).1, None, ∅)
  | KiUnmark k i => match ki_unmark_used x k i with Ret r => Ret (r.1, None, ∅) | Panic => Panic end
  | KiScan l => match ki_scan x l with Ret r => Ret (r.1, None, r.2) | Panic => Panic end
  end.
(** A history of calls on a new index: the state, the addresses handed out, all reported
    additions appended. *)
Definition ki_run (h : list ki_op) : outcome (KIndex K * list (K * N * Script) * DerivationAdditions K) :=
  foldl (λ r op, match r with
    | Panic => Panic
    | Ret (x, outs, acc) =>
        match ki_step x op with
        | Panic => Panic
        | Ret (x', o, ad) => Ret (x', outs ++ option_list o, da_append acc ad)
        end
    end) (Ret (ki_default, [], ∅)) h.

(** A keychain has been added. *)
Definition known (h : list ki_op) k : Prop := ∃ d, KiAdd k d ∈ h.
(** What a client owes: the intended descriptor per keychain, known keychains, reveal
    targets within the bound, lookaheads of at most 2^31. *)
Definition ki_op_ok (A : K → option Desc) (h : list ki_op) (op : ki_op) : Prop :=
  match op with
  | KiAdd k d => A k = Some d
  | KiLook k n | KiLookTo k n => known h k ∧ n ≤ 2147483648
  | KiLookAll n => n ≤ 2147483648
  | KiLookToMulti m => ∀ k n, m !! k = Some n → known h k ∧ n ≤ 2147483648
  | KiReveal k t => known h k ∧ t ≤ bip32_max
  | KiRevealMulti m => ∀ k t, m !! k = Some t → known h k ∧ t ≤ bip32_max
  | KiNext k | KiNextUnused k | KiReserve k | KiReserveUnused k => known h k
  | KiMark _ _ | KiUnmark _ _ => True
  | KiScan l => ∀ o u, (o, u) ∈ l → op_ok o
  end.
Definition ki_hist_ok (A : K → option Desc) (h : list ki_op) : Prop :=
  ∀ h1 op h2, h = h1 ++ op :: h2 → ki_op_ok A h1 op.

(** Number of revealed scripts of a keychain. *)
Definition n_revealed x k : N := match ki_revealed x !! k with None => 0 | Some v => v + 1 end.
(** Exactly the first [n] scripts of a keychain are stored. *)
Definition stored x k (n : N) : Prop := ∀ i, is_Some (si_spk_at (ki_inner x) (k, i)) ↔ i < n.

(** The index a target of a keychain leads to, from [nr] revealed scripts with lookahead
    [la]: nothing, the target, or the last derivable index. *)
Definition reveals (d : Desc) (nr la t : N) : option N :=
  if bool_decide (t < nr) then None
  else if bool_decide (t < nr + la) then Some t
  else if bool_decide (nr + la < cap d) then Some (N.min t (cap d - 1))
  else None.
Definition target_of (d : Desc) (t : N) : N := if has_wildcard d then t else 0.

(** The lookahead in force for a keychain: the latest one set for it, alone or for all
    keychains added by then. *)
Definition look_op k (op : ki_op) (r : bool * N) : bool * N :=
  match op with
  | KiAdd k' _ => if decide (k' = k) then (true, r.2) else r
  | KiLook k' n => if decide (k' = k) then (r.1, n) else r
  | KiLookAll n => if r.1 then (true, n) else r
  | _ => r
  end.
Definition look_after (h : list ki_op) k : N := (foldl (λ r op, look_op k op r) (false, 0) h).2.
(** Outputs offered by a history, and the one output a script index may hold per outpoint. *)
Definition op_outs (op : ki_op) : list (OutPoint * TxOut) := match op with KiScan l => l | _ => [] end.
Definition hist_outs (h : list ki_op) : list (OutPoint * TxOut) := h ≫= op_outs.

(** Which keychain and index a script pays, among the keychains [A]. *)
Definition pays_to (A : K → option Desc) (pays : Script → option (K * N)) : Prop :=
  ∀ s k i, pays s = Some (k, i) ↔ ∃ d, A k = Some d ∧ i < cap d ∧ derive d i = Some s.
(** Outputs whose indices never jump by more than the lookahead [la] past the highest one
    seen or revealed ([nr k] is one more than it). *)
Fixpoint gap_ok (pays : Script → option (K * N)) (la nr : K → N) (l : list (OutPoint * TxOut)) : Prop :=
  match l with
  | [] => True
  | (o, u) :: l =>
      match pays (txo_spk u) with
      | None => gap_ok pays la nr l
      | Some (k, i) => i < nr k + la k ∧
          gap_ok pays la (λ k', if decide (k' = k) then N.max (nr k) (i + 1) else nr k') l
      end
  end.

(** Scripts of a keychain from index [lo] up to but not including [hi]. *)
Definition derived (d : Desc) (lo hi : N) (l : list (N * Script)) : Prop :=
  StronglySorted N.lt l.*1 ∧ ∀ i s, (i, s) ∈ l ↔ lo ≤ i ∧ i < hi ∧ derive d i = Some s.
End spec.
Global Arguments ki_op _ {_ _}.
