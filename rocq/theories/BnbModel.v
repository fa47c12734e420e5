(** Model of bdk_coin_select/src/bnb.rs (code at the pinned commit).  Positions in
    the pool are [nat]: they never exceed the pool's length by more than one. *)
From Verif Require Export CoinSelectModel.

(** bnb.rs:3-11 [BranchStrategy]. *)
Inductive BranchStrategy := Continue | SkipInclusion | SkipBoth.
(** bnb.rs:13-20 [will_continue]. *)
Definition will_continue (b : BranchStrategy) : bool :=
  match b with Continue | SkipInclusion => true | SkipBoth => false end.

(** bnb.rs:26-35 [Bnb]. *)
Record Bnb (S : Type) := mkBnb {
  b_pool : list (nat * WeightedValue);
  b_pos : nat;
  b_best : S;
  b_selection : CoinSelector;
  b_rem_abs : Z;
  b_rem_eff : Z
}.
Global Arguments mkBnb {S} _ _ _ _ _ _.
Global Arguments b_pool {S} _.
Global Arguments b_pos {S} _.
Global Arguments b_best {S} _.
Global Arguments b_selection {S} _.
Global Arguments b_rem_abs {S} _.
Global Arguments b_rem_eff {S} _.

(** bnb.rs:22-24 [DecideStrategy]: the closure may itself panic. *)
Definition DecideStrategy (S : Type) : Type := Bnb S → outcome (BranchStrategy * option S).

(** bnb.rs:113-120 [BnbIter]; the strategy is an argument of the functions. *)
Record BnbIter (S : Type) := mkIter { bi_state : Bnb S; bi_done : bool }.
Global Arguments mkIter {S} _ _.
Global Arguments bi_state {S} _.
Global Arguments bi_done {S} _.

(** One check of the clock in [take_while], bnb.rs:308: still in time, time is up, or
    the system clock went backwards and [expect] panics. *)
Inductive tick := InTime | TimeUp | ClockBack.
(** bnb.rs:172-177 [BnbLimit]; a duration is what the successive checks will say (past
    the end of the list time is up). *)
Inductive BnbLimit := Rounds (n : nat) | Duration (clock : list tick).

Section profile.
Context (dbg : bool).

(** [pool.iter().fold((0, 0), ..)], bnb.rs:40-45, and the same fold at 282-287. *)
Fixpoint totals (rate : f32) (abs eff : Z) (l : list (nat * WeightedValue)) : outcome (Z * Z) :=
  match l with
  | [] => Ret (abs, eff)
  | (_, c) :: l' =>
      abs' ← fit dbg U64 (abs + wv_value c);
      e ← effective_value dbg c rate;
      eff' ← fit dbg I64 (eff + e);
      totals rate abs' eff' l'
  end.

Section generic.
Context {S : Type} `{Ord S}.
Implicit Type b : Bnb S.

(** bnb.rs:38-55 [Bnb::new]. *)
Definition bnb_new (s : CoinSelector) (pool : list (nat * WeightedValue)) (max : S) : outcome (Bnb S) :=
  '(abs, eff) ← totals (o_rate (cs_opts s)) 0 0 pool;
  Ret (mkBnb pool 0%nat max s abs eff).

(** bnb.rs:69-89 [backtrack]: looks at positions [n-1], ..., 0; returns the new state
    and whether a selected position was found. *)
Fixpoint backtrack_from (b : Bnb S) (n : nat) : outcome (Bnb S * bool) :=
  match n with
  | O => Ret (b, false)
  | Datatypes.S pos =>
      match b_pool b !! pos with
      | None => Panic
      | Some (i, c) =>
          if cs_is_selected (b_selection b) i then
            Ret (mkBnb (b_pool b) pos (b_best b) (cs_deselect (b_selection b) i).1
                       (b_rem_abs b) (b_rem_eff b), true)
          else
            abs ← fit dbg U64 (b_rem_abs b + wv_value c);
            e ← effective_value dbg c (o_rate (cs_opts (b_selection b)));
            eff ← fit dbg I64 (b_rem_eff b + e);
            backtrack_from (mkBnb (b_pool b) (b_pos b) (b_best b) (b_selection b) abs eff) pos
      end
  end.
(** bnb.rs:69-89: from the current position *)
Definition backtrack (b : Bnb S) : outcome (Bnb S * bool) := backtrack_from b (b_pos b).

(** bnb.rs:91-100 [forward]. *)
Definition forward (b : Bnb S) (skip : bool) : outcome (Bnb S) :=
  match b_pool b !! b_pos b with
  | None => Panic
  | Some (i, c) =>
      abs ← fit dbg U64 (b_rem_abs b - wv_value c);
      e ← effective_value dbg c (o_rate (cs_opts (b_selection b)));
      eff ← fit dbg I64 (b_rem_eff b - e);
      sel ← (if skip then Ret (b_selection b)
             else '(s', _) ← cs_select (b_selection b) i; Ret s');
      Ret (mkBnb (b_pool b) (b_pos b) (b_best b) sel abs eff)
  end.

(** bnb.rs:102-110 [advertise_new_score]. *)
Definition advertise (b : Bnb S) (score : S) : Bnb S * bool :=
  if decide (ord_le score (b_best b))
  then (mkBnb (b_pool b) (b_pos b) score (b_selection b) (b_rem_abs b) (b_rem_eff b), true)
  else (b, false).

(** bnb.rs:125-168 [BnbIter::next]: the outer option is the iterator's. *)
Definition iter_next (strategy : DecideStrategy S) (it : BnbIter S)
    : outcome (BnbIter S * option (option CoinSelector)) :=
  if bi_done it then Ret (it, None)
  else
    '(br, score) ← strategy (bi_state it);
    let '(b, found) :=
      match (score : option S) with
      | Some sc =>
          let '(b', better) := advertise (bi_state it) sc in
          (b', if (better : bool) then Some (b_selection (bi_state it)) else None)
      | None => (bi_state it, None)
      end in
    (* debug_assert!, 141-145 *)
    if dbg && will_continue br && negb (bool_decide (b_pos b < length (b_pool b))%nat) then Panic
    else
      '(b', done) ← match br with
        | Continue => b' ← forward b false; Ret (b', false)
        | SkipInclusion => b' ← forward b true; Ret (b', false)
        | SkipBoth => '(b', more) ← backtrack b; Ret (b', negb more)
        end;
      let it' := mkIter (mkBnb (b_pool b') (Datatypes.S (b_pos b')) (b_best b') (b_selection b')
                               (b_rem_abs b') (b_rem_eff b')) done in
      Ret (it', match found with
                | Some _ => Some found
                | None => if (done : bool) then None else Some None
                end).

(** [reduce(|b, c| if c.is_some() { c } else { b })] on one more item, bnb.rs:302,309. *)
Definition better_of (acc : option (option CoinSelector)) (c : option CoinSelector)
    : option (option CoinSelector) :=
  match acc with
  | None => Some c
  | Some b => Some (match c with Some _ => c | None => b end)
  end.

(** bnb.rs:300-302: [take(rounds).reduce(..)]. *)
Fixpoint run_rounds (strategy : DecideStrategy S) (n : nat) (it : BnbIter S)
    (acc : option (option CoinSelector)) : outcome (option (option CoinSelector)) :=
  match n with
  | O => Ret acc
  | Datatypes.S n' =>
      '(it', item) ← iter_next strategy it;
      match (item : option (option CoinSelector)) with
      | None => Ret acc
      | Some c => run_rounds strategy n' it' (better_of acc c)
      end
  end.

(** bnb.rs:306-309: [take_while(..).reduce(..)]; the item that comes too late is
    dropped. *)
Fixpoint run_clock (strategy : DecideStrategy S) (clock : list tick) (it : BnbIter S)
    (acc : option (option CoinSelector)) : outcome (option (option CoinSelector)) :=
  '(it', item) ← iter_next strategy it;
  match (item : option (option CoinSelector)) with
  | None => Ret acc
  | Some c =>
      match clock with
      | InTime :: clock' => run_clock strategy clock' it' (better_of acc c)
      | ClockBack :: _ => Panic
      | TimeUp :: _ | [] => Ret acc
      end
  end.

End generic.

(** The comparison by descending effective value, bnb.rs:220-224.  The filter before it
    has evaluated every effective value, so it cannot panic any more. *)
Definition eff_of (rate : f32) (c : WeightedValue) : Z :=
  wrap I64 (wrap I64 (wv_value c) - f32_as I64 (weight_fee (wv_weight c) rate)).
Definition by_eff_desc (rate : f32) (x y : nat * WeightedValue) : comparison :=
  eff_of rate y.2 ?= eff_of rate x.2.

(** bnb.rs:216-219: the unselected candidates with a positive effective value. *)
Fixpoint positive_eff (rate : f32) (l : list (nat * WeightedValue))
    : outcome (list (nat * WeightedValue)) :=
  match l with
  | [] => Ret []
  | p :: l' =>
      e ← effective_value dbg p.2 rate;
      r ← positive_eff rate l';
      Ret (if 0 <? e then p :: r else r)
  end.

(** bnb.rs:236-279: the strategy closure with what it captures. *)
Definition bnb_strategy (feerate_decreases : bool) (target_abs target_eff ub_abs ub_eff : Z)
    : DecideStrategy Z := λ b,
  let s := b_selection b in
  sel_abs ← selected_absolute_value dbg s;
  sel_eff ← selected_effective_value dbg s;
  all_abs ← fit dbg U64 (sel_abs + b_rem_abs b);
  (* [||]: the second sum is only formed if the first test fails *)
  short ← (if all_abs <? target_abs then Ret true
           else all_eff ← fit dbg I64 (sel_eff + b_rem_eff b); Ret (all_eff <? target_eff));
  if (short : bool) then Ret (SkipBoth, None)
  else if (ub_abs <? sel_abs) && (ub_eff <? sel_eff) then Ret (SkipBoth, None)
  else
    waste ← selected_waste dbg s;
    if feerate_decreases && (b_best b <? waste) then Ret (SkipBoth, None)
    else if (target_abs <=? sel_abs) && (target_eff <=? sel_eff) then
      ex ← current_excess dbg s;
      w ← fit dbg I64 (waste + ex);
      Ret (SkipBoth, Some w)
    else if (0 <? b_pos b)%nat && negb (cs_is_empty s) then
      match b_pool b !! b_pos b, b_pool b !! (b_pos b - 1)%nat with
      | Some (_, c), Some (pi, pc) =>
          if negb (cs_is_selected s pi) && (wv_value c =? wv_value pc) && (wv_weight c =? wv_weight pc)
          then Ret (SkipInclusion, None)
          else Ret (Continue, None)
      | _, _ => Panic
      end
    else Ret (Continue, None).

(** bnb.rs:206-312 [coin_select_bnb].  [sort cmp l] is what [sort_unstable_by] makes of
    [l]: the order of candidates comparing equal is not specified. *)
Definition coin_select_bnb
    (sort : (nat * WeightedValue → nat * WeightedValue → comparison)
            → list (nat * WeightedValue) → list (nat * WeightedValue))
    (limit : BnbLimit) (s : CoinSelector) : outcome (option CoinSelector) :=
  let o := cs_opts s in
  pool0 ← positive_eff (o_rate o) (cs_unselected s);
  let pool := sort (by_eff_desc (o_rate o)) pool0 in
  let feerate_decreases := f32_gt (o_rate o) (long_term_feerate o) in
  target_abs ← fit dbg U64 (default 0 (o_target o) + o_min_fee o);
  target_eff ← effective_target dbg s;
  ub_abs ← fit dbg U64 (target_abs + f32_as U64 (f32_mul (f32_of (o_drain o)) (o_rate o)));
  ub_eff ← fit dbg I64 (target_eff + drain_waste o);
  let strategy := bnb_strategy feerate_decreases target_abs target_eff ub_abs ub_eff in
  sel ← cs_selected s;
  '(sel_abs, sel_eff) ← totals (o_rate o) 0 0 sel;
  b ← bnb_new s pool (imax I64);
  all_abs ← fit dbg U64 (sel_abs + b_rem_abs b);
  short ← (if all_abs <? target_abs then Ret true
           else all_eff ← fit dbg I64 (sel_eff + b_rem_eff b); Ret (all_eff <? target_eff));
  if (short : bool) then Ret None
  else
    r ← match limit with
        | Rounds n => run_rounds strategy n (mkIter b false) None
        | Duration clock => run_clock strategy clock (mkIter b false) None
        end;
    Ret (default None r).

End profile.
