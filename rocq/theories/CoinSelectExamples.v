(** Concrete selections. *)
From Verif Require Export MachineSpec CoinSelectModel CoinSelectSpec.
From Verif Require Import BaseProofs F32Proofs CoinSelectProofs CoinSelectProofs2 CoinSelectProofs3 CoinSelectProofs4.

Definition ratio (a b : Z) : f32 := f32_div (f32_of a) (f32_of b).

(** 2.5 sat/vB, one output of 50000 to a P2WPKH script and a change output. *)
Definition ex_opts : CoinSelectorOpt :=
  mkOpt (Some 50000) 2000 (ratio 5 8) (Some f32_quarter) 200 164 124 272 297.
Definition ex_cands : list WeightedValue :=
  [mkWV 30000 272 1 true; mkWV 25000 592 1 false; mkWV 90000 272 1 true; mkWV 700 592 1 false].
Definition ex_sel : CoinSelector := mkCS ex_opts ex_cands {[ 0%nat; 1%nat ]}.
Definition ex_short : CoinSelector := mkCS ex_opts ex_cands {[ 0%nat; 3%nat ]}.
Definition ex_empty : CoinSelector := mkCS ex_opts ex_cands ∅.

(** Boolean checks of the hypotheses. *)
Definition typedb (s : CoinSelector) : bool :=
  let o := cs_opts s in
  match o_target o with Some t => in_ity U64 t | None => true end &&
  forallb (in_ity U64) [o_extra o; o_min_fee o; o_min_drain o] &&
  forallb (in_ity U32) [o_base o; o_drain o; o_spend_drain o] &&
  forallb (λ c, in_ity U64 (wv_value c) && in_ity U32 (wv_weight c) && in_ity USize (wv_count c)) (cs_cands s) &&
  forallb (λ i, Nat.ltb i (length (cs_cands s))) (elements (cs_sel s)).
Definition rateb (r : f32) : bool :=
  match r with
  | S754_zero _ => true
  | S754_finite false m e =>
      (-149 <=? e) && (e <=? 104) && (Zpos m <? 2 ^ 24) && ((2 ^ 23 <=? Zpos m) || (e =? -149)) &&
      (Zpos m * 2 ^ (e + 400) <=? 2 ^ 420)
  | _ => false
  end.
Definition modestb (s : CoinSelector) : bool :=
  let o := cs_opts s in
  (Zsum (wv_value <$> cs_cands s) <=? 2 ^ 61) &&
  (o_base o + Zsum (wv_weight <$> cs_cands s) + o_drain o + o_spend_drain o <=? 2 ^ 31) &&
  (Zsum (wv_count <$> cs_cands s) <=? 2 ^ 62) &&
  (default 0 (o_target o) <=? 2 ^ 61) && (o_min_fee o <=? 2 ^ 61) && (o_min_drain o <=? 2 ^ 61) &&
  rateb (o_rate o) && match o_long_rate o with Some r => rateb r | None => true end.

Lemma typedb_ok s : typedb s = true → typed s.
Proof.
  unfold typedb. intros [[[[H0 H1]%andb_true_iff H2]%andb_true_iff H3]%andb_true_iff H4]%andb_true_iff.
  cbn [forallb] in H1, H2. rewrite !andb_true_iff in H1, H2. rewrite !in_ity_true in H1, H2.
  split; [|split].
  - unfold opts_ok. split; [|tauto]. intros t Ht. rewrite Ht in H0. by apply in_ity_true in H0.
  - apply Forall_forall. intros c Hc. rewrite forallb_forall in H3. apply elem_of_list_In in Hc.
    specialize (H3 _ Hc). rewrite !andb_true_iff, !in_ity_true in H3. unfold wv_ok. tauto.
  - intros i Hi. rewrite forallb_forall in H4. apply elem_of_elements, elem_of_list_In in Hi.
    specialize (H4 _ Hi). by apply Nat.ltb_lt in H4.
Qed.
Lemma rateb_ok r : rateb r = true → rate_ok r.
Proof.
  destruct r as [b|b| |[] m e]; cbn [rateb]; try done.
  - intros _. exists 0. split; [done|lia].
  - rewrite !andb_true_iff, orb_true_iff, !Z.leb_le, Z.ltb_lt, Z.eqb_eq. intros ([[[] ?] ?] & ?).
    eexists. split; [cbn [f32_is]; split; [lia|done]|done].
Qed.
Lemma modestb_ok s : modestb s = true → modest s.
Proof.
  unfold modestb, modest. rewrite !andb_true_iff, !Z.leb_le.
  intros (((((((?&?)&?)&?)&?)&?)&Hr)&Hl). do 6 (split; [done|]). split; [by apply rateb_ok|].
  intros r Hr'. rewrite Hr' in Hl. by apply rateb_ok.
Qed.

Lemma ex_sel_ok : typed ex_sel ∧ modest ex_sel.
Proof. split; [by apply typedb_ok; vm_compute|by apply modestb_ok; vm_compute]. Qed.
Lemma ex_short_ok : typed ex_short ∧ modest ex_short.
Proof. split; [by apply typedb_ok; vm_compute|by apply modestb_ok; vm_compute]. Qed.
Lemma ex_empty_ok : typed ex_empty ∧ modest ex_empty.
Proof. split; [by apply typedb_ok; vm_compute|by apply modestb_ok; vm_compute]. Qed.

Lemma ex_sel_finish : ∃ sn, finish true ex_sel = Ret (Ok sn) ∧ finish false ex_sel = Ret (Ok sn) ∧ sn_excess sn = 4356 ∧
  sn_strategies sn =
    [(ToFee, mkES (Some 50000) None 5000 1030 4680); (ToRecipient, mkES (Some 52000) None 3000 1030 2680);
     (ToDrain, mkES (Some 50000) (Some 4278) 722 1154 469)].
Proof. eexists. split; [vm_compute; reflexivity|]. split; [vm_compute; reflexivity|]. done. Qed.
Lemma ex_short_finish : finish true ex_short = Ret (Err (mkSE 30700 19944 TargetFee)).
Proof. by vm_compute. Qed.

(** A selection of 1200 without a target, when the minimum fee is above the fee at the target rate: the drain
    would be worth 200 after the fee of 1000, less than its minimum of 500. *)
Definition ex_stuck : CoinSelector :=
  mkCS (mkOpt None 0 f32_quarter None 1000 40 124 272 500) [mkWV 1200 272 1 true] {[ 0%nat ]}.
Lemma ex_stuck_ok : typed ex_stuck ∧ modest ex_stuck.
Proof. split; [by apply typedb_ok; vm_compute|by apply modestb_ok; vm_compute]. Qed.
Lemma ex_stuck_finish : finish true ex_stuck = Panic ∧
  ∃ sn, finish false ex_stuck = Ret (Ok sn) ∧ sn_strategies sn = [] ∧ best_strategy (sn_strategies sn) = Panic.
Proof. split; [by vm_compute|]. eexists. split; [vm_compute; reflexivity|]. done. Qed.

(** 560 weight units at the float nearest to 1/7, which is above 1/7: the fee is 80. *)
Definition ex_seventh : CoinSelector :=
  mkCS (mkOpt (Some 920) 0 (ratio 1 7) None 0 286 124 272 500) [mkWV 1000 272 1 true] {[ 0%nat ]}.
Lemma ex_seventh_ok : typed ex_seventh ∧ modest ex_seventh.
Proof. split; [by apply typedb_ok; vm_compute|by apply modestb_ok; vm_compute]. Qed.
Lemma ex_seventh_underpays : ∃ s sn k e R, typed s ∧ modest s ∧ finish true s = Ret (Ok sn) ∧ finish false s = Ret (Ok sn) ∧
  (k, e) ∈ sn_strategies sn ∧ f32_is (o_rate (cs_opts s)) R ∧ es_fee e * 2 ^ 400 < es_weight e * R.
Proof.
  exists ex_seventh. destruct ex_seventh_ok as [Ht Hm]. eexists.
  exists ToFee, (mkES (Some 920) None 80 560 0), (9586981 * 2 ^ 374). split; [done|]. split; [done|].
  split; [vm_compute; reflexivity|]. split; [vm_compute; reflexivity|]. split; [apply elem_of_list_here|].
  split; [|vm_compute; reflexivity].
  change (o_rate (cs_opts ex_seventh)) with (ratio 1 7).
  assert (ratio 1 7 = S754_finite false 9586981 (-26)) as -> by (vm_compute; reflexivity).
  cbn [f32_is]. lia.
Qed.

(** Values beyond all bitcoins: the release build adds them up to zero. *)
Definition ex_huge : CoinSelector :=
  mkCS ex_opts [mkWV (2 ^ 63) 272 1 true; mkWV (2 ^ 63) 272 1 true] {[ 0%nat; 1%nat ]}.
Lemma ex_huge_finish : typed ex_huge ∧ needed ex_huge TargetFee < value_in ex_huge ∧ finish true ex_huge = Panic ∧
  ∃ e, finish false ex_huge = Ret (Err e) ∧ se_selected e = 0.
Proof.
  split; [by apply typedb_ok; vm_compute|]. split; [vm_compute; reflexivity|]. split; [by vm_compute|].
  eexists. split; [vm_compute; reflexivity|]. done.
Qed.

(** A payment to two outputs with change, from a P2WPKH, a P2PKH and a Taproot input. *)
Definition ex_outs : list (Z * Z) := [(50000, 22); (20000, 34)].
Definition ex_ins : list (Z * tx_input) :=
  [(30000, mkTI 0 [72; 33]); (25000, mkTI 107 []); (90000, mkTI 0 [64])].
Lemma ex_funded : ∃ o s, opt_fund_outputs true ex_outs (0, 22) 109 = Ret o ∧ o_target o = Some 70000 ∧
  in_type U32 (outputs_weight ex_outs) ∧ in_type U32 (outputs_weight (ex_outs ++ [(0, 22)]) - outputs_weight ex_outs) ∧
  cs_opts s = o ∧ Forall2 (built true) ex_ins (cs_cands s) ∧ cs_sel s = {[ 1%nat; 2%nat ]} ∧
  tx_weight s true = bip141_weight [mkTI 107 []; mkTI 0 [64]] (ex_outs ++ [(0, 22)]) ∧ tx_weight s true = 1285.
Proof.
  eexists. exists (mkCS (match opt_fund_outputs true ex_outs (0, 22) 109 with Ret o => o | Panic => ex_opts end)
    [mkWV 30000 272 1 true; mkWV 25000 593 1 false; mkWV 90000 230 1 true] {[ 1%nat; 2%nat ]}).
  split; [vm_compute; reflexivity|]. split; [done|].
  split; [vm_compute; split; discriminate|]. split; [vm_compute; split; discriminate|]. split; [vm_compute; reflexivity|].
  split.
  { repeat (apply Forall2_cons; split); [..|done]; (split; [vm_compute; reflexivity|vm_compute; split; discriminate]). }
  split; [done|]. split; vm_compute; reflexivity.
Qed.
Lemma f32_is_three : f32_is (f32_mul (f32_of 3) f32_quarter) (3 * 2 ^ 398).
Proof.
  assert (f32_mul (f32_of 3) f32_quarter = S754_finite false 12582912 (-24)) as -> by (vm_compute; reflexivity).
  cbn [f32_is]. lia.
Qed.
Lemma ex_empty_until : ∃ sn s', select_until_finished true ex_empty = Ret (Ok sn, s') ∧ bset_list (cs_sel s') = [0%nat; 1%nat].
Proof. do 2 eexists. split; [vm_compute; reflexivity|]. vm_compute. reflexivity. Qed.
