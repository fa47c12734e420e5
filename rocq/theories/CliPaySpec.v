(** Specification: when a payment can be made (C104). *)
From Verif Require CoinSelectSpec PlanSpec.
From Verif Require Export CliSpec.
Local Open Scope N_scope.

Section pay.
Context `{!DescEnv, !CliEnv, !PlanModel.KeyEnv} `{ChainPosition P}.
Implicit Types (x : Tracker Keychain P) (ch : Choices P).

(** An unspent output of the wallet with a plan for spending it; [n] is what the plan says script sig
    and witness will weigh. *)
Definition coin ext int ch x (kf : Keychain * N * FullTxOut P) (n : N) : Prop :=
  unspent x kf.1 kf.2 ∧
  ∃ d p, keychains ext int kf.1.1 = Some d ∧ plans ch d kf.1.2 p ∧ PlanModel.expected_weight p = Ret n.
(** Different coins, with what spending each weighs. *)
Definition coins ext int ch x (l : list (Keychain * N * FullTxOut P * N)) : Prop :=
  NoDup l.*1 ∧ ∀ kf n, (kf, n) ∈ l → coin ext int ch x kf n.
(** The weight of a transaction that spends inputs like these to the one output, after BIP 141: 40
    bytes of each input are outpoint and sequence. *)
Definition pay_weight (addr : Script) (ns : list N) : Z :=
  4 * (4 + CoinSelectSpec.compact_len (Z.of_nat (length ns)) + 1 + (8 + CoinSelectSpec.bytes_len (Z.of_N (script_len addr))) + 4)
  + CoinSelectSpec.Zsum ((λ n, 160 + Z.of_N n)%Z <$> ns) + (match ns with [] => 0 | _ => 2 end)%Z.
(** The coins pay for the output and for the fee, which is half a satoshi for each unit of weight. *)
Definition pay (value : N) (addr : Script) (l : list (Keychain * N * FullTxOut P * N)) : Prop :=
  (2 * Z.of_N value + pay_weight addr l.*2 ≤ 2 * Z.of_N (sumN (value_of <$> l.*1)))%Z.
(** The coin brings more than spending it can cost: 8 for a longer count of inputs. *)
Definition worthwhile (kf : Keychain * N * FullTxOut P) (n : N) : Prop := 160 + n + 8 ≤ 2 * value_of kf.

(** The wallet can sign: its descriptors are taproot, with leaves the planner handles, it has the secrets of
    the keys it plans with, every plan needs a signature, and there is one for every change script. *)
Record signer ext int ch (km : PlanModel.KeyMap) : Prop := mk_signer {
  sg_tr : ∀ k d i, keychains ext int k = Some d → ∃ tr, desc_at d i = PlanModel.DTr tr ∧
    ∀ t, t ∈ PlanModel.iter_scripts tr → PlanSpec.handled t = true;
  sg_change : ∀ k d i, keychains ext int k = Some d → (int = None ∨ k = Internal) → ∃ p, plans ch d i p;
  sg_keys : ∀ k, k ∈ ch_keys ch → is_Some (km !! k);
  sg_derive : ∀ k s hint, km !! k = Some s → is_Some (PlanModel.secret_of s hint);
  sg_needs : ∀ k d i p r, keychains ext int k = Some d → plans ch d i p → PlanModel.requirements p = Ret r →
    PlanSpec.req_keys (PlanModel.r_sigs r) ≠ [];
  sg_hash : ∀ t pv i, (i < length (ct_in t))%nat → length pv = length (ct_in t) →
    is_Some (sighash_key t pv i) ∧ ∀ leaf, is_Some (sighash_leaf t pv i leaf)
}.
End pay.
