(** Specification vocabulary for independence of the iteration order of hash maps and sets (C96, C97). *)
From Verif Require Export TrackerSpec.

Section spec.
Context `{Countable K} `{ChainPosition P}.

(** The calls differ at most in the iteration orders of the hash maps and sets they meet. *)
Definition same_call (a b : tr_op K P) : Prop :=
  match a, b with
  | TrIndex o, TrIndex o' => o = o'
  | TrUpdate _ sc _, TrUpdate _ sc' _ => sc = sc'
  | TrTx _ t p, TrTx _ t' p' => t = t' ∧ p = p'
  | TrCheckpoint b, TrCheckpoint b' => b = b'
  | TrLimit l, TrLimit l' => l = l'
  | _, _ => False
  end.

(** Two results: the same value, or two errors that are the same by [R]; no panic. *)
Definition agree {X E} (R : E → E → Prop) (a b : outcome (result X E)) : Prop :=
  match a, b with
  | Ret (Ok x), Ret (Ok y) => x = y
  | Ret (Err e), Ret (Err e') => R e e'
  | _, _ => False
  end.
(** The same error; which of several transactions contradicts the chain may differ. *)
Definition same_update_error (e e' : CgUpdateError P) : Prop :=
  match e, e' with
  | CgUpdChain (NotConnected h), CgUpdChain (NotConnected h') => h = h'
  | CgUpdChain (TxInconsistent _ _ _), CgUpdChain (TxInconsistent _ _ _) => True
  | CgUpdConflict e, CgUpdConflict e' => e = e'
  | _, _ => False
  end.
(** The same reason; of a double spend the first transaction. *)
Definition same_new_error (e e' : NewError P) : Prop :=
  match e, e' with
  | NewConflict a _, NewConflict a' _ => a = a'
  | NewMissing m, NewMissing m' => m = m'
  | _, _ => False
  end.
End spec.
