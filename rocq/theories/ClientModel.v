(** Programs that talk to a server, for bdk_electrum/src/lib.rs and bdk_esplora/src/lib.rs.
    A server is one state per request: [srv n] answers request number [n], so it may change
    its mind (reorganise, fail, lie) between any two requests. *)
From Verif Require Export Base.

(** [electrum_client::Error] and [esplora_client::Error]: only [Error::Protocol] is told
    apart (bdk_electrum/src/lib.rs:503). *)
Inductive ClientError := Protocol | OtherError.
Global Instance ClientError_eq_dec : EqDecision ClientError.
Proof. solve_decision. Defined.

(** How a program ends: with a value, with a client error handed on by [?], with a panic;
    or it has not ended yet (loops carry fuel, bdk_electrum/src/lib.rs:129 and :371,
    bdk_esplora/src/lib.rs:113 and :147).  [n] is the number of requests made so far. *)
Inductive run (A : Type) : Type :=
| Done (n : nat) (a : A)
| Failed (n : nat) (e : ClientError)
| Crashed
| Unfinished.
Global Arguments Done {_} _ _.
Global Arguments Failed {_} _ _.
Global Arguments Crashed {_}.
Global Arguments Unfinished {_}.

(** A program: from the number of requests made so far to how it ends; the functions of
    bdk_electrum/src/lib.rs:75-595 and bdk_esplora/src/lib.rs:50-293 are such programs. *)
Definition prog (A : Type) : Type := nat → run A.
(** [Ok(a)], bdk_electrum/src/lib.rs:202 *)
Definition ret {A} (a : A) : prog A := λ n, Done n a.
(** Sequencing; the [?] operator, bdk_electrum/src/lib.rs:130 *)
Definition bnd {A B} (p : prog A) (f : A → prog B) : prog B := λ n,
  match p n with
  | Done n a => f a n
  | Failed n e => Failed n e
  | Crashed => Crashed
  | Unfinished => Unfinished
  end.
(** A computation without requests that may panic, bdk_electrum/src/lib.rs:349 *)
Definition lift {A} (o : outcome A) : prog A := λ n,
  match o with Ret a => Done n a | Panic => Crashed end.
(** Out of fuel: the loops of bdk_electrum/src/lib.rs:129 and bdk_esplora/src/lib.rs:113, 147 *)
Definition unfinished {A} : prog A := λ _, Unfinished.
(** One request whose error is handled by the caller (bdk_electrum/src/lib.rs:501) *)
Definition ask {S A} (srv : nat → S) (q : S → result A ClientError) : prog (result A ClientError) :=
  λ n, Done (n + 1)%nat (q (srv n)).
(** One request followed by [?], bdk_electrum/src/lib.rs:332 *)
Definition req {S A} (srv : nat → S) (q : S → result A ClientError) : prog A :=
  λ n, match q (srv n) with Ok a => Done (n + 1)%nat a | Err e => Failed (n + 1)%nat e end.

Declare Scope prog_scope.
Delimit Scope prog_scope with prog.
Notation "x ⇐ p ; f" := (bnd p (λ x : _, f))
  (at level 20, p at level 100, f at level 200, only parsing) : prog_scope.
Notation "' x ⇐ p ; f" := (bnd p (λ x : _, f))
  (at level 20, x pattern, p at level 100, f at level 200, only parsing) : prog_scope.
