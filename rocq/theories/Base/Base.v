(** Results with python exceptions, dictionaries, integer ranges. *)
From Coq Require Export ZArith String List Bool Lia.
From Coq Require Import ZifyBool.
Export ListNotations.
Open Scope Z_scope.

(** Python exception classes which the modelled code can raise. *)
Inductive exc : Type :=
| ValueError | KeyError | IndexError | AttributeError | TypeError
| NotImplementedError | RuntimeError | ZeroDivisionError | OverflowError
| OutOfBoundsError | ConcurrencyError | UnitsError | OSError.

(** Result of a python call: a value or a raised exception. *)
Inductive res (A : Type) : Type :=
| Ok (a : A)
| Err (e : exc).
Arguments Ok {A} a.
Arguments Err {A} e.

Definition bind {A B} (m : res A) (f : A -> res B) : res B :=
  match m with Ok a => f a | Err e => Err e end.

Definition rmap {A B} (f : A -> B) (m : res A) : res B :=
  match m with Ok a => Ok (f a) | Err e => Err e end.

Declare Scope res_scope.
Delimit Scope res_scope with res.
Notation "'do' x <- m ; k" := (bind m (fun x => k))
  (at level 200, x pattern, m at level 100, k at level 200, right associativity) : res_scope.
Open Scope res_scope.

(** Python evaluates a list of calls left to right, stopping at the first exception. *)
Fixpoint rseq {A} (l : list (res A)) : res (list A) :=
  match l with
  | [] => Ok []
  | m :: l' => do a <- m; do r <- rseq l'; Ok (a :: r)
  end.

Fixpoint rmapM {A B} (f : A -> res B) (l : list A) : res (list B) :=
  match l with
  | [] => Ok []
  | a :: l' => do b <- f a; do r <- rmapM f l'; Ok (b :: r)
  end.

Fixpoint rfold {A S} (f : S -> A -> res S) (l : list A) (s : S) : res S :=
  match l with
  | [] => Ok s
  | a :: l' => do s' <- f s a; rfold f l' s'
  end.

(** [range n] is python's range(0, n). *)
Definition zrange (n : Z) : list Z := map Z.of_nat (seq 0 (Z.to_nat n)).

(** python [x in tuple_of_strings] *)
Definition sin (d : string) (l : list string) : bool := existsb (String.eqb d) l.

(** Replace the entry at position [i]; no change if out of range. *)
Fixpoint upd {A} (l : list A) (i : nat) (a : A) : list A :=
  match l, i with
  | [], _ => []
  | _ :: l', O => a :: l'
  | x :: l', S i' => x :: upd l' i' a
  end.

(** Dictionaries in insertion order, as python's dict. *)
Definition dict (A : Type) := list (string * A).

Fixpoint dget {A} (k : string) (d : dict A) : option A :=
  match d with
  | [] => None
  | (k', a) :: d' => if String.eqb k k' then Some a else dget k d'
  end.

Fixpoint dset {A} (k : string) (a : A) (d : dict A) : dict A :=
  match d with
  | [] => [(k, a)]
  | (k', a') :: d' => if String.eqb k k' then (k', a) :: d' else (k', a') :: dset k a d'
  end.

Fixpoint dpop {A} (k : string) (d : dict A) : dict A :=
  match d with
  | [] => []
  | (k', a') :: d' => if String.eqb k k' then d' else (k', a') :: dpop k d'
  end.

Definition dmem {A} (k : string) (d : dict A) : bool :=
  match dget k d with Some _ => true | None => false end.

Definition dkeys {A} (d : dict A) : list string := map fst d.
