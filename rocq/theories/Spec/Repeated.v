(** Nudging again and again towards the same reference, also by ranks which hold parts of both. *)
From Verif.Base Require Import Base.
From Verif.Model Require Import Consts Numpy Quantity Collective ScatterGather Nudging.
From Verif.Spec Require Import Grid Views Relaxation Distribute.

Section Repeated.
Context {V T Tm : Type}.
Variables (sub add : V -> V -> V) (div mul : V -> T -> V).

(** a value nudged [n] times *)
Fixpoint settled (n : nat) (r : V) (tau dt : T) (s : V) : V :=
  match n with O => s | S n' => settled n' r tau dt (relaxed sub add div mul s r tau dt) end.

(** the loop of a program which calls apply_nudging in each of [n] steps, until it raises *)
Fixpoint nudge_steps (n : nat) (reference_state : dict (quantity V)) (timescales : dict T) (dt : T) (state : dict (quantity V))
    : dict (quantity V) * res unit :=
  match n with
  | O => (state, Ok tt)
  | S n' =>
      match apply_nudging sub add div mul state reference_state timescales dt with
      | (state', Err e) => (state', Err e)
      | (state', Ok _) => nudge_steps n' reference_state timescales dt state'
      end
  end.

(** a rank's program: receive parts of a quantity and of its reference, nudge, send the result back *)
Definition nudging_rank (p : partitioner) (n : nat) (name : string) (tau dt : T) (r : nat) (junk junk1 junk2 : nat -> idx -> V)
    (send reference recv : option (quantity V)) (out : option (quantity V)) : program V Tm (option (quantity V)) :=
  pbind (scatter V Tm p (Z.of_nat r) junk send recv) (fun q =>
  pbind (scatter V Tm p (Z.of_nat r) junk1 reference None) (fun ref =>
  pbind (plift (match nudge_steps n [(name, ref)] [(name, tau)] dt [(name, q)] with
                | (state, Ok _) => match dget name state with Some q => Ok q | None => Err KeyError end
                | (_, Err e) => Err e
                end)) (fun q =>
  gather V Tm p (Z.of_nat r) junk2 q out))).
End Repeated.

(** exact arithmetic: powers, and numbers of steps as rational numbers *)
From Coq Require Import QArith.
Fixpoint qpow (h : Q) (n : nat) : Q := match n with O => 1 | S n' => h * qpow h n' end.
Definition qn (n : nat) : Q := inject_Z (Z.of_nat n).
