(** What a timer should account for, name by name. *)
From Verif.Base Require Import Base.
From Verif.Model Require Import Timer.

Section Intervals.
Variable R : Type.
Variable sub add : R -> R -> R.

(** is the timer on; the start of the interval under way; durations of the intervals completed since the last reset *)
Record account := mkAcc { on : bool; since : option R; durations : list R }.

(** effect of a call which returned normally, as far as [name] is concerned *)
Definition credit (name : string) (a : account) (c : tcall R) : account :=
  match c with
  | Start n now => if on a && (n =? name)%string then mkAcc (on a) (Some now) (durations a) else a
  | Stop n now => if on a && (n =? name)%string then
                    match since a with Some s => mkAcc (on a) None (durations a ++ [sub now s]) | None => a end
                  else a
  | Reset => mkAcc (on a) (since a) []
  | Enable => mkAcc true (since a) (durations a)
  | Disable => mkAcc false (since a) (durations a)
  | Times | Hits | Enabled => a
  end.
Definition account_of (name : string) (cs : list (tcall R)) : account := fold_left (credit name) cs (mkAcc true None []).

(** floats are added from left to right *)
Definition total (l : list R) : option R := match l with [] => None | d :: l' => Some (fold_left add l' d) end.
Definition count (l : list R) : option Z := match l with [] => None | _ => Some (Z.of_nat (length l)) end.

(** the calls which returned normally *)
Fixpoint returned {A} (cs : list (tcall R)) (rs : list (res A)) : list (tcall R) :=
  match cs, rs with
  | c :: cs', Ok _ :: rs' => c :: returned cs' rs'
  | _ :: cs', Err _ :: rs' => returned cs' rs'
  | _, _ => []
  end.

(** what the next call should give after the calls [past] returned normally *)
Definition expected (past : list (tcall R)) (c : tcall R) (r : res (tvalue R)) : Prop :=
  let clock_runs := exists name, since (account_of name past) <> None in
  let warned (w : bool) := w = true <-> clock_runs in
  match c with
  | Start n _ => let a := account_of n past in
      if on a then match since a with Some _ => r = Err ValueError | None => r = Ok VNone end else r = Ok VNone
  | Stop n _ => let a := account_of n past in
      if on a then match since a with Some _ => r = Ok VNone | None => r = Err KeyError end else r = Ok VNone
  | Disable => (clock_runs /\ r = Err RuntimeError) \/ (~ clock_runs /\ r = Ok VNone)
  | Times => exists d w, r = Ok (VTimes d w) /\ warned w /\ forall name, dget name d = total (durations (account_of name past))
  | Hits => exists d w, r = Ok (VHits d w) /\ warned w /\ forall name, dget name d = count (durations (account_of name past))
  | Enabled => exists b, r = Ok (VBool b) /\ forall name, b = on (account_of name past)
  | Reset | Enable => r = Ok VNone
  end.
End Intervals.
Arguments on {R}. Arguments since {R}. Arguments durations {R}. Arguments returned {R A}.
