(** Model of fv3gfs/util/_timing.py: Timer and NullTimer as state machines.
    Clock readings (timeit.default_timer) are arguments of the calls; readings and durations have an abstract type with
    the subtraction and addition of floats, about which nothing is assumed. *)
From Verif.Base Require Import Base.

Section Timer.
Variable R : Type.
Variable sub add : R -> R -> R.

(** _timing.py:10-14 and 115-117: the instance attributes; [t_null] tells NullTimer from Timer *)
Record timer := mkTimer { t_null : bool; t_starts : dict R; t_acc : dict R; t_hits : dict Z; t_on : bool }.
Definition new_timer : timer := mkTimer false [] [] [] true.
Definition null_timer : timer := mkTimer true [] [] [] false.

(** calls on a timer, with the clock reading taken inside where there is one *)
Inductive tcall := Start (name : string) (now : R) | Stop (name : string) (now : R) | Reset | Enable | Disable | Times | Hits | Enabled.
(** values returned: [VTimes d w] is a dictionary, [w] tells if a RuntimeWarning is issued *)
Inductive tvalue := VNone | VTimes (d : dict R) (warned : bool) | VHits (d : dict Z) (warned : bool) | VBool (b : bool).

Definition running (t : timer) : bool := match t_starts t with [] => false | _ => true end.

(** _timing.py:16-22 *)
Definition t_start (name : string) (now : R) (t : timer) : timer * res tvalue :=
  if t_on t then
    if dmem name (t_starts t) then (t, Err ValueError)
    else (mkTimer (t_null t) (dset name now (t_starts t)) (t_acc t) (t_hits t) (t_on t), Ok VNone)
  else (t, Ok VNone).

(** _timing.py:24-36; pop raises KeyError before anything is assigned *)
Definition t_stop (name : string) (now : R) (t : timer) : timer * res tvalue :=
  if t_on t then
    match dget name (t_starts t) with
    | None => (t, Err KeyError)
    | Some s =>
        let acc := match dget name (t_acc t) with None => sub now s | Some a => add a (sub now s) end in
        let hit := match dget name (t_hits t) with None => 1 | Some h => h + 1 end in
        (mkTimer (t_null t) (dpop name (t_starts t)) (dset name acc (t_acc t)) (dset name hit (t_hits t)) (t_on t), Ok VNone)
    end
  else (t, Ok VNone).

(** _timing.py:62-108 and 119-130 *)
Definition tstep (c : tcall) (t : timer) : timer * res tvalue :=
  match c with
  | Start name now => t_start name now t
  | Stop name now => t_stop name now t
  | Times => (t, Ok (VTimes (t_acc t) (running t)))
  | Hits => (t, Ok (VHits (t_hits t) (running t)))
  | Reset => (mkTimer (t_null t) (t_starts t) [] [] (t_on t), Ok VNone)
  | Enable => if t_null t then (t, Err NotImplementedError)
              else (mkTimer (t_null t) (t_starts t) (t_acc t) (t_hits t) true, Ok VNone)
  | Disable => if running t then (t, Err RuntimeError)
               else (mkTimer (t_null t) (t_starts t) (t_acc t) (t_hits t) false, Ok VNone)
  | Enabled => (t, Ok (VBool (if t_null t then false else t_on t)))
  end.

(** a history of calls, exceptions being caught by the caller: final timer and what each call gave *)
Fixpoint trun (cs : list tcall) (t : timer) : timer * list (res tvalue) :=
  match cs with
  | [] => (t, [])
  | c :: cs' => let '(t', r) := tstep c t in let '(t'', rs) := trun cs' t' in (t'', r :: rs)
  end.

(** _timing.py:38-60: [with timer.clock(name): body]. contextlib throws an exception of the body into the generator at
    the yield, which does not catch it, so stop is not reached. *)
Definition with_clock {A} (name : string) (now : R) (body : timer -> timer * res A) (later : R) (t : timer) : timer * res A :=
  match tstep (Start name now) t with
  | (t1, Err e) => (t1, Err e)
  | (t1, Ok _) =>
      match body t1 with
      | (t2, Err e) => (t2, Err e)
      | (t2, Ok a) => match tstep (Stop name later) t2 with
                      | (t3, Err e) => (t3, Err e)
                      | (t3, Ok _) => (t3, Ok a)
                      end
      end
  end.
End Timer.
Arguments mkTimer {R}. Arguments t_null {R}. Arguments t_starts {R}. Arguments t_acc {R}. Arguments t_hits {R}. Arguments t_on {R}.
Arguments new_timer {R}. Arguments null_timer {R}. Arguments running {R}.
Arguments Start {R}. Arguments Stop {R}. Arguments Reset {R}. Arguments Enable {R}. Arguments Disable {R}.
Arguments Times {R}. Arguments Hits {R}. Arguments Enabled {R}.
Arguments VNone {R}. Arguments VTimes {R}. Arguments VHits {R}. Arguments VBool {R}.
