(** C38-C40: timers. *)
From Verif.Base Require Import Base.
From Verif.Model Require Import Timer.
From Verif.Spec Require Import Intervals.
From Verif.Proofs Require Import TimerProofs.

(** C38: after any history of calls, each further call gives what the completed intervals say, and a call which raises changes nothing *)
Theorem C38_accounts : forall R sub add cs (c : tcall R),
  let '(t, rs) := trun R sub add cs new_timer in let '(t', r) := tstep R sub add c t in
  expected R sub add (returned cs rs) c r /\ (forall e, r = Err e -> t' = t).
Proof. exact timer_accounts. Qed.
Print Assumptions C38_accounts.

Theorem C38_running_enabled : forall R sub add cs, let '(t, rs) := trun R sub add cs (@new_timer R) in running t = true -> tstep R sub add Enabled t = (t, Ok (VBool true)).
Proof. exact running_enabled. Qed.
Print Assumptions C38_running_enabled.

(** overlapping clocks, a double start, an unmatched stop, a reset while a clock runs *)
Example C38_example : let h := [Start "a" 0; Start "b" 1; Start "a" 2; Stop "a" 5; Stop "c" 6; Start "a" 7; Stop "a" 9; Disable; Times; Reset; Stop "b" 11; Hits; Disable; Start "a" 12; Stop "z" 13; Times]%string in
  snd (trun Z Z.sub Z.add h new_timer) =
  [Ok VNone; Ok VNone; Err ValueError; Ok VNone; Err KeyError; Ok VNone; Ok VNone; Err RuntimeError; Ok (VTimes [("a", 7)] true); Ok VNone; Ok VNone; Ok (VHits [("b", 1)] false); Ok VNone; Ok VNone; Ok VNone; Ok (VTimes [("b", 10)] false)]%string /\
  durations (account_of Z Z.sub "a" [Start "a" 0; Start "b" 1; Stop "a" 5; Start "a" 7; Stop "a" 9]%string) = [5; 2].
Proof. split; reflexivity. Qed.

(** C39 *)
Theorem C39_null : forall R sub add cs, let '(t, rs) := trun R sub add cs (@null_timer R) in t = null_timer /\
  Forall2 (fun c r => match c with
                      | Enable => r = Err NotImplementedError
                      | Times => r = Ok (VTimes [] false)
                      | Hits => r = Ok (VHits [] false)
                      | Enabled => r = Ok (VBool false)
                      | _ => r = Ok VNone
                      end) cs rs.
Proof. exact null_inert. Qed.
Print Assumptions C39_null.

Example C39_example : snd (trun Z Z.sub Z.add [Start "a" 0; Start "a" 1; Enable; Stop "b" 2; Times]%string null_timer) = [Ok VNone; Ok VNone; Err NotImplementedError; Ok VNone; Ok (VTimes [] false)].
Proof. reflexivity. Qed.

(** C40: a timed block which raises leaves its clock running: starting it again and disabling the timer raise until it is stopped *)
Theorem C40_clock_raises : forall R sub add A name now later (body : timer R -> timer R * res A) t t2 e, t_on t = true -> dget name (t_starts t) = None ->
  body (fst (tstep R sub add (Start name now) t)) = (t2, Err e) -> t_on t2 = true -> dget name (t_starts t2) <> None ->
  with_clock R sub add name now body later t = (t2, Err e) /\
  (forall r, tstep R sub add (Start name r) t2 = (t2, Err ValueError)) /\
  tstep R sub add Disable t2 = (t2, Err RuntimeError) /\
  (forall r, NoDup (dkeys (t_starts t2)) -> let '(t3, o) := tstep R sub add (Stop name r) t2 in o = Ok VNone /\ forall r', snd (tstep R sub add (Start name r') t3) = Ok VNone).
Proof. exact @clock_raises. Qed.
Print Assumptions C40_clock_raises.

(** ... while a block which returns adds one interval *)
Theorem C40_clock_returns : forall R sub add A name now later (body : timer R -> timer R * res A) t t2 a, t_on t = true -> dget name (t_starts t) = None ->
  body (fst (tstep R sub add (Start name now) t)) = (t2, Ok a) -> t_on t2 = true -> NoDup (dkeys (t_starts t2)) -> dget name (t_starts t2) = Some now ->
  exists t3, with_clock R sub add name now body later t = (t3, Ok a) /\ dget name (t_starts t3) = None /\ t_on t3 = true /\
    dget name (t_acc t3) = Some (match dget name (t_acc t2) with None => sub later now | Some b => add b (sub later now) end) /\
    dget name (t_hits t3) = Some (match dget name (t_hits t2) with None => 1 | Some h => h + 1 end) /\
    forall n, n <> name -> dget n (t_starts t3) = dget n (t_starts t2) /\ dget n (t_acc t3) = dget n (t_acc t2) /\ dget n (t_hits t3) = dget n (t_hits t2).
Proof. exact @clock_returns. Qed.
Print Assumptions C40_clock_returns.

Example C40_example : let boom (t : timer Z) : timer Z * res Z := (t, Err RuntimeError) in
  let '(t, o) := with_clock Z Z.sub Z.add "a" 0 boom 5 new_timer in o = Err RuntimeError /\ snd (tstep Z Z.sub Z.add (Start "a" 6) t) = Err ValueError /\
  snd (trun Z Z.sub Z.add [Disable; Stop "a"%string 8; Times; Disable] t) = [Err RuntimeError; Ok VNone; Ok (VTimes [("a"%string, 8)] false); Ok VNone].
Proof. cbn. repeat split. Qed.
