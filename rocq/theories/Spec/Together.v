(** Collective programs which proceed in step: all ranks make calls that belong together and are answered, until
    all have ended with the outcomes given. *)
From Verif.Base Require Import Base.
From Verif.Model Require Import Collective.

Section Together.
Context {Ob V A : Type}.
Variable size : nat.

(** the calls of all ranks *)
Definition all_calls (cs : nat -> call Ob V) (r : nat) : option (call Ob V) := if Nat.ltb r size then Some (cs r) else None.

Inductive together : (nat -> proc Ob V A) -> (nat -> res A) -> Prop :=
| tg_end ps out : (forall r, (r < size)%nat -> ps r = plift (out r)) -> together ps out
| tg_round ps cs ks ans out : (forall r, (r < size)%nat -> ps r = PCall (cs r) (ks r)) ->
    (forall r, (r < size)%nat -> respond size (all_calls cs) r = Some (ans r)) ->
    together (fun r => ks r (ans r)) out -> together ps out.

(** However the ranks are scheduled and whichever calls synchronise: there is a bound on the number of steps, the
    execution is not stuck before all ranks have ended, and ranks which have ended did with the given outcome. *)
Definition always_ends (ps : nat -> proc Ob V A) (out : nat -> res A) : Prop :=
  exists bound, forall delayed sched s, crun delayed sched (cstart size ps) = Some s ->
    (length sched <= bound)%nat /\
    ((forall r, (r < size)%nat -> exists c, nth_error s r = Some c /\ outcome_of c = Some (out r)) \/
     (exists r s', cstep delayed r s = Some s')) /\
    (forall r c x, nth_error s r = Some c -> outcome_of c = Some x -> x = out r).
End Together.
