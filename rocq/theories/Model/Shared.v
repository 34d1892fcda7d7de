(** Ranks which share a store and synchronise by collective calls.

    A rank's program performs operations on the store, each atomic, and makes collective calls without data that matters: a
    broadcast from the root (rank 0), or a barrier.  The n-th calls of all ranks belong together.  A call is first posted and
    completed later: a broadcast once the root has posted its call, a barrier once all ranks have; an arbitrary oracle may
    delay broadcasts until all ranks have posted theirs, since MPI may or may not synchronise.  Calls that do not belong
    together never complete. *)
From Verif.Base Require Import Base.

Section Shared.
Variables (St Op Ans : Type).
Variable exec : Op -> St -> Ans * St.

Inductive sproc (A : Type) :=
| SRet (a : A)
| SDo (o : Op) (k : Ans -> sproc A)
| SSync (barrier : bool) (k : sproc A).
Arguments SRet {A}. Arguments SDo {A}. Arguments SSync {A}.

Fixpoint sbind {A B} (p : sproc A) (f : A -> sproc B) : sproc B :=
  match p with
  | SRet a => f a
  | SDo o k => SDo o (fun a => sbind (k a) f)
  | SSync b k => SSync b (sbind k f)
  end.

(** a rank: what is left to do, calls posted (barrier or not), number of them completed *)
Record srank (A : Type) := mkSR { sr_proc : sproc A; sr_posted : list bool; sr_done : nat }.
Arguments mkSR {A}. Arguments sr_proc {A}. Arguments sr_posted {A}. Arguments sr_done {A}.

Definition posted_call {A} (n : nat) (b : bool) (c : srank A) : bool :=
  match nth_error (sr_posted c) n with Some b' => Bool.eqb b' b | None => false end.
Definition may_complete {A} (all : bool) (n : nat) (b : bool) (ranks : list (srank A)) : bool :=
  match ranks with
  | [] => false
  | root :: _ => if all then forallb (posted_call n b) ranks else posted_call n b root
  end.

(** one step of rank [r] *)
Definition sstep {A} (delayed : nat -> nat -> bool) (r : nat) (s : St * list (srank A)) : option (St * list (srank A)) :=
  let '(st, ranks) := s in
  match nth_error ranks r with
  | Some (mkSR (SDo o k) posted done) => let '(a, st') := exec o st in Some (st', upd ranks r (mkSR (k a) posted done))
  | Some (mkSR (SSync b k) posted done) =>
      if Nat.eqb (length posted) done then Some (st, upd ranks r (mkSR (SSync b k) (posted ++ [b]) done))
      else if may_complete (b || delayed r done) done b ranks then Some (st, upd ranks r (mkSR k posted (S done)))
      else None
  | _ => None
  end.
Fixpoint srun {A} (delayed : nat -> nat -> bool) (sched : list nat) (s : St * list (srank A)) : option (St * list (srank A)) :=
  match sched with
  | [] => Some s
  | r :: sched' => match sstep delayed r s with Some s' => srun delayed sched' s' | None => None end
  end.
Definition sstart {A} (size : nat) (p : nat -> sproc A) : list (srank A) := map (fun r => mkSR (p r) [] 0) (seq 0 size).
(** what a rank has returned; None while running *)
Definition result_of {A} (c : srank A) : option A := match sr_proc c with SRet a => Some a | _ => None end.
End Shared.
Arguments SRet {Op Ans A}. Arguments SDo {Op Ans A}. Arguments SSync {Op Ans A}. Arguments sbind {Op Ans A B}.
Arguments mkSR {Op Ans A}. Arguments sr_proc {Op Ans A}. Arguments sr_posted {Op Ans A}. Arguments sr_done {Op Ans A}.
Arguments posted_call {Op Ans A}. Arguments may_complete {Op Ans A}. Arguments sstep {St Op Ans} exec {A}. Arguments srun {St Op Ans} exec {A}.
Arguments sstart {Op Ans A}. Arguments result_of {Op Ans A}.
