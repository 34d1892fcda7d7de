(** Collective MPI operations with root 0, as the package uses them: bcast, Scatter, Gather.

    A rank's program runs until it makes a collective call and continues with the answer.  The n-th
    calls of all ranks belong together.  A call is first posted and completed later: a bcast or Scatter can
    complete once the root has posted its call, a Gather on the root once all ranks have, on the
    others at once; an arbitrary oracle may delay completion until all ranks have posted theirs, since
    MPI may or may not synchronise.  Calls that do not belong together (MPI leaves their effect
    undefined) never complete. *)
From Verif.Base Require Import Base.

Section Collective.
Variables Ob V : Type.   (* python objects broadcast; array elements *)

Inductive call :=
| CBcast (o : Ob)                                  (* comm.bcast(o, root=0); [o] only matters on the root *)
| CScatter (send : option (list V)) (count : nat)  (* comm.Scatter(send, recv, root=0); number of elements of recv *)
| CGather (send : list V) (room : option nat).     (* comm.Gather(send, recv, root=0) *)

Inductive answer := AObject (o : Ob) | AData (l : list V).

Inductive proc (A : Type) :=
| PRet (a : A)
| PErr (e : exc)
| PCall (c : call) (k : answer -> proc A).
Arguments PRet {A}. Arguments PErr {A}. Arguments PCall {A}.

Fixpoint pbind {A B} (p : proc A) (f : A -> proc B) : proc B :=
  match p with
  | PRet a => f a
  | PErr e => PErr e
  | PCall c k => PCall c (fun a => pbind (k a) f)
  end.
Definition plift {A} (r : res A) : proc A := match r with Ok a => PRet a | Err e => PErr e end.
(** a call whose answer is an object, or data *)
Definition pbcast {A} (o : Ob) (k : Ob -> proc A) : proc A :=
  PCall (CBcast o) (fun a => match a with AObject o => k o | AData _ => PErr TypeError end).
Definition pdata {A} (c : call) (k : list V -> proc A) : proc A :=
  PCall c (fun a => match a with AData l => k l | AObject _ => PErr TypeError end).

(** what the first [n] ranks contribute to a Gather of [len] elements each *)
Fixpoint collect (posted : nat -> option call) (len n : nat) : option (list V) :=
  match n with
  | O => Some []
  | S n' =>
      match collect posted len n', posted n' with
      | Some l, Some (CGather d _) => if Nat.eqb (length d) len then Some (l ++ d)%list else None
      | _, _ => None
      end
  end.

(** the answer to rank [r]'s call on [size] ranks, given the calls posted so far *)
Definition respond (size : nat) (posted : nat -> option call) (r : nat) : option answer :=
  match posted r with
  | Some (CBcast _) => match posted O with Some (CBcast o) => Some (AObject o) | _ => None end
  | Some (CScatter _ count) =>
      match posted O with
      | Some (CScatter (Some d) _) =>
          if Nat.eqb (length d) (size * count) then Some (AData (firstn count (skipn (r * count) d))) else None
      | _ => None
      end
  | Some (CGather d room) =>
      if Nat.eqb r O then
        match room, collect posted (length d) size with
        | Some n, Some l => if Nat.eqb n (length l) then Some (AData l) else None
        | _, _ => None
        end
      else Some (AData [])
  | None => None
  end.

(** a rank: what is left to do, calls posted, number of them completed *)
Record cstate (A : Type) := mkCS { cs_proc : proc A; cs_posted : list call; cs_done : nat }.
Arguments mkCS {A}. Arguments cs_proc {A}. Arguments cs_posted {A}. Arguments cs_done {A}.

Definition posted_in {A} (s : list (cstate A)) (n : nat) (r : nat) : option call :=
  match nth_error s r with Some c => nth_error (cs_posted c) n | None => None end.
Definition all_posted {A} (s : list (cstate A)) (n : nat) : bool := forallb (fun c => Nat.ltb n (length (cs_posted c))) s.

(** one step of rank [r]: posting its next call or completing the one posted *)
Definition cstep {A} (delayed : nat -> nat -> bool) (r : nat) (s : list (cstate A)) : option (list (cstate A)) :=
  match nth_error s r with
  | Some (mkCS (PCall c k) posted done) =>
      if Nat.eqb (length posted) done then Some (upd s r (mkCS (PCall c k) (posted ++ [c]) done))
      else if delayed r done && negb (all_posted s done) then None
      else match respond (length s) (posted_in s done) r with
           | Some a => Some (upd s r (mkCS (k a) posted (S done)))
           | None => None
           end
  | _ => None
  end.
Fixpoint crun {A} (delayed : nat -> nat -> bool) (sched : list nat) (s : list (cstate A)) : option (list (cstate A)) :=
  match sched with
  | [] => Some s
  | r :: sched' => match cstep delayed r s with Some s' => crun delayed sched' s' | None => None end
  end.
Definition cstart {A} (size : nat) (p : nat -> proc A) : list (cstate A) := map (fun r => mkCS (p r) [] 0) (seq 0 size).
(** what the ranks have returned or raised; None while running *)
Definition outcome_of {A} (s : cstate A) : option (res A) :=
  match cs_proc s with PRet a => Some (Ok a) | PErr e => Some (Err e) | PCall _ _ => None end.
End Collective.

Arguments CBcast {Ob V}. Arguments CScatter {Ob V}. Arguments CGather {Ob V}. Arguments AObject {Ob V}. Arguments AData {Ob V}.
Arguments PRet {Ob V A}. Arguments PErr {Ob V A}. Arguments PCall {Ob V A}. Arguments pbind {Ob V A B}. Arguments plift {Ob V A}.
Arguments pbcast {Ob V A}. Arguments pdata {Ob V A}. Arguments collect {Ob V}. Arguments respond {Ob V}.
Arguments mkCS {Ob V A}. Arguments cs_proc {Ob V A}. Arguments cs_posted {Ob V A}. Arguments cs_done {Ob V A}.
Arguments posted_in {Ob V A}. Arguments all_posted {Ob V A}. Arguments cstep {Ob V A}. Arguments crun {Ob V A}. Arguments cstart {Ob V A}. Arguments outcome_of {Ob V A}.
