(** Ranks which exchange messages and share a store in one program: the machine of [Cluster.v] for messages together with that of
    [Shared.v] for operations on the store and the collective calls around them. The package makes both kinds of calls on one mpi4py
    communicator: comm.Isend, comm.Irecv and request.wait (communicator.py:46-57, 405-436, 530-534), and comm.bcast and comm.barrier
    (zarr_monitor.py:67, 159, 293). Point-to-point messages and collective calls do not meet, as MPI has it; completion of either is that of the
    two machines. Not here: collective calls which carry data ([Cluster.v]). *)
From Verif.Base Require Import Base.
From Verif.Model Require Import Network Collective Cluster Shared.

Section Joint.
Variables (St Op Ans V : Type).
Variable exec : Op -> St -> Ans * St.

Inductive uproc (A : Type) :=
| URet (a : A)
| UErr (e : exc)
| USend (dst tag : Z) (body : list V) (k : uproc A)
| URecv (src tag : Z) (k : list V -> uproc A)
| UWait (request : nat) (k : uproc A)
| UDo (o : Op) (k : Ans -> uproc A)
| USync (barrier : bool) (k : uproc A).
Arguments URet {A}. Arguments UErr {A}. Arguments USend {A}. Arguments URecv {A}. Arguments UWait {A}. Arguments UDo {A}. Arguments USync {A}.

(** a rank: what is left to do, collective calls posted (barrier or not), number of them completed *)
Record urank (A : Type) := mkUR { u_proc : uproc A; u_posted : list bool; u_done : nat }.
Arguments mkUR {A}. Arguments u_proc {A}. Arguments u_posted {A}. Arguments u_done {A}.
Record joint (A : Type) := mkJ { j_store : St; j_ranks : list (urank A); j_sent : list (list (msg V)) }.
Arguments mkJ {A}. Arguments j_store {A}. Arguments j_ranks {A}. Arguments j_sent {A}.

Definition has_posted {A} (n : nat) (b : bool) (k : urank A) : bool :=
  match nth_error (u_posted k) n with Some b' => Bool.eqb b' b | None => false end.
Definition completes {A} (all : bool) (n : nat) (b : bool) (ranks : list (urank A)) : bool :=
  match ranks with
  | [] => false
  | root :: _ => if all then forallb (has_posted n b) ranks else has_posted n b root
  end.

(** one step of rank [r], as in [Cluster.react] and [Shared.sstep] *)
Definition ustep {A} (buffered : nat -> nat -> bool) (delayed : nat -> nat -> bool) (r : nat) (s : joint A) : option (joint A) :=
  let '(mkJ st ranks sent) := s in
  match nth_error ranks r with
  | None => None
  | Some (mkUR p posted done) =>
      match p with
      | URet _ => None
      | UErr _ => None
      | USend dst tag body p =>
          match nth_error sent r with
          | Some _ => Some (mkJ st (upd ranks r (mkUR p posted done)) (affect r (ESent (mkM dst tag body false)) sent))
          | None => None
          end
      | URecv src tag p =>
          if src <? 0 then None else
          match nth_error sent (Z.to_nat src) with
          | Some l => match take (Z.of_nat r) tag l with
                      | Some (body, _) => Some (mkJ st (upd ranks r (mkUR (p body) posted done)) (affect r (ETaken src tag) sent))
                      | None => None
                      end
          | None => None
          end
      | UWait j p =>
          match nth_error sent r with
          | Some l => match nth_error l j with
                      | Some m => if ms_taken m || buffered r j then Some (mkJ st (upd ranks r (mkUR p posted done)) sent) else None
                      | None => None
                      end
          | None => None
          end
      | UDo o k => let '(a, st') := exec o st in Some (mkJ st' (upd ranks r (mkUR (k a) posted done)) sent)
      | USync b k =>
          if Nat.eqb (length posted) done then Some (mkJ st (upd ranks r (mkUR (USync b k) (posted ++ [b]) done)) sent)
          else if completes (b || delayed r done) done b ranks then Some (mkJ st (upd ranks r (mkUR k posted (S done))) sent)
          else None
      end
  end.
Fixpoint urun {A} (buffered : nat -> nat -> bool) (delayed : nat -> nat -> bool) (sched : list nat) (s : joint A) : option (joint A) :=
  match sched with
  | [] => Some s
  | r :: sched' => match ustep buffered delayed r s with Some s' => urun buffered delayed sched' s' | None => None end
  end.
Definition ustart {A} (size : nat) (p : nat -> uproc A) (st : St) : joint A :=
  mkJ st (map (fun r => mkUR (p r) [] 0) (seq 0 size)) (map (fun _ => []) (seq 0 size)).
(** what a rank has returned or raised; None while running *)
Definition ended_with {A} (k : urank A) : option (res A) := match u_proc k with URet a => Some (Ok a) | UErr e => Some (Err e) | _ => None end.

(** a program of messages, or one on the store, and what comes after it *)
Fixpoint of_messages {Ob A B} (p : rproc Ob V A) (f : A -> uproc B) : uproc B :=
  match p with
  | RRet a => f a
  | RErr e => UErr e
  | RSend dst tag body k => USend dst tag body (of_messages k f)
  | RRecv src tag k => URecv src tag (fun b => of_messages (k b) f)
  | RWait j k => UWait j (of_messages k f)
  | RCall _ _ _ => UErr TypeError   (* calls with data are not part of this machine *)
  end.
Fixpoint of_store {A B} (p : sproc Op Ans A) (f : A -> uproc B) : uproc B :=
  match p with
  | SRet a => f a
  | SDo o k => UDo o (fun a => of_store (k a) f)
  | SSync b k => USync b (of_store k f)
  end.
End Joint.
Arguments URet {Op Ans V A}. Arguments UErr {Op Ans V A}. Arguments USend {Op Ans V A}. Arguments URecv {Op Ans V A}. Arguments UWait {Op Ans V A}. Arguments UDo {Op Ans V A}. Arguments USync {Op Ans V A}.
Arguments mkUR {Op Ans V A}. Arguments u_proc {Op Ans V A}. Arguments u_posted {Op Ans V A}. Arguments u_done {Op Ans V A}.
Arguments mkJ {St Op Ans V A}. Arguments j_store {St Op Ans V A}. Arguments j_ranks {St Op Ans V A}. Arguments j_sent {St Op Ans V A}.
Arguments has_posted {Op Ans V A}. Arguments completes {Op Ans V A}. Arguments ustep {St Op Ans V} exec {A}. Arguments urun {St Op Ans V} exec {A}. Arguments ustart {St Op Ans V A}.
Arguments ended_with {Op Ans V A}. Arguments of_messages {Op Ans V Ob A B}. Arguments of_store {Op Ans V A B}.
