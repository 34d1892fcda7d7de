(** Programs of updates and stores on one communicator, all ranks making the same calls. *)
From Verif.Base Require Import Base.
From Verif.Model Require Import Consts Numpy Quantity Partitioner Network Communicator Collective Cluster ScatterGather Shared Zarr Joint.
From Verif.Spec Require Import Grid Cube Halo Lockstep Sync Client Updates Steps Storage Mixed Prognostic ModelRun History.

(** However the ranks are scheduled, whichever sends are buffered and whichever broadcasts synchronise: there is a bound on the number
    of steps, the execution is not stuck before all ranks have ended, and when they have, none has raised, and the store and what they returned are as described. *)
Definition joint_ends {St Op Ans V A} (exec : Op -> St -> Ans * St) (size : nat) (ps : nat -> uproc Op Ans V A) (init : St) (Final : St -> (nat -> A) -> Prop) : Prop :=
  exists bound, forall buffered delayed sched s, urun exec buffered delayed sched (ustart size ps init) = Some s ->
    (length sched <= bound)%nat /\
    ((exists out, (forall r, (r < size)%nat -> exists k, nth_error (j_ranks s) r = Some k /\ ended_with k = Some (Ok (out r))) /\ Final (j_store s) out) \/
     (exists r s', ustep exec buffered delayed r s = Some s')).

Section One.
Variables V T : Type.
Variable neg : V -> V.
Variable junk : list Z -> V.
Variables calendar_of text_of : T -> string.
Variable encode : T -> T -> V.
Variable layout : layout_t.

(** a call of [Client.v], or monitor.store of a state made of the arrays *)
Inductive ocall := OUpdate (c : call V) | OStore (f : nat -> mem V -> ScatterGather.state V T).

Notation program := (uproc (zop V) (zans V) V (mem V * monitor T)).
Definition perform {A} (e : eff V A) (cm : comm) (m : mem V) (k : A -> comm -> mem V -> program) : program :=
  let '(ops, cm', x) := e cm in
  of_messages (Ob := unit) (on_memory ops m) (fun m => match x with Ok a => k a cm' m | Err e => UErr e end).

(** the program of rank [r]: requests obtained, the communicator object, the monitor, the arrays *)
Fixpoint one (r : nat) (calls : list ocall) (reqs : list (request V)) (cm : comm) (mon : monitor T) (m : mem V) : program :=
  match calls with
  | [] => URet (m, mon)
  | OUpdate (CHalo _ q h) :: calls' =>
      perform (start_halo_update V neg layout (Z.of_nat r) (q r) h) cm m (fun rq cm' m' => one r calls' (reqs ++ [rq]) cm' mon m')
  | OUpdate (CVector _ x y h) :: calls' =>
      perform (start_vector_halo_update V neg layout (Z.of_nat r) (x r) (y r) h) cm m (fun rq cm' m' => one r calls' (reqs ++ [rq]) cm' mon m')
  | OUpdate (CSync _ x y) :: calls' =>
      perform (start_synchronize_vector_interfaces V neg layout (Z.of_nat r) (x r) (y r)) cm m (fun rq cm' m' => one r calls' (reqs ++ [rq]) cm' mon m')
  | OUpdate (CWait _ i) :: calls' =>
      match nth_error reqs i with
      | Some rq => perform (wait_request V rq) cm m (fun _ cm' m' => one r calls' reqs cm' mon m')
      | None => UErr IndexError
      end
  | OUpdate (CLocal _ f) :: calls' => one r calls' reqs cm mon (f r m)
  | OStore f :: calls' =>
      of_store (store V T junk calendar_of text_of encode layout (Z.of_nat r) mon (f r m)) (fun mr =>
        match mr with (mon', Ok _) => one r calls' reqs cm mon' m | (_, Err e) => UErr e end)
  end.
(** with a new communicator object and a new monitor *)
Definition one_program (calls : list ocall) (m : nat -> mem V) (r : nat) : program := one r calls [] new_comm None (m r).
End One.
Arguments OUpdate {V T}. Arguments OStore {V T}.

Section Effect.
Variables V T : Type.
Variable neg : V -> V.
Variable d : V.
Variable n : Z.
(** the calls which are updates, and what is stored *)
Fixpoint updates_of (calls : list (ocall V T)) : list (call V) :=
  match calls with [] => [] | OUpdate c :: calls' => c :: updates_of calls' | OStore _ :: calls' => updates_of calls' end.
Fixpoint stores_of (calls : list (ocall V T)) : list (nat -> mem V -> ScatterGather.state V T) :=
  match calls with [] => [] | OUpdate _ :: calls' => stores_of calls' | OStore f :: calls' => f :: stores_of calls' end.
(** as in [Client.v]; [k] arrays per rank *)
Definition calls_ok (k : nat) (calls : list (ocall V T)) : Prop := Forall (call_ok V n k) (updates_of calls) /\ waits_ok V (updates_of calls) 0 [].

(** Whatever updates leave open, the program leads from arrays [m] to ones satisfying [Q]; [past] are the arrays at the stores so far. *)
Fixpoint attains (calls : list (ocall V T)) (started : list (call V * (nat -> mem V))) (m : nat -> mem V) (past : list (nat -> mem V)) (Q : (nat -> mem V) -> list (nat -> mem V) -> Prop) : Prop :=
  match calls with
  | [] => Q m past
  | OUpdate (CWait _ i) :: calls' => forall c sent m', nth_error started i = Some (c, sent) -> effect V neg d n c sent m m' -> attains calls' started m' past Q
  | OUpdate (CLocal _ f) :: calls' => attains calls' started (fun r => f r (m r)) past Q
  | OUpdate c :: calls' => attains calls' (started ++ [(c, m)]) m past Q
  | OStore _ :: calls' => attains calls' started m (past ++ [m]) Q
  end.
(** the state which rank [r] stores in the [i]-th store *)
Definition state_at (calls : list (ocall V T)) (past : list (nat -> mem V)) (r i : nat) : ScatterGather.state V T :=
  match nth_error (stores_of calls) i, nth_error past i with Some f, Some m => f r (m r) | _, _ => mkSt [] None end.
End Effect.

Section Model.
Context {V T : Type}.
(** a model which stores its state at the start and after every step; [stored i] makes the i-th state of the arrays *)
Fixpoint storing_steps (stored : nat -> nat -> mem V -> ScatterGather.state V T) (st : state) (syn : nat -> bool) (h : Z) (fs : list (nat -> mem V -> mem V)) (i b : nat) : list (ocall V T) :=
  match fs with
  | [] => []
  | f :: fs' => (map OUpdate (model_steps st syn h [f] b) ++ OStore (stored i) :: storing_steps stored st syn h fs' (S i) (b + length st + length (synced syn 0 st)))%list
  end.
Definition storing_run (stored : nat -> nat -> mem V -> ScatterGather.state V T) (st : state) (syn : nat -> bool) (h : Z) (fs : list (nat -> mem V -> mem V)) : list (ocall V T) :=
  OStore (stored 0%nat) :: storing_steps stored st syn h fs 1 0.
End Model.
