(** Programs which use one cubed-sphere communicator for everything: halo updates, interface synchronisation, collective operations
    between all ranks and, through [tile], between the ranks of each tile.  All ranks execute the same list of calls. *)
From Verif.Base Require Import Base.
From Verif.Model Require Import Consts Numpy Quantity Partitioner Network Communicator Collective Cluster TileComm.
From Verif.Spec Require Import Grid Cube Halo Lockstep Sync Client Together.

(** However the ranks are scheduled, whichever sends are buffered and whichever collective calls synchronise: there is a bound on the
    number of steps, the execution is not stuck before all ranks have ended, and ranks which have ended did with the given outcome. *)
Definition cluster_ends {Ob V A} (size : nat) (ps : nat -> rproc Ob V A) (out : nat -> res A) : Prop :=
  exists bound, forall buffered delayed sched s, cl_run buffered delayed sched (cl_start size ps) = Some s ->
    (length sched <= bound)%nat /\
    ((forall r, (r < size)%nat -> exists k, nth_error (cl_ranks s) r = Some k /\ rank_outcome k = Some (out r)) \/
     (exists r s', cl_step buffered delayed r s = Some s')) /\
    (forall r k x, nth_error (cl_ranks s) r = Some k -> rank_outcome k = Some x -> x = out r).

(** The same if some ranks never end: there is a bound on the number of steps, when no rank can proceed the outcomes are the given
    ones, None for ranks which hang, and ranks which have ended did with the given outcome. *)
Definition cluster_halts {Ob V A} (size : nat) (ps : nat -> rproc Ob V A) (out : nat -> option (res A)) : Prop :=
  exists bound, forall buffered delayed sched s, cl_run buffered delayed sched (cl_start size ps) = Some s ->
    (length sched <= bound)%nat /\
    ((forall r, cl_step buffered delayed r s = None) -> forall r, (r < size)%nat -> exists k, nth_error (cl_ranks s) r = Some k /\ rank_outcome k = out r) /\
    (forall r k x, nth_error (cl_ranks s) r = Some k -> rank_outcome k = Some x -> out r = Some x).

(** a program without collective calls on the communicator of all ranks *)
Inductive silent {Ob V A} : rproc Ob V A -> Prop :=
| silent_ret a : silent (RRet a)
| silent_err e : silent (RErr e)
| silent_send dst tag body k : silent k -> silent (RSend dst tag body k)
| silent_recv src tag k : (forall b, silent (k b)) -> silent (RRecv src tag k)
| silent_wait j k : silent k -> silent (RWait j k)
| silent_call g c k : g_ctx g <> [] -> (forall a, silent (k a)) -> silent (RCall g c k).

Section Mixed.
Variables Ob V St : Type.    (* python objects broadcast; array elements; whatever a rank has besides its arrays *)
Variable neg : V -> V.
Variable layout : layout_t.

Definition rank_state := (mem V * St)%type.

Inductive mcall :=
| MUpdate (c : call V)                                                        (* a call of Client.v *)
| MWorld (p : nat -> rank_state -> proc Ob V rank_state)                      (* collective operations between all ranks; depends on the rank *)
| MTile (p : nat -> nat -> rank_state -> proc Ob V rank_state).               (* of the ranks of each tile, by [tile]; the rank and the rank there *)

Definition size : nat := Z.to_nat (6 * (fst layout * snd layout)).
Definition per_tile : nat := Z.to_nat (fst layout * snd layout).

(** a call which uses messages, on the arrays *)
Definition issue {A B} (e : eff V A) (cm : comm) (s : rank_state) (k : A -> comm -> rank_state -> rproc Ob V B) : rproc Ob V B :=
  let '(ops, cm', x) := e cm in
  rbind (on_memory ops (fst s)) (fun m => match x with Ok a => k a cm' (m, snd s) | Err e => RErr e end).

(** the program of rank [r]: requests obtained, state of the communicator object, its communicator of the tile *)
Fixpoint mixed (r : nat) (calls : list mcall) (reqs : list (request V)) (cm : comm) (tc : option group) (s : rank_state) : rproc Ob V rank_state :=
  match calls with
  | [] => RRet s
  | MUpdate (CHalo _ q h) :: calls' =>
      issue (start_halo_update V neg layout (Z.of_nat r) (q r) h) cm s (fun rq cm' s' => mixed r calls' (reqs ++ [rq]) cm' tc s')
  | MUpdate (CVector _ x y h) :: calls' =>
      issue (start_vector_halo_update V neg layout (Z.of_nat r) (x r) (y r) h) cm s (fun rq cm' s' => mixed r calls' (reqs ++ [rq]) cm' tc s')
  | MUpdate (CSync _ x y) :: calls' =>
      issue (start_synchronize_vector_interfaces V neg layout (Z.of_nat r) (x r) (y r)) cm s (fun rq cm' s' => mixed r calls' (reqs ++ [rq]) cm' tc s')
  | MUpdate (CWait _ i) :: calls' =>
      match nth_error reqs i with
      | Some rq => issue (wait_request V rq) cm s (fun _ cm' s' => mixed r calls' reqs cm' tc s')
      | None => RErr IndexError
      end
  | MUpdate (CLocal _ f) :: calls' => mixed r calls' reqs cm tc (f r (fst s), snd s)
  | MWorld p :: calls' => rbind (on_group (all_ranks size) (p r s)) (mixed r calls' reqs cm tc)
  | MTile p :: calls' =>
      tile layout r (all_ranks size) tc (fun g => with_rank r g (fun i => rbind (on_group g (p r i s)) (mixed r calls' reqs cm (Some g))))
  end.
(** with a new communicator object *)
Definition mixed_program (calls : list mcall) (m : nat -> mem V) (o : nat -> St) (r : nat) : rproc Ob V rank_state := mixed r calls [] new_comm None (m r, o r).

(** ** what it should do *)
Variable d : V.
Variable n : Z.
Variable k : nat.

(** Whatever updates leave open, the program leads from arrays [m] and other state [o] to ones satisfying [Q], with [k] arrays on
    each rank throughout: starting an update records the arrays, waiting has its effect, collective programs proceed in step, on
    each tile separately if they are for tiles. *)
Fixpoint achieves (calls : list mcall) (started : list (call V * (nat -> mem V))) (m : nat -> mem V) (o : nat -> St) (Q : (nat -> mem V) -> (nat -> St) -> Prop) : Prop :=
  match calls with
  | [] => Q m o
  | MUpdate (CWait _ i) :: calls' => forall c sent m', nth_error started i = Some (c, sent) -> effect V neg d n c sent m m' -> achieves calls' started m' o Q
  | MUpdate (CLocal _ f) :: calls' => achieves calls' started (fun r => f r (m r)) o Q
  | MUpdate c :: calls' => achieves calls' (started ++ [(c, m)]) m o Q
  | MWorld p :: calls' =>
      exists m' o', together size (fun r => p r (m r, o r)) (fun r => Ok (m' r, o' r)) /\ (forall r, (r < size)%nat -> length (m' r) = k) /\
        achieves calls' started m' o' Q
  | MTile p :: calls' =>
      exists m' o', (forall t, (t < 6)%nat -> let first := (t * per_tile)%nat in
                       together per_tile (fun i => p (first + i)%nat i (m (first + i)%nat, o (first + i)%nat)) (fun i => Ok (m' (first + i)%nat, o' (first + i)%nat))) /\
        (forall r, (r < size)%nat -> length (m' r) = k) /\ achieves calls' started m' o' Q
  end.

(** the calls which are updates *)
Fixpoint updates (calls : list mcall) : list (call V) :=
  match calls with [] => [] | MUpdate c :: calls' => c :: updates calls' | _ :: calls' => updates calls' end.
(** updates are for square layouts *)
Definition mixed_ok (calls : list mcall) : Prop :=
  (updates calls = [] \/ layout = (n, n)) /\ Forall (call_ok V n k) (updates calls) /\ waits_ok V (updates calls) 0 [].
End Mixed.
Arguments MUpdate {Ob V St}. Arguments MWorld {Ob V St}. Arguments MTile {Ob V St}.
