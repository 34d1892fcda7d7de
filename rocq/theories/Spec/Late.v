(** What should hold if MPI reads the arrays being sent some time after the send was started. *)
From Verif.Base Require Import Base.
From Verif.Model Require Import Consts Numpy Quantity Partitioner Network LateRead Communicator.
From Verif.Spec Require Import Grid Cube Halo Lockstep Sync Client Updates.

(** initial state, as [start_state] *)
Definition late_state {L V} (n : nat) (p : nat -> list (op L V)) (m : nat -> L) : @lnet L V :=
  mkLN (tab n p) (tab n m) (tab n (fun _ => [])).

Fixpoint moves (sched : list action) : nat :=
  match sched with [] => 0 | Move _ :: s => S (moves s) | Copy _ _ _ :: s => moves s end.

(** Whatever the schedule and whenever MPI reads: the ranks make a bounded number of steps, and when neither a
    rank nor MPI can proceed every rank has run to its end, with memories [ms] *)
Definition late_completes {L V} (s : @lnet L V) (ms : list L) : Prop :=
  exists total, forall sched s1, lrun sched s = Some s1 ->
    (moves sched <= total)%nat /\ ((forall a, lstep a s1 = None) -> lfinished s1 /\ l_mem s1 = ms).

Definition late_ranks_end {V A} (n : Z) (call : nat -> eff V A) (m m' : nat -> mem V) : Prop :=
  late_completes (late_state (ranks n) (fun r => issued (call r)) m) (tab (ranks n) m').

(** ** programs *)
Section Programs.
Variable V : Type.
Variable n : Z.

(** elements (of array [i] of rank [r]) a started update may read, and those it may write *)
Definition may_read (c : call V) (r i : nat) (p : list Z) : Prop :=
  match c with
  | CHalo _ q h => i = h_id (q r) /\ in_domain (h_meta (q r)) p
  | CVector _ x y h => (i = h_id (x r) /\ in_domain (h_meta (x r)) p) \/ (i = h_id (y r) /\ in_domain (h_meta (y r)) p)
  | CSync _ x y => exists N len ix iy, sync_ok n N len ix iy (fun r => h_meta (x r)) (fun r => h_meta (y r)) /\
      ((i = h_id (x r) /\ out_edge ix iy false (h_meta (x r)) p) \/ (i = h_id (y r) /\ out_edge ix iy true (h_meta (y r)) p))
  | _ => False
  end.
Definition may_write (c : call V) (r i : nat) (p : list Z) : Prop :=
  match c with
  | CHalo _ q h => i = h_id (q r) /\ ~ in_domain (h_meta (q r)) p
  | CVector _ x y h => (i = h_id (x r) /\ ~ in_domain (h_meta (x r)) p) \/ (i = h_id (y r) /\ ~ in_domain (h_meta (y r)) p)
  | CSync _ x y => exists N len ix iy, sync_ok n N len ix iy (fun r => h_meta (x r)) (fun r => h_meta (y r)) /\
      ((i = h_id (x r) /\ in_edge N ix iy false (h_meta (x r)) p) \/ (i = h_id (y r) /\ in_edge N ix iy true (h_meta (y r)) p))
  | _ => False
  end.

(** a change of the arrays of rank [r] which keeps what update [c] may read *)
Definition keeps (c : call V) (r : nat) (m m' : mem V) : Prop :=
  length m' = length m /\
  forall i a a', nth_error m i = Some a -> nth_error m' i = Some a' -> forall p, may_read c r i p -> at_ a' p = at_ a p.

(** While an update is under way the program does not change what it sends: computation leaves it alone, and no
    other update finished meanwhile writes there. [started]: updates started; [done]: those finished. *)
Fixpoint undisturbed (calls : list (call V)) (started : list (call V)) (done : list nat) : Prop :=
  match calls with
  | [] => True
  | CWait _ i :: calls' =>
      (forall j c c', nth_error started i = Some c' -> nth_error started j = Some c -> j <> i -> ~ In j done ->
         forall r k p, (r < ranks n)%nat -> may_read c r k p -> ~ may_write c' r k p) /\
      undisturbed calls' started (i :: done)
  | CLocal _ f :: calls' =>
      (forall j c, nth_error started j = Some c -> ~ In j done -> forall r m, (r < ranks n)%nat -> keeps c r m (f r m)) /\
      undisturbed calls' started done
  | c :: calls' => undisturbed calls' (started ++ [c]) done
  end.
End Programs.
