(** Programs in which all ranks start the same updates in the same order, but each rank waits for them and computes in an
    order of its own; and what such programs should do. *)
From Verif.Base Require Import Base.
From Verif.Model Require Import Consts Numpy Quantity Partitioner Network Communicator.
From Verif.Spec Require Import Cube Halo Lockstep Sync Client.

Section Orders.
Variable V : Type.
Variable neg : V -> V.

(** What rank [r] does. [ahead]: for each update still to be started, the memories which the ranks have when they start it (each at
    a time of its own); [started]: the updates started, with these memories.  A wait changes the rank's memory as it would change
    if all ranks completed the update. *)
Fixpoint rank_meaning (d : V) (n : Z) (r : nat) (calls : list (call V)) (ahead : list (nat -> mem V))
    (started : list (call V * (nat -> mem V))) (m m' : mem V) : Prop :=
  match calls with
  | [] => ahead = [] /\ m' = m
  | CWait _ i :: calls' =>
      exists c sent before after, nth_error started i = Some (c, sent) /\ effect V neg d n c sent before after /\
        before r = m /\ rank_meaning d n r calls' ahead started (after r) m'
  | CLocal _ f :: calls' => rank_meaning d n r calls' ahead started (f r m) m'
  | c :: calls' =>
      exists snap ahead', ahead = snap :: ahead' /\ snap r = m /\ rank_meaning d n r calls' ahead' (started ++ [(c, snap)]) m m'
  end.

Definition orders_meaning (d : V) (n : Z) (calls : nat -> list (call V)) (m m' : nat -> mem V) : Prop :=
  exists snaps, forall r, (r < ranks n)%nat -> rank_meaning d n r (calls r) snaps [] (m r) (m' r).

(** the same updates in the same order *)
Definition same_starts (n : Z) (calls : nat -> list (call V)) : Prop :=
  forall r, (r < ranks n)%nat -> filter (starts V) (calls r) = filter (starts V) (calls O).
End Orders.

(** all sends complete at once *)
Definition all_buffered (r j : nat) : bool := true.
Definition none_buffered (r j : nat) : bool := false.

(** as [always_completes], with a given choice of buffered sends *)
Definition completes_with {L V} (bf : nat -> nat -> bool) (s : @net L V) (ms : list L) : Prop :=
  exists total, forall sched s1, run bf sched s = Some s1 ->
    (length sched <= total)%nat /\ ((forall r, step bf r s1 = None) -> finished s1 /\ n_mem s1 = ms).
(** no schedule brings all ranks to their ends: executions come to a state in which no rank can move *)
Definition never_completes {L V} (bf : nat -> nat -> bool) (s : @net L V) : Prop :=
  exists total, forall sched s1, run bf sched s = Some s1 -> (length sched <= total)%nat /\ ~ finished s1.
