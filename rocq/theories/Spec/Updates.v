(** What the calls halo_update, vector_halo_update and synchronize_vector_interfaces should do when all
    ranks make the same call, and what that means for fields on the sphere. *)
From Verif.Base Require Import Base.
From Verif.Model Require Import Consts Numpy Quantity Partitioner Network Communicator.
From Verif.Spec Require Import Grid Cube Halo Lockstep Sync Client.

(** operations handed to MPI by a call on a new communicator *)
Definition issued {V A} (e : eff V A) : list (pop V) := fst (fst (e new_comm)).

(** All ranks make a call, with memories [m]: whatever the schedule they all return, and the memories
    are then [m']. *)
Definition all_ranks_end {V A} (n : Z) (call : nat -> eff V A) (m m' : nat -> mem V) : Prop :=
  always_completes (start_state (ranks n) (fun r => issued (call r)) m) (tab (ranks n) m').

(** each rank has [k] arrays *)
Definition arrays {V} (n : Z) (k : nat) (m : nat -> mem V) : Prop := forall r, (r < ranks n)%nat -> length (m r) = k.

(** position in all but the horizontal dimensions, relative to the compute domain *)
Definition column (m : meta) (ix iy : nat) (p : list Z) : list Z :=
  map (fun i => if Nat.eqb i ix || Nat.eqb i iy then 0 else rel m p i) (seq 0 (length (m_dims m))).

(** Fields: a value for each place on the sphere and position in the other dimensions. Arrays hold a field on
    a set of points *)
Definition holds {V} (n N : Z) (ix iy : nat) (mt : nat -> meta) (where_ : nat -> list Z -> Prop)
    (F : option vec -> list Z -> V) (c : nat -> list Z -> V) : Prop :=
  forall r p, (r < ranks n)%nat -> where_ r p -> c r p = F (place_of n N ix iy (mt r) r p) (column (mt r) ix iy p).

(** Vector fields: a value for each place and direction, with [F] odd in the direction; components hold
    the values for the directions of their axes *)
Definition odd_field {V} (neg : V -> V) (F : option vec -> list Z -> vec -> V) : Prop :=
  forall pl c v, F pl c (vscale (-1) v) = neg (F pl c v).
Definition holds_vector {V} (n N : Z) (ix iy : nat) (mt : bool -> nat -> meta) (where_ : bool -> nat -> list Z -> Prop)
    (F : option vec -> list Z -> vec -> V) (c : bool -> nat -> list Z -> V) : Prop :=
  forall comp r p, (r < ranks n)%nat -> where_ comp r p ->
    c comp r p = F (place_of n N ix iy (mt comp r) r p) (column (mt comp r) ix iy p) (dir_of n N ix iy comp (mt comp r) r p).

(** points no update with [h] points may change: the compute domain, points farther than [h] from it
    horizontally, those at corners of the cube, and those outside the compute domain in other dimensions *)
Definition left_alone (n N h : Z) (ix iy : nat) (m : meta) (r : nat) (p : list Z) : Prop :=
  in_domain m p \/ (exists i, (i = ix \/ i = iy) /\ (rel m p i < - h \/ xat (m_extent m) i + h <= rel m p i)) \/
  place_of n N ix iy m r p = None \/ ~ in_column m ix iy p.
