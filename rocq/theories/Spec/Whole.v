(** Global quantities of cells and the parts of ranks with halos. *)
From Verif.Base Require Import Base.
From Verif.Model Require Import Consts Numpy Quantity Network Communicator.
From Verif.Spec Require Import Grid.

(** dimensions of cells: [ix] along x, [iy] along y, neither on interfaces *)
Definition cell_dims (len ix iy : nat) (dims : list string) : Prop :=
  ix <> iy /\ (ix < len)%nat /\ (iy < len)%nat /\ length dims = len /\
  (forall i, (i < len)%nat -> axis_of (nth i dims EmptyString) = if Nat.eqb i ix then AxX else if Nat.eqb i iy then AxY else AxOther) /\
  stag (nth ix dims EmptyString) = 0 /\ stag (nth iy dims EmptyString) = 0.

(** extents with [N] cells along x and y *)
Definition box (len ix iy : nat) (N : Z) (ext : nat -> Z) : list Z := map (fun i => if Nat.eqb i ix || Nat.eqb i iy then N else ext i) (seq 0 len).

(** a quantity whose data is the first array of a memory *)
Definition with_data {V} (q : quantity V) (m : mem V) : quantity V := mkQ (nth 0 m (q_data q)) (q_dims q) (q_units q) (q_origin q) (q_extent q).
