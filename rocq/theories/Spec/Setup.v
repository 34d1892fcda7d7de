(** A model set up from one namelist: partitioner, sizer and quantities (C90). *)
From Verif.Base Require Import Base.
From Verif.Model Require Import Consts Numpy Quantity Partitioner Sizer.
From Verif.Spec Require Import Grid.

(** six tiles of [n] by [n] ranks with [N] by [N] cells each and [nz] levels; npx and npy count interfaces *)
Definition cubed_namelist (n N nz : Z) : option namelist :=
  Some (mkNml (Some (n, n)) (Some (n * N + 1)) (Some (n * N + 1)) (Some nz)).

(** points along a dimension, of [c] cells in a horizontal direction *)
Definition size_of (c nz : Z) (d : string) : Z :=
  match axis_of d with AxOther => nz + stag d | _ => c + stag d end.

(** dimension [ix] is along x and dimension [iy] along y; the others are vertical *)
Definition horizontal (dims : list string) (ix iy : nat) : Prop :=
  (ix < length dims)%nat /\ (iy < length dims)%nat /\ ix <> iy /\
  forall i, (i < length dims)%nat ->
    let d := nth i dims EmptyString in
    if Nat.eqb i ix then axis_of d = AxX else if Nat.eqb i iy then axis_of d = AxY else In d ["z"; "z_interface"]%string.

(** [q] was allocated by a factory with a sizer of the namelist, with or without the partitioner, for any rank of the tile *)
Definition allocated_by {V} (nml : option namelist) (n : Z) (dims : list string) (q : quantity V) : Prop :=
  exists part tile_rank s contents units, (part = None \/ part = Some (n, n)) /\ 0 <= tile_rank < n * n /\
    from_namelist nml part tile_rank = Ok s /\ allocate s contents dims units = Ok q.
