(** How large arrays should be. *)
From Verif.Base Require Import Base.
From Verif.Model Require Import Consts Numpy Quantity Sizer.
From Verif.Spec Require Import Grid.

(** number of points of the compute domain along a dimension, None for an unknown one *)
Definition points (s : sizer) (d : string) : option Z :=
  match axis_of d with
  | AxX => Some (s_nx s + stag d)
  | AxY => Some (s_ny s + stag d)
  | AxOther => if String.eqb d Z_DIM then Some (s_nz s) else if String.eqb d Z_INTERFACE_DIM then Some (s_nz s + 1)
               else dget d (s_extra s)
  end.
Definition known (s : sizer) (dims : list string) : Prop := Forall (fun d => points s d <> None) dims.

(** the same name or names of the same direction with other staggering *)
Definition same_direction (d d' : string) : Prop :=
  d = d' \/ (axis_of d = axis_of d' /\ axis_of d <> AxOther) \/
  (In d [Z_DIM; Z_INTERFACE_DIM] /\ In d' [Z_DIM; Z_INTERFACE_DIM]).

(** no negative number *)
Definition sensible (s : sizer) : Prop :=
  0 <= s_nx s /\ 0 <= s_ny s /\ 0 <= s_nz s /\ 0 <= s_halo s /\ forall d n, dget d (s_extra s) = Some n -> 0 <= n.
