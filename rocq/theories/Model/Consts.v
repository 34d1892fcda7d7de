(** fv3gfs/util/constants.py *)
From Verif.Base Require Import Base.
Local Open Scope string_scope.

(** constants.py 1-14 *)
Definition ROOT_RANK : Z := 0.
Definition X_DIM := "x".
Definition X_INTERFACE_DIM := "x_interface".
Definition Y_DIM := "y".
Definition Y_INTERFACE_DIM := "y_interface".
Definition Z_DIM := "z".
Definition Z_INTERFACE_DIM := "z_interface".
Definition Z_SOIL_DIM := "z_soil".
Definition TILE_DIM := "tile".
Definition X_DIMS := [X_DIM; X_INTERFACE_DIM].
Definition Y_DIMS := [Y_DIM; Y_INTERFACE_DIM].
Definition Z_DIMS := [Z_DIM; Z_INTERFACE_DIM].
Definition HORIZONTAL_DIMS := (X_DIMS ++ Y_DIMS)%list.
Definition INTERFACE_DIMS := [X_INTERFACE_DIM; Y_INTERFACE_DIM; Z_INTERFACE_DIM].

(** constants.py 16-24, the integer constants as an enumeration.  A python integer which is
    none of these would raise KeyError in the dictionaries indexed by them; not modelled. *)
Inductive btype := WEST | EAST | NORTH | SOUTH
                 | NORTHWEST | NORTHEAST | SOUTHWEST | SOUTHEAST.

Definition btype_eqb (a b : btype) : bool :=
  match a, b with
  | WEST, WEST | EAST, EAST | NORTH, NORTH | SOUTH, SOUTH
  | NORTHWEST, NORTHWEST | NORTHEAST, NORTHEAST
  | SOUTHWEST, SOUTHWEST | SOUTHEAST, SOUTHEAST => true
  | _, _ => false
  end.

(** constants.py 25-27 *)
Definition EDGE_BOUNDARY_TYPES := [NORTH; SOUTH; WEST; EAST].
Definition CORNER_BOUNDARY_TYPES := [NORTHWEST; NORTHEAST; SOUTHWEST; SOUTHEAST].
Definition BOUNDARY_TYPES := (EDGE_BOUNDARY_TYPES ++ CORNER_BOUNDARY_TYPES)%list.

(** utils.py 21-36 *)
Fixpoint list_by_dims {T} (dims : list string) (horizontal : T * T) (non_horizontal : T) : list T :=
  match dims with
  | [] => []
  | dim :: dims' =>
      (if sin dim Y_DIMS then fst horizontal
       else if sin dim X_DIMS then snd horizontal
       else non_horizontal) :: list_by_dims dims' horizontal non_horizontal
  end.
