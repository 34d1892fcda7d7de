(** fv3gfs/util/rotate.py and the view methods of fv3gfs/util/boundary.py *)
From Verif.Base Require Import Base.
From Verif.Model Require Import Consts Numpy Quantity Partitioner.

(** rotate.py 9-14: positions of the last x and y dimensions *)
Fixpoint find_xy (i : nat) (dims : list string) (acc : option nat * option nat) : option nat * option nat :=
  match dims with
  | [] => acc
  | d :: dims' =>
      find_xy (S i) dims'
        (if sin d X_DIMS then (Some i, snd acc)
         else if sin d Y_DIMS then (fst acc, Some i) else acc)
  end.

(** rotate.py 27-32: data[::-1, ...]: reversed in horizontal dimensions *)
Definition reverse_entries (dims : list string) : list ientry :=
  map (fun d => if sin d HORIZONTAL_DIMS then ISlice None None (Some (-1)) else IALL) dims.

(** rotate.py 4-34. The result is a view of the argument in all cases. An axis given by [dims] beyond
    the array's dimensions is a ValueError of numpy.rot90 and an AxisError, a subclass of ValueError and
    IndexError, of numpy.flip; here ValueError in both cases. *)
Definition check_axis (v : view) (i : nat) : res unit :=
  if Nat.ltb i (length (vshp v)) then Ok tt else Err ValueError.
Definition rotate_scalar_data (v : view) (dims : list string) (n_clockwise_rotations : Z) : res view :=
  let k := n_clockwise_rotations mod 4 in
  if k =? 0 then Ok v
  else if (k =? 1) || (k =? 3) then
    match find_xy 0 dims (None, None) with
    | (Some x_dim, Some y_dim) =>
        do _ <- check_axis v x_dim; do _ <- check_axis v y_dim;
        if k =? 1 then Ok (v_rot90 v y_dim x_dim)
        else Ok (v_rot90 v x_dim y_dim)
    | (Some x_dim, None) =>
        if k =? 1 then do _ <- check_axis v x_dim; Ok (v_flip v x_dim) else Ok v
    | (None, Some y_dim) =>
        if k =? 3 then do _ <- check_axis v y_dim; Ok (v_flip v y_dim) else Ok v
    | (None, None) => Ok v
    end
  else v_index v (reverse_entries dims).

(** rotate.py 37-50. Each returned array is a view of one of the two arguments (false: the x
    argument, true: the y argument), negated if the sign is true. Negation makes a new array. *)
Definition rotate_vector_data (xv yv : view) (n_clockwise_rotations : Z) (dims : list string)
    : res ((bool * view * bool) * (bool * view * bool)) :=
  do x <- rotate_scalar_data xv dims n_clockwise_rotations;
  do y <- rotate_scalar_data yv dims n_clockwise_rotations;
  let k := n_clockwise_rotations mod 4 in
  Ok (if k =? 0 then ((false, x, false), (true, y, false))
      else if k =? 1 then ((true, y, false), (false, x, true))
      else if k =? 2 then ((false, x, true), (true, y, true))
      else ((true, y, true), (false, x, false))).

(** boundary.py 30-46 and 66-76 *)
Definition boundary_view (b : boundary) (m : meta) (n_points : Z) (interior : bool) : res view :=
  do sl <- get_boundary_slice (m_dims m) (m_origin m) (m_extent m) (m_shape m) (b_type b) n_points interior;
  v_index (v_whole (m_shape m)) (map (fun se => ISL (fst se) (snd se)) sl).
Definition send_view (b : boundary) (m : meta) (n_points : Z) : res view := boundary_view b m n_points true.
Definition recv_view (b : boundary) (m : meta) (n_points : Z) : res view := boundary_view b m n_points false.

(** boundary.py 19-28. [y_data[:]] on the right is a view of the same memory, so in the case of one
    rotation the second assignment reads what the first has written; in the case of three rotations
    only local names are rebound. Arguments and results: contents of the y and x arrays (same shape,
    not overlapping). *)
Definition boundary_rotate {V} (neg : V -> V) (n_clockwise_rotations : Z) (y x : idx -> V)
    : (idx -> V) * (idx -> V) :=
  let k := n_clockwise_rotations mod 4 in
  if k =? 0 then (y, x)
  else if k =? 1 then
    let rhs1 := fun i => neg (x i) in      (* -x_data[:] is a new array *)
    let y := rhs1 in                       (* y_data[:] = ... *)
    let x := y in                          (* x_data[:] = y_data[:], a view of the overwritten y *)
    (y, x)
  else if k =? 2 then
    let y := fun i => neg (y i) in
    let x := fun i => neg (x i) in
    (y, x)
  else (y, x).
