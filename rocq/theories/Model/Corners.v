(** Model of fv3gfs/util/_corners.py.
    [direction] is a string; numpy.rot90 makes a view of the array read from the quantity, and assignment copies from it (numpy
    buffers overlapping operands). *)
From Verif.Base Require Import Base.
From Verif.Model Require Import Consts Partitioner Numpy Quantity.
Local Open Scope string_scope.

(** numpy.rot90 in the plane of the first two axes: k = 1 or k = -1; ValueError if there are not two axes *)
Definition np_rot90 {V} (a : arr V) (anti_clockwise : bool) : res (arr V) :=
  if Nat.ltb (length (shp a)) 2 then Err ValueError
  else Ok (v_read a (if anti_clockwise then v_rot90 (v_whole (shp a)) 0 1 else v_rot90 (v_whole (shp a)) 1 0)).

(** _corners.py 159-176 *)
Definition shared_edge_points (direction : string) (dim0 dim1 : string) : Z :=
  if String.eqb direction "y" then (if sin dim0 INTERFACE_DIMS then 1 else 0) else (if sin dim1 INTERFACE_DIMS then 1 else 0).

(** one statement: quantity.view.CORNER[dst] = rot90(quantity.view.CORNER[src], k) *)
Definition copy_corner {V} (q : quantity V) (b : btype) (dst src : ientry * ientry) (anti_clockwise : bool) : res (quantity V) :=
  do part <- corner_get q (VCorner b) (PTuple [fst src; snd src]);
  do turned <- np_rot90 part anti_clockwise;
  corner_set q (VCorner b) (PTuple [fst dst; snd dst]) turned.

(** _corners.py 82-156 *)
Definition fill_scalar_corners {V} (q : quantity V) (direction : string) (layout : layout_t) (rank n_halo : Z) : res (quantity V) :=
  match q_dims q with
  | [] => Err IndexError
  | dim0 :: rest =>
      if negb (sin dim0 X_DIMS) then Err ValueError
      else match rest with
      | [] => Err IndexError
      | dim1 :: _ =>
          if negb (sin dim1 Y_DIMS) then Err ValueError
          else if negb (sin direction ["x"; "y"]) then Err TypeError
          else
            let on_north := tp_on_top layout rank in
            let on_south := tp_on_bottom layout rank in
            let on_east := tp_on_right layout rank in
            let on_west := tp_on_left layout rank in
            let shift := shared_edge_points direction dim0 dim1 in
            let before := ISL (- n_halo) 0 in
            let after := ISL 0 n_halo in
            let first := ISL shift (n_halo + shift) in
            let last := ISL (- n_halo - shift) (- shift) in
            let y := String.eqb direction "y" in
            do q <- (if on_south && on_west then
                       if y then copy_corner q SOUTHWEST (before, before) (first, before) false
                       else copy_corner q SOUTHWEST (before, before) (before, first) true
                     else Ok q);
            do q <- (if on_north && on_west then
                       if y then copy_corner q NORTHWEST (before, after) (first, after) true
                       else copy_corner q NORTHWEST (before, after) (before, last) false
                     else Ok q);
            do q <- (if on_south && on_east then
                       if y then copy_corner q SOUTHEAST (after, before) (last, before) true
                       else copy_corner q SOUTHEAST (after, before) (after, first) false
                     else Ok q);
            if on_north && on_east then
              if y then copy_corner q NORTHEAST (after, after) (last, after) false
              else copy_corner q NORTHEAST (after, after) (after, last) true
            else Ok q
      end
  end.
