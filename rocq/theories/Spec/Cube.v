(** Independent description of the cubed sphere: six square faces of a cube in space.

    Nothing here mentions the partitioner.  Each tile has an outward normal and two in-plane axes
    (the directions in which x and y indices increase), chosen once as integer vectors.  With [M]
    cells along a tile edge the cube has half-width [M], grid cells are 2 wide, cell centres sit
    at odd/even offsets and interfaces in between, so every grid point has an integer position. *)
From Verif.Base Require Import Base.
From Verif.Model Require Import Consts.

Definition vec := (Z * Z * Z)%type.
Definition vadd (a b : vec) : vec :=
  let '(a1, a2, a3) := a in let '(b1, b2, b3) := b in (a1 + b1, a2 + b2, a3 + b3).
Definition vscale (k : Z) (a : vec) : vec := let '(a1, a2, a3) := a in (k * a1, k * a2, k * a3).

(** outward normal, x axis, y axis of tiles 0..5 *)
Definition normal (t : Z) : vec :=
  if t =? 0 then (0, 0, 1) else if t =? 1 then (1, 0, 0) else if t =? 2 then (0, 1, 0)
  else if t =? 3 then (0, 0, -1) else if t =? 4 then (-1, 0, 0) else (0, -1, 0).
Definition xaxis (t : Z) : vec :=
  if t =? 0 then (1, 0, 0) else if t =? 1 then (0, 0, -1) else if t =? 2 then (0, 0, -1)
  else if t =? 3 then (0, -1, 0) else if t =? 4 then (0, -1, 0) else (1, 0, 0).
Definition yaxis (t : Z) : vec :=
  if t =? 0 then (0, 1, 0) else if t =? 1 then (0, 1, 0) else if t =? 2 then (-1, 0, 0)
  else if t =? 3 then (-1, 0, 0) else if t =? 4 then (0, 0, 1) else (0, 0, 1).

(** A point of the surface, reached by walking [u] along the x axis and [v] along the y axis of
    tile [t] from its centre; walking over an edge means continuing straight down the adjacent
    face.  Leaving over both edges (the region at a cube corner) is undefined. *)
Definition surf (M t u v : Z) : option vec :=
  if (Z.abs u <=? M) && (Z.abs v <=? M) then
    Some (vadd (vadd (vscale u (xaxis t)) (vscale v (yaxis t))) (vscale M (normal t)))
  else if Z.abs v <=? M then
    Some (vadd (vadd (vscale (Z.sgn u * M) (xaxis t)) (vscale v (yaxis t)))
               (vscale (2 * M - Z.abs u) (normal t)))
  else if Z.abs u <=? M then
    Some (vadd (vadd (vscale u (xaxis t)) (vscale (Z.sgn v * M) (yaxis t)))
               (vscale (2 * M - Z.abs v) (normal t)))
  else None.

(** Directions in space of increasing x and increasing y at that point. *)
Definition xdir (M t u v : Z) : vec :=
  if Z.abs u <=? M then xaxis t else vscale (- Z.sgn u) (normal t).
Definition ydir (M t u v : Z) : vec :=
  if Z.abs v <=? M then yaxis t else vscale (- Z.sgn v) (normal t).

(** Where a rank sits: tile, row and column of its subtile on an [n] by [n] layout. *)
Definition place (n r : Z) : Z * Z * Z := (r / (n * n), r mod (n * n) / n, r mod n).

(** Offset from the tile centre (in half cells) of index [x] of the [I]-th of [n] subtiles of [N]
    cells each; [s] is 1 for cell interfaces and 0 for cell centres. *)
Definition offset (n N s I x : Z) : Z := 2 * (I * N + x) + 1 - s - n * N.

(** Position and axis directions of index (y, x), relative to the start of rank [r]'s compute
    domain. [sx], [sy]: staggering in x and y. *)
Definition position (n N sy sx r y x : Z) : option vec :=
  let '(t, J, i) := place n r in surf (n * N) t (offset n N sx i x) (offset n N sy J y).
Definition x_direction (n N sy sx r y x : Z) : vec :=
  let '(t, J, i) := place n r in xdir (n * N) t (offset n N sx i x) (offset n N sy J y).
Definition y_direction (n N sy sx r y x : Z) : vec :=
  let '(t, J, i) := place n r in ydir (n * N) t (offset n N sx i x) (offset n N sy J y).

(** Compass direction of a boundary: step in (y, x). *)
Definition heading (b : btype) : Z * Z :=
  match b with
  | NORTH => (1, 0) | SOUTH => (-1, 0) | WEST => (0, -1) | EAST => (0, 1)
  | NORTHWEST => (1, -1) | NORTHEAST => (1, 1) | SOUTHWEST => (-1, -1) | SOUTHEAST => (-1, 1)
  end.

(** [h] halo indices on one side of an axis with [e] compute indices; side -1, 0 (the compute
    range itself) or 1 *)
Definition side_range (side e h i : Z) : Prop :=
  if side =? 0 then 0 <= i < e else if side <? 0 then - h <= i < 0 else e <= i < e + h.

(** index (y, x) is one of the [h]-deep halo points on side [b] of an (ey, ex) compute domain *)
Definition in_halo (b : btype) (ey ex h y x : Z) : Prop :=
  side_range (fst (heading b)) ey h y /\ side_range (snd (heading b)) ex h x.

(** a quarter turn counterclockwise of a (y, x) step, and k of them *)
Definition quarter (d : Z * Z) : Z * Z := (snd d, - fst d).
Fixpoint turn (k : nat) (d : Z * Z) : Z * Z :=
  match k with O => d | S k => quarter (turn k d) end.

(** A neighbour whose axes are ours turned by [k] quarter turns (k = 0, 1 or 3) occupies an (ey, ex) box
    of our index space; [unrot] is the index in the neighbour's frame of index (y0, x0) of that box. *)
Definition unrot (k ey ex : Z) (p : Z * Z) : Z * Z :=
  let '(y0, x0) := p in
  if k =? 0 then (y0, x0) else if k =? 1 then (x0, ey - 1 - y0) else (ex - 1 - x0, y0).
(** y and x exchange roles under a quarter turn *)
Definition swap_if {A} (k : Z) (p : A * A) : A * A := if k =? 0 then p else (snd p, fst p).

(** directions of the neighbour's axes, expressed by ours: (x', y') *)
Definition unrot_dir (k : Z) (xd yd : vec) : vec * vec :=
  if k =? 0 then (xd, yd)
  else if k =? 1 then (vscale (-1) yd, xd) else (yd, vscale (-1) xd).
