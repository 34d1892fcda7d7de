(** C06-C11: neighbours on the cubed sphere and on a doubly periodic tile. *)
From Verif.Base Require Import Base.
From Verif.Model Require Import Consts Partitioner Cache.
From Verif.Spec Require Import Cube.
From Verif.Proofs Require Import Boundaries CacheProofs Geometry.

(** C06: the neighbour has exactly one boundary leading back, with the inverse rotation, and that
    boundary lies in the opposite direction as seen through the rotation. *)
Theorem C06_boundary_reciprocal : forall n, 1 <= n -> forall r b B,
  0 <= r < 6 * (n * n) -> cs_boundary (n, n) b r = Ok (Some B) ->
  b_type B = b /\ b_from B = r /\ 0 <= b_to B < 6 * (n * n) /\ b_to B <> r /\ 0 <= b_rot B < 4 /\
  exists b' B', cs_boundary (n, n) b' (b_to B) = Ok (Some B') /\ b_to B' = r /\
    (b_rot B + b_rot B') mod 4 = 0 /\
    heading b' = turn (Z.to_nat (b_rot B)) (- fst (heading b), - snd (heading b)) /\
    (forall b'' B'', cs_boundary (n, n) b'' (b_to B) = Ok (Some B'') -> b_to B'' = r -> b'' = b').
Proof. exact boundary_reciprocal. Qed.
Print Assumptions C06_boundary_reciprocal.

Example C06_example :
  cs_boundary (3, 3) NORTHWEST 3 = Ok (Some (mkB NORTHWEST 3 42 1)) /\
  cs_boundary (3, 3) NORTHEAST 42 = Ok (Some (mkB NORTHEAST 42 3 3)).
Proof. split; vm_compute; reflexivity. Qed.

(** C07: no boundary exactly at the tile corner lying in the direction asked for; no lookup fails. *)
Theorem C07_missing_iff_tile_corner : forall n, 1 <= n -> forall r b, 0 <= r < 6 * (n * n) ->
  (exists B, cs_boundary (n, n) b r = Ok B) /\
  (cs_boundary (n, n) b r = Ok None <->
   (fst (heading b) <> 0 /\ snd (heading b) <> 0 /\
    tile_subtile_index (n, n) r =
     ((if 0 <? fst (heading b) then n - 1 else 0), (if 0 <? snd (heading b) then n - 1 else 0)))).
Proof. exact boundary_none. Qed.
Print Assumptions C07_missing_iff_tile_corner.

(** C07: on a non-square layout a lookup raises NotImplementedError, except that the missing corner
    boundaries are reported as missing. *)
Theorem C07_nonsquare : forall ny nx b r, 1 <= ny -> 1 <= nx -> ny <> nx ->
  cs_boundary (ny, nx) b r = Err NotImplementedError \/
  (cs_boundary (ny, nx) b r = Ok None /\ fst (heading b) <> 0 /\ snd (heading b) <> 0 /\
   tile_subtile_index (ny, nx) r =
     ((if 0 <? fst (heading b) then ny - 1 else 0), (if 0 <? snd (heading b) then nx - 1 else 0))).
Proof. exact nonsquare. Qed.
Print Assumptions C07_nonsquare.

Example C07_example : cs_boundary (3, 3) NORTHWEST 6 = Ok None /\
  cs_boundary (3, 3) NORTHEAST 6 <> Ok None /\ cs_boundary (2, 3) WEST 1 = Err NotImplementedError /\
  cs_boundary (2, 3) SOUTHWEST 0 = Ok None.
Proof. repeat split; try (vm_compute; reflexivity). vm_compute. discriminate. Qed.

(** C08: different boundaries lead to different ranks. *)
Theorem C08_distinct_neighbours : forall n, 1 <= n -> forall r b1 b2 B1 B2, 0 <= r < 6 * (n * n) ->
  cs_boundary (n, n) b1 r = Ok (Some B1) -> cs_boundary (n, n) b2 r = Ok (Some B2) ->
  b_to B1 = b_to B2 -> b1 = b2.
Proof. exact boundary_distinct. Qed.
Print Assumptions C08_distinct_neighbours.

Example C08_example : exists B1 B2, cs_boundary (1, 1) WEST 0 = Ok (Some B1) /\
  cs_boundary (1, 1) SOUTH 0 = Ok (Some B2) /\ b_to B1 = 4 /\ b_to B2 = 5.
Proof. eexists _, _. repeat split; vm_compute; reflexivity. Qed.

(** C09: row and column are stepped by the heading, with wrap-around. *)
Theorem C09_tile_periodic : forall ny nx, 1 <= ny -> 1 <= nx -> forall b r, 0 <= r < ny * nx ->
  tp_boundary (ny, nx) b r =
  mkB b r (((r / nx + fst (heading b)) mod ny) * nx + (r mod nx + snd (heading b)) mod nx) 0.
Proof. exact tile_boundary_wrapped. Qed.
Print Assumptions C09_tile_periodic.

(** C09: going there and back is the identity; a corner is its two edges in either order. *)
Theorem C09_opposite : forall ny nx, 1 <= ny -> 1 <= nx -> forall b1 b2 r, 0 <= r < ny * nx ->
  heading b2 = (- fst (heading b1), - snd (heading b1)) ->
  b_to (tp_boundary (ny, nx) b2 (b_to (tp_boundary (ny, nx) b1 r))) = r.
Proof. exact tile_boundary_opposite. Qed.
Print Assumptions C09_opposite.

Theorem C09_compose : forall ny nx, 1 <= ny -> 1 <= nx -> forall b1 b2 b3 r, 0 <= r < ny * nx ->
  (fst (heading b1) + fst (heading b2), snd (heading b1) + snd (heading b2)) = heading b3 ->
  b_to (tp_boundary (ny, nx) b2 (b_to (tp_boundary (ny, nx) b1 r))) = b_to (tp_boundary (ny, nx) b3 r).
Proof. exact tile_boundary_compose. Qed.
Print Assumptions C09_compose.

Example C09_example : b_to (tp_boundary (2, 3) NORTHWEST 3) = 2 /\
  b_to (tp_boundary (2, 3) WEST (b_to (tp_boundary (2, 3) NORTH 3))) = 2.
Proof. split; vm_compute; reflexivity. Qed.

(** C10: after any sequence of lookups and of overwriting objects handed out, a lookup shows the
    same boundary as a computation from scratch. *)
Theorem C10_cube_lookup_history_independent : forall layout (history : list call) b r,
  lookup_cube layout history b r = cs_boundary layout b r.
Proof. exact lookup_cube_pure. Qed.
Print Assumptions C10_cube_lookup_history_independent.

Theorem C10_tile_lookup_history_independent : forall layout (history : list call) b r,
  lookup_tile layout history b r = Ok (tp_boundary layout b r).
Proof. exact lookup_tile_pure. Qed.
Print Assumptions C10_tile_lookup_history_independent.

Example C10_example : lookup_cube (3, 3)
   [LookupCube NORTHWEST 3; Overwrite 0 (mkB WEST 7 7 7); LookupTile WEST 3; Overwrite 1 (mkB WEST 8 8 8)] NORTHWEST 3
  = Ok (Some (mkB NORTHWEST 3 42 1)).
Proof. vm_compute; reflexivity. Qed.

(** C11: a point up to a subtile's width over the boundary (any staggering) lies at a definite place of
    the cube's surface; that place is a point of the compute domain of the neighbour given by the
    boundary, at the indices given by undoing the rotation, and the neighbour's axes there are ours
    turned by the boundary's rotation. *)
Theorem C11_neighbours_geometric : forall n, 1 <= n -> forall r b B N sy sx h y x,
  0 <= r < 6 * (n * n) -> cs_boundary (n, n) b r = Ok (Some B) ->
  1 <= N -> 0 <= sy <= 1 -> 0 <= sx <= 1 -> h <= N ->
  in_halo b (N + sy) (N + sx) h y x ->
  let k := b_rot B in
  let '(y', x') := unrot k (N + sy) (N + sx) (y - fst (heading b) * N, x - snd (heading b) * N) in
  let '(sy', sx') := swap_if k (sy, sx) in
  (k = 0 \/ k = 1 \/ k = 3) /\
  0 <= y' < N + sy' /\ 0 <= x' < N + sx' /\
  position n N sy sx r y x <> None /\
  position n N sy' sx' (b_to B) y' x' = position n N sy sx r y x /\
  (x_direction n N sy' sx' (b_to B) y' x', y_direction n N sy' sx' (b_to B) y' x')
   = unrot_dir k (x_direction n N sy sx r y x) (y_direction n N sy sx r y x).
Proof. exact boundary_geometry. Qed.
Print Assumptions C11_neighbours_geometric.

(** ... and cell centres of different ranks or indices are at different places, so the neighbour and
    the cell are determined by the place. *)
Theorem C11_places_distinct : forall n N r y x r' y' x', 1 <= n -> 1 <= N ->
  0 <= r < 6 * (n * n) -> 0 <= r' < 6 * (n * n) ->
  0 <= y < N -> 0 <= x < N -> 0 <= y' < N -> 0 <= x' < N ->
  position n N 0 0 r y x = position n N 0 0 r' y' x' -> r = r' /\ y = y' /\ x = x'.
Proof. exact centre_positions_distinct. Qed.
Print Assumptions C11_places_distinct.

(** rank 3 of a 3x3 layout, subtiles of 4x4 cells: halo cell (5, -2) is cell (2, 2) of rank 42 *)
Example C11_example : in_halo NORTHWEST 4 4 3 5 (-2) /\
  unrot 1 4 4 (5 - 4, -2 + 4) = (2, 2) /\
  position 3 4 0 0 42 2 2 = position 3 4 0 0 3 5 (-2) /\ position 3 4 0 0 3 5 (-2) = Some (-12, 7, 9).
Proof. repeat split; try reflexivity; vm_compute; congruence. Qed.
