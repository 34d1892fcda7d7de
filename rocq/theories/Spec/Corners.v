(** What corner filling should do: at the corner of a tile, a stencil running along [direction] which steps from the edge halo
    into the corner should meet the values it would meet going around the corner of the cube. *)
From Verif.Base Require Import Base.
From Verif.Model Require Import Consts Numpy Quantity.
From Verif.Spec Require Import Grid.

(** along an axis with compute domain [o, o + e): the index [a] cells outside ([a] = 1 is next to it), and
    the index [c] cells inside ([c] = 0 is the outermost), at its start or ([far]) its end *)
Definition outside (far : bool) (o e a : Z) : Z := if far then o + e - 1 + a else o - a.
Definition inside (far : bool) (o e c : Z) : Z := if far then o + e - 1 - c else o + c.

(** position of a rank in its tile *)
Definition on_side (layout : Z * Z) (rank : Z) (far_x far_y : bool) : Prop :=
  let r := rank mod (fst layout * snd layout) in
  r mod snd layout = (if far_x then snd layout - 1 else 0) /\ r / snd layout = (if far_y then fst layout - 1 else 0).

(** the compute domain of a quantity with dimensions x, y, others *)
Record xy_domain := mkXY { xo : Z; xe : Z; yo : Z; ye : Z }.

(** the point [a] cells outside in x and [b] cells outside in y of a corner, and the point whose value it gets: a stencil
    along y goes from the edge halo at [a] cells outside the y side, ..., so the corner gets what lies beyond the x side *)
Definition corner_point (d : xy_domain) (far_x far_y : bool) (a b : Z) : Z * Z :=
  (outside far_x (xo d) (xe d) a, outside far_y (yo d) (ye d) b).
Definition corner_source (d : xy_domain) (y_direction : bool) (shift : Z) (far_x far_y : bool) (a b : Z) : Z * Z :=
  if y_direction then (inside far_x (xo d) (xe d) (b - 1 + shift), outside far_y (yo d) (ye d) a)
  else (outside far_x (xo d) (xe d) b, inside far_y (yo d) (ye d) (a - 1 + shift)).

(** [after] is [before] with the corners [at_corner] filled, in the columns [column] *)
Definition corners_filled {V} (d : xy_domain) (y_direction : bool) (shift n : Z) (at_corner : bool -> bool -> Prop) (column : list Z -> Prop)
    (before after : idx -> V) : Prop :=
  (forall far_x far_y a b rest, at_corner far_x far_y -> 1 <= a <= n -> 1 <= b <= n -> column rest ->
     after (fst (corner_point d far_x far_y a b) :: snd (corner_point d far_x far_y a b) :: rest) =
     before (fst (corner_source d y_direction shift far_x far_y a b) :: snd (corner_source d y_direction shift far_x far_y a b) :: rest)) /\
  (forall i, (forall far_x far_y a b rest, at_corner far_x far_y -> 1 <= a <= n -> 1 <= b <= n -> column rest ->
                i <> fst (corner_point d far_x far_y a b) :: snd (corner_point d far_x far_y a b) :: rest) ->
     after i = before i).

(** the columns in which corners are filled: the compute domain of the other dimensions *)
Definition in_column_of (origin extent rest : list Z) : Prop := in_box (map2 (fun o e => (o, o + e)) origin extent) rest.

(** ** the same on the cube *)
From Verif.Spec Require Import Cube.
(** Walking around the corner: from the face beyond the y side over the edge to the face beyond the x side (going
    along x), or the other way round (going along y). [u] and [v] are beyond both sides. *)
Definition around_x (M t u v : Z) : vec :=
  vadd (vadd (vscale (Z.sgn u * M) (xaxis t)) (vscale (Z.sgn v * (2 * M - Z.abs u)) (yaxis t))) (vscale (2 * M - Z.abs v) (normal t)).
Definition around_y (M t u v : Z) : vec :=
  vadd (vadd (vscale (Z.sgn u * (2 * M - Z.abs v)) (xaxis t)) (vscale (Z.sgn v * M) (yaxis t))) (vscale (2 * M - Z.abs u) (normal t)).
Definition around (y_direction : bool) (n N sy sx r y x : Z) : option vec :=
  let '(t, J, i) := place n r in
  Some ((if y_direction then around_y else around_x) (n * N) t (offset n N sx i x) (offset n N sy J y)).
