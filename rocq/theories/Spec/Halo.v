(** What halo updates should achieve, in terms of the geometry of the cube (Spec/Cube.v).

    [n]: layout (n, n); [N]: grid cells of a subtile along each horizontal axis; [ix], [iy]: which
    dimensions of the arrays are along x and y. *)
From Verif.Base Require Import Base.
From Verif.Model Require Import Consts Quantity.
From Verif.Spec Require Import Grid Cube.

Definition xat (l : list Z) (i : nat) : Z := nth i l 0.

(** dimensions, compute domain and halo of an array of one rank: [len] dimensions, [sy], [sx] the
    staggering in y and x, [ext] the extent of other dimensions, at least [h] points of halo *)
Record fits (N h : Z) (len ix iy : nat) (sy sx : Z) (ext : nat -> Z) (m : meta) : Prop := {
  fit_ix : (ix < len)%nat;
  fit_iy : (iy < len)%nat;
  fit_xy : ix <> iy;
  fit_dims : length (m_dims m) = len;
  fit_origin : length (m_origin m) = len;
  fit_extent : length (m_extent m) = len;
  fit_shape : length (m_shape m) = len;
  fit_axis : forall i, (i < len)%nat ->
    axis_of (nth i (m_dims m) EmptyString) = if Nat.eqb i ix then AxX else if Nat.eqb i iy then AxY else AxOther;
  fit_sx : stag (nth ix (m_dims m) EmptyString) = sx;
  fit_sy : stag (nth iy (m_dims m) EmptyString) = sy;
  fit_ext : forall i, (i < len)%nat ->
    xat (m_extent m) i = if Nat.eqb i ix then N + sx else if Nat.eqb i iy then N + sy else ext i;
  fit_dom : forall i, (i < len)%nat ->
    0 <= xat (m_origin m) i /\ 0 <= xat (m_extent m) i /\ xat (m_origin m) i + xat (m_extent m) i <= xat (m_shape m) i;
  fit_halo : forall i, i = ix \/ i = iy ->
    h <= xat (m_origin m) i /\ xat (m_origin m) i + xat (m_extent m) i + h <= xat (m_shape m) i
}.

Arguments fit_ix {_ _ _ _ _ _ _ _ _} _.
Arguments fit_iy {_ _ _ _ _ _ _ _ _} _.
Arguments fit_xy {_ _ _ _ _ _ _ _ _} _.
Arguments fit_dims {_ _ _ _ _ _ _ _ _} _.
Arguments fit_origin {_ _ _ _ _ _ _ _ _} _.
Arguments fit_extent {_ _ _ _ _ _ _ _ _} _.
Arguments fit_shape {_ _ _ _ _ _ _ _ _} _.
Arguments fit_axis {_ _ _ _ _ _ _ _ _} _.
Arguments fit_sx {_ _ _ _ _ _ _ _ _} _.
Arguments fit_sy {_ _ _ _ _ _ _ _ _} _.
Arguments fit_ext {_ _ _ _ _ _ _ _ _} _.
Arguments fit_dom {_ _ _ _ _ _ _ _ _} _.
Arguments fit_halo {_ _ _ _ _ _ _ _ _} _.

(** index relative to the start of the compute domain *)
Definition rel (m : meta) (p : list Z) (i : nat) : Z := xat p i - xat (m_origin m) i.

(** [p] is in the compute domain in all but the horizontal dimensions *)
Definition in_column (m : meta) (ix iy : nat) (p : list Z) : Prop :=
  length p = length (m_dims m) /\
  forall i, (i < length (m_dims m))%nat -> i <> ix -> i <> iy -> 0 <= rel m p i < xat (m_extent m) i.

Definition in_domain (m : meta) (p : list Z) : Prop :=
  length p = length (m_dims m) /\ forall i, (i < length (m_dims m))%nat -> 0 <= rel m p i < xat (m_extent m) i.

(** [p] is one of the [h]-deep halo points on side [b] *)
Definition in_side (m : meta) (ix iy : nat) (h : Z) (b : btype) (p : list Z) : Prop :=
  in_column m ix iy p /\ in_halo b (xat (m_extent m) iy) (xat (m_extent m) ix) h (rel m p iy) (rel m p ix).

(** same coordinates in all but the horizontal dimensions *)
Definition same_column (m m' : meta) (ix iy : nat) (p p' : list Z) : Prop :=
  forall i, (i < length (m_dims m))%nat -> i <> ix -> i <> iy -> rel m p i = rel m' p' i.

(** place of an array element on the cube, and direction of increasing x and y index there *)
Definition place_of (n N : Z) (ix iy : nat) (m : meta) (r : nat) (p : list Z) : option vec :=
  position n N (stag (nth iy (m_dims m) EmptyString)) (stag (nth ix (m_dims m) EmptyString)) (Z.of_nat r) (rel m p iy) (rel m p ix).
Definition x_dir_of (n N : Z) (ix iy : nat) (m : meta) (r : nat) (p : list Z) : vec :=
  x_direction n N (stag (nth iy (m_dims m) EmptyString)) (stag (nth ix (m_dims m) EmptyString)) (Z.of_nat r) (rel m p iy) (rel m p ix).
Definition y_dir_of (n N : Z) (ix iy : nat) (m : meta) (r : nat) (p : list Z) : vec :=
  y_direction n N (stag (nth iy (m_dims m) EmptyString)) (stag (nth ix (m_dims m) EmptyString)) (Z.of_nat r) (rel m p iy) (rel m p ix).

(** point of the halo to be filled: within [h] points of the compute domain, and on the cube *)
Definition to_fill (n N h : Z) (ix iy : nat) (m : meta) (r : nat) (p : list Z) : Prop :=
  (exists b, in_side m ix iy h b p) /\ place_of n N ix iy m r p <> None.

(** number of ranks *)
Definition ranks (n : Z) : nat := Z.to_nat (6 * (n * n)).

Section Filled.
Variable V : Type.
Variable neg : V -> V.
Variables n N h : Z.
Variables ix iy : nat.

(** Scalar halo update: [sent], the contents when the update starts; [before] and [after], the
    contents around its end. Each point to fill gets the value some rank has in its compute domain at the
    same place. *)
Definition scalar_filled (mt : nat -> meta) (sent before after : nat -> list Z -> V) : Prop :=
  forall r p, (r < ranks n)%nat ->
    (to_fill n N h ix iy (mt r) r p ->
     exists r' p', (r' < ranks n)%nat /\ in_domain (mt r') p' /\ same_column (mt r) (mt r') ix iy p p' /\
       place_of n N ix iy (mt r') r' p' = place_of n N ix iy (mt r) r p /\ after r p = sent r' p') /\
    (~ to_fill n N h ix iy (mt r) r p -> after r p = before r p).

(** Vector halo update; component 0 is x, 1 is y. The value comes from a component which points
    in the same direction, or in the opposite direction and is negated. *)
Definition dir_of (c : bool) (m : meta) (r : nat) (p : list Z) : vec :=
  if c then y_dir_of n N ix iy m r p else x_dir_of n N ix iy m r p.
Definition vector_filled (mt : bool -> nat -> meta) (sent before after : bool -> nat -> list Z -> V) : Prop :=
  forall c r p, (r < ranks n)%nat ->
    (to_fill n N h ix iy (mt c r) r p ->
     exists c' r' p', (r' < ranks n)%nat /\ in_domain (mt c' r') p' /\ same_column (mt c r) (mt c' r') ix iy p p' /\
       place_of n N ix iy (mt c' r') r' p' = place_of n N ix iy (mt c r) r p /\
       ((dir_of c' (mt c' r') r' p' = dir_of c (mt c r) r p /\ after c r p = sent c' r' p') \/
        (dir_of c' (mt c' r') r' p' = vscale (-1) (dir_of c (mt c r) r p) /\ after c r p = neg (sent c' r' p')))) /\
    (~ to_fill n N h ix iy (mt c r) r p -> after c r p = before c r p).

End Filled.
Arguments scalar_filled {V}. Arguments vector_filled {V}.
