(** Independent vocabulary: horizontal axes, staggering, regions. *)
From Verif.Base Require Import Base.
Local Open Scope string_scope.

(** Which horizontal axis a named dimension runs along. *)
Inductive axis := AxX | AxY | AxOther.

Definition axis_of (d : string) : axis :=
  if d =? "x" then AxX else if d =? "x_interface" then AxX
  else if d =? "y" then AxY else if d =? "y_interface" then AxY
  else AxOther.

(** Number of points of a dimension beyond the number of grid cells. *)
Definition stag (d : string) : Z :=
  if d =? "x_interface" then 1 else if d =? "y_interface" then 1
  else if d =? "z_interface" then 1 else 0.

Local Open Scope Z_scope.

(** value along a dimension of a (y, x) pair, or a default *)
Definition along {T} (d : string) (yx : T * T) (other : T) : T :=
  match axis_of d with AxX => snd yx | AxY => fst yx | AxOther => other end.

(** A point (list of indices) lies in a box given by (start, stop) pairs. *)
Definition in_box (box : list (Z * Z)) (p : list Z) : Prop :=
  Forall2 (fun b x => fst b <= x < snd b) box p.

(** A point lies in an array of the given shape. *)
Definition in_shape (shape p : list Z) : Prop := Forall2 (fun n x => 0 <= x < n) shape p.

(** [extent] (points per dimension) of a tile divides evenly over the layout. *)
Definition divides_evenly (layout : Z * Z) (dims : list string) (extent : list Z) : Prop :=
  Forall2 (fun d e => 0 <= e - stag d /\ (e - stag d) mod along d layout 1 = 0) dims extent.

(** Extents small enough for float64 arithmetic. *)
Definition moderate (layout : Z * Z) (dims : list string) (extent : list Z) : Prop :=
  Forall2 (fun d e => 0 <= e - stag d /\ e + 2 * along d layout 1 <= 2 ^ 51) dims extent.

(** There is exactly one dimension along the given axis. *)
Definition one_axis (a : axis) (dims : list string) : Prop :=
  exists l r d, dims = (l ++ d :: r)%list /\ axis_of d = a /\
    Forall (fun d' => axis_of d' <> a) l /\ Forall (fun d' => axis_of d' <> a) r.

Definition horizontal (dims : list string) : Prop := one_axis AxX dims /\ one_axis AxY dims.
