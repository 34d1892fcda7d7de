(** What a view shows if its index contains new axes. *)
From Verif.Base Require Import Base.

(** the points of [o, o + e) which an axis of length [s] has *)
Definition clipped (s o e : Z) : Z := Z.max 0 (Z.min (o + e) s - Z.min o s).
(** the first axes clipped to the given origins and extents, the others whole *)
Fixpoint clipped_shape (shape : list Z) (oes : list (Z * Z)) : list Z :=
  match shape, oes with
  | s :: shape', (o, e) :: oes' => clipped s o e :: clipped_shape shape' oes'
  | _, _ => shape
  end.
Fixpoint clipped_place (shape : list Z) (oes : list (Z * Z)) (p : list Z) : list Z :=
  match shape, oes with
  | s :: shape', (o, e) :: oes' => (Z.min o s + hd 0 p) :: clipped_place shape' oes' (tl p)
  | _, _ => p
  end.
