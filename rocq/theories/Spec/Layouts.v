(** Which layouts and tile extents the partitioner handles exactly.

    Subtile extents are computed in floating point, so a layout is required to give the right answer
    on the smallest instance: [n] cells over [n] ranks are one cell each. [Props/Partition.v] shows
    every n below 49 qualifies, 49 does not, and that this single instance decides all extents. *)
From Verif.Base Require Import Base.
From Verif.Model Require Import Consts Partitioner.
From Verif.Spec Require Import Grid.

Definition layout_ok (n : Z) : Prop :=
  1 <= n <= 2 ^ 49 /\ rank_extent_from_tile_metadata ["x"%string] [n] (n, n) = Ok [1].

Definition layouts_ok (layout : Z * Z) : Prop := layout_ok (fst layout) /\ layout_ok (snd layout).

(** a tile of the given dimensions and extent which the layout divides evenly *)
Definition tile_ok (layout : Z * Z) dims ext : Prop :=
  layouts_ok layout /\ moderate layout dims ext /\ divides_evenly layout dims ext.
