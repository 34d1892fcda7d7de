(** Model of the constructors of partitioners which take a namelist.
    Left out: the layout of a namelist is a list; python's TilePartitioner keeps it as it is, here it is a pair. *)
From Verif.Base Require Import Base.
From Verif.Model Require Import Consts Partitioner Sizer ScatterGather.

(** partitioner.py 111-118: the layout of the TilePartitioner *)
Definition tile_partitioner_from_namelist (nml : option namelist) : res partitioner :=
  do g <- lookup nml; do layout <- lookup (nml_layout g); Ok (TilePart layout).

(** partitioner.py 323-330; the constructor (312-321) checks that its argument is a TilePartitioner *)
Definition cubed_sphere_partitioner_from_namelist (nml : option namelist) : res partitioner :=
  do tile <- tile_partitioner_from_namelist nml;
  match tile with TilePart layout => Ok (CubePart layout) | CubePart _ => Err TypeError end.
