(** Model of fv3gfs/util/initialization/sizer.py and of the numpy backend of initialization/allocator.py.
    Left out: gt4py storages (StorageNumpy, from_backend). *)
From Verif.Base Require Import Base.
From Verif.Model Require Import Consts Partitioner Numpy Quantity.
Local Open Scope string_scope.

(** sizer.py 8-20 *)
Record sizer := mkSizer { s_nx : Z; s_ny : Z; s_nz : Z; s_halo : Z; s_extra : dict Z }.

(** constants.py 28 *)
Definition N_HALO_DEFAULT : Z := 3.

(** sizer.py 33-69; [part] is the layout of the partitioner given, if any *)
Definition from_tile_params (nx_tile ny_tile nz n_halo : Z) (extra : dict Z) (layout : layout_t) (part : option layout_t)
    (tile_rank : Z) : res sizer :=
  let tile_partitioner := match part with Some p => p | None => layout end in
  do slices <- tp_subtile_slice tile_partitioner tile_rank [Y_DIM; X_DIM] [ny_tile; nx_tile] true;
  match slices with
  | [(y0, y1); (x0, x1)] => Ok (mkSizer (x1 - x0) (y1 - y0) nz n_halo extra)
  | _ => Err ValueError
  end.

(** the entries of the group fv_core_nml of a namelist which are read *)
Record namelist := mkNml { nml_layout : option layout_t; nml_npx : option Z; nml_npy : option Z; nml_npz : option Z }.
Definition lookup {A} (o : option A) : res A := match o with Some a => Ok a | None => Err KeyError end.

(** sizer.py 71-102; [None] when the group is missing *)
Definition from_namelist (nml : option namelist) (part : option layout_t) (tile_rank : Z) : res sizer :=
  do g <- lookup nml;
  do layout <- lookup (nml_layout g);
  do npx <- lookup (nml_npx g);
  do npy <- lookup (nml_npy g);
  do nz <- lookup (nml_npz g);
  from_tile_params (npx - 1) (npy - 1) nz N_HALO_DEFAULT [] layout part tile_rank.

(** dict.update *)
Definition dupdate {A} (d e : dict A) : dict A := fold_left (fun d ka => dset (fst ka) (snd ka) d) e d.

(** sizer.py 104-117 *)
Definition dim_extents (s : sizer) : dict Z :=
  dupdate (s_extra s)
    [(X_DIM, s_nx s); (X_INTERFACE_DIM, s_nx s + 1); (Y_DIM, s_ny s); (Y_INTERFACE_DIM, s_ny s + 1);
     (Z_DIM, s_nz s); (Z_INTERFACE_DIM, s_nz s + 1)]%Z.

(** sizer.py 119-123 *)
Definition get_origin (s : sizer) (dims : list string) : list Z :=
  map (fun dim => if sin dim HORIZONTAL_DIMS then s_halo s else 0%Z) dims.

(** sizer.py 125-127 *)
Definition get_extent (s : sizer) (dims : list string) : res (list Z) :=
  let extents := dim_extents s in rmapM (fun dim => lookup (dget dim extents)) dims.

(** sizer.py 129-142 *)
Definition get_shape (s : sizer) (dims : list string) : res (list Z) :=
  let shape_dict := dupdate (s_extra s)
    [(X_DIM, s_nx s + 1 + 2 * s_halo s); (X_INTERFACE_DIM, s_nx s + 1 + 2 * s_halo s);
     (Y_DIM, s_ny s + 1 + 2 * s_halo s); (Y_INTERFACE_DIM, s_ny s + 1 + 2 * s_halo s);
     (Z_DIM, s_nz s + 1); (Z_INTERFACE_DIM, s_nz s + 1)]%Z in
  rmapM (fun dim => lookup (dget dim shape_dict)) dims.

(** numpy.zeros, numpy.ones (one value everywhere), numpy.empty (any contents): ValueError for a negative length *)
Definition numpy_alloc {V} (contents : idx -> V) (shape : list Z) : res (arr V) :=
  if forallb (Z.leb 0) shape then Ok (mkA shape contents) else Err ValueError.

(** allocator.py 58-68; numpy's allocators raise TypeError for the argument default_origin, so the second call is made *)
Definition allocate {V} (s : sizer) (contents : idx -> V) (dims : list string) (units : string) : res (quantity V) :=
  let origin := get_origin s dims in
  do extent <- get_extent s dims;
  do shape <- get_shape s dims;
  do data <- numpy_alloc contents shape;
  new_quantity (DArray data) dims units (Some origin) (Some extent).
