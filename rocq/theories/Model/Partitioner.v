(** fv3gfs/util/partitioner.py

    Simplifications, everywhere in this file:
    - layouts and ranks are integers; [%] and [//] are Z.modulo and Z.div, which agree with
      python for every nonzero divisor (python raises ZeroDivisionError for a zero layout);
    - numpy's int64 products are unbounded integers;
    - numpy integers returned by np.where lookups are plain integers. *)
From Verif.Base Require Import Base.
From Verif.Model Require Import Consts.
From Coq Require Import SpecFloat.

(** boundary.py 6-17 and 60-64: dataclass SimpleBoundary *)
Record boundary := mkB {
  b_type : btype;
  b_from : Z;
  b_to : Z;
  b_rot : Z
}.

Definition layout_t := (Z * Z)%type.

(** partitioner.py 27-34 *)
Definition get_tile_index (rank total_ranks : Z) : res Z :=
  if negb (total_ranks mod 6 =? 0) then Err ValueError
  else let ranks_per_tile := total_ranks / 6 in
       if ranks_per_tile =? 0 then Err ZeroDivisionError
       else Ok (rank / ranks_per_tile).

(** partitioner.py 37-49 *)
Definition get_tile_number (tile_rank total_ranks : Z) : res Z :=
  if negb (total_ranks mod 6 =? 0) then Err ValueError
  else let ranks_per_tile := total_ranks / 6 in
       if ranks_per_tile =? 0 then Err ZeroDivisionError
       else Ok (tile_rank / ranks_per_tile + 1).

(** partitioner.py 688-694 *)
Definition subtile_index (rank ranks_per_tile : Z) (layout : layout_t) : Z * Z :=
  let within_tile_rank := rank mod ranks_per_tile in
  let j := within_tile_rank / snd layout in
  let i := within_tile_rank mod snd layout in
  (j, i).

(** partitioner.py 697-698 *)
Definition is_even (value : Z) : bool := value mod 2 =? 0.

(** partitioner.py 619-632 *)
Definition on_tile_left (s : Z * Z) : bool := snd s =? 0.
Definition on_tile_right (s : Z * Z) (layout : layout_t) : bool := snd s =? snd layout - 1.
Definition on_tile_top (s : Z * Z) (layout : layout_t) : bool := fst s =? fst layout - 1.
Definition on_tile_bottom (s : Z * Z) : bool := fst s =? 0.

(** The (row, column) index pairs of an array of shape (h, w) in row-major order, which is
    the order in which boolean-mask indexing [a[np.where(m == v)]] lists its elements. *)
Definition cells (h w : Z) : list (Z * Z) :=
  flat_map (fun r => map (fun c => (r, c)) (zrange w)) (zrange h).

(** [np.arange(ny*nx).reshape(layout)], element (r, c) *)
Definition rank_array (layout : layout_t) (r c : Z) : Z := r * snd layout + c.

(** [rank_array[np.where(m == rank)][0]] for an array [m] of shape (h, w): the boolean
    mask must select from [rank_array]; the first match in row-major order, IndexError when there
    is none.  When m has another shape than rank_array (a non-square layout rotated), the
    index pairs found in [m] may lie outside rank_array, an IndexError. *)
Definition first_match (layout : layout_t) (h w : Z) (m : Z -> Z -> Z) (rank : Z) : res Z :=
  let hits := filter (fun rc => m (fst rc) (snd rc) =? rank) (cells h w) in
  if forallb (fun rc => (fst rc <? fst layout) && (snd rc <? snd layout)) hits then
    match hits with
    | [] => Err IndexError
    | (r, c) :: _ => Ok (rank_array layout r c)
    end
  else Err IndexError.

(** partitioner.py 635-650; np.rot90(m)[r, c] = m[c, w-1-r] for m of shape (h, w), and the
    result has shape (w, h) *)
Definition rotate_subtile_rank (rank : Z) (layout : layout_t) (n : Z) : res Z :=
  if n =? 0 then Ok rank
  else if n =? 1 then
    first_match layout (snd layout) (fst layout)
      (fun r c => rank_array layout c (snd layout - 1 - r)) rank
  else Err NotImplementedError.

(** partitioner.py 653-685 with np.transpose, np.fliplr, np.flipud *)
Definition transpose_subtile_rank (rank : Z) (layout : layout_t) : res Z :=
  first_match layout (snd layout) (fst layout) (fun r c => rank_array layout c r) rank.

Definition fliplr_subtile_rank (rank : Z) (layout : layout_t) : res Z :=
  first_match layout (fst layout) (snd layout)
    (fun r c => rank_array layout r (snd layout - 1 - c)) rank.

Definition flipud_subtile_rank (rank : Z) (layout : layout_t) : res Z :=
  first_match layout (fst layout) (snd layout)
    (fun r c => rank_array layout (fst layout - 1 - r) c) rank.

(** * TilePartitioner *)
Section Tile.
Variable layout : layout_t.

(** partitioner.py 124-126 *)
Definition tile_total_ranks : Z := fst layout * snd layout.

(** partitioner.py 120-122 *)
Definition tile_subtile_index (rank : Z) : Z * Z :=
  subtile_index rank tile_total_ranks layout.

(** partitioner.py 180-190 *)
Definition tp_on_top (rank : Z) := on_tile_top (tile_subtile_index rank) layout.
Definition tp_on_bottom (rank : Z) := on_tile_bottom (tile_subtile_index rank).
Definition tp_on_left (rank : Z) := on_tile_left (tile_subtile_index rank).
Definition tp_on_right (rank : Z) := on_tile_right (tile_subtile_index rank) layout.

(** partitioner.py 224-234 *)
Definition tp_left_edge (rank : Z) : boundary :=
  let to_rank := if tp_on_left rank then rank + snd layout - 1 else rank - 1 in
  mkB WEST rank to_rank 0.

(** partitioner.py 236-246 *)
Definition tp_right_edge (rank : Z) : boundary :=
  let to_rank := if tp_on_right rank then rank - snd layout + 1 else rank + 1 in
  mkB EAST rank to_rank 0.

(** partitioner.py 248-258 *)
Definition tp_top_edge (rank : Z) : boundary :=
  let to_rank := if tp_on_top rank then rank - (fst layout - 1) * snd layout
                 else rank + snd layout in
  mkB NORTH rank to_rank 0.

(** partitioner.py 260-270 *)
Definition tp_bottom_edge (rank : Z) : boundary :=
  let to_rank := if tp_on_bottom rank then rank + (fst layout - 1) * snd layout
                 else rank - snd layout in
  mkB SOUTH rank to_rank 0.

(** partitioner.py 295-309 *)
Definition tp_get_corner (bt : btype) (rank : Z) (edge_func_1 edge_func_2 : Z -> boundary)
  : boundary :=
  let edge_1 := edge_func_1 rank in
  let edge_2 := edge_func_2 (b_to edge_1) in
  let rotations := b_rot edge_1 + b_rot edge_2 in
  mkB bt rank (b_to edge_2) rotations.

(** partitioner.py 208-222 and 272-286 (without the cache, see Cache.v) *)
Definition tp_boundary (bt : btype) (rank : Z) : boundary :=
  match bt with
  | WEST => tp_left_edge rank
  | EAST => tp_right_edge rank
  | NORTH => tp_top_edge rank
  | SOUTH => tp_bottom_edge rank
  | NORTHWEST => tp_get_corner NORTHWEST rank tp_left_edge tp_top_edge
  | NORTHEAST => tp_get_corner NORTHEAST rank tp_right_edge tp_top_edge
  | SOUTHWEST => tp_get_corner SOUTHWEST rank tp_left_edge tp_bottom_edge
  | SOUTHEAST => tp_get_corner SOUTHEAST rank tp_right_edge tp_bottom_edge
  end.

(** partitioner.py 288-292 *)
Definition fliplr_rank (rank : Z) : res Z := fliplr_subtile_rank rank layout.
Definition rotate_rank (rank n : Z) : res Z := rotate_subtile_rank rank layout n.

(** * CubedSpherePartitioner *)

(** partitioner.py 348-351 *)
Definition total_ranks : Z := 6 * tile_total_ranks.

(** partitioner.py 332-334 *)
Definition ensure_square_layout : res unit :=
  if negb (fst layout =? snd layout) then Err NotImplementedError else Ok tt.

(** partitioner.py 336-338 *)
Definition tile_index (rank : Z) : res Z := get_tile_index rank total_ranks.

(** partitioner.py 340-342 *)
Definition tile_root_rank (rank : Z) : Z := tile_total_ranks * (rank / tile_total_ranks).

Definition set_to (b : boundary) (to : Z) : boundary :=
  mkB (b_type b) (b_from b) to (b_rot b).

(** [self.tile.fliplr_rank(self.tile.rotate_rank(tile_rank, 1))] *)
Definition flip_rot (tile_rank : Z) : res Z :=
  do r <- rotate_rank tile_rank 1; fliplr_rank r.

(** partitioner.py 386-408 *)
Definition cs_left_edge (rank : Z) : res boundary :=
  do _ <- ensure_square_layout;
  if tp_on_left rank then
    do ti <- tile_index rank;
    if is_even ti then
      let to_root_rank := tile_root_rank (rank - 2 * tile_total_ranks) in
      let tile_rank := rank mod tile_total_ranks in
      do to_tile_rank <- flip_rot tile_rank;
      Ok (mkB WEST rank (to_root_rank + to_tile_rank) 1)
    else
      let b := tp_boundary WEST rank in
      Ok (set_to b (b_to b - tile_total_ranks))
  else Ok (tp_boundary WEST rank).

(** partitioner.py 410-430 *)
Definition cs_right_edge (rank : Z) : res boundary :=
  do _ <- ensure_square_layout;
  if tp_on_right rank then
    do ti <- tile_index rank;
    if negb (is_even ti) then
      let to_root_rank := tile_root_rank (rank + 2 * tile_total_ranks) in
      let tile_rank := rank mod tile_total_ranks in
      do to_tile_rank <- flip_rot tile_rank;
      Ok (mkB EAST rank (to_root_rank + to_tile_rank) 1)
    else
      let b := tp_boundary EAST rank in
      Ok (set_to b (b_to b + tile_total_ranks))
  else Ok (tp_boundary EAST rank).

(** partitioner.py 432-452 *)
Definition cs_top_edge (rank : Z) : res boundary :=
  do _ <- ensure_square_layout;
  if tp_on_top rank then
    do ti <- tile_index rank;
    if is_even ti then
      let to_root_rank := (ti + 2) * tile_total_ranks in
      let tile_rank := rank mod tile_total_ranks in
      do to_tile_rank <- flip_rot tile_rank;
      Ok (mkB NORTH rank (to_root_rank + to_tile_rank) 3)
    else
      let b := tp_boundary NORTH rank in
      Ok (set_to b (b_to b + tile_total_ranks))
  else Ok (tp_boundary NORTH rank).

(** partitioner.py 454-470; python's [and] evaluates tile_index only on the bottom row *)
Definition cs_bottom_edge (rank : Z) : res boundary :=
  do _ <- ensure_square_layout;
  do odd_bottom <- (if tp_on_bottom rank then do ti <- tile_index rank; Ok (negb (is_even ti))
                    else Ok false);
  if odd_bottom then
    do ti <- tile_index rank;
    let to_root_rank := (ti - 2) * tile_total_ranks in
    let tile_rank := rank mod tile_total_ranks in
    do to_tile_rank <- flip_rot tile_rank;
    Ok (mkB SOUTH rank (to_root_rank + to_tile_rank) 3)
  else
    let b := tp_boundary SOUTH rank in
    if tp_on_bottom rank then Ok (set_to b (b_to b - tile_total_ranks)) else Ok b.

(** partitioner.py 538-553 *)
Definition cs_get_corner (bt : btype) (rank : Z) (edge_func_1 edge_func_2 : Z -> res boundary)
  : res (option boundary) :=
  do edge_1 <- edge_func_1 rank;
  do edge_2 <- edge_func_2 (b_to edge_1);
  let rotations := b_rot edge_1 + b_rot edge_2 in
  Ok (Some (mkB bt rank (b_to edge_2) rotations)).

(** partitioner.py 472-485 *)
Definition cs_top_left_corner (rank : Z) : res (option boundary) :=
  if tp_on_top rank && tp_on_left rank then Ok None
  else
    do ti <- tile_index rank;
    let second_edge := if is_even ti && tp_on_left rank then cs_left_edge else cs_top_edge in
    cs_get_corner NORTHWEST rank cs_left_edge second_edge.

(** partitioner.py 487-502 *)
Definition cs_top_right_corner (rank : Z) : res (option boundary) :=
  if tp_on_top rank && tp_on_right rank then Ok None
  else
    do ti <- tile_index rank;
    let second_edge := if is_even ti && tp_on_top rank then cs_bottom_edge else cs_right_edge in
    cs_get_corner NORTHEAST rank cs_top_edge second_edge.

(** partitioner.py 504-519 *)
Definition cs_bottom_left_corner (rank : Z) : res (option boundary) :=
  if tp_on_bottom rank && tp_on_left rank then Ok None
  else
    do ti <- tile_index rank;
    let second_edge := if negb (is_even ti) && tp_on_bottom rank then cs_top_edge else cs_left_edge in
    cs_get_corner SOUTHWEST rank cs_bottom_edge second_edge.

(** partitioner.py 521-536 *)
Definition cs_bottom_right_corner (rank : Z) : res (option boundary) :=
  if tp_on_bottom rank && tp_on_right rank then Ok None
  else
    do ti <- tile_index rank;
    let second_edge := if negb (is_even ti) && tp_on_bottom rank then cs_bottom_edge else cs_right_edge in
    cs_get_corner SOUTHEAST rank cs_bottom_edge second_edge.

(** partitioner.py 368-384 (without the cache, see Cache.v) *)
Definition cs_boundary (bt : btype) (rank : Z) : res (option boundary) :=
  do b <- match bt with
          | WEST => rmap Some (cs_left_edge rank)
          | EAST => rmap Some (cs_right_edge rank)
          | NORTH => rmap Some (cs_top_edge rank)
          | SOUTH => rmap Some (cs_bottom_edge rank)
          | NORTHWEST => cs_top_left_corner rank
          | NORTHEAST => cs_top_right_corner rank
          | SOUTHWEST => cs_bottom_left_corner rank
          | SOUTHEAST => cs_bottom_right_corner rank
          end;
  match b with
  | None => Ok None
  | Some b => Ok (Some (set_to b (b_to b mod total_ranks)))
  end.

End Tile.

(** * Extents *)

(** IEEE binary64 as used by numpy float64: precision 53, maximal exponent 1024. *)
Definition f64_of_Z (z : Z) : spec_float := binary_normalize 53 1024 z 0 false.
Definition f64_mul := SFmul 53 1024.
Definition f64_div := SFdiv 53 1024.
Definition f64_sub := SFsub 53 1024.

(** python's int(float): truncation; OverflowError for infinities, ValueError for nan *)
Definition f64_trunc (f : spec_float) : res Z :=
  match f with
  | S754_zero _ => Ok 0
  | S754_infinity _ => Err OverflowError
  | S754_nan => Err ValueError
  | S754_finite s m e =>
      let a := if 0 <=? e then Zpos m * 2 ^ e else Zpos m / 2 ^ (- e) in
      Ok (if s then - a else a)
  end.

(** partitioner.py 748-751: add_extent *)
Definition add_extent (dim : string) : Z := if sin dim INTERFACE_DIMS then -1 else 0.

(** partitioner.py 743-754 with integer factors (called from tile_extent_from_rank_metadata,
    701-719); zip stops at the shortest *)
Fixpoint extent_from_metadata_int (dims : list string) (extent factors : list Z) : list Z :=
  match dims, extent, factors with
  | dim :: dims', e :: extent', f :: factors' =>
      ((e + add_extent dim) * f - add_extent dim) :: extent_from_metadata_int dims' extent' factors'
  | _, _, _ => []
  end.

Definition tile_extent_from_rank_metadata (dims : list string) (rank_extent : list Z)
  (layout : layout_t) : list Z :=
  extent_from_metadata_int dims rank_extent (list_by_dims dims layout 1).

(** one entry of partitioner.py 743-754 with a float factor: python int times numpy float64
    converts the integer to float64; [- add_extent] likewise *)
Definition float_extent (dim : string) (e : Z) (factor : spec_float) : res Z :=
  f64_trunc (f64_sub (f64_mul (f64_of_Z (e + add_extent dim)) factor)
                     (f64_of_Z (add_extent dim))).

(** partitioner.py 737-739: [1 / np.asarray(...)] in float64 *)
Definition f64_recip (n : Z) : spec_float := f64_div (f64_of_Z 1) (f64_of_Z n).

Fixpoint extent_from_metadata_float (dims : list string) (extent : list Z)
  (factors : list spec_float) : res (list Z) :=
  match dims, extent, factors with
  | dim :: dims', e :: extent', f :: factors' =>
      do a <- float_extent dim e f;
      do r <- extent_from_metadata_float dims' extent' factors';
      Ok (a :: r)
  | _, _, _ => Ok []
  end.

(** partitioner.py 722-740 *)
Definition rank_extent_from_tile_metadata (dims : list string) (tile_extent : list Z)
  (layout : layout_t) : res (list Z) :=
  extent_from_metadata_float dims tile_extent (map f64_recip (list_by_dims dims layout 1)).

(** * Subtile slices *)

(** partitioner.py 757-777: dataclass _IndexData1D *)
Definition extent_minus_gridcell_count (dim : string) : Z := if sin dim INTERFACE_DIMS then 1 else 0.
Definition base_extent (dim : string) (extent : Z) : Z := extent - extent_minus_gridcell_count dim.
Definition is_end_index (i_subtile n_ranks : Z) : bool := i_subtile =? n_ranks - 1.

(** partitioner.py 815-825: the loop of subtile_slice; a slice is its (start, stop) pair *)
Fixpoint slice_loop (overlap : bool) (dims : list string) (extent i_subtile n_ranks : list Z)
  : list (Z * Z) :=
  match dims, extent, i_subtile, n_ranks with
  | dim :: dims', e :: extent', i :: is', n :: ns' =>
      let start := i * base_extent dim e in
      let stop := if is_end_index i n || overlap then start + e else start + base_extent dim e in
      (start, stop) :: slice_loop overlap dims' extent' is' ns'
  | _, _, _, _ => []
  end.

(** partitioner.py 780-825 *)
Definition subtile_slice (dims : list string) (global_extent : list Z) (layout : layout_t)
  (s : Z * Z) (overlap : bool) : res (list (Z * Z)) :=
  do subtile_extent <- rank_extent_from_tile_metadata dims global_extent layout;
  Ok (slice_loop overlap dims subtile_extent (list_by_dims dims s 0) (list_by_dims dims layout 1)).

(** TilePartitioner.global_extent / subtile_extent / subtile_slice, partitioner.py 128-178 *)
Definition tp_global_extent (layout : layout_t) (dims : list string) (extent : list Z) : list Z :=
  tile_extent_from_rank_metadata dims extent layout.

Definition tp_subtile_extent (layout : layout_t) (dims : list string) (extent : list Z)
  : res (list Z) := rank_extent_from_tile_metadata dims extent layout.

Definition tp_subtile_slice (layout : layout_t) (rank : Z) (dims : list string)
  (global_extent : list Z) (overlap : bool) : res (list (Z * Z)) :=
  subtile_slice dims global_extent layout (tile_subtile_index layout rank) overlap.

(** CubedSpherePartitioner.global_extent, partitioner.py 555-566 *)
Definition cs_global_extent (layout : layout_t) (dims : list string) (extent : list Z) : list Z :=
  6 :: tile_extent_from_rank_metadata dims extent layout.

(** partitioner.py 568-577; IndexError on empty dims *)
Definition cs_subtile_extent (layout : layout_t) (dims : list string) (extent : list Z)
  : res (list Z) :=
  match dims with
  | [] => Err IndexError
  | d :: dims' =>
      if negb (String.eqb d TILE_DIM) then Err NotImplementedError
      else rank_extent_from_tile_metadata dims' (tl extent) layout
  end.

(** partitioner.py 579-616: the tile index and the slices of the remaining dimensions *)
Definition cs_subtile_slice (layout : layout_t) (rank : Z) (dims : list string)
  (global_extent : list Z) (overlap : bool) : res (Z * list (Z * Z)) :=
  match dims with
  | [] => Err IndexError
  | d :: dims' =>
      if negb (String.eqb d TILE_DIM) then Err NotImplementedError
      else
        do i_tile <- tile_index layout rank;
        do s <- subtile_slice dims' (tl global_extent) layout (tile_subtile_index layout rank) overlap;
        Ok (i_tile, s)
  end.
