(** C01-C05: ranks partition tiles; extents; rank numbering. *)
From Verif.Base Require Import Base.
From Verif.Model Require Import Consts Partitioner.
From Verif.Spec Require Import Grid Layouts.
From Verif.Proofs Require Import FloatExtent Slices Partition.

(** C01: every point of a tile is in the non-overlapping slice of exactly one rank, the greatest
    rank among those whose overlapping slice contains it. *)
Theorem C01_tile_partition : forall layout dims ext p,
  tile_ok layout dims ext -> horizontal dims -> in_shape ext p ->
  exists r, (0 <= r < fst layout * snd layout /\
             exists box, tp_subtile_slice layout r dims ext false = Ok box /\ in_box box p) /\
  (forall r', 0 <= r' < fst layout * snd layout ->
     (exists box, tp_subtile_slice layout r' dims ext false = Ok box /\ in_box box p) -> r' = r) /\
  (forall r', 0 <= r' < fst layout * snd layout ->
     (exists box, tp_subtile_slice layout r' dims ext true = Ok box /\ in_box box p) -> r' <= r).
Proof. exact tile_partition. Qed.
Print Assumptions C01_tile_partition.

(** C01 on the whole cubed sphere, points being (tile, indices). *)
Theorem C01_cube_partition : forall layout dims ext t p,
  tile_ok layout dims ext -> horizontal dims -> 0 <= t < 6 -> in_shape ext p ->
  exists r, (0 <= r < 6 * (fst layout * snd layout) /\
             exists box, cs_subtile_slice layout r ("tile"%string :: dims) (6 :: ext) false = Ok (t, box) /\ in_box box p) /\
  (forall r', 0 <= r' < 6 * (fst layout * snd layout) ->
     (exists box, cs_subtile_slice layout r' ("tile"%string :: dims) (6 :: ext) false = Ok (t, box) /\ in_box box p) -> r' = r) /\
  (forall r', 0 <= r' < 6 * (fst layout * snd layout) ->
     (exists box, cs_subtile_slice layout r' ("tile"%string :: dims) (6 :: ext) true = Ok (t, box) /\ in_box box p) -> r' <= r).
Proof. exact cs_partition. Qed.
Print Assumptions C01_cube_partition.

(** a staggered variable with a vertical dimension on a 2 by 3 layout meets the hypotheses *)
Example C01_example : 
  tile_ok (2, 3) ["z"; "y_interface"; "x"]%string [79; 97; 96] /\
  horizontal ["z"; "y_interface"; "x"]%string /\ in_shape [79; 97; 96] [3; 48; 31] /\
  (exists box, tp_subtile_slice (2, 3) 3 ["z"; "y_interface"; "x"]%string [79; 97; 96] false = Ok box /\
               in_box box [3; 48; 31]).
Proof.
  split; [|split; [|split]].
  - split; [split; apply layout_ok_below_49; simpl; lia|]. split; repeat apply Forall2_cons;
      try apply Forall2_nil; vm_compute; split; congruence.
  - split; [exists ["z"; "y_interface"]%string, [], "x"%string|exists ["z"]%string, ["x"]%string, "y_interface"%string];
      (split; [reflexivity|]); (split; [reflexivity|]); split; repeat constructor; discriminate.
  - repeat constructor; lia.
  - eexists. split; [vm_compute; reflexivity|]. repeat constructor; simpl; lia.
Qed.

(** C02: the overlapping slice of a rank has the advertised shape and stays inside the tile. *)
Theorem C02_overlap_shape : forall layout dims ext r,
  tile_ok layout dims ext -> 0 <= r < fst layout * snd layout ->
  exists box shape, tp_subtile_slice layout r dims ext true = Ok box /\
    tp_subtile_extent layout dims ext = Ok shape /\
    map (fun b => snd b - fst b) box = shape /\
    Forall2 (fun b e => 0 <= fst b /\ fst b <= snd b /\ snd b <= e) box ext.
Proof. exact overlap_slice. Qed.
Print Assumptions C02_overlap_shape.

(** C02: the overlapping slice of a rank contains its non-overlapping slice, so by C01 the
    overlapping slices cover the tile. *)
Theorem C02_overlap_contains : forall layout dims ext r box,
  layouts_ok layout -> moderate layout dims ext ->
  tp_subtile_slice layout r dims ext false = Ok box ->
  exists box', tp_subtile_slice layout r dims ext true = Ok box' /\ forall p, in_box box p -> in_box box' p.
Proof. exact overlap_contains. Qed.
Print Assumptions C02_overlap_contains.

(** C02: a point in the overlapping slices of two ranks in different positions along a dimension is the
    last point of the one and the first of the other, the dimension is an interface dimension, and
    the ranks are adjacent along it. *)
Theorem C02_overlap_shared : forall layout dims ext r r' p box box',
  tile_ok layout dims ext -> Forall2 (fun d e => 1 <= e - stag d) dims ext ->
  0 <= r < fst layout * snd layout -> 0 <= r' < fst layout * snd layout ->
  tp_subtile_slice layout r dims ext true = Ok box ->
  tp_subtile_slice layout r' dims ext true = Ok box' ->
  in_box box p -> in_box box' p ->
  forall i, (i < length dims)%nat ->
    along (nth i dims ""%string) (tile_subtile_index layout r) 0
      < along (nth i dims ""%string) (tile_subtile_index layout r') 0 ->
    stag (nth i dims ""%string) = 1 /\
    along (nth i dims ""%string) (tile_subtile_index layout r') 0
      = along (nth i dims ""%string) (tile_subtile_index layout r) 0 + 1 /\
    nth i p 0 = snd (nth i box (0, 0)) - 1 /\ nth i p 0 = fst (nth i box' (0, 0)).
Proof. exact overlap_shared. Qed.
Print Assumptions C02_overlap_shared.

Example C02_example :
  (exists box box', tp_subtile_slice (2, 3) 0 ["z"; "y_interface"; "x"]%string [79; 97; 96] true = Ok box /\
    tp_subtile_slice (2, 3) 3 ["z"; "y_interface"; "x"]%string [79; 97; 96] true = Ok box' /\
    in_box box [3; 48; 31] /\ in_box box' [3; 48; 31]) /\
  tile_subtile_index (2, 3) 0 = (0, 0) /\ tile_subtile_index (2, 3) 3 = (1, 0).
Proof.
  split; [|split; reflexivity]. eexists _, _. split; [vm_compute; reflexivity|]. split; [vm_compute; reflexivity|].
  split; repeat constructor; simpl; lia.
Qed.

(** C03: going to the tile extent and back through floating point gives the rank extent. *)
Theorem C03_subtile_inverts_global : forall layout dims ext,
  layouts_ok layout -> Forall2 (fun d e => 0 <= e - stag d) dims ext ->
  Forall2 (fun d e => (e - stag d) * along d layout 1 + stag d + 2 * along d layout 1 <= 2 ^ 51) dims ext ->
  tp_subtile_extent layout dims (tp_global_extent layout dims ext) = Ok ext.
Proof. exact extent_roundtrip. Qed.
Print Assumptions C03_subtile_inverts_global.

Theorem C03_global_inverts_subtile : forall layout dims ext, tile_ok layout dims ext ->
  exists rext, tp_subtile_extent layout dims ext = Ok rext /\ tp_global_extent layout dims rext = ext.
Proof. exact extent_roundtrip'. Qed.
Print Assumptions C03_global_inverts_subtile.

(** C03: all layouts below 49 are exact. *)
Theorem C03_layouts_below_49 : forall n, 1 <= n < 49 -> layout_ok n.
Proof. exact layout_ok_below_49. Qed.
Print Assumptions C03_layouts_below_49.

(** C03: the property fails for a layout of 49: 49 cells over 49 ranks yield 0 cells per rank. *)
Theorem C03_layout_49_refuted :
  tp_global_extent (49, 49) ["y"; "x"]%string [1; 1] = [49; 49] /\
  tp_subtile_extent (49, 49) ["y"; "x"]%string [49; 49] = Ok [0; 0].
Proof. split; vm_compute; reflexivity. Qed.
Print Assumptions C03_layout_49_refuted.

Example C03_example : layouts_ok (48, 7) /\
  tp_subtile_extent (48, 7) ["y_interface"; "x"]%string (tp_global_extent (48, 7) ["y_interface"; "x"]%string [13; 5]) = Ok [13; 5].
Proof. split; [split; apply layout_ok_below_49; simpl; lia|vm_compute; reflexivity]. Qed.

(** C04: points beyond the largest multiple of the layout belong to no rank, and nobody raises. *)
Theorem C04_nondivisible_lost : forall layout dims ext p i,
  1 <= fst layout -> 1 <= snd layout ->
  moderate layout dims ext ->
  Forall2 (fun d e => layout_ok (along d layout 1) \/ (e - stag d) mod along d layout 1 <> 0) dims ext ->
  (i < length dims)%nat -> axis_of (nth i dims ""%string) <> AxOther ->
  in_shape ext p ->
  nth i p 0 >= along (nth i dims ""%string) layout 1
                 * ((nth i ext 0 - stag (nth i dims ""%string)) / along (nth i dims ""%string) layout 1)
               + stag (nth i dims ""%string) ->
  forall r ov, exists box, tp_subtile_slice layout r dims ext ov = Ok box /\ ~ in_box box p.
Proof. exact nondivisible_lost. Qed.
Print Assumptions C04_nondivisible_lost.

Example C04_example : forall r ov,
  exists box, tp_subtile_slice (2, 2) r ["y"; "x"]%string [5; 4] ov = Ok box /\ ~ in_box box [4; 0].
Proof.
  intros. apply (C04_nondivisible_lost (2, 2) ["y"; "x"]%string [5; 4] [4; 0] 0%nat); simpl; try lia; try discriminate.
  - repeat apply Forall2_cons; try apply Forall2_nil; vm_compute; split; congruence.
  - repeat apply Forall2_cons; try apply Forall2_nil; left; apply layout_ok_below_49; vm_compute; split; congruence.
  - repeat constructor; lia.
Qed.

(** C05: ranks correspond one-to-one with (tile, row, column). *)
Theorem C05_rank_bijection : forall layout, 1 <= fst layout -> 1 <= snd layout ->
  (forall r, 0 <= r < total_ranks layout ->
     exists t j i, 0 <= t < 6 /\ 0 <= j < fst layout /\ 0 <= i < snd layout /\
       tile_index layout r = Ok t /\ tile_subtile_index layout r = (j, i) /\
       r = (t * fst layout + j) * snd layout + i) /\
  (forall t j i, 0 <= t < 6 -> 0 <= j < fst layout -> 0 <= i < snd layout ->
     exists r, 0 <= r < total_ranks layout /\ tile_index layout r = Ok t /\
       tile_subtile_index layout r = (j, i) /\
       (forall r', 0 <= r' < total_ranks layout -> tile_index layout r' = Ok t ->
          tile_subtile_index layout r' = (j, i) -> r' = r)).
Proof. exact rank_bijection. Qed.
Print Assumptions C05_rank_bijection.

Theorem C05_root_rank_least : forall layout r, 1 <= fst layout -> 1 <= snd layout ->
  tile_index layout (tile_root_rank layout r) = tile_index layout r /\
  (forall r', tile_index layout r' = tile_index layout r -> tile_root_rank layout r <= r').
Proof. exact root_rank_least. Qed.
Print Assumptions C05_root_rank_least.

Theorem C05_tile_number_errors : forall rank total,
  (get_tile_index rank total = Err ValueError <-> ~ (6 | total)) /\
  (get_tile_number rank total = Err ValueError <-> ~ (6 | total)) /\
  (get_tile_number rank total = rmap (Z.add 1) (get_tile_index rank total)).
Proof. exact tile_number_errors. Qed.
Print Assumptions C05_tile_number_errors.

Example C05_example : total_ranks (2, 3) = 36 /\ tile_index (2, 3) 17 = Ok 2 /\
  tile_subtile_index (2, 3) 17 = (1, 2) /\ tile_root_rank (2, 3) 17 = 12.
Proof. repeat split. Qed.
