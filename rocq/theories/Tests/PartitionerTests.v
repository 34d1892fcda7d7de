(** The tables of tests/test_partitioner.py and tests/test_partitioner_boundaries.py, evaluated in the model.
    Written by tools/tests.py. *)
From Verif.Base Require Import Base.
From Verif.Model Require Import Consts Numpy Partitioner.
From Verif.Tests Require Import Tables.
Local Open Scope string_scope.
Local Open Scope Z_scope.

(** tests/test_partitioner.py 26 *)
Definition table_test_get_tile_number : list (Z * Z * Z) :=
  [(0, 6, 0); (1, 6, 1); (2, 6, 2); (3, 6, 3); (4, 6, 4); (5, 6, 5); (0, 24, 0); (1, 24, 0); (2, 24, 0); (3, 24, 0); (4, 24, 1); (5, 24, 1); (6, 24, 1); (7, 24, 1); (8, 24, 2); (9, 24, 2); (10, 24, 2); (11, 24, 2); (12, 24, 3); (13, 24, 3); (14, 24, 3); (15, 24, 3); (16, 24, 4); (17, 24, 4); (18, 24, 4); (19, 24, 4); (20, 24, 5); (21, 24, 5); (22, 24, 5); (23, 24, 5)].
Example test_get_tile_number : Forall (fun '(rank, total, tile) => get_tile_number rank total = Ok (tile + 1)) table_test_get_tile_number.
Proof. table. Qed.
(** tests/test_partitioner.py 35 *)
Definition table_test_get_tile_index : list (Z * Z * Z) :=
  [(0, 6, 0); (1, 6, 1); (2, 6, 2); (3, 6, 3); (4, 6, 4); (5, 6, 5); (0, 24, 0); (1, 24, 0); (2, 24, 0); (3, 24, 0); (4, 24, 1); (5, 24, 1); (6, 24, 1); (7, 24, 1); (8, 24, 2); (9, 24, 2); (10, 24, 2); (11, 24, 2); (12, 24, 3); (13, 24, 3); (14, 24, 3); (15, 24, 3); (16, 24, 4); (17, 24, 4); (18, 24, 4); (19, 24, 4); (20, 24, 5); (21, 24, 5); (22, 24, 5); (23, 24, 5)].
Example test_get_tile_index : Forall (fun '(rank, total, tile) => get_tile_index rank total = Ok tile) table_test_get_tile_index.
Proof. table. Qed.
(** tests/test_partitioner.py 64 *)
Definition table_test_subtile_index : list (Z * (Z * Z) * (Z * Z)) :=
  [(0, (1, 1), (0, 0)); (1, (1, 1), (0, 0)); (2, (1, 1), (0, 0)); (3, (1, 1), (0, 0)); (4, (1, 1), (0, 0)); (5, (1, 1), (0, 0)); (0, (1, 2), (0, 0)); (1, (1, 2), (0, 1)); (2, (1, 2), (0, 0)); (3, (1, 2), (0, 1)); (4, (1, 2), (0, 0)); (5, (1, 2), (0, 1)); (6, (1, 2), (0, 0)); (7, (1, 2), (0, 1)); (8, (1, 2), (0, 0)); (9, (1, 2), (0, 1)); (10, (1, 2), (0, 0)); (11, (1, 2), (0, 1)); (0, (2, 2), (0, 0)); (1, (2, 2), (0, 1)); (2, (2, 2), (1, 0)); (3, (2, 2), (1, 1)); (4, (2, 2), (0, 0)); (5, (2, 2), (0, 1)); (6, (2, 2), (1, 0)); (7, (2, 2), (1, 1)); (8, (2, 2), (0, 0)); (9, (2, 2), (0, 1)); (10, (2, 2), (1, 0)); (11, (2, 2), (1, 1)); (12, (2, 2), (0, 0)); (13, (2, 2), (0, 1)); (14, (2, 2), (1, 0)); (15, (2, 2), (1, 1)); (16, (2, 2), (0, 0)); (17, (2, 2), (0, 1)); (18, (2, 2), (1, 0)); (19, (2, 2), (1, 1)); (20, (2, 2), (0, 0)); (21, (2, 2), (0, 1)); (22, (2, 2), (1, 0)); (23, (2, 2), (1, 1)); (0, (2, 3), (0, 0)); (1, (2, 3), (0, 1)); (2, (2, 3), (0, 2)); (3, (2, 3), (1, 0)); (4, (2, 3), (1, 1)); (5, (2, 3), (1, 2)); (6, (2, 3), (0, 0)); (7, (2, 3), (0, 1)); (8, (2, 3), (0, 2)); (9, (2, 3), (1, 0)); (10, (2, 3), (1, 1)); (11, (2, 3), (1, 2)); (12, (2, 3), (0, 0)); (13, (2, 3), (0, 1)); (14, (2, 3), (0, 2)); (15, (2, 3), (1, 0)); (16, (2, 3), (1, 1)); (17, (2, 3), (1, 2)); (18, (2, 3), (0, 0)); (19, (2, 3), (0, 1)); (20, (2, 3), (0, 2)); (21, (2, 3), (1, 0)); (22, (2, 3), (1, 1)); (23, (2, 3), (1, 2)); (24, (2, 3), (0, 0)); (25, (2, 3), (0, 1)); (26, (2, 3), (0, 2)); (27, (2, 3), (1, 0)); (28, (2, 3), (1, 1)); (29, (2, 3), (1, 2)); (30, (2, 3), (0, 0)); (31, (2, 3), (0, 1)); (32, (2, 3), (0, 2)); (33, (2, 3), (1, 0)); (34, (2, 3), (1, 1)); (35, (2, 3), (1, 2))].
Example test_subtile_index : Forall (fun '(rank, layout, index) => tile_subtile_index layout rank = index) table_test_subtile_index.
Proof. table. Qed.
(** tests/test_partitioner.py 102 *)
Definition table_test_tile_extent_from_rank_metadata : list (list Z * list string * (Z * Z) * list Z) :=
  [([16; 32], ["y"; "x"], (1, 1), [16; 32]); ([16; 32], ["y"; "x_interface"], (1, 1), [16; 32]); ([16; 32], ["y_interface"; "x"], (1, 1), [16; 32]); ([16; 32], ["y_interface"; "x_interface"], (1, 1), [16; 32]); ([8; 16; 32], ["z"; "y"; "x"], (1, 1), [8; 16; 32]); ([2; 2], ["y"; "x"], (2, 2), [4; 4]); ([3; 2], ["y_interface"; "x"], (2, 2), [5; 4]); ([2; 3], ["y"; "x_interface"], (2, 2), [4; 5]); ([4; 2; 3], ["z_interface"; "y"; "x_interface"], (2, 2), [4; 4; 5])].
Example test_tile_extent_from_rank_metadata : Forall (fun '(extent, dims, layout, tile) => tile_extent_from_rank_metadata dims extent layout = tile) table_test_tile_extent_from_rank_metadata.
Proof. table. Qed.
(** tests/test_partitioner.py 250 *)
Definition table_test_subtile_slice : list (list string * list Z * (Z * Z) * (Z * Z) * list (Z * Z) * bool) :=
  [(["y"; "x"], [8; 8], (1, 1), (0, 0), [(0, 8); (0, 8)], false); (["z"; "y"; "x"], [10; 8; 8], (1, 1), (0, 0), [(0, 10); (0, 8); (0, 8)], false); (["z_interface"; "y"; "x"], [11; 8; 8], (1, 1), (0, 0), [(0, 11); (0, 8); (0, 8)], false); (["y_interface"; "x"], [9; 8], (1, 1), (0, 0), [(0, 9); (0, 8)], true); (["y"; "x_interface"], [8; 9], (1, 1), (0, 0), [(0, 8); (0, 9)], true); (["y_interface"; "x_interface"], [9; 9], (1, 1), (0, 0), [(0, 9); (0, 9)], false); (["y"; "x"], [8; 8], (2, 2), (0, 0), [(0, 4); (0, 4)], true); (["y"; "x"], [8; 8], (2, 2), (1, 1), [(4, 8); (4, 8)], false); (["y_interface"; "x_interface"], [9; 9], (2, 2), (0, 0), [(0, 4); (0, 4)], false); (["y_interface"; "x_interface"], [9; 9], (2, 2), (1, 1), [(4, 9); (4, 9)], false); (["y_interface"; "x_interface"], [9; 9], (2, 2), (0, 0), [(0, 5); (0, 5)], true); (["y_interface"; "x_interface"], [9; 9], (2, 2), (1, 1), [(4, 9); (4, 9)], true); (["y"; "x"], [4; 4], (1, 2), (0, 0), [(0, 4); (0, 2)], true); (["y"; "x"], [4; 4], (1, 2), (0, 1), [(0, 4); (2, 4)], true); (["y"; "x"], [4; 4], (1, 2), (0, 1), [(0, 4); (2, 4)], false)].
Example test_subtile_slice : Forall (fun '(dims, extent, layout, index, slices, overlap) => subtile_slice dims extent layout index overlap = Ok slices) table_test_subtile_slice.
Proof. table. Qed.
(** tests/test_partitioner_boundaries.py 57 *)
Definition table_test_2_by_2_left_edge : list (Z * option (Z * Z)) :=
  [(0, Some (19, 1)); (1, Some (0, 0)); (2, Some (18, 1)); (3, Some (2, 0)); (4, Some (1, 0)); (5, Some (4, 0)); (6, Some (3, 0)); (7, Some (6, 0)); (8, Some (3, 1)); (9, Some (8, 0)); (10, Some (2, 1)); (11, Some (10, 0)); (12, Some (9, 0)); (13, Some (12, 0)); (14, Some (11, 0)); (15, Some (14, 0)); (16, Some (11, 1)); (17, Some (16, 0)); (18, Some (10, 1)); (19, Some (18, 0)); (20, Some (17, 0)); (21, Some (20, 0)); (22, Some (19, 0)); (23, Some (22, 0))].
Example test_2_by_2_left_edge : Forall (fun '(from, expected) => shown_boundary (cs_boundary (2, 2) WEST from) = Ok (option_map (fun tr => (WEST, from, fst tr, snd tr)) expected)) table_test_2_by_2_left_edge.
Proof. table. Qed.
(** tests/test_partitioner_boundaries.py 71 *)
Definition table_test_1_by_1_left_edge : list (Z * option (Z * Z)) :=
  [(0, Some (4, 1)); (1, Some (0, 0)); (2, Some (0, 1)); (3, Some (2, 0)); (4, Some (2, 1)); (5, Some (4, 0))].
Example test_1_by_1_left_edge : Forall (fun '(from, expected) => shown_boundary (cs_boundary (1, 1) WEST from) = Ok (option_map (fun tr => (WEST, from, fst tr, snd tr)) expected)) table_test_1_by_1_left_edge.
Proof. table. Qed.
(** tests/test_partitioner_boundaries.py 128 *)
Definition table_test_2_by_2_top_edge : list (Z * option (Z * Z)) :=
  [(0, Some (2, 0)); (1, Some (3, 0)); (2, Some (10, 3)); (3, Some (8, 3)); (4, Some (6, 0)); (5, Some (7, 0)); (6, Some (8, 0)); (7, Some (9, 0)); (8, Some (10, 0)); (9, Some (11, 0)); (10, Some (18, 3)); (11, Some (16, 3)); (12, Some (14, 0)); (13, Some (15, 0)); (14, Some (16, 0)); (15, Some (17, 0)); (16, Some (18, 0)); (17, Some (19, 0)); (18, Some (2, 3)); (19, Some (0, 3)); (20, Some (22, 0)); (21, Some (23, 0)); (22, Some (0, 0)); (23, Some (1, 0))].
Example test_2_by_2_top_edge : Forall (fun '(from, expected) => shown_boundary (cs_boundary (2, 2) NORTH from) = Ok (option_map (fun tr => (NORTH, from, fst tr, snd tr)) expected)) table_test_2_by_2_top_edge.
Proof. table. Qed.
(** tests/test_partitioner_boundaries.py 140 *)
Definition table_test_1_by_1_top_edge : list (Z * option (Z * Z)) :=
  [(0, Some (2, 3)); (1, Some (2, 0)); (2, Some (4, 3)); (3, Some (4, 0)); (4, Some (0, 3)); (5, Some (0, 0))].
Example test_1_by_1_top_edge : Forall (fun '(from, expected) => shown_boundary (cs_boundary (1, 1) NORTH from) = Ok (option_map (fun tr => (NORTH, from, fst tr, snd tr)) expected)) table_test_1_by_1_top_edge.
Proof. table. Qed.
(** tests/test_partitioner_boundaries.py 177 *)
Definition table_test_2_by_2_bottom_edge : list (Z * option (Z * Z)) :=
  [(0, Some (22, 0)); (1, Some (23, 0)); (2, Some (0, 0)); (3, Some (1, 0)); (4, Some (23, 3)); (5, Some (21, 3)); (6, Some (4, 0)); (7, Some (5, 0)); (8, Some (6, 0)); (9, Some (7, 0)); (10, Some (8, 0)); (11, Some (9, 0)); (12, Some (7, 3)); (13, Some (5, 3)); (14, Some (12, 0)); (15, Some (13, 0)); (16, Some (14, 0)); (17, Some (15, 0)); (18, Some (16, 0)); (19, Some (17, 0)); (20, Some (15, 3)); (21, Some (13, 3)); (22, Some (20, 0)); (23, Some (21, 0))].
Example test_2_by_2_bottom_edge : Forall (fun '(from, expected) => shown_boundary (cs_boundary (2, 2) SOUTH from) = Ok (option_map (fun tr => (SOUTH, from, fst tr, snd tr)) expected)) table_test_2_by_2_bottom_edge.
Proof. table. Qed.
(** tests/test_partitioner_boundaries.py 191 *)
Definition table_test_1_by_1_bottom_edge : list (Z * option (Z * Z)) :=
  [(0, Some (5, 0)); (1, Some (5, 3)); (2, Some (1, 0)); (3, Some (1, 3)); (4, Some (3, 0)); (5, Some (3, 3))].
Example test_1_by_1_bottom_edge : Forall (fun '(from, expected) => shown_boundary (cs_boundary (1, 1) SOUTH from) = Ok (option_map (fun tr => (SOUTH, from, fst tr, snd tr)) expected)) table_test_1_by_1_bottom_edge.
Proof. table. Qed.
(** tests/test_partitioner_boundaries.py 230 *)
Definition table_test_2_by_2_right_edge : list (Z * option (Z * Z)) :=
  [(0, Some (1, 0)); (1, Some (4, 0)); (2, Some (3, 0)); (3, Some (6, 0)); (4, Some (5, 0)); (5, Some (13, 1)); (6, Some (7, 0)); (7, Some (12, 1)); (8, Some (9, 0)); (9, Some (12, 0)); (10, Some (11, 0)); (11, Some (14, 0)); (12, Some (13, 0)); (13, Some (21, 1)); (14, Some (15, 0)); (15, Some (20, 1)); (16, Some (17, 0)); (17, Some (20, 0)); (18, Some (19, 0)); (19, Some (22, 0)); (20, Some (21, 0)); (21, Some (5, 1)); (22, Some (23, 0)); (23, Some (4, 1))].
Example test_2_by_2_right_edge : Forall (fun '(from, expected) => shown_boundary (cs_boundary (2, 2) EAST from) = Ok (option_map (fun tr => (EAST, from, fst tr, snd tr)) expected)) table_test_2_by_2_right_edge.
Proof. table. Qed.
(** tests/test_partitioner_boundaries.py 244 *)
Definition table_test_1_by_1_right_edge : list (Z * option (Z * Z)) :=
  [(0, Some (1, 0)); (1, Some (3, 1)); (2, Some (3, 0)); (3, Some (5, 1)); (4, Some (5, 0)); (5, Some (1, 1))].
Example test_1_by_1_right_edge : Forall (fun '(from, expected) => shown_boundary (cs_boundary (1, 1) EAST from) = Ok (option_map (fun tr => (EAST, from, fst tr, snd tr)) expected)) table_test_1_by_1_right_edge.
Proof. table. Qed.
(** tests/test_partitioner_boundaries.py 311 *)
Definition table_test_2_by_2_top_left_corner : list (Z * option (Z * Z)) :=
  [(0, Some (18, 1)); (1, Some (2, 0)); (2, None); (3, Some (10, 3)); (4, Some (3, 0)); (5, Some (6, 0)); (6, None); (7, Some (8, 0)); (8, Some (2, 1)); (9, Some (10, 0)); (10, None); (11, Some (18, 3)); (12, Some (11, 0)); (13, Some (14, 0)); (14, None); (15, Some (16, 0)); (16, Some (10, 1)); (17, Some (18, 0)); (18, None); (19, Some (2, 3)); (20, Some (19, 0)); (21, Some (22, 0)); (22, None); (23, Some (0, 0))].
Example test_2_by_2_top_left_corner : Forall (fun '(from, expected) => shown_boundary (cs_boundary (2, 2) NORTHWEST from) = Ok (option_map (fun tr => (NORTHWEST, from, fst tr, snd tr)) expected)) table_test_2_by_2_top_left_corner.
Proof. table. Qed.
(** tests/test_partitioner_boundaries.py 379 *)
Definition table_test_2_by_2_top_right_corner : list (Z * option (Z * Z)) :=
  [(0, Some (3, 0)); (1, Some (6, 0)); (2, Some (8, 3)); (3, None); (4, Some (7, 0)); (5, Some (12, 1)); (6, Some (9, 0)); (7, None); (8, Some (11, 0)); (9, Some (14, 0)); (10, Some (16, 3)); (11, None); (12, Some (15, 0)); (13, Some (20, 1)); (14, Some (17, 0)); (15, None); (16, Some (19, 0)); (17, Some (22, 0)); (18, Some (0, 3)); (19, None); (20, Some (23, 0)); (21, Some (4, 1)); (22, Some (1, 0)); (23, None)].
Example test_2_by_2_top_right_corner : Forall (fun '(from, expected) => shown_boundary (cs_boundary (2, 2) NORTHEAST from) = Ok (option_map (fun tr => (NORTHEAST, from, fst tr, snd tr)) expected)) table_test_2_by_2_top_right_corner.
Proof. table. Qed.
(** tests/test_partitioner_boundaries.py 421 *)
Definition table_test_2_by_2_bottom_left_corner : list (Z * option (Z * Z)) :=
  [(0, None); (1, Some (22, 0)); (2, Some (19, 1)); (3, Some (0, 0)); (4, None); (5, Some (23, 3)); (6, Some (1, 0)); (7, Some (4, 0)); (8, None); (9, Some (6, 0)); (10, Some (3, 1)); (11, Some (8, 0)); (12, None); (13, Some (7, 3)); (14, Some (9, 0)); (15, Some (12, 0)); (16, None); (17, Some (14, 0)); (18, Some (11, 1)); (19, Some (16, 0)); (20, None); (21, Some (15, 3)); (22, Some (17, 0)); (23, Some (20, 0))].
Example test_2_by_2_bottom_left_corner : Forall (fun '(from, expected) => shown_boundary (cs_boundary (2, 2) SOUTHWEST from) = Ok (option_map (fun tr => (SOUTHWEST, from, fst tr, snd tr)) expected)) table_test_2_by_2_bottom_left_corner.
Proof. table. Qed.
(** tests/test_partitioner_boundaries.py 463 *)
Definition table_test_2_by_2_bottom_right_corner : list (Z * option (Z * Z)) :=
  [(0, Some (23, 0)); (1, None); (2, Some (1, 0)); (3, Some (4, 0)); (4, Some (21, 3)); (5, None); (6, Some (5, 0)); (7, Some (13, 1)); (8, Some (7, 0)); (9, None); (10, Some (9, 0)); (11, Some (12, 0)); (12, Some (5, 3)); (13, None); (14, Some (13, 0)); (15, Some (21, 1)); (16, Some (15, 0)); (17, None); (18, Some (17, 0)); (19, Some (20, 0)); (20, Some (13, 3)); (21, None); (22, Some (21, 0)); (23, Some (5, 1))].
Example test_2_by_2_bottom_right_corner : Forall (fun '(from, expected) => shown_boundary (cs_boundary (2, 2) SOUTHEAST from) = Ok (option_map (fun tr => (SOUTHEAST, from, fst tr, snd tr)) expected)) table_test_2_by_2_bottom_right_corner.
Proof. table. Qed.
(** tests/test_partitioner_boundaries.py 255 *)
Definition table_test_1_by_1_top_left_corner : list Z :=
  [0; 1; 2; 3; 4; 5].
Example test_1_by_1_top_left_corner : Forall (fun from => cs_boundary (1, 1) NORTHWEST from = Ok None) table_test_1_by_1_top_left_corner.
Proof. table. Qed.
(** tests/test_partitioner_boundaries.py 262 *)
Definition table_test_1_by_1_top_right_corner : list Z :=
  [0; 1; 2; 3; 4; 5].
Example test_1_by_1_top_right_corner : Forall (fun from => cs_boundary (1, 1) NORTHEAST from = Ok None) table_test_1_by_1_top_right_corner.
Proof. table. Qed.
(** tests/test_partitioner_boundaries.py 269 *)
Definition table_test_1_by_1_bottom_left_corner : list Z :=
  [0; 1; 2; 3; 4; 5].
Example test_1_by_1_bottom_left_corner : Forall (fun from => cs_boundary (1, 1) SOUTHWEST from = Ok None) table_test_1_by_1_bottom_left_corner.
Proof. table. Qed.
(** tests/test_partitioner_boundaries.py 276 *)
Definition table_test_1_by_1_bottom_right_corner : list Z :=
  [0; 1; 2; 3; 4; 5].
Example test_1_by_1_bottom_right_corner : Forall (fun from => cs_boundary (1, 1) SOUTHEAST from = Ok None) table_test_1_by_1_bottom_right_corner.
Proof. table. Qed.
(** tests/test_partitioner_boundaries.py 91 *)
Definition table_test_rotate_subtile_rank : list (Z * (Z * Z) * Z * Z) :=
  [(12, (4, 4), 1, 15); (14, (4, 4), 1, 7); (0, (1, 1), 0, 0); (0, (1, 1), 1, 0); (2, (2, 2), 1, 3)].
Example test_rotate_subtile_rank : Forall (fun '(rank, layout, n, new) => rotate_subtile_rank rank layout n = Ok new) table_test_rotate_subtile_rank.
Proof. table. Qed.
(** tests/test_partitioner_boundaries.py 341 *)
Definition table_test_tile_boundary : list ((Z * Z) * btype * Z * Z) :=
  [((1, 1), WEST, 0, 0); ((1, 1), EAST, 0, 0); ((1, 1), NORTH, 0, 0); ((1, 1), SOUTH, 0, 0); ((2, 2), WEST, 0, 1); ((2, 2), EAST, 0, 1); ((2, 2), NORTH, 0, 2); ((2, 2), SOUTH, 0, 2); ((2, 2), WEST, 3, 2); ((2, 2), EAST, 3, 2); ((2, 2), NORTH, 3, 1); ((2, 2), SOUTH, 3, 1)].
Example test_tile_boundary : Forall (fun '(layout, b, from, to) => let e := tp_boundary layout b from in (b_from e, b_to e, b_rot e) = (from, to, 0)) table_test_tile_boundary.
Proof. table. Qed.
(** tests/test_partitioner_boundaries.py 498 *)
Definition table_test_3_by_3_difficult_cases : list (btype * Z * Z * Z) :=
  [(WEST, 0, 44, 1); (SOUTH, 0, 51, 0); (WEST, 42, 24, 1); (NORTH, 42, 6, 3)].
Example test_3_by_3_difficult_cases : Forall (fun '(b, from, to, n) => shown_boundary (cs_boundary (3, 3) b from) = Ok (Some (b, from, to, n))) table_test_3_by_3_difficult_cases.
Proof. table. Qed.
(** tests/test_partitioner_boundaries.py 492 *)
Definition table_test_boundary_returns_correct_boundary_type : list btype :=
  [NORTH; SOUTH; WEST; EAST; NORTHWEST; NORTHEAST; SOUTHWEST; SOUTHEAST].
Example test_boundary_returns_correct_boundary_type : Forall (fun b => rmap (option_map b_type) (cs_boundary (3, 3) b 4) = Ok (Some b)) table_test_boundary_returns_correct_boundary_type.
Proof. table. Qed.
(** tests/test_partitioner_boundaries.py 530 *)
Definition table_test_edge_boundaries_pair : list (Z * Z) :=
  [(1, 1); (2, 2); (4, 4)].
Example test_edge_boundaries_pair : Forall (fun layout => forallb (fun rank => forallb (fun b => pairs_back [WEST; NORTH; EAST; SOUTH] layout b rank) [WEST; NORTH; EAST; SOUTH]) (zrange (total_ranks layout)) = true) table_test_edge_boundaries_pair.
Proof. table. Qed.
(** tests/test_partitioner_boundaries.py 555 *)
Definition table_test_corner_boundaries_pair : list (Z * Z) :=
  [(1, 1); (2, 2); (4, 4)].
Example test_corner_boundaries_pair : Forall (fun layout => forallb (fun rank => forallb (fun b => pairs_back [NORTHWEST; NORTHEAST; SOUTHEAST; SOUTHWEST] layout b rank) [NORTHWEST; NORTHEAST; SOUTHEAST; SOUTHWEST]) (zrange (total_ranks layout)) = true) table_test_corner_boundaries_pair.
Proof. table. Qed.
