(** The tables of tests/quantity/test_view.py, tests/quantity/test_boundary.py and tests/quantity/test_quantity.py, evaluated in the model.
    Written by tools/tests.py. *)
From Verif.Base Require Import Base.
From Verif.Model Require Import Consts Numpy Quantity.
From Verif.Tests Require Import Tables.
Local Open Scope string_scope.
Local Open Scope Z_scope.

(** tests/quantity/test_view.py 802 *)
Example test_southwest_0 : rmap (all_equal 4) (corner_get (mkQ (ARR [3; 3] [0; 1; 2; 3; 4; 5; 6; 7; 8]) ["x"; "y"] "m" [1; 1] [1; 1]) (VCorner SOUTHWEST) (PTuple [IInt 0; IInt 0])) = Ok true.
Proof. vm_compute. reflexivity. Qed.
(** tests/quantity/test_view.py 802 *)
Example test_southwest_0_transposed : rmap (all_equal 4) (corner_get (mkQ (ARR [3; 3] [0; 3; 6; 1; 4; 7; 2; 5; 8]) ["y"; "x"] "m" [1; 1] [1; 1]) (VCorner SOUTHWEST) (PTuple [IInt 0; IInt 0])) = Ok true.
Proof. vm_compute. reflexivity. Qed.
(** tests/quantity/test_view.py 802 *)
Example test_southwest_1 : rmap (all_equal 0) (corner_get (mkQ (ARR [3; 3] [0; 1; 2; 3; 4; 5; 6; 7; 8]) ["x"; "y"] "m" [1; 1] [1; 1]) (VCorner SOUTHWEST) (PTuple [IInt (-1); IInt (-1)])) = Ok true.
Proof. vm_compute. reflexivity. Qed.
(** tests/quantity/test_view.py 802 *)
Example test_southwest_1_transposed : rmap (all_equal 0) (corner_get (mkQ (ARR [3; 3] [0; 3; 6; 1; 4; 7; 2; 5; 8]) ["y"; "x"] "m" [1; 1] [1; 1]) (VCorner SOUTHWEST) (PTuple [IInt (-1); IInt (-1)])) = Ok true.
Proof. vm_compute. reflexivity. Qed.
(** tests/quantity/test_view.py 802 *)
Example test_southwest_2 : rmap shown (corner_get (mkQ (ARR [3; 3] [0; 1; 2; 3; 4; 5; 6; 7; 8]) ["x"; "y"] "m" [1; 1] [1; 1]) (VCorner SOUTHWEST) (PTuple [ISlice (Some (-1)) (Some 0) None; ISlice (Some (-1)) (Some 0) None])) = Ok ([1; 1], [0]).
Proof. vm_compute. reflexivity. Qed.
(** tests/quantity/test_view.py 802 *)
Example test_southwest_2_transposed : rmap shown (corner_get (mkQ (ARR [3; 3] [0; 3; 6; 1; 4; 7; 2; 5; 8]) ["y"; "x"] "m" [1; 1] [1; 1]) (VCorner SOUTHWEST) (PTuple [ISlice (Some (-1)) (Some 0) None; ISlice (Some (-1)) (Some 0) None])) = Ok ([1; 1], [0]).
Proof. vm_compute. reflexivity. Qed.
(** tests/quantity/test_view.py 802 *)
Example test_southwest_3 : rmap (all_equal 1) (corner_get (mkQ (ARR [3; 3] [0; 1; 2; 3; 4; 5; 6; 7; 8]) ["x"; "y"] "m" [1; 1] [1; 1]) (VCorner SOUTHWEST) (PTuple [IInt (-1); IInt 0])) = Ok true.
Proof. vm_compute. reflexivity. Qed.
(** tests/quantity/test_view.py 802 *)
Example test_southwest_3_transposed : rmap (all_equal 1) (corner_get (mkQ (ARR [3; 3] [0; 3; 6; 1; 4; 7; 2; 5; 8]) ["y"; "x"] "m" [1; 1] [1; 1]) (VCorner SOUTHWEST) (PTuple [IInt 0; IInt (-1)])) = Ok true.
Proof. vm_compute. reflexivity. Qed.
(** tests/quantity/test_view.py 802 *)
Example test_southwest_4 : rmap shown (corner_get (mkQ (ARR [5; 5] [0; 1; 2; 3; 4; 5; 6; 7; 8; 9; 10; 11; 12; 13; 14; 15; 16; 17; 18; 19; 20; 21; 22; 23; 24]) ["x"; "y"] "m" [2; 2] [1; 1]) (VCorner SOUTHWEST) (PTuple [ISlice (Some (-2)) (Some 0) None; ISlice (Some (-1)) (Some 2) None])) = Ok ([2; 3], [1; 2; 3; 6; 7; 8]).
Proof. vm_compute. reflexivity. Qed.
(** tests/quantity/test_view.py 802 *)
Example test_southwest_4_transposed : rmap shown (corner_get (mkQ (ARR [5; 5] [0; 5; 10; 15; 20; 1; 6; 11; 16; 21; 2; 7; 12; 17; 22; 3; 8; 13; 18; 23; 4; 9; 14; 19; 24]) ["y"; "x"] "m" [2; 2] [1; 1]) (VCorner SOUTHWEST) (PTuple [ISlice (Some (-1)) (Some 2) None; ISlice (Some (-2)) (Some 0) None])) = Ok ([3; 2], [1; 6; 2; 7; 3; 8]).
Proof. vm_compute. reflexivity. Qed.
(** tests/quantity/test_view.py 894 *)
Example test_southeast_0 : rmap (all_equal 4) (corner_get (mkQ (ARR [3; 3] [0; 1; 2; 3; 4; 5; 6; 7; 8]) ["x"; "y"] "m" [1; 1] [1; 1]) (VCorner SOUTHEAST) (PTuple [IInt (-1); IInt 0])) = Ok true.
Proof. vm_compute. reflexivity. Qed.
(** tests/quantity/test_view.py 894 *)
Example test_southeast_0_transposed : rmap (all_equal 4) (corner_get (mkQ (ARR [3; 3] [0; 3; 6; 1; 4; 7; 2; 5; 8]) ["y"; "x"] "m" [1; 1] [1; 1]) (VCorner SOUTHEAST) (PTuple [IInt 0; IInt (-1)])) = Ok true.
Proof. vm_compute. reflexivity. Qed.
(** tests/quantity/test_view.py 894 *)
Example test_southeast_1 : rmap (all_equal 6) (corner_get (mkQ (ARR [3; 3] [0; 1; 2; 3; 4; 5; 6; 7; 8]) ["x"; "y"] "m" [1; 1] [1; 1]) (VCorner SOUTHEAST) (PTuple [IInt 0; IInt (-1)])) = Ok true.
Proof. vm_compute. reflexivity. Qed.
(** tests/quantity/test_view.py 894 *)
Example test_southeast_1_transposed : rmap (all_equal 6) (corner_get (mkQ (ARR [3; 3] [0; 3; 6; 1; 4; 7; 2; 5; 8]) ["y"; "x"] "m" [1; 1] [1; 1]) (VCorner SOUTHEAST) (PTuple [IInt (-1); IInt 0])) = Ok true.
Proof. vm_compute. reflexivity. Qed.
(** tests/quantity/test_view.py 894 *)
Example test_southeast_2 : rmap shown (corner_get (mkQ (ARR [3; 3] [0; 1; 2; 3; 4; 5; 6; 7; 8]) ["x"; "y"] "m" [1; 1] [1; 1]) (VCorner SOUTHEAST) (PTuple [ISlice (Some 0) (Some 1) None; ISlice (Some (-1)) (Some 0) None])) = Ok ([1; 1], [6]).
Proof. vm_compute. reflexivity. Qed.
(** tests/quantity/test_view.py 894 *)
Example test_southeast_2_transposed : rmap shown (corner_get (mkQ (ARR [3; 3] [0; 3; 6; 1; 4; 7; 2; 5; 8]) ["y"; "x"] "m" [1; 1] [1; 1]) (VCorner SOUTHEAST) (PTuple [ISlice (Some (-1)) (Some 0) None; ISlice (Some 0) (Some 1) None])) = Ok ([1; 1], [6]).
Proof. vm_compute. reflexivity. Qed.
(** tests/quantity/test_view.py 894 *)
Example test_southeast_3 : rmap (all_equal 3) (corner_get (mkQ (ARR [3; 3] [0; 1; 2; 3; 4; 5; 6; 7; 8]) ["x"; "y"] "m" [1; 1] [1; 1]) (VCorner SOUTHEAST) (PTuple [IInt (-1); IInt (-1)])) = Ok true.
Proof. vm_compute. reflexivity. Qed.
(** tests/quantity/test_view.py 894 *)
Example test_southeast_3_transposed : rmap (all_equal 3) (corner_get (mkQ (ARR [3; 3] [0; 3; 6; 1; 4; 7; 2; 5; 8]) ["y"; "x"] "m" [1; 1] [1; 1]) (VCorner SOUTHEAST) (PTuple [IInt (-1); IInt (-1)])) = Ok true.
Proof. vm_compute. reflexivity. Qed.
(** tests/quantity/test_view.py 894 *)
Example test_southeast_4 : rmap shown (corner_get (mkQ (ARR [5; 5] [0; 1; 2; 3; 4; 5; 6; 7; 8; 9; 10; 11; 12; 13; 14; 15; 16; 17; 18; 19; 20; 21; 22; 23; 24]) ["x"; "y"] "m" [2; 2] [1; 1]) (VCorner SOUTHEAST) (PTuple [ISlice (Some (-2)) (Some 0) None; ISlice (Some (-1)) (Some 2) None])) = Ok ([2; 3], [6; 7; 8; 11; 12; 13]).
Proof. vm_compute. reflexivity. Qed.
(** tests/quantity/test_view.py 894 *)
Example test_southeast_4_transposed : rmap shown (corner_get (mkQ (ARR [5; 5] [0; 5; 10; 15; 20; 1; 6; 11; 16; 21; 2; 7; 12; 17; 22; 3; 8; 13; 18; 23; 4; 9; 14; 19; 24]) ["y"; "x"] "m" [2; 2] [1; 1]) (VCorner SOUTHEAST) (PTuple [ISlice (Some (-1)) (Some 2) None; ISlice (Some (-2)) (Some 0) None])) = Ok ([3; 2], [6; 11; 7; 12; 8; 13]).
Proof. vm_compute. reflexivity. Qed.
(** tests/quantity/test_view.py 998 *)
Example test_northwest_0 : rmap (all_equal 4) (corner_get (mkQ (ARR [3; 3] [0; 1; 2; 3; 4; 5; 6; 7; 8]) ["y"; "x"] "m" [1; 1] [1; 1]) (VCorner NORTHWEST) (PTuple [IInt (-1); IInt 0])) = Ok true.
Proof. vm_compute. reflexivity. Qed.
(** tests/quantity/test_view.py 998 *)
Example test_northwest_0_transposed : rmap (all_equal 4) (corner_get (mkQ (ARR [3; 3] [0; 3; 6; 1; 4; 7; 2; 5; 8]) ["x"; "y"] "m" [1; 1] [1; 1]) (VCorner NORTHWEST) (PTuple [IInt 0; IInt (-1)])) = Ok true.
Proof. vm_compute. reflexivity. Qed.
(** tests/quantity/test_view.py 998 *)
Example test_northwest_1 : rmap (all_equal 6) (corner_get (mkQ (ARR [3; 3] [0; 1; 2; 3; 4; 5; 6; 7; 8]) ["y"; "x"] "m" [1; 1] [1; 1]) (VCorner NORTHWEST) (PTuple [IInt 0; IInt (-1)])) = Ok true.
Proof. vm_compute. reflexivity. Qed.
(** tests/quantity/test_view.py 998 *)
Example test_northwest_1_transposed : rmap (all_equal 6) (corner_get (mkQ (ARR [3; 3] [0; 3; 6; 1; 4; 7; 2; 5; 8]) ["x"; "y"] "m" [1; 1] [1; 1]) (VCorner NORTHWEST) (PTuple [IInt (-1); IInt 0])) = Ok true.
Proof. vm_compute. reflexivity. Qed.
(** tests/quantity/test_view.py 998 *)
Example test_northwest_2 : rmap shown (corner_get (mkQ (ARR [3; 3] [0; 1; 2; 3; 4; 5; 6; 7; 8]) ["y"; "x"] "m" [1; 1] [1; 1]) (VCorner NORTHWEST) (PTuple [ISlice (Some 0) (Some 1) None; ISlice (Some (-1)) (Some 0) None])) = Ok ([1; 1], [6]).
Proof. vm_compute. reflexivity. Qed.
(** tests/quantity/test_view.py 998 *)
Example test_northwest_2_transposed : rmap shown (corner_get (mkQ (ARR [3; 3] [0; 3; 6; 1; 4; 7; 2; 5; 8]) ["x"; "y"] "m" [1; 1] [1; 1]) (VCorner NORTHWEST) (PTuple [ISlice (Some (-1)) (Some 0) None; ISlice (Some 0) (Some 1) None])) = Ok ([1; 1], [6]).
Proof. vm_compute. reflexivity. Qed.
(** tests/quantity/test_view.py 998 *)
Example test_northwest_3 : rmap (all_equal 4) (corner_get (mkQ (ARR [3; 3] [0; 1; 2; 3; 4; 5; 6; 7; 8]) ["y"; "x"] "m" [1; 1] [1; 1]) (VCorner NORTHWEST) (PTuple [IInt (-1); IInt 0])) = Ok true.
Proof. vm_compute. reflexivity. Qed.
(** tests/quantity/test_view.py 998 *)
Example test_northwest_3_transposed : rmap (all_equal 4) (corner_get (mkQ (ARR [3; 3] [0; 3; 6; 1; 4; 7; 2; 5; 8]) ["x"; "y"] "m" [1; 1] [1; 1]) (VCorner NORTHWEST) (PTuple [IInt 0; IInt (-1)])) = Ok true.
Proof. vm_compute. reflexivity. Qed.
(** tests/quantity/test_view.py 998 *)
Example test_northwest_4 : rmap (all_equal 3) (corner_get (mkQ (ARR [3; 3] [0; 1; 2; 3; 4; 5; 6; 7; 8]) ["y"; "x"] "m" [1; 1] [1; 1]) (VCorner NORTHWEST) (PTuple [IInt (-1); IInt (-1)])) = Ok true.
Proof. vm_compute. reflexivity. Qed.
(** tests/quantity/test_view.py 998 *)
Example test_northwest_4_transposed : rmap (all_equal 3) (corner_get (mkQ (ARR [3; 3] [0; 3; 6; 1; 4; 7; 2; 5; 8]) ["x"; "y"] "m" [1; 1] [1; 1]) (VCorner NORTHWEST) (PTuple [IInt (-1); IInt (-1)])) = Ok true.
Proof. vm_compute. reflexivity. Qed.
(** tests/quantity/test_view.py 998 *)
Example test_northwest_5 : rmap shown (corner_get (mkQ (ARR [5; 5] [0; 1; 2; 3; 4; 5; 6; 7; 8; 9; 10; 11; 12; 13; 14; 15; 16; 17; 18; 19; 20; 21; 22; 23; 24]) ["y"; "x"] "m" [2; 2] [1; 1]) (VCorner NORTHWEST) (PTuple [ISlice (Some (-2)) (Some 0) None; ISlice (Some (-1)) (Some 2) None])) = Ok ([2; 3], [6; 7; 8; 11; 12; 13]).
Proof. vm_compute. reflexivity. Qed.
(** tests/quantity/test_view.py 998 *)
Example test_northwest_5_transposed : rmap shown (corner_get (mkQ (ARR [5; 5] [0; 5; 10; 15; 20; 1; 6; 11; 16; 21; 2; 7; 12; 17; 22; 3; 8; 13; 18; 23; 4; 9; 14; 19; 24]) ["x"; "y"] "m" [2; 2] [1; 1]) (VCorner NORTHWEST) (PTuple [ISlice (Some (-1)) (Some 2) None; ISlice (Some (-2)) (Some 0) None])) = Ok ([3; 2], [6; 11; 7; 12; 8; 13]).
Proof. vm_compute. reflexivity. Qed.
(** tests/quantity/test_view.py 1102 *)
Example test_northeast_0 : rmap (all_equal 4) (corner_get (mkQ (ARR [3; 3] [0; 1; 2; 3; 4; 5; 6; 7; 8]) ["x"; "y"] "m" [1; 1] [1; 1]) (VCorner NORTHEAST) (PTuple [IInt (-1); IInt (-1)])) = Ok true.
Proof. vm_compute. reflexivity. Qed.
(** tests/quantity/test_view.py 1102 *)
Example test_northeast_0_transposed : rmap (all_equal 4) (corner_get (mkQ (ARR [3; 3] [0; 3; 6; 1; 4; 7; 2; 5; 8]) ["y"; "x"] "m" [1; 1] [1; 1]) (VCorner NORTHEAST) (PTuple [IInt (-1); IInt (-1)])) = Ok true.
Proof. vm_compute. reflexivity. Qed.
(** tests/quantity/test_view.py 1102 *)
Example test_northeast_1 : rmap (all_equal 8) (corner_get (mkQ (ARR [3; 3] [0; 1; 2; 3; 4; 5; 6; 7; 8]) ["x"; "y"] "m" [1; 1] [1; 1]) (VCorner NORTHEAST) (PTuple [IInt 0; IInt 0])) = Ok true.
Proof. vm_compute. reflexivity. Qed.
(** tests/quantity/test_view.py 1102 *)
Example test_northeast_1_transposed : rmap (all_equal 8) (corner_get (mkQ (ARR [3; 3] [0; 3; 6; 1; 4; 7; 2; 5; 8]) ["y"; "x"] "m" [1; 1] [1; 1]) (VCorner NORTHEAST) (PTuple [IInt 0; IInt 0])) = Ok true.
Proof. vm_compute. reflexivity. Qed.
(** tests/quantity/test_view.py 1102 *)
Example test_northeast_2 : rmap shown (corner_get (mkQ (ARR [3; 3] [0; 1; 2; 3; 4; 5; 6; 7; 8]) ["x"; "y"] "m" [1; 1] [1; 1]) (VCorner NORTHEAST) (PTuple [ISlice (Some 0) (Some 1) None; ISlice (Some 0) (Some 1) None])) = Ok ([1; 1], [8]).
Proof. vm_compute. reflexivity. Qed.
(** tests/quantity/test_view.py 1102 *)
Example test_northeast_2_transposed : rmap shown (corner_get (mkQ (ARR [3; 3] [0; 3; 6; 1; 4; 7; 2; 5; 8]) ["y"; "x"] "m" [1; 1] [1; 1]) (VCorner NORTHEAST) (PTuple [ISlice (Some 0) (Some 1) None; ISlice (Some 0) (Some 1) None])) = Ok ([1; 1], [8]).
Proof. vm_compute. reflexivity. Qed.
(** tests/quantity/test_view.py 1102 *)
Example test_northeast_3 : rmap (all_equal 4) (corner_get (mkQ (ARR [3; 3] [0; 1; 2; 3; 4; 5; 6; 7; 8]) ["x"; "y"] "m" [1; 1] [1; 1]) (VCorner NORTHEAST) (PTuple [IInt (-1); IInt (-1)])) = Ok true.
Proof. vm_compute. reflexivity. Qed.
(** tests/quantity/test_view.py 1102 *)
Example test_northeast_3_transposed : rmap (all_equal 4) (corner_get (mkQ (ARR [3; 3] [0; 3; 6; 1; 4; 7; 2; 5; 8]) ["y"; "x"] "m" [1; 1] [1; 1]) (VCorner NORTHEAST) (PTuple [IInt (-1); IInt (-1)])) = Ok true.
Proof. vm_compute. reflexivity. Qed.
(** tests/quantity/test_view.py 1102 *)
Example test_northeast_4 : rmap (all_equal 5) (corner_get (mkQ (ARR [3; 3] [0; 1; 2; 3; 4; 5; 6; 7; 8]) ["x"; "y"] "m" [1; 1] [1; 1]) (VCorner NORTHEAST) (PTuple [IInt (-1); IInt 0])) = Ok true.
Proof. vm_compute. reflexivity. Qed.
(** tests/quantity/test_view.py 1102 *)
Example test_northeast_4_transposed : rmap (all_equal 5) (corner_get (mkQ (ARR [3; 3] [0; 3; 6; 1; 4; 7; 2; 5; 8]) ["y"; "x"] "m" [1; 1] [1; 1]) (VCorner NORTHEAST) (PTuple [IInt 0; IInt (-1)])) = Ok true.
Proof. vm_compute. reflexivity. Qed.
(** tests/quantity/test_view.py 1102 *)
Example test_northeast_5 : rmap shown (corner_get (mkQ (ARR [5; 5] [0; 1; 2; 3; 4; 5; 6; 7; 8; 9; 10; 11; 12; 13; 14; 15; 16; 17; 18; 19; 20; 21; 22; 23; 24]) ["x"; "y"] "m" [2; 2] [1; 1]) (VCorner NORTHEAST) (PTuple [ISlice (Some (-2)) (Some 0) None; ISlice (Some (-1)) (Some 2) None])) = Ok ([2; 3], [7; 8; 9; 12; 13; 14]).
Proof. vm_compute. reflexivity. Qed.
(** tests/quantity/test_view.py 1102 *)
Example test_northeast_5_transposed : rmap shown (corner_get (mkQ (ARR [5; 5] [0; 5; 10; 15; 20; 1; 6; 11; 16; 21; 2; 7; 12; 17; 22; 3; 8; 13; 18; 23; 4; 9; 14; 19; 24]) ["y"; "x"] "m" [2; 2] [1; 1]) (VCorner NORTHEAST) (PTuple [ISlice (Some (-1)) (Some 2) None; ISlice (Some (-2)) (Some 0) None])) = Ok ([3; 2], [7; 12; 8; 13; 9; 14]).
Proof. vm_compute. reflexivity. Qed.
(** tests/quantity/test_view.py 1202 *)
Example test_interior_0 : rmap (all_equal 4) (corner_get (mkQ (ARR [3; 3] [0; 1; 2; 3; 4; 5; 6; 7; 8]) ["x"; "y"] "m" [1; 1] [1; 1]) VInterior (PTuple [IInt 0; IInt 0])) = Ok true.
Proof. vm_compute. reflexivity. Qed.
(** tests/quantity/test_view.py 1202 *)
Example test_interior_0_transposed : rmap (all_equal 4) (corner_get (mkQ (ARR [3; 3] [0; 3; 6; 1; 4; 7; 2; 5; 8]) ["y"; "x"] "m" [1; 1] [1; 1]) VInterior (PTuple [IInt 0; IInt 0])) = Ok true.
Proof. vm_compute. reflexivity. Qed.
(** tests/quantity/test_view.py 1202 *)
Example test_interior_1 : rmap (all_equal 4) (corner_get (mkQ (ARR [3; 3] [0; 1; 2; 3; 4; 5; 6; 7; 8]) ["x"; "y"] "m" [1; 1] [1; 1]) VInterior (PTuple [ISlice (Some 0) (Some 0) None; ISlice (Some 0) (Some 0) None])) = Ok true.
Proof. vm_compute. reflexivity. Qed.
(** tests/quantity/test_view.py 1202 *)
Example test_interior_1_transposed : rmap (all_equal 4) (corner_get (mkQ (ARR [3; 3] [0; 3; 6; 1; 4; 7; 2; 5; 8]) ["y"; "x"] "m" [1; 1] [1; 1]) VInterior (PTuple [ISlice (Some 0) (Some 0) None; ISlice (Some 0) (Some 0) None])) = Ok true.
Proof. vm_compute. reflexivity. Qed.
(** tests/quantity/test_view.py 1202 *)
Example test_interior_2 : rmap shown (corner_get (mkQ (ARR [3; 3] [0; 1; 2; 3; 4; 5; 6; 7; 8]) ["x"; "y"] "m" [1; 1] [1; 1]) VInterior (PTuple [ISlice (Some (-1)) (Some 1) None; ISlice (Some (-1)) (Some 1) None])) = Ok ([3; 3], [0; 1; 2; 3; 4; 5; 6; 7; 8]).
Proof. vm_compute. reflexivity. Qed.
(** tests/quantity/test_view.py 1202 *)
Example test_interior_2_transposed : rmap shown (corner_get (mkQ (ARR [3; 3] [0; 3; 6; 1; 4; 7; 2; 5; 8]) ["y"; "x"] "m" [1; 1] [1; 1]) VInterior (PTuple [ISlice (Some (-1)) (Some 1) None; ISlice (Some (-1)) (Some 1) None])) = Ok ([3; 3], [0; 3; 6; 1; 4; 7; 2; 5; 8]).
Proof. vm_compute. reflexivity. Qed.
(** tests/quantity/test_view.py 1202 *)
Example test_interior_3 : rmap shown (corner_get (mkQ (ARR [5; 5] [0; 1; 2; 3; 4; 5; 6; 7; 8; 9; 10; 11; 12; 13; 14; 15; 16; 17; 18; 19; 20; 21; 22; 23; 24]) ["x"; "y"] "m" [2; 2] [1; 1]) VInterior (PTuple [ISlice (Some (-2)) (Some 0) None; ISlice (Some 0) (Some 1) None])) = Ok ([3; 2], [2; 3; 7; 8; 12; 13]).
Proof. vm_compute. reflexivity. Qed.
(** tests/quantity/test_view.py 1202 *)
Example test_interior_3_transposed : rmap shown (corner_get (mkQ (ARR [5; 5] [0; 5; 10; 15; 20; 1; 6; 11; 16; 21; 2; 7; 12; 17; 22; 3; 8; 13; 18; 23; 4; 9; 14; 19; 24]) ["y"; "x"] "m" [2; 2] [1; 1]) VInterior (PTuple [ISlice (Some 0) (Some 1) None; ISlice (Some (-2)) (Some 0) None])) = Ok ([2; 3], [2; 7; 12; 3; 8; 13]).
Proof. vm_compute. reflexivity. Qed.
(** tests/quantity/test_view.py 1202 *)
Example test_interior_4 : rmap shown (corner_get (mkQ (ARR [5; 5] [0; 1; 2; 3; 4; 5; 6; 7; 8; 9; 10; 11; 12; 13; 14; 15; 16; 17; 18; 19; 20; 21; 22; 23; 24]) ["x"; "y"] "m" [1; 1] [3; 3]) VInterior (PTuple [IInt 0])) = Ok ([3], [6; 7; 8]).
Proof. vm_compute. reflexivity. Qed.
(** tests/quantity/test_boundary.py 252 *)
Example test_shift_boundary_slice_0 : shift_boundary_slice "x" 1 3 (VCorner WEST) (ISlice None None None) = Ok (ISlice (Some 1) (Some 4) None).
Proof. vm_compute. reflexivity. Qed.
(** tests/quantity/test_boundary.py 252 *)
Example test_shift_boundary_slice_1 : shift_boundary_slice "y" 1 3 (VCorner WEST) (ISlice None None None) = Ok (ISlice (Some 1) (Some 4) None).
Proof. vm_compute. reflexivity. Qed.
(** tests/quantity/test_boundary.py 252 *)
Example test_shift_boundary_slice_2 : shift_boundary_slice "x" 1 3 (VCorner WEST) (ISlice (Some 0) (Some 1) None) = Ok (ISlice (Some 1) (Some 2) None).
Proof. vm_compute. reflexivity. Qed.
(** tests/quantity/test_boundary.py 252 *)
Example test_shift_boundary_slice_3 : shift_boundary_slice "x" 1 3 (VCorner WEST) (ISlice (Some 0) (Some 2) None) = Ok (ISlice (Some 1) (Some 3) None).
Proof. vm_compute. reflexivity. Qed.
(** tests/quantity/test_boundary.py 252 *)
Example test_shift_boundary_slice_4 : shift_boundary_slice "x" 1 3 (VCorner EAST) (ISlice (Some 0) (Some 1) None) = Ok (ISlice (Some 4) (Some 5) None).
Proof. vm_compute. reflexivity. Qed.
(** tests/quantity/test_boundary.py 252 *)
Example test_shift_boundary_slice_5 : shift_boundary_slice "x_interface" 1 3 (VCorner WEST) (ISlice (Some 0) (Some 1) None) = Ok (ISlice (Some 1) (Some 2) None).
Proof. vm_compute. reflexivity. Qed.
(** tests/quantity/test_boundary.py 252 *)
Example test_shift_boundary_slice_6 : shift_boundary_slice "x_interface" 1 3 (VCorner EAST) (ISlice (Some 0) (Some 1) None) = Ok (ISlice (Some 4) (Some 5) None).
Proof. vm_compute. reflexivity. Qed.
(** tests/quantity/test_boundary.py 252 *)
Example test_shift_boundary_slice_7 : shift_boundary_slice "y" 2 4 (VCorner SOUTH) (ISlice (Some 0) (Some 1) None) = Ok (ISlice (Some 2) (Some 3) None).
Proof. vm_compute. reflexivity. Qed.
(** tests/quantity/test_boundary.py 252 *)
Example test_shift_boundary_slice_8 : shift_boundary_slice "y" 2 4 (VCorner NORTH) (ISlice (Some 0) (Some 1) None) = Ok (ISlice (Some 6) (Some 7) None).
Proof. vm_compute. reflexivity. Qed.
(** tests/quantity/test_quantity.py 201 *)
Example test_shift_slice_0 : (shift_index (Some 0) 0 1, shift_index (Some 1) 0 1) = ((Some 0), (Some 1)).
Proof. vm_compute. reflexivity. Qed.
(** tests/quantity/test_quantity.py 201 *)
Example test_shift_slice_1 : (shift_index None 1 1, shift_index None 1 1) = (None, None).
Proof. vm_compute. reflexivity. Qed.
(** tests/quantity/test_quantity.py 201 *)
Example test_shift_slice_2 : (shift_index None (-1) 5, shift_index (Some 5) (-1) 5) = (None, (Some 4)).
Proof. vm_compute. reflexivity. Qed.
(** tests/quantity/test_quantity.py 201 *)
Example test_shift_slice_3 : (shift_index (Some (-3)) 0 5, shift_index None 0 5) = ((Some 2), None).
Proof. vm_compute. reflexivity. Qed.
(** tests/quantity/test_quantity.py 201 *)
Example test_shift_slice_4 : (shift_index (Some (-3)) 1 5, shift_index None 1 5) = ((Some 3), None).
Proof. vm_compute. reflexivity. Qed.
(** tests/quantity/test_quantity.py 201 *)
Example test_shift_slice_5 : (shift_index None 0 5, shift_index (Some (-1)) 0 5) = (None, (Some 4)).
Proof. vm_compute. reflexivity. Qed.
(** tests/quantity/test_quantity.py 201 *)
Example test_shift_slice_6 : (shift_index (Some 0) 0 5, shift_index (Some (-1)) 0 5) = ((Some 0), (Some 4)).
Proof. vm_compute. reflexivity. Qed.
(** tests/quantity/test_quantity.py 201 *)
Example test_shift_slice_7 : (shift_index (Some 2) 1 5, shift_index (Some (-2)) 1 5) = ((Some 3), (Some 4)).
Proof. vm_compute. reflexivity. Qed.
