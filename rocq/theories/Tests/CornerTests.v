(** The table of test_fill_corners in tests/quantity/test_corners.py, evaluated in the model.
    Written by tools/tests.py. *)
From Verif.Base Require Import Base.
From Verif.Model Require Import Consts Numpy Quantity Partitioner Corners.
From Verif.Tests Require Import Tables.
Local Open Scope string_scope.
Local Open Scope Z_scope.

(** tests/quantity/test_corners.py 309 *)
Example test_fill_corners_0 : rmap (fun q => shown (q_data q)) (fill_scalar_corners (mkQ (ARR [6; 6] [0; 6; 12; 18; 24; 30; 1; 7; 13; 19; 25; 31; 2; 8; 14; 20; 26; 32; 3; 9; 15; 21; 27; 33; 4; 10; 16; 22; 28; 34; 5; 11; 17; 23; 29; 35]) ["x"; "y"] "m" [2; 2] [2; 2]) "x" (1, 1) 1 2) = Ok ([6; 6], [18; 19; 12; 18; 13; 12; 12; 13; 13; 19; 19; 18; 2; 8; 14; 20; 26; 32; 3; 9; 15; 21; 27; 33; 17; 16; 16; 22; 22; 23; 23; 22; 17; 23; 16; 17]).
Proof. vm_compute. reflexivity. Qed.
(** tests/quantity/test_corners.py 309 *)
Example test_fill_corners_1 : rmap (fun q => shown (q_data q)) (fill_scalar_corners (mkQ (ARR [7; 7] [0; 6; 12; 0; 18; 24; 30; 1; 7; 13; 1; 19; 25; 31; 2; 8; 14; 2; 20; 26; 32; 0; 1; 2; 3; 4; 5; 6; 3; 9; 15; 4; 21; 27; 33; 4; 10; 16; 5; 22; 28; 34; 5; 11; 17; 6; 23; 29; 35]) ["x_interface"; "y_interface"] "m" [2; 2] [3; 3]) "x" (1, 1) 1 2) = Ok ([7; 7], [18; 19; 12; 0; 18; 13; 12; 0; 1; 13; 1; 19; 1; 0; 2; 8; 14; 2; 20; 26; 32; 0; 1; 2; 3; 4; 5; 6; 3; 9; 15; 4; 21; 27; 33; 6; 5; 16; 5; 22; 5; 6; 23; 22; 17; 6; 23; 16; 17]).
Proof. vm_compute. reflexivity. Qed.
(** tests/quantity/test_corners.py 309 *)
Example test_fill_corners_2 : rmap (fun q => shown (q_data q)) (fill_scalar_corners (mkQ (ARR [6; 7] [0; 6; 12; 0; 18; 24; 30; 1; 7; 13; 1; 19; 25; 31; 2; 8; 14; 2; 20; 26; 32; 3; 9; 15; 4; 21; 27; 33; 4; 10; 16; 5; 22; 28; 34; 5; 11; 17; 6; 23; 29; 35]) ["x"; "y_interface"] "m" [2; 2] [2; 3]) "x" (1, 1) 1 2) = Ok ([6; 7], [18; 19; 12; 0; 18; 13; 12; 0; 1; 13; 1; 19; 1; 0; 2; 8; 14; 2; 20; 26; 32; 3; 9; 15; 4; 21; 27; 33; 6; 5; 16; 5; 22; 5; 6; 23; 22; 17; 6; 23; 16; 17]).
Proof. vm_compute. reflexivity. Qed.
(** tests/quantity/test_corners.py 309 *)
Example test_fill_corners_3 : rmap (fun q => shown (q_data q)) (fill_scalar_corners (mkQ (ARR [7; 7] [0; 6; 12; 0; 18; 24; 30; 1; 7; 13; 1; 19; 25; 31; 2; 8; 14; 2; 20; 26; 32; 0; 1; 2; 3; 4; 5; 6; 3; 9; 15; 4; 21; 27; 33; 4; 10; 16; 5; 22; 28; 34; 5; 11; 17; 6; 23; 29; 35]) ["x_interface"; "y_interface"] "m" [2; 2] [3; 3]) "y" (1, 1) 1 2) = Ok ([7; 7], [3; 0; 12; 0; 18; 6; 33; 9; 1; 13; 1; 19; 5; 27; 2; 8; 14; 2; 20; 26; 32; 0; 1; 2; 3; 4; 5; 6; 3; 9; 15; 4; 21; 27; 33; 8; 1; 16; 5; 22; 5; 26; 2; 0; 17; 6; 23; 6; 32]).
Proof. vm_compute. reflexivity. Qed.
(** tests/quantity/test_corners.py 309 *)
Example test_fill_corners_4 : rmap (fun q => shown (q_data q)) (fill_scalar_corners (mkQ (ARR [6; 6] [0; 6; 12; 18; 24; 30; 1; 7; 13; 19; 25; 31; 2; 8; 14; 20; 26; 32; 3; 9; 15; 21; 27; 33; 4; 10; 16; 22; 28; 34; 5; 11; 17; 23; 29; 35]) ["x"; "y"] "m" [2; 2] [2; 2]) "x" (2, 2) 2 2) = Ok ([6; 6], [0; 6; 12; 18; 13; 12; 1; 7; 13; 19; 19; 18; 2; 8; 14; 20; 26; 32; 3; 9; 15; 21; 27; 33; 4; 10; 16; 22; 28; 34; 5; 11; 17; 23; 29; 35]).
Proof. vm_compute. reflexivity. Qed.
(** tests/quantity/test_corners.py 309 *)
Example test_fill_corners_5 : rmap (fun q => shown (q_data q)) (fill_scalar_corners (mkQ (ARR [6; 6] [0; 6; 12; 18; 24; 30; 1; 7; 13; 19; 25; 31; 2; 8; 14; 20; 26; 32; 3; 9; 15; 21; 27; 33; 4; 10; 16; 22; 28; 34; 5; 11; 17; 23; 29; 35]) ["x"; "y"] "m" [2; 2] [2; 2]) "y" (1, 1) 1 2) = Ok ([6; 6], [3; 2; 12; 18; 32; 33; 9; 8; 13; 19; 26; 27; 2; 8; 14; 20; 26; 32; 3; 9; 15; 21; 27; 33; 8; 9; 16; 22; 27; 26; 2; 3; 17; 23; 33; 32]).
Proof. vm_compute. reflexivity. Qed.
