(** The tables of tests/test_rotate.py and tests/quantity/test_transpose.py, evaluated in the model.
    Written by tools/tests.py. *)
From Verif.Base Require Import Base.
From Verif.Model Require Import Consts Numpy Quantity Partitioner Rotate.
From Verif.Tests Require Import Tables.
Local Open Scope string_scope.
Local Open Scope Z_scope.

(** tests/test_rotate.py 111 *)
Example test_rotate_scalar_data_0 : rmap shown (rmap (v_read (ARR [1] [1])) (rotate_scalar_data (v_whole [1]) ["z"] 0)) = Ok ([1], [1]).
Proof. vm_compute. reflexivity. Qed.
(** tests/test_rotate.py 111 *)
Example test_rotate_scalar_data_1 : rmap shown (rmap (v_read (ARR [1] [1])) (rotate_scalar_data (v_whole [1]) ["z"] 1)) = Ok ([1], [1]).
Proof. vm_compute. reflexivity. Qed.
(** tests/test_rotate.py 111 *)
Example test_rotate_scalar_data_2 : rmap shown (rmap (v_read (ARR [2] [1; 2])) (rotate_scalar_data (v_whole [2]) ["x"] 1)) = Ok ([2], [2; 1]).
Proof. vm_compute. reflexivity. Qed.
(** tests/test_rotate.py 111 *)
Example test_rotate_scalar_data_3 : rmap shown (rmap (v_read (ARR [2] [1; 2])) (rotate_scalar_data (v_whole [2]) ["x"] 2)) = Ok ([2], [2; 1]).
Proof. vm_compute. reflexivity. Qed.
(** tests/test_rotate.py 111 *)
Example test_rotate_scalar_data_4 : rmap shown (rmap (v_read (ARR [2] [1; 2])) (rotate_scalar_data (v_whole [2]) ["y"] 1)) = Ok ([2], [1; 2]).
Proof. vm_compute. reflexivity. Qed.
(** tests/test_rotate.py 111 *)
Example test_rotate_scalar_data_5 : rmap shown (rmap (v_read (ARR [2] [1; 2])) (rotate_scalar_data (v_whole [2]) ["y"] 2)) = Ok ([2], [2; 1]).
Proof. vm_compute. reflexivity. Qed.
(** tests/test_rotate.py 111 *)
Example test_rotate_scalar_data_6 : rmap shown (rmap (v_read (ARR [2; 3] [0; 0; 0; 0; 0; 0])) (rotate_scalar_data (v_whole [2; 3]) ["x"; "y"] 0)) = Ok ([2; 3], [0; 0; 0; 0; 0; 0]).
Proof. vm_compute. reflexivity. Qed.
(** tests/test_rotate.py 111 *)
Example test_rotate_scalar_data_7 : rmap shown (rmap (v_read (ARR [2; 3] [0; 0; 0; 0; 0; 0])) (rotate_scalar_data (v_whole [2; 3]) ["x"; "y"] 1)) = Ok ([3; 2], [0; 0; 0; 0; 0; 0]).
Proof. vm_compute. reflexivity. Qed.
(** tests/test_rotate.py 111 *)
Example test_rotate_scalar_data_8 : rmap shown (rmap (v_read (ARR [2; 3] [0; 0; 0; 0; 0; 0])) (rotate_scalar_data (v_whole [2; 3]) ["x"; "y"] 2)) = Ok ([2; 3], [0; 0; 0; 0; 0; 0]).
Proof. vm_compute. reflexivity. Qed.
(** tests/test_rotate.py 111 *)
Example test_rotate_scalar_data_9 : rmap shown (rmap (v_read (ARR [2; 3] [0; 0; 0; 0; 0; 0])) (rotate_scalar_data (v_whole [2; 3]) ["x"; "y"] 3)) = Ok ([3; 2], [0; 0; 0; 0; 0; 0]).
Proof. vm_compute. reflexivity. Qed.
(** tests/test_rotate.py 111 *)
Example test_rotate_scalar_data_10 : rmap shown (rmap (v_read (ARR [5; 1] [0; 1; 2; 3; 4])) (rotate_scalar_data (v_whole [5; 1]) ["x"; "y"] 1)) = Ok ([1; 5], [4; 3; 2; 1; 0]).
Proof. vm_compute. reflexivity. Qed.
(** tests/test_rotate.py 111 *)
Example test_rotate_scalar_data_11 : rmap shown (rmap (v_read (ARR [5; 1] [0; 1; 2; 3; 4])) (rotate_scalar_data (v_whole [5; 1]) ["x"; "y"] 2)) = Ok ([5; 1], [4; 3; 2; 1; 0]).
Proof. vm_compute. reflexivity. Qed.
(** tests/test_rotate.py 111 *)
Example test_rotate_scalar_data_12 : rmap shown (rmap (v_read (ARR [1; 5] [0; 1; 2; 3; 4])) (rotate_scalar_data (v_whole [1; 5]) ["x"; "y"] 1)) = Ok ([5; 1], [0; 1; 2; 3; 4]).
Proof. vm_compute. reflexivity. Qed.
(** tests/test_rotate.py 168 *)
Example test_rotate_vector_data_0 : rmap (shown_vector (ARR [1] [1]) (ARR [1] [1])) (rotate_vector_data (v_whole [1]) (v_whole [1]) 0 ["z"]) = Ok (([1], [1]), ([1], [1])).
Proof. vm_compute. reflexivity. Qed.
(** tests/test_rotate.py 168 *)
Example test_rotate_vector_data_1 : rmap (shown_vector (ARR [1] [1]) (ARR [1] [1])) (rotate_vector_data (v_whole [1]) (v_whole [1]) 1 ["z"]) = Ok (([1], [1]), ([1], [(-1)])).
Proof. vm_compute. reflexivity. Qed.
(** tests/test_rotate.py 168 *)
Example test_rotate_vector_data_2 : rmap (shown_vector (ARR [1] [1]) (ARR [1] [1])) (rotate_vector_data (v_whole [1]) (v_whole [1]) 2 ["z"]) = Ok (([1], [(-1)]), ([1], [(-1)])).
Proof. vm_compute. reflexivity. Qed.
(** tests/test_rotate.py 168 *)
Example test_rotate_vector_data_3 : rmap (shown_vector (ARR [1] [1]) (ARR [1] [1])) (rotate_vector_data (v_whole [1]) (v_whole [1]) 3 ["z"]) = Ok (([1], [(-1)]), ([1], [1])).
Proof. vm_compute. reflexivity. Qed.
(** tests/test_rotate.py 168 *)
Example test_rotate_vector_data_4 : rmap (shown_vector (ARR [3; 2] [1; 1; 1; 1; 1; 1]) (ARR [2; 3] [1; 1; 1; 1; 1; 1])) (rotate_vector_data (v_whole [3; 2]) (v_whole [2; 3]) 3 ["y_interface"; "x"]) = Ok (([3; 2], [(-1); (-1); (-1); (-1); (-1); (-1)]), ([2; 3], [1; 1; 1; 1; 1; 1])).
Proof. vm_compute. reflexivity. Qed.
(** tests/test_rotate.py 168 *)
Example test_rotate_vector_data_5 : rmap (shown_vector (ARR [5; 1] [0; 1; 2; 3; 4]) (ARR [1; 5] [0; 1; 2; 3; 4])) (rotate_vector_data (v_whole [5; 1]) (v_whole [1; 5]) 1 ["x"; "y"]) = Ok (([5; 1], [0; 1; 2; 3; 4]), ([1; 5], [(-4); (-3); (-2); (-1); 0])).
Proof. vm_compute. reflexivity. Qed.
(** tests/quantity/test_transpose.py 154 *)
Example test_transpose_0 : transposed_by (COUNT [6; 7]) ["x"; "y"] [1; 2] [2; 3] [(TName "x"); (TName "y")] [0%nat; 1%nat] = Ok true.
Proof. vm_compute. reflexivity. Qed.
(** tests/quantity/test_transpose.py 154 *)
Example test_transpose_1 : transposed_by (COUNT [6; 7]) ["x"; "y"] [1; 2] [2; 3] [(TName "y"); (TName "x")] [1%nat; 0%nat] = Ok true.
Proof. vm_compute. reflexivity. Qed.
(** tests/quantity/test_transpose.py 154 *)
Example test_transpose_2 : transposed_by (COUNT [6; 7; 8]) ["x"; "y"; "z"] [1; 2; 3] [2; 3; 4] [(TName "x"); (TName "y"); (TName "z")] [0%nat; 1%nat; 2%nat] = Ok true.
Proof. vm_compute. reflexivity. Qed.
(** tests/quantity/test_transpose.py 154 *)
Example test_transpose_3 : transposed_by (COUNT [6; 7; 8]) ["x"; "y"; "z"] [1; 2; 3] [2; 3; 4] [(TAny ["x"; "x_interface"]); (TAny ["y"; "y_interface"]); (TAny ["z"; "z_interface"])] [0%nat; 1%nat; 2%nat] = Ok true.
Proof. vm_compute. reflexivity. Qed.
(** tests/quantity/test_transpose.py 154 *)
Example test_transpose_4 : transposed_by (COUNT [6; 7; 8]) ["x"; "y"; "z"] [1; 2; 3] [2; 3; 4] [(TName "z"); (TName "y"); (TName "x")] [2%nat; 1%nat; 0%nat] = Ok true.
Proof. vm_compute. reflexivity. Qed.
(** tests/quantity/test_transpose.py 154 *)
Example test_transpose_5 : transposed_by (COUNT [6; 7; 8]) ["x"; "y"; "z"] [1; 2; 3] [2; 3; 4] [(TAny ["z"; "z_interface"]); (TAny ["y"; "y_interface"]); (TAny ["x"; "x_interface"])] [2%nat; 1%nat; 0%nat] = Ok true.
Proof. vm_compute. reflexivity. Qed.
(** tests/quantity/test_transpose.py 193 *)
Example test_transpose_invalid_cases_0 : q_transpose (mkQ (COUNT [6]) ["x"] "unit_string" [1] [2]) [(TName "y")] = Err ValueError.
Proof. vm_compute. reflexivity. Qed.
(** tests/quantity/test_transpose.py 193 *)
Example test_transpose_invalid_cases_1 : q_transpose (mkQ (COUNT [6; 7]) ["x"; "y_interface"] "unit_string" [1; 2] [2; 3]) [(TName "x"); (TName "y")] = Err ValueError.
Proof. vm_compute. reflexivity. Qed.
(** tests/quantity/test_transpose.py 193 *)
Example test_transpose_invalid_cases_2 : q_transpose (mkQ (COUNT [6; 7]) ["x"; "y"] "unit_string" [1; 2] [2; 3]) [(TName "y"); (TName "x_interface")] = Err ValueError.
Proof. vm_compute. reflexivity. Qed.
