(** tests/quantity/test_quantity.py and the tests of boundary data in tests/quantity/test_boundary.py, evaluated in the model.
    Random arrays are 0, 1, 2, ... *)
From Verif.Base Require Import Base.
From Verif.Model Require Import Consts Numpy Quantity Partitioner Rotate.
From Verif.Tests Require Import Tables.
Local Open Scope string_scope.
Local Open Scope Z_scope.

(** * tests/quantity/test_quantity.py 14-76: extent in one dimension, number of halo points, number of dimensions *)
Definition extents : list Z := [0; 1; 5].
Definition halos : list Z := [0; 1; 3].
Definition every_case (test : Z -> Z -> nat -> bool) : bool :=
  forallb (fun e => forallb (fun h => forallb (test e h) [1; 2]%nat) halos) extents.
Definition names (n : nat) : list string := firstn n ["dimension_0"; "dimension_1"].
Definition quantity_of (e h : Z) (n : nat) : quantity Z := mkQ (mkA (repeat (h * 2 + e) n) (fun _ => 0)) (names n) "m" (repeat h n) (repeat e n).
Definition raises {A} (e : exc) (r : res A) : bool :=
  match r, e with
  | Err ValueError, ValueError => true | Err IndexError, IndexError => true | Err KeyError, KeyError => true
  | _, _ => false
  end.
Definition made (e h : Z) (n : nat) (data : arr Z) (dims : list string) (origin extent : list Z) : res (quantity Z) :=
  new_quantity (DArray data) dims "m" (Some origin) (Some extent).
Definition all_made (test : Z -> Z -> nat -> arr Z -> list string -> list Z -> list Z -> bool) : bool :=
  every_case (fun e h n => test e h n (q_data (quantity_of e h n)) (names n) (repeat h n) (repeat e n)).

(** 79-91 *)
Example test_smaller_data_raises :
  all_made (fun e h n data dims origin extent =>
    match v_index (v_whole (shp data)) [IInt 0] with
    | Ok v => Nat.leb n 1 || raises ValueError (made e h n (v_read data v) dims origin extent)
    | Err _ => true
    end) = true.
Proof. vm_compute. reflexivity. Qed.
(** 94-112 *)
Example test_smaller_raises :
  all_made (fun e h n data dims origin extent =>
    raises ValueError (made e h n data (removelast dims) origin extent) &&
    raises ValueError (made e h n data dims (removelast origin) extent) &&
    raises ValueError (made e h n data dims origin (removelast extent)) &&
    match made e h n data dims origin extent with Ok _ => true | Err _ => false end) = true.
Proof. vm_compute. reflexivity. Qed.

(** 139-146 *)
Example test_compute_view_get_value :
  every_case (fun e h n =>
    let r := view_get (quantity_of e h n) (PTuple (repeat (IInt 0) n)) in
    if (e =? 0) && (h =? 0) then raises IndexError r else match r with Ok v => zs_eqb (shp v) [] | Err _ => false end) = true.
Proof. vm_compute. reflexivity. Qed.

Definition set_to_1 (e h : Z) (n : nat) (i : pyindex) : res (quantity Z) := view_set (quantity_of e h n) i (mkA [] (fun _ => 1)).
Definition sum_of (a : arr Z) : Z := fold_right Z.add 0 (ravel a).
(** the sum of all elements is 1, and the one with the given indices, which may be negative, is 1 *)
Definition one_at (i : Z) (n : nat) (q : res (quantity Z)) : bool :=
  match q with
  | Ok q => (sum_of (q_data q) =? 1) &&
            match v_index (v_whole (shp (q_data q))) (repeat (IInt i) n) with Ok v => all_equal 1 (v_read (q_data q) v) | Err _ => false end
  | Err _ => false
  end.
(** 149-158 *)
Example test_compute_view_edit_start_halo :
  every_case (fun e h n =>
    let r := set_to_1 e h n (PTuple (repeat (IInt (-1)) n)) in
    if (e =? 0) && (h =? 0) then raises IndexError r else one_at (h - 1) n r) = true.
Proof. vm_compute. reflexivity. Qed.
(** 161-169 *)
Example test_compute_view_edit_end_halo :
  every_case (fun e h n =>
    let r := set_to_1 e h n (PTuple (repeat (IInt e) n)) in
    if h =? 0 then raises IndexError r else one_at (h + e) n r) = true.
Proof. vm_compute. reflexivity. Qed.
(** 172-178 *)
Example test_compute_view_edit_start_of_domain :
  every_case (fun e h n => (e =? 0) || one_at h n (set_to_1 e h n (PTuple (repeat (IInt 0) n)))) = true.
Proof. vm_compute. reflexivity. Qed.
(** 181-196 *)
Example test_compute_view_edit_all_domain :
  every_case (fun e h n =>
    (e =? 0) ||
    match set_to_1 e h n (PSingle IALL) with
    | Ok q =>
        (sum_of (q_data q) =? e ^ Z.of_nat n) &&
        forallb (fun s => match v_index (v_whole (shp (q_data q))) [s] with Ok v => all_equal 0 (v_read (q_data q) v) | Err _ => false end)
          [ISlice None (Some h) None; ISlice (Some (h + e)) None None]
    | Err _ => false
    end) = true.
Proof. vm_compute. reflexivity. Qed.

(** * tests/quantity/test_boundary.py *)
Definition boundary_data (q : quantity Z) (b : btype) (n_points : Z) (interior : bool) : res (list Z * list Z) :=
  rmap (fun v => shown (v_read (q_data q) v)) (boundary_view (mkB b 0 0 0) (q_meta q) n_points interior).
Definition of_data (q : quantity Z) (l : list ientry) : res (list Z * list Z) :=
  rmap (fun v => shown (v_read (q_data q) v)) (v_index (v_whole (shp (q_data q))) l).
Definition sides : list btype := [WEST; EAST; NORTH; SOUTH].
(** 20-54 *)
Definition q33 : quantity Z := mkQ (COUNT [3; 3]) ["y"; "x"] "m" [1; 1] [1; 1].
Example test_boundary_data_1_by_1_array_1_halo :
  map (fun b => boundary_data q33 b 1 true) sides = map (fun _ => Ok ([1; 1], [at_ (COUNT [3; 3]) [1; 1]])) sides /\
  boundary_data q33 NORTH 1 false = Ok ([1; 1], [at_ (COUNT [3; 3]) [2; 1]]) /\
  boundary_data q33 SOUTH 1 false = Ok ([1; 1], [at_ (COUNT [3; 3]) [0; 1]]) /\
  boundary_data q33 WEST 1 false = Ok ([1; 1], [at_ (COUNT [3; 3]) [1; 0]]) /\
  boundary_data q33 EAST 1 false = Ok ([1; 1], [at_ (COUNT [3; 3]) [1; 2]]).
Proof. vm_compute. repeat apply conj; reflexivity. Qed.
(** 57-94 *)
Definition q233 : quantity Z := mkQ (COUNT [2; 3; 3]) ["z"; "y"; "x"] "m" [1; 1; 1] [1; 1; 1].
Example test_boundary_data_3d_array_1_halo_z_offset_origin :
  map (fun b => boundary_data q233 b 1 true) sides = map (fun _ => Ok ([1; 1; 1], [at_ (COUNT [2; 3; 3]) [1; 1; 1]])) sides /\
  boundary_data q233 NORTH 1 false = Ok ([1; 1; 1], [at_ (COUNT [2; 3; 3]) [1; 2; 1]]) /\
  boundary_data q233 SOUTH 1 false = Ok ([1; 1; 1], [at_ (COUNT [2; 3; 3]) [1; 0; 1]]) /\
  boundary_data q233 WEST 1 false = Ok ([1; 1; 1], [at_ (COUNT [2; 3; 3]) [1; 1; 0]]) /\
  boundary_data q233 EAST 1 false = Ok ([1; 1; 1], [at_ (COUNT [2; 3; 3]) [1; 1; 2]]).
Proof. vm_compute. repeat apply conj; reflexivity. Qed.
(** 97-170 *)
Definition q66 : quantity Z := mkQ (COUNT [6; 6]) ["y"; "x"] "m" [2; 2] [2; 2].
Definition to (a b : Z) : ientry := ISlice (Some a) (Some b) None.
Example test_boundary_data_2_by_2_array_2_halo :
  Forall (fun t => let '(b, n, interior, l) := t in boundary_data q66 b n interior = of_data q66 l)
   [(WEST, 2, true, [to 2 4; to 2 4]); (EAST, 2, true, [to 2 4; to 2 4]); (NORTH, 2, true, [to 2 4; to 2 4]); (SOUTH, 2, true, [to 2 4; to 2 4]);
    (NORTH, 1, true, [to 3 4; to 2 4]); (NORTH, 1, false, [to 4 5; to 2 4]); (NORTH, 2, false, [to 4 6; to 2 4]);
    (SOUTH, 1, true, [to 2 3; to 2 4]); (SOUTH, 1, false, [to 1 2; to 2 4]); (SOUTH, 2, false, [to 0 2; to 2 4]);
    (WEST, 2, false, [to 2 4; to 0 2]); (WEST, 1, true, [to 2 4; to 2 3]); (WEST, 1, false, [to 2 4; to 1 2]);
    (EAST, 1, false, [to 2 4; to 4 5]); (EAST, 2, false, [to 2 4; to 4 6]); (EAST, 1, true, [to 2 4; to 3 4])].
Proof. table. Qed.
