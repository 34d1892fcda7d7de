(** What the files of this directory use: arrays written out, and what the project's tests compare.

    The files of this directory evaluate the model on the arguments of the project's own tests (/repo/tests, read
    as text) and compare with the values which those tests expect: checks, independent of the theorems, that the
    model says what the code does. They are examples only; no theorem depends on them. *)
From Verif.Base Require Import Base.
From Verif.Model Require Import Consts Numpy Quantity Partitioner.

Ltac table := repeat (apply Forall_cons; [vm_compute; reflexivity|]); apply Forall_nil.

(** the array of the given shape with the given elements, last axis fastest *)
Definition offset (shape p : list Z) : Z := fold_left (fun a si => a * fst si + snd si) (combine shape p) 0.
Definition ARR (shape values : list Z) : arr Z := mkA shape (fun p => nth (Z.to_nat (offset shape p)) values 0).
(** elements 0, 1, 2, ...: stands for the random arrays of the tests *)
Definition COUNT (shape : list Z) : arr Z := mkA shape (offset shape).

(** numpy.testing.assert_array_equal with an array, and with a number *)
Definition shown (a : arr Z) : list Z * list Z := (shp a, ravel a).
Definition all_equal (v : Z) (a : arr Z) : bool := forallb (Z.eqb v) (ravel a).
Fixpoint zs_eqb (l l' : list Z) : bool :=
  match l, l' with [], [] => true | a :: l, b :: l' => (a =? b) && zs_eqb l l' | _, _ => false end.
Definition same_array (a b : arr Z) : bool := zs_eqb (shp a) (shp b) && zs_eqb (ravel a) (ravel b).

Definition shown_boundary (b : res (option boundary)) : res (option (btype * Z * Z * Z)) :=
  rmap (option_map (fun b => (b_type b, b_from b, b_to b, b_rot b))) b.

(** tests/test_partitioner_boundaries.py 580-582 *)
Definition btype_eqb (a b : btype) : bool :=
  match a, b with
  | WEST, WEST | EAST, EAST | NORTH, NORTH | SOUTH, SOUTH | NORTHWEST, NORTHWEST | NORTHEAST, NORTHEAST
  | SOUTHWEST, SOUTHWEST | SOUTHEAST, SOUTHEAST => true
  | _, _ => false
  end.
Fixpoint position (b : btype) (order : list btype) : Z :=
  match order with [] => 0 | c :: order' => if btype_eqb b c then 0 else 1 + position b order' end.
Definition turned (b : btype) (n : Z) (order : list btype) : btype := nth (Z.to_nat ((position b order + n) mod 4)) order b.
(** tests/test_partitioner_boundaries.py 529-577: the boundary on the other side leads back *)
Definition pairs_back (order : list btype) (layout : layout_t) (b : btype) (rank : Z) : bool :=
  match cs_boundary layout b rank with
  | Ok None => existsb (btype_eqb b) CORNER_BOUNDARY_TYPES
  | Ok (Some out) =>
      match cs_boundary layout (turned b (2 - b_rot out) order) (b_to out) with
      | Ok (Some back) => (b_to out =? b_from back) && (b_to back =? b_from out) && (b_rot back mod 4 =? (- b_rot out) mod 4)
      | _ => false
      end
  | Err _ => false
  end.

(** what rotate_vector_data returns: which argument's view, and whether negated *)
Definition shown_vector (x y : arr Z) (r : (bool * view * bool) * (bool * view * bool)) : (list Z * list Z) * (list Z * list Z) :=
  let one '(of_y, v, neg) := let a := v_read (if of_y : bool then y else x) v in (shp a, map (fun e => if neg : bool then - e else e) (ravel a)) in
  (one (fst r), one (snd r)).

(** tests/quantity/test_transpose.py 57-73 and 147-158: the fixtures final_* and the assertions *)
Definition numpy_transpose (a : arr Z) (order : list nat) : arr Z :=
  mkA (map (fun i => nth i (shp a) 0) order)
    (fun p => at_ a (fold_left (fun q ip => upd q (fst ip) (snd ip)) (combine order p) (repeat 0 (length order)))).
Definition transposed_by (a : arr Z) (dims : list string) (origin extent : list Z) (targets : list tdim) (order : list nat) : res bool :=
  rmap (fun q => same_array (q_data q) (numpy_transpose a order)
          && forallb (fun ab => String.eqb (fst ab) (snd ab)) (combine (q_dims q) (map (fun i => nth i dims EmptyString) order))
          && Nat.eqb (length (q_dims q)) (length order)
          && zs_eqb (q_origin q) (map (fun i => nth i origin 0) order) && zs_eqb (q_extent q) (map (fun i => nth i extent 0) order)
          && String.eqb (q_units q) "unit_string")
    (q_transpose (mkQ a dims "unit_string" origin extent) targets).
