(** C32, C33: rotating data. *)
From Verif.Base Require Import Base.
From Verif.Model Require Import Consts Numpy Quantity Rotate.
From Verif.Spec Require Import Grid Views.
From Verif.Proofs Require Import RotationProofs.

(** C32: one turn moves the column x = (last) - y to row y *)
Theorem C32_quarter : forall ix iy dims, axes_at ix iy dims -> forall v k, length (vshp v) = length dims -> Forall (Z.le 0) (vshp v) -> k mod 4 = 1 ->
  exists w, rotate_scalar_data v dims k = Ok w /\ quarter_turn ix iy v w.
Proof. exact rotate_quarter. Qed.
Print Assumptions C32_quarter.

(** C32: turning by [a] and then the result by [b] is turning by [a + b]; turning by 0 is the identity *)
Theorem C32_compose : forall ix iy dims, axes_at ix iy dims -> forall v a b, length (vshp v) = length dims -> Forall (Z.le 0) (vshp v) ->
  exists v1 v2 v3, rotate_scalar_data v dims a = Ok v1 /\ rotate_scalar_data v1 dims b = Ok v2 /\ rotate_scalar_data v dims (a + b) = Ok v3 /\ same_view v2 v3.
Proof. exact rotate_compose. Qed.
Print Assumptions C32_compose.

Theorem C32_identity : forall v dims k, k mod 4 = 0 -> rotate_scalar_data v dims k = Ok v.
Proof. exact rotate_zero. Qed.
Print Assumptions C32_identity.

(** C32: vectors: one turn ... *)
Theorem C32_vector_quarter : forall ix iy dims, axes_at ix iy dims -> forall V (neg : V -> V) xv yv k (X Y : idx -> V),
  length (vshp xv) = length dims -> length (vshp yv) = length dims -> Forall (Z.le 0) (vshp xv) -> Forall (Z.le 0) (vshp yv) -> k mod 4 = 1 ->
  exists xw yw x1 y1, quarter_turn ix iy xv xw /\ quarter_turn ix iy yv yw /\ rotate_vector_data xv yv k dims = Ok (x1, y1) /\
    vshp (snd (fst x1)) = vshp yw /\ vshp (snd (fst y1)) = vshp xw /\
    forall p, component neg X Y x1 p = Y (vmap yw p) /\ component neg X Y y1 p = neg (X (vmap xw p)).
Proof. exact (fun ix iy dims AX V neg => rotate_vector_quarter ix iy dims AX neg). Qed.
Print Assumptions C32_vector_quarter.

(** ... and composition *)
Theorem C32_vector_compose : forall ix iy dims, axes_at ix iy dims -> forall V (neg : V -> V), (forall z, neg (neg z) = z) ->
  forall xv yv a b (X Y : idx -> V), length (vshp xv) = length dims -> length (vshp yv) = length dims ->
  Forall (Z.le 0) (vshp xv) -> Forall (Z.le 0) (vshp yv) ->
  let shape_of (c : bool * view * bool) := vshp (snd (fst c)) in
  exists x1 y1 x2 y2 x3 y3, rotate_vector_data xv yv a dims = Ok (x1, y1) /\
    rotate_vector_data (v_whole (shape_of x1)) (v_whole (shape_of y1)) b dims = Ok (x2, y2) /\ rotate_vector_data xv yv (a + b) dims = Ok (x3, y3) /\
    shape_of x2 = shape_of x3 /\ shape_of y2 = shape_of y3 /\
    (forall p, in_shape (shape_of x3) p -> component neg (component neg X Y x1) (component neg X Y y1) x2 p = component neg X Y x3 p) /\
    (forall p, in_shape (shape_of y3) p -> component neg (component neg X Y x1) (component neg X Y y1) y2 p = component neg X Y y3 p).
Proof. exact (fun ix iy dims AX V neg => rotate_vector_compose ix iy dims AX neg). Qed.
Print Assumptions C32_vector_compose.

(** C32: data along one horizontal dimension compose if the dimension is renamed along with the turn *)
Theorem C32_line : forall l d r v a b, Forall (fun d => axis_of d = AxOther) l -> Forall (fun d => axis_of d = AxOther) r -> axis_of d <> AxOther ->
  let dims := (l ++ d :: r)%list in length (vshp v) = length dims -> Forall (Z.le 0) (vshp v) ->
  exists v1 v2 v3, rotate_scalar_data v dims a = Ok v1 /\ rotate_scalar_data v1 (map (turned_dim a) dims) b = Ok v2 /\
    rotate_scalar_data v dims (a + b) = Ok v3 /\ same_view v2 v3.
Proof. exact rotate_line_compose. Qed.
Print Assumptions C32_line.

Definition shown (v : res view) : option (list Z * list (list Z)) := match v with Ok v => Some (vshp v, map (vmap v) (all_idx (vshp v))) | Err _ => None end.
Definition both {A B} (a : option A) (b : A -> option B) := match a with Some x => b x | None => None end.
Example C32_example : let dims := ["y"; "z"; "x_interface"]%string in
  axes_at 2 0 dims /\
  shown (rotate_scalar_data (v_whole [2; 1; 3]) dims 1) = Some ([3; 1; 2], [[0; 0; 2]; [1; 0; 2]; [0; 0; 1]; [1; 0; 1]; [0; 0; 0]; [1; 0; 0]]) /\
  shown (rotate_scalar_data (v_whole [2; 1; 3]) dims (-3)) = shown (rotate_scalar_data (v_whole [2; 1; 3]) dims 1) /\
  shown (rotate_scalar_data (v_whole [3]) ["x"]%string 1) = Some ([3], [[2]; [1]; [0]]) /\ shown (rotate_scalar_data (v_whole [3]) ["y"]%string 1) = Some ([3], [[0]; [1]; [2]]).
Proof.
  split; [|vm_compute; auto]. repeat split; cbn; try lia. intros i Hi. destruct i as [|[|[|i]]]; try reflexivity. lia.
Qed.

(** C33: what Boundary.rotate does; correct for even turns *)
Theorem C33_result : forall V (neg : V -> V) k y x, boundary_rotate neg k y x =
  if k mod 4 =? 1 then (fun i => neg (x i), fun i => neg (x i)) else if k mod 4 =? 3 then (y, x) else turned_vector neg k y x.
Proof. exact @boundary_rotate_result. Qed.
Print Assumptions C33_result.

(** C33: wrong for odd turns, on the same data turned by one and by three quarters *)
Theorem C33_odd_refuted : exists (y x : idx -> Z), forall k, Z.odd k = true ->
  fst (boundary_rotate Z.opp k y x) [] <> fst (turned_vector Z.opp k y x) [] \/ snd (boundary_rotate Z.opp k y x) [] <> snd (turned_vector Z.opp k y x) [].
Proof. exact boundary_rotate_odd. Qed.
Print Assumptions C33_odd_refuted.

Example C33_example : let f := fun k => (fst (boundary_rotate Z.opp k (fun _ => 10) (fun _ => 3)) [0], snd (boundary_rotate Z.opp k (fun _ => 10) (fun _ => 3)) [0]) in
  map f [0; 1; 2; 3] = [(10, 3); (-3, -3); (-10, -3); (10, 3)] /\
  (fst (turned_vector Z.opp 1 (fun _ => 10) (fun _ => 3)) [0], snd (turned_vector Z.opp 1 (fun _ => 10) (fun _ => 3)) [0]) = (-3, 10).
Proof. vm_compute. auto. Qed.
