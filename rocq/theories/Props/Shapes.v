(** C98: arrays sent and received have the same shape. *)
From Verif.Base Require Import Base.
From Verif.Model Require Import Consts Numpy Quantity Partitioner Rotate Communicator.
From Verif.Spec Require Import Grid Cube Halo Shapes.
From Verif.Proofs Require Import ShapeProofs.

(** every boundary has one facing it *)
Theorem C98_facing : forall n r b B,
  1 <= n -> (r < ranks n)%nat -> cs_boundary (n, n) b (Z.of_nat r) = Ok (Some B) ->
  b_type B = b /\ exists r' B', (r' < ranks n)%nat /\ faces n r B r' B'.
Proof. exact faces_exist. Qed.
Print Assumptions C98_facing.

(** halo update of a scalar *)
Theorem C98_scalar : forall n N h len ix iy s ext m r B r' B',
  1 <= n -> 1 <= N -> 1 <= h <= N ->
  (forall r, (r < ranks n)%nat -> fits N h len ix iy s s ext (m r)) ->
  (r < ranks n)%nat -> faces n r B r' B' ->
  exists received cut sent,
    recv_view B (m r) h = Ok received /\ send_view B' (m r') h = Ok cut /\
    rotate_scalar_data cut (m_dims (m r')) (- b_rot B') = Ok sent /\
    vshp sent = vshp received /\ strip (m r) ix iy h (b_type B) (vshp received).
Proof. exact scalar_shapes. Qed.
Print Assumptions C98_scalar.

(** halo update of a vector *)
Theorem C98_vector : forall n N h len ix iy sy sx ext mx my r B r' B',
  1 <= n -> 1 <= N -> 1 <= h <= N ->
  (forall r, (r < ranks n)%nat -> fits N h len ix iy sy sx ext (mx r)) ->
  (forall r, (r < ranks n)%nat -> fits N h len ix iy sx sy ext (my r)) ->
  (r < ranks n)%nat -> faces n r B r' B' ->
  exists xreceived yreceived xcut ycut xfrom xsent xneg yfrom ysent yneg,
    recv_view B (mx r) h = Ok xreceived /\ recv_view B (my r) h = Ok yreceived /\
    send_view B' (mx r') h = Ok xcut /\ send_view B' (my r') h = Ok ycut /\
    rotate_vector_data xcut ycut (- b_rot B') (m_dims (mx r')) = Ok ((xfrom, xsent, xneg), (yfrom, ysent, yneg)) /\
    vshp xsent = vshp xreceived /\ vshp ysent = vshp yreceived /\
    strip (mx r) ix iy h (b_type B) (vshp xreceived) /\ strip (my r) ix iy h (b_type B) (vshp yreceived).
Proof. exact vector_shapes. Qed.
Print Assumptions C98_vector.

(** synchronisation of interfaces: all that is sent and received has one shape *)
Theorem C98_interfaces : forall n N len ix iy ext mx my r south west,
  1 <= n -> 1 <= N ->
  ((ix = 0 /\ iy = 1) \/ (ix = 1 /\ iy = 0))%nat ->
  (forall r, (r < ranks n)%nat -> fits N 0 len ix iy 1 0 ext (mx r)) ->
  (forall r, (r < ranks n)%nat -> fits N 0 len ix iy 0 1 ext (my r)) ->
  (r < ranks n)%nat -> cs_boundary (n, n) SOUTH (Z.of_nat r) = Ok (Some south) -> cs_boundary (n, n) WEST (Z.of_nat r) = Ok (Some west) ->
  let shape := N :: map ext (seq 2 (len - 2)) in
  exists northern eastern s s' w w',
    edge_selection (mx r) (VCorner NORTHWEST) Y_INTERFACE_DIM (-1) X_DIM = Ok northern /\ vshp northern = shape /\
    edge_selection (my r) (VCorner SOUTHEAST) X_INTERFACE_DIM (-1) Y_DIM = Ok eastern /\ vshp eastern = shape /\
    edge_selection (mx r) (VCorner SOUTHWEST) Y_INTERFACE_DIM 0 X_DIM = Ok s /\
    rotate_scalar_data s [X_DIM] (- b_rot south) = Ok s' /\ vshp s' = shape /\
    edge_selection (my r) (VCorner SOUTHWEST) X_INTERFACE_DIM 0 Y_DIM = Ok w /\
    rotate_scalar_data w [Y_DIM] (- b_rot west) = Ok w' /\ vshp w' = shape.
Proof. exact interface_shapes. Qed.
Print Assumptions C98_interfaces.

(** false of scalars staggered in one horizontal direction only *)
Theorem C98_one_way_refuted : ~ (forall n N h len ix iy sy sx ext m r B r' B' received cut sent, 1 <= n -> 1 <= N -> 1 <= h <= N ->
  (forall r, (r < ranks n)%nat -> fits N h len ix iy sy sx ext (m r)) ->
  (r < ranks n)%nat -> faces n r B r' B' ->
  recv_view B (m r) h = Ok received -> send_view B' (m r') h = Ok cut ->
  rotate_scalar_data cut (m_dims (m r')) (- b_rot B') = Ok sent -> vshp sent = vshp received).
Proof. exact one_way_refuted. Qed.
Print Assumptions C98_one_way_refuted.

Definition ex_shape (v : res view) : res (list Z) := bind v (fun v => Ok (vshp v)).
Definition ex_sent (B : boundary) (m : meta) (h : Z) : res view := bind (send_view B m h) (fun v => rotate_scalar_data v (m_dims m) (- b_rot B)).

(** interface points on tiles of 3 x 3 cells: the strip cut for the western side of tile 2 is turned into one for the
    northern side of tile 0 *)
Example C98_example : let m := shx_m Y_INTERFACE_DIM X_INTERFACE_DIM 4 4 in let B := mkB NORTH 0 2 3 in let B' := mkB WEST 2 0 1 in
  fits 3 1 2 1 0 1 1 (fun _ => 0) m /\ faces 1 0 B 2 B' /\
  ex_shape (send_view B' m 1) = Ok [4; 1] /\ ex_shape (ex_sent B' m 1) = Ok [1; 4] /\ ex_shape (recv_view B m 1) = Ok [1; 4].
Proof. split; [apply (shx_fits 1 Y_INTERFACE_DIM X_INTERFACE_DIM 1 1); try reflexivity; lia|]. split; [constructor; vm_compute; reflexivity|]. vm_compute. auto. Qed.

(** winds on cell edges: the x component (4 x 3) and the y component (3 x 4) *)
Example C98_example_vector : fits 3 1 2 1 0 1 0 (fun _ => 0) (shx_m Y_INTERFACE_DIM X_DIM 4 3) /\ fits 3 1 2 1 0 0 1 (fun _ => 0) (shx_m Y_DIM X_INTERFACE_DIM 3 4) /\
  ex_shape (recv_view (mkB NORTH 0 2 3) (shx_m Y_INTERFACE_DIM X_DIM 4 3) 1) = Ok [1; 3] /\
  ex_shape (ex_sent (mkB WEST 2 0 1) (shx_m Y_DIM X_INTERFACE_DIM 3 4) 1) = Ok [1; 3].
Proof.
  split; [apply (shx_fits 1 Y_INTERFACE_DIM X_DIM 1 0); try reflexivity; lia|]. split; [apply (shx_fits 1 Y_DIM X_INTERFACE_DIM 0 1); try reflexivity; lia|].
  vm_compute. auto.
Qed.

(** the same, synchronising interfaces: rank 2's western edge is turned round for rank 0 *)
Example C98_example_interfaces : fits 3 0 2 1 0 1 0 (fun _ => 0) (shx_m Y_INTERFACE_DIM X_DIM 4 3) /\ fits 3 0 2 1 0 0 1 (fun _ => 0) (shx_m Y_DIM X_INTERFACE_DIM 3 4) /\
  cs_boundary (1, 1) SOUTH 2 = Ok (Some (mkB SOUTH 2 1 0)) /\ cs_boundary (1, 1) WEST 2 = Ok (Some (mkB WEST 2 0 1)) /\
  ex_shape (edge_selection (shx_m Y_DIM X_INTERFACE_DIM 3 4) (VCorner SOUTHWEST) X_INTERFACE_DIM 0 Y_DIM) = Ok [3].
Proof.
  split; [apply (shx_fits 0 Y_INTERFACE_DIM X_DIM 1 0); try reflexivity; lia|]. split; [apply (shx_fits 0 Y_DIM X_INTERFACE_DIM 0 1); try reflexivity; lia|].
  vm_compute. auto.
Qed.
