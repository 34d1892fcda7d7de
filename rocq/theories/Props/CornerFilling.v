(** C34: filling the corners of tiles. *)
From Verif.Base Require Import Base.
From Verif.Model Require Import Consts Partitioner Numpy Quantity Corners.
From Verif.Spec Require Import Grid Views Cube Corners.
From Verif.Proofs Require Import FillProofs.

(** exactly the corners of the tile which the rank has are filled, each point from its source; nothing else changes *)
Theorem C34_filled : forall V (q : quantity V) dim0 dim1 dims ox oy origin ex ey extent sx sy shape direction layout rank n,
  well_formed (q_meta q) -> q_meta q = mkMeta (dim0 :: dim1 :: dims) (ox :: oy :: origin) (ex :: ey :: extent) (sx :: sy :: shape) ->
  axis_of dim0 = AxX -> axis_of dim1 = AxY -> direction = "x"%string \/ direction = "y"%string ->
  let y := String.eqb direction "y" in let shift := if y then stag dim0 else stag dim1 in
  0 <= n -> n <= ox -> ox + ex + n <= sx -> n <= oy -> oy + ey + n <= sy -> n + shift <= (if y then ex else ey) ->
  exists q', fill_scalar_corners q direction layout rank n = Ok q' /\ q_meta q' = q_meta q /\ q_units q' = q_units q /\
    corners_filled (mkXY ox ex oy ey) y shift n (on_side layout rank) (in_column_of origin extent) (at_ (q_data q)) (at_ (q_data q')).
Proof. exact @corners_ok. Qed.
Print Assumptions C34_filled.

(** on the cube, the source of a corner point is where one arrives by walking around the corner, exactly if the variable has the same
    staggering in x and y; otherwise it lies half a cell off *)
Theorem C34_around : forall n N r sx sy fx fy (y : bool) a b, 1 <= n -> 1 <= N -> 0 <= r < 6 * (n * n) -> (sx = 0 \/ sx = 1) -> (sy = 0 \/ sy = 1) -> on_side (n, n) r fx fy ->
  let shift := if y then sx else sy in
  1 <= a -> 1 <= b -> a + shift <= N -> b + shift <= N ->
  let d := mkXY 0 (N + sx) 0 (N + sy) in
  position n N sy sx r (snd (corner_source d y shift fx fy a b)) (fst (corner_source d y shift fx fy a b)) =
  around y n N sy sx r (snd (corner_point d fx fy a b)) (fst (corner_point d fx fy a b)) <-> sx = sy.
Proof. exact corner_around. Qed.
Print Assumptions C34_around.

Theorem C34_x_first : forall V (q : quantity V) dim0 dims direction layout rank n, q_dims q = dim0 :: dims -> axis_of dim0 <> AxX ->
  fill_scalar_corners q direction layout rank n = Err ValueError.
Proof. exact @corners_x_first. Qed.
Print Assumptions C34_x_first.

Theorem C34_y_second : forall V (q : quantity V) dim0 dim1 dims direction layout rank n, q_dims q = dim0 :: dim1 :: dims -> axis_of dim1 <> AxY ->
  fill_scalar_corners q direction layout rank n = Err ValueError.
Proof. exact @corners_y_second. Qed.
Print Assumptions C34_y_second.

(** without a second dimension: IndexError *)
Theorem C34_few : forall V (q : quantity V) direction layout rank n, (q_dims q = [] \/ exists d, q_dims q = [d] /\ axis_of d = AxX) ->
  fill_scalar_corners q direction layout rank n = Err IndexError.
Proof. exact @corners_few. Qed.
Print Assumptions C34_few.

Theorem C34_direction : forall V (q : quantity V) dim0 dim1 dims direction layout rank n, q_dims q = dim0 :: dim1 :: dims -> axis_of dim0 = AxX -> axis_of dim1 = AxY ->
  direction <> "x"%string -> direction <> "y"%string -> fill_scalar_corners q direction layout rank n = Err TypeError.
Proof. exact @corners_direction. Qed.
Print Assumptions C34_direction.

(** 4 by 4 cells, 2 levels of 3 in the compute domain, on rank 5 of a 2 by 3 layout: the northeast corner. The data tell x, y and z. *)
Definition ex_q : quantity Z := mkQ (mkA [10; 10; 3] (fun p => match p with [x; y; z] => 100 * x + 10 * y + z | _ => 0 end)) ["x"; "y"; "z"]%string "K" [3; 3; 1] [4; 4; 2] .
Example C34_example : well_formed (q_meta ex_q) /\ on_side (2, 3) 5 true true /\ ~ on_side (2, 3) 5 false true /\
  option_map (fun q => map (at_ (q_data q)) [[7; 7; 1]; [9; 7; 2]; [7; 8; 1]; [9; 9; 0]; [2; 9; 1]]) (match fill_scalar_corners ex_q "x" (2, 3) 5 3 with Ok q => Some q | Err _ => None end) =
    Some [761; 742; 861; 990; 291].
Proof.
  split; [split; [reflexivity|repeat constructor; lia]|]. split; [split; reflexivity|]. split; [intros (A & _); discriminate|]. vm_compute. reflexivity.
Qed.
