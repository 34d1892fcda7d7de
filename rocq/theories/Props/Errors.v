(** C17, C53, C54: halo updates that cannot be done. *)
From Verif.Base Require Import Base.
From Verif.Model Require Import Consts Numpy Quantity Partitioner Network Communicator.
From Verif.Spec Require Import Grid Cube Halo Errors.
From Verif.Proofs Require Import UpdateExamples HaloErrors.

(** C17: zero points are refused before anything is handed to MPI and without trace *)
Theorem C17_zero_points : forall V (neg : V -> V) layout rank a (c : comm), points a = 0 ->
  start_attempt V neg layout rank a c = ([], c, Err ValueError).
Proof. exact zero_points. Qed.
Print Assumptions C17_zero_points.

(** C17: so are interfaces of a vector which is not on a C grid *)
Theorem C17_not_c_grid : forall V (neg : V -> V) layout rank x y (c : comm),
  ~ (In "x" (m_dims (h_meta x)) /\ In "y_interface" (m_dims (h_meta x)) /\ In "y" (m_dims (h_meta y)) /\ In "x_interface" (m_dims (h_meta y)))%string ->
  start_synchronize_vector_interfaces V neg layout rank x y c = ([], c, Err ValueError).
Proof. exact not_c_grid. Qed.
Print Assumptions C17_not_c_grid.

(** C17: after any calls that returned, a halo update raises if and only if some side of the array has too small a halo *)
Theorem C17_scalar_possible : forall V (neg : V -> V) n N len ix iy sy sx ext l q h r,
  1 <= n -> 1 <= N -> 1 <= h -> (r < ranks n)%nat -> fits N 0 len ix iy sy sx ext (h_meta q) ->
  let run := results V neg (n, n) (Z.of_nat r) in Forall returned (run l) ->
  (room h ix iy (h_meta q) -> exists rq, run (l ++ [AHalo q h]) = (run l ++ [Ok rq])%list) /\
  (~ room h ix iy (h_meta q) -> run (l ++ [AHalo q h]) = (run l ++ [Err OutOfBoundsError])%list).
Proof. exact scalar_possible. Qed.
Print Assumptions C17_scalar_possible.

Theorem C17_vector_possible : forall V (neg : V -> V) n N len ix iy sy sx ext l x y h r,
  1 <= n -> 1 <= N -> 1 <= h -> (r < ranks n)%nat ->
  fits N 0 len ix iy sy sx ext (h_meta x) -> fits N 0 len ix iy sx sy ext (h_meta y) ->
  let run := results V neg (n, n) (Z.of_nat r) in
  let both := room h ix iy (h_meta x) /\ room h ix iy (h_meta y) in
  Forall returned (run l) ->
  (both -> exists rq, run (l ++ [AVector x y h]) = (run l ++ [Ok rq])%list) /\
  (~ both -> run (l ++ [AVector x y h]) = (run l ++ [Err OutOfBoundsError])%list).
Proof. exact vector_possible. Qed.
Print Assumptions C17_vector_possible.

Definition error_of {A} (x : res A) : option exc := match x with Ok _ => None | Err e => Some e end.

(** one point of halo south and north of tile 0 *)
Example C17_example :
  fits 2 0 3 2 0 0 0 (fun _ => 1) ex_meta /\ room 1 2 0 ex_meta /\ ~ room 2 2 0 ex_meta /\
  map error_of (results Z Z.opp (1, 1) 0 [AHalo (ex_q 0) 1; AVector (ex_x 0) (ex_y 0) 1; AHalo (ex_q 0) 1]) = [None; None; None] /\
  map error_of (results Z Z.opp (1, 1) 0 [AHalo (ex_q 0) 1; AHalo (ex_q 0) 0; AHalo (ex_q 0) 1; AHalo (ex_q 0) 2]) =
    [None; Some ValueError; None; Some OutOfBoundsError].
Proof.
  split; [fits_tac|]. split; [intros i [-> | ->]; cbn; lia|]. split; [intros R; specialize (R 0%nat); cbn in R; lia|].
  vm_compute. auto.
Qed.

(** C54: a caller who catches the OutOfBoundsError and goes on finds every further halo update refused,
    whatever its arguments *)
Theorem C54_unusable_after : forall V (neg : V -> V) n N len ix iy sy sx ext l a rest r,
  1 <= n -> 1 <= N -> (r < ranks n)%nat ->
  impossible N len ix iy sy sx ext a -> Forall (fun a => points a <> 0) rest ->
  let run := results V neg (n, n) (Z.of_nat r) in Forall returned (run l) ->
  exists errors, run (l ++ a :: rest) = (run l ++ Err OutOfBoundsError :: errors)%list /\
    length errors = length rest /\ Forall raised errors.
Proof. exact unusable_after. Qed.
Print Assumptions C54_unusable_after.

Example C54_example : impossible 2 3 2 0 0 0 (fun _ => 1) (AHalo (ex_q 0) 2) /\
  map error_of (results Z Z.opp (1, 1) 0 [AHalo (ex_q 0) 1; AHalo (ex_q 0) 2; AHalo (ex_q 0) 1; AVector (ex_x 0) (ex_y 0) 1]) =
    [None; Some OutOfBoundsError; Some ValueError; Some ValueError].
Proof.
  split; [|vm_compute; auto]. split; [cbn; lia|]. split; [fits_tac|]. intros R; specialize (R 0%nat); cbn in R; lia.
Qed.

(** C53: on a layout that is not square the first halo update raises; later ones return and send nothing *)
Theorem C53_nonsquare_silent : forall V (neg : V -> V) ny nx rank a l,
  1 <= ny -> 1 <= nx -> ny <> nx -> Forall (fun a => points a <> 0) (a :: l) ->
  attempts V neg (ny, nx) rank (a :: l) new_comm = (Err NotImplementedError :: map (fun _ => Ok (mkReq V [] [])) l, []).
Proof. exact nonsquare_silent. Qed.
Print Assumptions C53_nonsquare_silent.

Example C53_example :
  attempts Z Z.opp (2, 1) 0 [AHalo (ex_q 0) 1; AHalo (ex_q 0) 1; AVector (ex_x 0) (ex_y 0) 1] new_comm =
    ([Err NotImplementedError; Ok (mkReq Z [] []); Ok (mkReq Z [] [])], []).
Proof. vm_compute. auto. Qed.
