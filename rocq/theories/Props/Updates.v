(** C12-C16, C18: halo updates and interface synchronisation on the cubed sphere. *)
From Verif.Base Require Import Base.
From Verif.Model Require Import Consts Numpy Quantity Partitioner Network Communicator.
From Verif.Spec Require Import Grid Cube Halo Lockstep Sync Client Updates.
From Verif.Proofs Require Import ClientProofs UpdateProofs UpdateExamples VerticalFirst.

(** C12: every halo point on the cube gets the value which some rank had in its compute domain at the same
    place; if the compute domains hold a field on the sphere, so do the halos. *)
Theorem C12_scalar_halo : forall V (neg : V -> V) (d : V) n N len ix iy q h k m,
  halo_ok n N len ix iy q h -> ids_below k q -> arrays n k m ->
  let at_q := fun m => content V m (fun r => h_id (q r)) d in
  let mt := fun r => h_meta (q r) in
  exists m', all_ranks_end n (fun r => halo_update V neg (n, n) (Z.of_nat r) (q r) h) m m' /\ arrays n k m' /\
    (forall r p, (r < ranks n)%nat -> to_fill n N h ix iy (mt r) r p ->
       exists r' p', (r' < ranks n)%nat /\ in_domain (mt r') p' /\ same_column (mt r) (mt r') ix iy p p' /\
         place_of n N ix iy (mt r') r' p' = place_of n N ix iy (mt r) r p /\ at_q m' r p = at_q m r' p') /\
    (forall F, holds n N ix iy mt (fun r => in_domain (mt r)) F (at_q m) ->
       holds n N ix iy mt (fun r => to_fill n N h ix iy (mt r) r) F (at_q m')) /\
    (forall r p, (r < ranks n)%nat -> left_alone n N h ix iy (mt r) r p -> at_q m' r p = at_q m r p) /\
    only_changed V n [q] m m'.
Proof. exact scalar_update. Qed.
Print Assumptions C12_scalar_halo.

(** six tiles of 2 by 2 cells: halo of tile 0, with the halo of its north side from tile 2 turned *)
Example C12_example : halo_ok 1 2 3 2 0 ex_q 1 /\ arrays 1 1 ex_mem1 /\
  (let s := ex_run (fun r => halo_update Z Z.opp (1, 1) (Z.of_nat r) (ex_q r) 1) ex_mem1 in
   all_done s = true /\
   map (value_at 0 s 0 0) (all_idx [4; 1; 5]) =
    [  0;    1; 5202; 5203;    4;
     100; 4203;  102;  103; 1102;
     200; 4202;  202;  203; 1202;
     300;  301; 2202; 2102;  304]).
Proof. split; [exact ex_halo_ok|]. split; [intros r _; reflexivity|]. vm_compute. auto. Qed.

(** C13: the same for vectors; a value comes from a component pointing in the same direction in space, or
    in the opposite direction and negated. *)
Theorem C13_vector_halo : forall V (neg : V -> V) (d : V) n N len ix iy x y h k m,
  vector_ok n N len ix iy x y h -> ids_below k x -> ids_below k y -> arrays n k m ->
  let hd := fun (c : bool) r => if c then y r else x r in
  let at_c := fun m (c : bool) => content V m (fun r => h_id (hd c r)) d in
  let mt := fun c r => h_meta (hd c r) in
  exists m', all_ranks_end n (fun r => vector_halo_update V neg (n, n) (Z.of_nat r) (x r) (y r) h) m m' /\ arrays n k m' /\
    (forall c r p, (r < ranks n)%nat -> to_fill n N h ix iy (mt c r) r p ->
       exists c' r' p', (r' < ranks n)%nat /\ in_domain (mt c' r') p' /\ same_column (mt c r) (mt c' r') ix iy p p' /\
         place_of n N ix iy (mt c' r') r' p' = place_of n N ix iy (mt c r) r p /\
         ((dir_of n N ix iy c' (mt c' r') r' p' = dir_of n N ix iy c (mt c r) r p /\ at_c m' c r p = at_c m c' r' p') \/
          (dir_of n N ix iy c' (mt c' r') r' p' = vscale (-1) (dir_of n N ix iy c (mt c r) r p) /\ at_c m' c r p = neg (at_c m c' r' p')))) /\
    (forall F, odd_field neg F -> holds_vector n N ix iy mt (fun c r => in_domain (mt c r)) F (at_c m) ->
       holds_vector n N ix iy mt (fun c r => to_fill n N h ix iy (mt c r) r) F (at_c m')) /\
    (forall c r p, (r < ranks n)%nat -> left_alone n N h ix iy (mt c r) r p -> at_c m' c r p = at_c m c r p) /\
    only_changed V n [x; y] m m'.
Proof. exact vector_update. Qed.
Print Assumptions C13_vector_halo.

(** x component on y interfaces: northern halo of tile 0 from the y component of tile 2, negated *)
Example C13_example : vector_ok 1 2 3 1 0 ex_x ex_y 1 /\ arrays 1 2 ex_mem2 /\
  (let s := ex_run (fun r => vector_halo_update Z Z.opp (1, 1) (Z.of_nat r) (ex_x r) (ex_y r) 1) ex_mem2 in
   all_done s = true /\
   map (value_at 0 s 0 0) (all_idx [5; 4; 1]) =
    [   0;  5210;  5220;   30;
     4730;   110;   120; 1110;
     4720;   210;   220; 1210;
     4710;   310;   320; 1310;
      400; -2720; -2620;  430]).
Proof. split; [exact ex_vector_ok|]. split; [intros r _; reflexivity|]. vm_compute. auto. Qed.

(** C14: what halo updates leave alone. *)
Theorem C14_scalar_frame : forall V (neg : V -> V) (d : V) n N len ix iy q h k m,
  halo_ok n N len ix iy q h -> ids_below k q -> arrays n k m ->
  let at_q := fun m => content V m (fun r => h_id (q r)) d in
  exists m', all_ranks_end n (fun r => halo_update V neg (n, n) (Z.of_nat r) (q r) h) m m' /\
    (forall r p, (r < ranks n)%nat -> left_alone n N h ix iy (h_meta (q r)) r p -> at_q m' r p = at_q m r p) /\
    only_changed V n [q] m m'.
Proof. exact scalar_frame. Qed.
Print Assumptions C14_scalar_frame.

Theorem C14_vector_frame : forall V (neg : V -> V) (d : V) n N len ix iy x y h k m,
  vector_ok n N len ix iy x y h -> ids_below k x -> ids_below k y -> arrays n k m ->
  let hd := fun (c : bool) r => if c then y r else x r in
  let at_c := fun m (c : bool) => content V m (fun r => h_id (hd c r)) d in
  exists m', all_ranks_end n (fun r => vector_halo_update V neg (n, n) (Z.of_nat r) (x r) (y r) h) m m' /\
    (forall c r p, (r < ranks n)%nat -> left_alone n N h ix iy (h_meta (hd c r)) r p -> at_c m' c r p = at_c m c r p) /\
    only_changed V n [x; y] m m'.
Proof. exact vector_frame. Qed.
Print Assumptions C14_vector_frame.

(** on tile 0: a compute point, a point two away, a point at the cube corner *)
Example C14_example : left_alone 1 2 1 2 0 ex_meta 0 [1; 0; 2] /\ left_alone 1 2 1 2 0 ex_meta 0 [1; 0; 0] /\
  left_alone 1 2 1 2 0 ex_meta 0 [0; 0; 1] /\ to_fill 1 2 1 2 0 ex_meta 0 [1; 0; 1].
Proof. exact ex_left_alone. Qed.

(** C15: under every schedule and every choice of which sends are buffered, all ranks return from an
    update, after a bounded number of steps, with the same memories. *)
Theorem C15_no_deadlock_scalar : forall V (neg : V -> V) n N len ix iy q h k m,
  halo_ok n N len ix iy q h -> ids_below k q -> arrays n k m ->
  exists total m', forall bf sched s1,
    run bf sched (start_state (ranks n) (fun r => issued (halo_update V neg (n, n) (Z.of_nat r) (q r) h)) m) = Some s1 ->
    (length sched <= total)%nat /\ ((forall r, step bf r s1 = None) -> finished s1 /\ n_mem s1 = tab (ranks n) m').
Proof. exact scalar_no_deadlock. Qed.
Print Assumptions C15_no_deadlock_scalar.

Theorem C15_no_deadlock_vector : forall V (neg : V -> V) n N len ix iy x y h k m,
  vector_ok n N len ix iy x y h -> ids_below k x -> ids_below k y -> arrays n k m ->
  exists total m', forall bf sched s1,
    run bf sched (start_state (ranks n) (fun r => issued (vector_halo_update V neg (n, n) (Z.of_nat r) (x r) (y r) h)) m) = Some s1 ->
    (length sched <= total)%nat /\ ((forall r, step bf r s1 = None) -> finished s1 /\ n_mem s1 = tab (ranks n) m').
Proof. exact vector_no_deadlock. Qed.
Print Assumptions C15_no_deadlock_vector.

(** six ranks, no buffering, always the highest rank that can move: 72 steps and all have returned *)
Example C15_example :
  let s := start_state (ranks 1) (fun r => issued (halo_update Z Z.opp (1, 1) (Z.of_nat r) (ex_q r) 1)) ex_mem1 in
  all_done (drive (fun _ _ => false) 72 s) = true /\ all_done (drive (fun _ _ => false) 71 s) = false.
Proof. vm_compute. auto. Qed.

(** C16: any program of updates started and waited for in the same order by all ranks, with
    computation in between, always completes, and each update delivers the data its arrays held when it was started. *)
Theorem C16_programs : forall V (neg : V -> V) (d : V) n k calls m,
  Forall (call_ok V n k) calls -> waits_ok V calls 0 [] -> (forall r, (r < ranks n)%nat -> length (m r) = k) ->
  exists m', meaning V neg d n calls [] m m' /\
    always_completes (start_state (ranks n) (client_ops V neg n calls) m) (tab (ranks n) m').
Proof. exact client_correct. Qed.
Print Assumptions C16_programs.

(** two updates overlap, are finished in the other order, and the array changes in between *)
Example C16_example :
  let calls := [CHalo Z ex_q 1; CLocal Z (fun _ => map (fun a => mkA (shp a) (fun p => at_ a p + 7))); CHalo Z ex_q 1; CWait Z 1; CWait Z 0] in
  Forall (call_ok Z 1 1) calls /\ waits_ok Z calls 0 [] /\
  (let s := drive (fun _ _ => false) 1000 (start_state (ranks 1) (client_ops Z Z.opp 1 calls) ex_mem1) in
   all_done s = true /\ value_at 0 s 0 0 [1; 0; 2] = 109 /\ value_at 0 s 0 0 [3; 0; 2] = 2202).
Proof. exact ex_program. Qed.

(** C18: after synchronisation the north edge of the x component and the east edge of the y component hold
    what the rank across held at the same place, with the sign given by the directions; nothing else changes. *)
Theorem C18_synchronize : forall V (neg : V -> V) (d : V) n N len ix iy x y k m,
  sync_ok n N len ix iy (fun r => h_meta (x r)) (fun r => h_meta (y r)) ->
  (forall r, (r < ranks n)%nat -> h_id (x r) <> h_id (y r)) -> ids_below k x -> ids_below k y -> arrays n k m ->
  let hd := fun (c : bool) r => if c then y r else x r in
  let at_c := fun m (c : bool) => content V m (fun r => h_id (hd c r)) d in
  let mt := fun c r => h_meta (hd c r) in
  exists m', all_ranks_end n (fun r => synchronize_vector_interfaces V neg (n, n) (Z.of_nat r) (x r) (y r)) m m' /\ arrays n k m' /\
    (forall c r p, (r < ranks n)%nat -> in_edge N ix iy c (mt c r) p ->
     exists c' r' p', (r' < ranks n)%nat /\ out_edge ix iy c' (mt c' r') p' /\ same_column (mt c r) (mt c' r') ix iy p p' /\
       place_of n N ix iy (mt c' r') r' p' = place_of n N ix iy (mt c r) r p /\
       ((dir_of n N ix iy c' (mt c' r') r' p' = dir_of n N ix iy c (mt c r) r p /\ at_c m' c r p = at_c m c' r' p') \/
        (dir_of n N ix iy c' (mt c' r') r' p' = vscale (-1) (dir_of n N ix iy c (mt c r) r p) /\ at_c m' c r p = neg (at_c m c' r' p')))) /\
    (forall F, odd_field neg F -> holds_vector n N ix iy mt (fun c r => out_edge ix iy c (mt c r)) F (at_c m) ->
       holds_vector n N ix iy mt (fun c r => in_edge N ix iy c (mt c r)) F (at_c m')) /\
    (forall c r p, (r < ranks n)%nat -> ~ in_edge N ix iy c (mt c r) p -> at_c m' c r p = at_c m c r p) /\
    only_changed V n [x; y] m m'.
Proof. exact synchronize. Qed.
Print Assumptions C18_synchronize.

Example C18_example : sync_ok 1 2 3 1 0 (fun r => h_meta (ex_x r)) (fun r => h_meta (ex_y r)) /\
  (let s := ex_run (fun r => synchronize_vector_interfaces Z Z.opp (1, 1) (Z.of_nat r) (ex_x r) (ex_y r)) ex_mem2 in
   all_done s = true /\
   map (value_at 0 s 0 0) (all_idx [5; 4; 1]) =
    [  0;    10;    20;  30;
     100;   110;   120; 130;
     200;   210;   220; 230;
     300; -2710; -2610; 330;
     400;   410;   420; 430]).
Proof. split; [exact ex_sync_ok|]. vm_compute. auto. Qed.

(** C18: with a vertical dimension first, the same is false. *)
Theorem C18_vertical_first_refuted :
  (forall r, fits 2 0 3 2 1 1 0 (fun _ => 2) (h_meta (ex_vx r)) /\ fits 2 0 3 2 1 0 1 (fun _ => 2) (h_meta (ex_vy r))) /\
  exists m', all_ranks_end 1 (fun r => synchronize_vector_interfaces Z Z.opp (1, 1) (Z.of_nat r) (ex_vx r) (ex_vy r)) ex_memv m' /\
    ~ synchronized Z.opp 1 2 2 1 (fun c r => h_meta (v_hd c r)) (v_at ex_memv) (v_at ex_memv) (v_at m').
Proof. exact (conj ex_vertical_fits vertical_first). Qed.
Print Assumptions C18_vertical_first_refuted.

(** the north edge of tile 0 at its two levels: levels are exchanged, the order along the edge is kept *)
Example C18_vertical_first_example :
  let s := ex_run (fun r => synchronize_vector_interfaces Z Z.opp (1, 1) (Z.of_nat r) (ex_vx r) (ex_vy r)) ex_memv in
  map (value_at 0 s 0 0) [[0; 3; 1]; [0; 3; 2]; [1; 3; 1]; [1; 3; 2]] = [-2611; -2621; -2511; -2521].
Proof. vm_compute. reflexivity. Qed.
