(** C19: what is sent is not overwritten while MPI may still be reading it. *)
From Verif.Base Require Import Base.
From Verif.Model Require Import Consts Numpy Quantity Partitioner Rotate Network LateRead Communicator.
From Verif.Spec Require Import Grid Cube Halo Lockstep Sync Client Updates Late.
From Verif.Proofs Require Import UpdateExamples LateProofs LateExamples.

(** the points sent to one neighbour and those received from another are never the same *)
Theorem C19_regions : forall N h len ix iy sy sx ext m B B' sv rv p p', 1 <= N -> 0 <= h <= N -> fits N h len ix iy sy sx ext m ->
  send_view B m h = Ok sv -> recv_view B' m h = Ok rv -> in_shape (vshp sv) p -> in_shape (vshp rv) p' -> vmap sv p <> vmap rv p'.
Proof. exact regions_apart. Qed.
Print Assumptions C19_regions.

Example C19_regions_example : fits 2 1 3 2 0 0 0 (fun _ => 1) ex_meta /\
  (exists v, send_view (mkB NORTH 0 0 0) ex_meta 1 = Ok v /\ map (vmap v) (all_idx (vshp v)) = [[2; 0; 2]; [2; 0; 3]]) /\
  (exists v, recv_view (mkB WEST 0 0 0) ex_meta 1 = Ok v /\ map (vmap v) (all_idx (vshp v)) = [[1; 0; 1]; [2; 0; 1]]).
Proof. split; [exact ex_fits|]. split; eexists; split; vm_compute; reflexivity. Qed.

(** so it does not matter when MPI reads each element: the calls end on all ranks with the same memories as when
    messages are read at once (those of C12, C13 and C18) *)
Theorem C19_halo_update : forall V (neg : V -> V) (d : V) n k N len ix iy q h m m', halo_ok n N len ix iy q h -> ids_below k q ->
  all_ranks_end n (fun r => halo_update V neg (n, n) (Z.of_nat r) (q r) h) m m' ->
  late_ranks_end n (fun r => halo_update V neg (n, n) (Z.of_nat r) (q r) h) m m'.
Proof. exact halo_update_late. Qed.
Print Assumptions C19_halo_update.

Theorem C19_vector_halo_update : forall V (neg : V -> V) (d : V) n k N len ix iy x y h m m',
  vector_ok n N len ix iy x y h -> ids_below k x -> ids_below k y ->
  all_ranks_end n (fun r => vector_halo_update V neg (n, n) (Z.of_nat r) (x r) (y r) h) m m' ->
  late_ranks_end n (fun r => vector_halo_update V neg (n, n) (Z.of_nat r) (x r) (y r) h) m m'.
Proof. exact vector_halo_update_late. Qed.
Print Assumptions C19_vector_halo_update.

Theorem C19_synchronize : forall V (neg : V -> V) (d : V) n k N len ix iy x y m m',
  sync_ok n N len ix iy (fun r => h_meta (x r)) (fun r => h_meta (y r)) ->
  (forall r, (r < ranks n)%nat -> h_id (x r) <> h_id (y r)) -> ids_below k x -> ids_below k y ->
  all_ranks_end n (fun r => synchronize_vector_interfaces V neg (n, n) (Z.of_nat r) (x r) (y r)) m m' ->
  late_ranks_end n (fun r => synchronize_vector_interfaces V neg (n, n) (Z.of_nat r) (x r) (y r)) m m'.
Proof. exact synchronize_late. Qed.
Print Assumptions C19_synchronize.

Example C19_calls_example : halo_ok 1 2 3 2 0 ex_q 1 /\ vector_ok 1 2 3 1 0 ex_x ex_y 1 /\
  sync_ok 1 2 3 1 0 (fun r => h_meta (ex_x r)) (fun r => h_meta (ex_y r)).
Proof. split; [exact ex_halo_ok|]. split; [exact ex_vector_ok|exact ex_sync_ok]. Qed.

(** The same for programs of overlapping updates and computation, if what an update under way sends is changed
    neither by computation nor by another update finished meanwhile. *)
Theorem C19_programs : forall V (neg : V -> V) (d : V) n k calls m,
  Forall (call_ok V n k) calls -> waits_ok V calls 0 [] -> undisturbed V n calls [] [] -> arrays n k m ->
  exists m', meaning V neg d n calls [] m m' /\
    late_completes (late_state (ranks n) (client_ops V neg n calls) m) (tab (ranks n) m').
Proof. exact programs_late. Qed.
Print Assumptions C19_programs.

(** two updates of one array overlap, with computation in its halo; messages are read as late as possible *)
Example C19_example : (Forall (call_ok Z 1 1) ex_overlap /\ waits_ok Z ex_overlap 0 [] /\ undisturbed Z 1 ex_overlap [] []) /\
  option_map (fun s => (late_done s, map (late_value 0 s 0 0) (all_idx [4; 1; 5])))
  (lrun (map Move (late_run ex_overlap ex_mem1)) (late_state (ranks 1) (client_ops Z Z.opp 1 ex_overlap) ex_mem1)) =
  Some (true,
    [ 14;   15; 5209; 5210;   18;
     114; 4210;  109;  110; 1109;
     214; 4209;  209;  210; 1209;
     314;  315; 2209; 2109;  318]).
Proof. split; [exact ex_overlap_ok|exact ex_overlap_late]. Qed.

(** Without that condition it does matter: if a program changes the array between start_halo_update and wait,
    what C16 promises is not what arrives when MPI reads late. *)
Theorem C19_disturbed_refuted : exists m', meaning Z Z.opp 0 1 ex_disturbed [] ex_mem1 m' /\
  always_completes (start_state (ranks 1) (client_ops Z Z.opp 1 ex_disturbed) ex_mem1) (tab (ranks 1) m') /\
  ~ late_completes (late_state (ranks 1) (client_ops Z Z.opp 1 ex_disturbed) ex_mem1) (tab (ranks 1) m').
Proof. exact disturbed_differs. Qed.
Print Assumptions C19_disturbed_refuted.
