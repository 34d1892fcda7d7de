(** C90: what is set up from one namelist fits together. *)
From Verif.Base Require Import Base.
From Verif.Model Require Import Consts Numpy Quantity Partitioner Network Communicator Sizer ScatterGather Setup.
From Verif.Spec Require Import Grid Cube Layouts Views Sizing Halo Lockstep Sync Client Setup.
From Verif.Spec Require Together Distribute.
From Verif.Proofs Require Import Slices SetupProofs.

(** the partitioner has the layout of the namelist, and the sizer of every rank the sizes of a subtile, with three halo points *)
Theorem C90_one_namelist : forall n N nz, layout_ok n -> 1 <= N -> n * N + 1 + 2 * n <= 2 ^ 51 ->
  cubed_sphere_partitioner_from_namelist (cubed_namelist n N nz) = Ok (CubePart (n, n)) /\
  forall part r, part = None \/ part = Some (n, n) -> 0 <= r < n * n -> from_namelist (cubed_namelist n N nz) part r = Ok (mkSizer N N nz 3 []).
Proof. exact one_namelist. Qed.
Print Assumptions C90_one_namelist.

(** quantities allocated with it on all ranks meet the conditions of halo updates (C12) ... *)
Theorem C90_halo : forall n N nz, layout_ok n -> 1 <= N -> 0 <= nz -> n * N + 1 + 2 * n <= 2 ^ 51 -> forall V dims ix iy (q : nat -> quantity V),
  horizontal dims ix iy -> stag (nth iy dims EmptyString) = stag (nth ix dims EmptyString) ->
  (forall r, (r < ranks n)%nat -> allocated_by (cubed_namelist n N nz) n dims (q r)) ->
  forall h id, 1 <= h <= 3 -> h <= N -> halo_ok n N (length dims) ix iy (fun r => mkH id (q_meta (q r))) h.
Proof. exact setup_halo. Qed.
Print Assumptions C90_halo.

(** ... of vector halo updates (C13) ... *)
Theorem C90_vector : forall n N nz, layout_ok n -> 1 <= N -> 0 <= nz -> n * N + 1 + 2 * n <= 2 ^ 51 -> forall V dx dy ix iy (x y : nat -> quantity V),
  horizontal dx ix iy -> horizontal dy ix iy -> length dx = length dy ->
  stag (nth iy dx EmptyString) = stag (nth ix dy EmptyString) -> stag (nth ix dx EmptyString) = stag (nth iy dy EmptyString) ->
  (forall i, i <> ix -> i <> iy -> nth i dx EmptyString = nth i dy EmptyString) ->
  (forall r, (r < ranks n)%nat -> allocated_by (cubed_namelist n N nz) n dx (x r) /\ allocated_by (cubed_namelist n N nz) n dy (y r)) ->
  forall h i j, 1 <= h <= 3 -> h <= N -> i <> j -> vector_ok n N (length dx) ix iy (fun r => mkH i (q_meta (x r))) (fun r => mkH j (q_meta (y r))) h.
Proof. exact setup_vector. Qed.
Print Assumptions C90_vector.

(** ... of the synchronisation of interfaces (C18) ... *)
Theorem C90_interfaces : forall n N nz, layout_ok n -> 1 <= N -> 0 <= nz -> n * N + 1 + 2 * n <= 2 ^ 51 -> forall V dx dy ix iy (x y : nat -> quantity V),
  horizontal dx ix iy -> horizontal dy ix iy -> length dx = length dy ->
  ((ix = 0 /\ iy = 1) \/ (ix = 1 /\ iy = 0))%nat ->
  nth iy dx EmptyString = "y_interface"%string -> nth ix dx EmptyString = "x"%string -> nth iy dy EmptyString = "y"%string -> nth ix dy EmptyString = "x_interface"%string ->
  (forall i, i <> ix -> i <> iy -> nth i dx EmptyString = nth i dy EmptyString) ->
  (forall r, (r < ranks n)%nat -> allocated_by (cubed_namelist n N nz) n dx (x r) /\ allocated_by (cubed_namelist n N nz) n dy (y r)) ->
  sync_ok n N (length dx) ix iy (fun r => q_meta (x r)) (fun r => q_meta (y r)).
Proof. exact setup_sync. Qed.
Print Assumptions C90_interfaces.

(** ... and receive their parts of a global quantity with the sizes of the namelist *)
Theorem C90_scatter : forall n N nz, layout_ok n -> 1 <= N -> 0 <= nz -> n * N + 1 + 2 * n <= 2 ^ 51 ->
  forall V T dims ix iy (send : quantity V) (sends : nat -> option (quantity V)) (q : nat -> quantity V) junk, horizontal dims ix iy -> nz <= 2 ^ 50 ->
  sends 0%nat = Some send -> Views.well_formed (q_meta send) -> q_dims send = "tile"%string :: dims -> q_extent send = 6 :: map (size_of (n * N) nz) dims ->
  (forall r, (r < ranks n)%nat -> allocated_by (cubed_namelist n N nz) n dims (q r)) ->
  exists outs, Together.always_ends (ranks n) (fun r => scatter V T (CubePart (n, n)) (Z.of_nat r) (junk r) (sends r) (Some (q r))) (fun r => Ok (outs r)) /\
    forall r, (r < ranks n)%nat -> written (q r) (outs r) (Distribute.part_of (CubePart (n, n)) r dims (map (size_of N nz) dims) (domain_of send)).
Proof. exact setup_scatter. Qed.
Print Assumptions C90_scatter.

(** C48 on a 3 by 3 layout with 79 levels: 16 by 16 cells per rank *)
Example C90_example : layout_ok 3 /\ cubed_namelist 3 16 79 = Some (mkNml (Some (3, 3)) (Some 49) (Some 49) (Some 79)) /\
  horizontal ["z"; "y_interface"; "x"]%string 2 1 /\ map (size_of 16 79) ["z"; "y_interface"; "x"]%string = [79; 17; 16] /\
  allocated_by (cubed_namelist 3 16 79) 3 ["z"; "y_interface"; "x"]%string
    (mkQ (mkA [80; 23; 23] (fun _ => 0)) ["z"; "y_interface"; "x"]%string "m/s" [0; 3; 3] [79; 17; 16]).
Proof.
  split; [apply layout_ok_below_49; lia|]. split; [reflexivity|]. split.
  - unfold horizontal. cbn [length]. split; [lia|]. split; [lia|]. split; [lia|]. intros i Hi. destruct i as [|[|[|i]]]; cbn; auto. lia.
  - split; [reflexivity|]. exists None, 0, (mkSizer 16 16 79 3 []), (fun _ => 0), "m/s"%string. split; [auto|]. split; [lia|]. split; vm_compute; reflexivity.
Qed.
(** without a layout in the namelist, or without the group *)
Example C90_missing : cubed_sphere_partitioner_from_namelist None = Err KeyError /\
  cubed_sphere_partitioner_from_namelist (Some (mkNml None (Some 49) (Some 49) (Some 79))) = Err KeyError.
Proof. split; reflexivity. Qed.
