(** C35: sizes of allocated quantities. *)
From Verif.Base Require Import Base.
From Verif.Model Require Import Consts Partitioner Numpy Quantity Sizer.
From Verif.Spec Require Import Grid Layouts Views Sizing.
From Verif.Proofs Require Import SizerProofs Slices.

(** allocation succeeds exactly for known dimensions; the compute domain has the sizes asked for, starts behind the halo, and the
    halo fits behind it *)
Theorem C35_allocated : forall V s (contents : idx -> V) dims units, sensible s -> known s dims ->
  exists q, allocate s contents dims units = Ok q /\ q_dims q = dims /\ q_units q = units /\ at_ (q_data q) = contents /\
    well_formed (q_meta q) /\
    Forall2 (fun d e => points s d = Some e) dims (q_extent q) /\
    Forall2 (fun d o => o = match axis_of d with AxOther => 0 | _ => s_halo s end) dims (q_origin q) /\
    (forall i, (i < length dims)%nat -> axis_of (nth i dims EmptyString) <> AxOther ->
       nth i (q_origin q) 0 + nth i (q_extent q) 0 + s_halo s <= nth i (shp (q_data q)) 0).
Proof. exact @allocated. Qed.
Print Assumptions C35_allocated.

Theorem C35_unknown : forall V s (contents : idx -> V) dims units, ~ known s dims -> allocate s contents dims units = Err KeyError.
Proof. exact @unknown_dim. Qed.
Print Assumptions C35_unknown.

(** no boundary region of at most n_halo points raises OutOfBoundsError *)
Theorem C35_halo_room : forall V s (contents : idx -> V) dims units q, sensible s -> allocate s contents dims units = Ok q ->
  forall b n interior, 0 <= n <= s_halo s -> exists box, get_boundary_slice (q_dims q) (q_origin q) (q_extent q) (shp (q_data q)) b n interior = Ok box.
Proof. exact @halo_room. Qed.
Print Assumptions C35_halo_room.

Theorem C35_one_shape : forall V s (contents : idx -> V) dims dims' units units' q q', Forall2 same_direction dims dims' ->
  allocate s contents dims units = Ok q -> allocate s contents dims' units' = Ok q' -> shp (q_data q) = shp (q_data q').
Proof. exact @one_shape. Qed.
Print Assumptions C35_one_shape.

(** sizers of tiles which the layout (of the partitioner, if one is given) divides evenly *)
Theorem C35_subtile : forall nx ny nz h extra layout part r, let lay := match part with Some p => p | None => layout end in
  tile_ok lay [Y_DIM; X_DIM] [ny; nx] -> 0 <= r < fst lay * snd lay ->
  from_tile_params nx ny nz h extra layout part r = Ok (mkSizer (nx / snd lay) (ny / fst lay) nz h extra).
Proof. exact subtile_sizes. Qed.
Print Assumptions C35_subtile.

Theorem C35_namelist : forall layout npx npy npz part r, let lay := match part with Some p => p | None => layout end in
  tile_ok lay [Y_DIM; X_DIM] [npy - 1; npx - 1] -> 0 <= r < fst lay * snd lay ->
  from_namelist (Some (mkNml (Some layout) (Some npx) (Some npy) (Some npz))) part r = Ok (mkSizer ((npx - 1) / snd lay) ((npy - 1) / fst lay) npz 3 []).
Proof. exact namelist_sizes. Qed.
Print Assumptions C35_namelist.

(** half of a C48 tile in x, a third in y, with a soil dimension *)
Definition ex_sizer := mkSizer 24 16 79 3 [("z_soil"%string, 4)].
Example C35_example :
  tile_ok (3, 2) [Y_DIM; X_DIM] [49 - 1; 49 - 1] /\
  from_tile_params 48 48 79 3 [("z_soil"%string, 4)] (3, 2) None 5 = Ok ex_sizer /\
  sensible ex_sizer /\ known ex_sizer ["z_soil"; "y_interface"; "x"]%string /\ ~ known ex_sizer ["tile"; "x"]%string /\
  option_map (fun q => (q_origin q, q_extent q, shp (q_data q))) (match allocate ex_sizer (fun _ => 0) ["z_soil"; "y_interface"; "x"]%string "K" with Ok q => Some q | Err _ => None end) =
    Some ([0; 3; 3], [4; 17; 24], [4; 23; 31]).
Proof.
  split; [split; [split; apply layout_ok_below_49; simpl; lia|]; split; repeat apply Forall2_cons; try apply Forall2_nil; vm_compute; split; congruence|].
  split; [vm_compute; reflexivity|]. split; [repeat split; try (cbn; lia); cbn; intros d n; destruct (String.eqb d "z_soil"); intros E; inversion E; lia|].
  split; [repeat apply Forall_cons; try apply Forall_nil; discriminate|].
  split; [intros K; inversion K; subst; cbn in *; congruence|]. vm_compute. reflexivity.
Qed.
