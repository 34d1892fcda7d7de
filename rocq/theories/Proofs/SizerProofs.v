From Verif.Base Require Import Base Lemmas.
From Verif.Model Require Import Consts Partitioner Numpy Quantity Sizer.
From Verif.Spec Require Import Grid Layouts Views Sizing.
From Verif.Proofs Require Import Slices Partition.
From Coq Require Import ZifyBool.
Ltac Zify.zify_post_hook ::= idtac.

Lemma points_extents s d : dget d (dim_extents s) = points s d.
Proof.
  unfold dim_extents, dupdate, points, axis_of, stag, X_DIM, Y_DIM, X_INTERFACE_DIM, Y_INTERFACE_DIM, Z_DIM, Z_INTERFACE_DIM. cbn [fold_left fst snd]. rewrite !dget_dset.
  destruct (String.eqb_spec d "x"); [subst; cbn; f_equal; lia|]. destruct (String.eqb_spec d "x_interface"); [subst; reflexivity|].
  destruct (String.eqb_spec d "y"); [subst; cbn; f_equal; lia|]. destruct (String.eqb_spec d "y_interface"); [subst; reflexivity|].
  destruct (String.eqb_spec d "z"); [subst; reflexivity|]. destruct (String.eqb_spec d "z_interface"); [subst; reflexivity|]. reflexivity.
Qed.

(** length of the array along a dimension *)
Definition room (s : sizer) (d : string) : option Z :=
  match axis_of d with
  | AxX => Some (s_nx s + 1 + 2 * s_halo s)
  | AxY => Some (s_ny s + 1 + 2 * s_halo s)
  | AxOther => if String.eqb d Z_DIM then Some (s_nz s + 1) else if String.eqb d Z_INTERFACE_DIM then Some (s_nz s + 1)
               else dget d (s_extra s)
  end.
Lemma get_shape_room s dims : get_shape s dims = rmapM (fun d => lookup (room s d)) dims.
Proof.
  unfold get_shape. induction dims as [|d dims IH]; auto. cbn [rmapM]. rewrite IH. f_equal. f_equal. clear IH.
  unfold dupdate, room, axis_of, X_DIM, Y_DIM, X_INTERFACE_DIM, Y_INTERFACE_DIM, Z_DIM, Z_INTERFACE_DIM. cbn [fold_left fst snd]. rewrite !dget_dset.
  destruct (String.eqb_spec d "x"); [subst; reflexivity|]. destruct (String.eqb_spec d "x_interface"); [subst; reflexivity|].
  destruct (String.eqb_spec d "y"); [subst; reflexivity|]. destruct (String.eqb_spec d "y_interface"); [subst; reflexivity|].
  destruct (String.eqb_spec d "z"); [subst; reflexivity|]. destruct (String.eqb_spec d "z_interface"); [subst; reflexivity|]. reflexivity.
Qed.
Lemma get_extent_points s dims : get_extent s dims = rmapM (fun d => lookup (points s d)) dims.
Proof. unfold get_extent. induction dims as [|d dims IH]; auto. cbn [rmapM]. now rewrite points_extents, IH. Qed.

Definition sized (s : sizer) (dims : list string) (extent shape : list Z) : Prop :=
  Forall2 (fun d e => points s d = Some e) dims extent /\ Forall2 (fun d n => room s d = Some n) dims shape.

Lemma room_points s d : points s d <> None -> room s d <> None.
Proof. unfold points, room. destruct (axis_of d); try discriminate. destruct (String.eqb d Z_DIM); [discriminate|]. destruct (String.eqb d Z_INTERFACE_DIM); [discriminate|auto]. Qed.

Lemma known_sized s dims : known s dims -> exists extent shape, get_extent s dims = Ok extent /\ get_shape s dims = Ok shape /\ sized s dims extent shape.
Proof.
  rewrite get_extent_points, get_shape_room. unfold sized. induction 1 as [|d dims K F (extent & shape & E1 & E2 & S1 & S2)].
  - exists [], []. split; [reflexivity|]. split; [reflexivity|]. split; constructor.
  - pose proof (room_points s d K) as R. destruct (points s d) as [e|] eqn:P; [|congruence]. destruct (room s d) as [n|] eqn:Q; [|congruence].
    exists (e :: extent), (n :: shape). cbn [rmapM]. rewrite P, Q. cbn [lookup bind]. rewrite E1, E2. split; [reflexivity|]. split; [reflexivity|]. split; constructor; auto.
Qed.

Lemma stag_range d : 0 <= stag d <= 1.
Proof. unfold stag. repeat (match goal with |- context [if ?b then _ else _] => destruct b end); lia. Qed.

Ltac some H := apply (f_equal (fun o => match o with Some z => z | None => 0 end)) in H; cbv beta iota in H; subst.
Lemma axis_fits s d e n : sensible s -> points s d = Some e -> room s d = Some n ->
  let o := if sin d HORIZONTAL_DIMS then s_halo s else 0 in
  0 <= o /\ 0 <= e /\ o + e <= n /\ (axis_of d <> AxOther -> o = s_halo s /\ o + e + s_halo s <= n /\ o + stag d + s_halo s <= n /\ o + e - stag d - s_halo s >= 0).
Proof.
  intros (Hx & Hy & Hz & Hh & He) P R. rewrite sin_H. unfold points, room in *. pose proof (stag_range d). destruct (axis_of d).
  - some P. some R. cbv zeta iota beta. repeat split; try lia.
  - some P. some R. cbv zeta iota beta. repeat split; try lia.
  - cbv zeta iota beta. destruct (String.eqb d Z_DIM); [|destruct (String.eqb d Z_INTERFACE_DIM)]; try (some P; some R; repeat split; try lia; congruence).
    rewrite P in R. some R. specialize (He _ _ P). repeat split; try lia; congruence.
Qed.

Lemma sized_axes s dims extent shape : sensible s -> sized s dims extent shape -> axes_ok (get_origin s dims) extent shape.
Proof.
  intros S (A & B). revert shape B. induction A as [|d e dims extent P A IH]; intros shape B; inversion B as [|? n ? shape' R B']; subst; cbn [get_origin map]; constructor.
  1-3: pose proof (axis_fits s d e n S P R); cbn in *; tauto. now apply IH.
Qed.

Lemma shape_nonneg s dims extent shape : sensible s -> sized s dims extent shape -> forallb (Z.leb 0) shape = true.
Proof.
  intros S Z. pose proof (sized_axes _ _ _ _ S Z) as A. clear Z. induction A; cbn; auto. rewrite IHA. lia.
Qed.

Lemma sized_lengths s dims extent shape : sized s dims extent shape -> length extent = length dims /\ length shape = length dims.
Proof. intros (A & B). apply Forall2_length in A, B. auto. Qed.

Lemma sized_nth s dims extent shape i : sized s dims extent shape -> (i < length dims)%nat ->
  points s (nth i dims EmptyString) = Some (nth i extent 0) /\ room s (nth i dims EmptyString) = Some (nth i shape 0).
Proof.
  intros (A & B) H. split.
  - clear B. revert i H. induction A as [|d e dims extent P A IH]; intros [|i] H; cbn in *; try lia; auto. apply IH. lia.
  - clear A. revert i H. induction B as [|d e dims shape P B IH]; intros [|i] H; cbn in *; try lia; auto. apply IH. lia.
Qed.

Section Alloc.
Context {V : Type}.

(** C35 *)
Theorem allocated s (contents : idx -> V) dims units : sensible s -> known s dims ->
  exists q, allocate s contents dims units = Ok q /\ q_dims q = dims /\ q_units q = units /\ at_ (q_data q) = contents /\
    well_formed (q_meta q) /\
    Forall2 (fun d e => points s d = Some e) dims (q_extent q) /\
    Forall2 (fun d o => o = match axis_of d with AxOther => 0 | _ => s_halo s end) dims (q_origin q) /\
    (forall i, (i < length dims)%nat -> axis_of (nth i dims EmptyString) <> AxOther ->
       nth i (q_origin q) 0 + nth i (q_extent q) 0 + s_halo s <= nth i (shp (q_data q)) 0).
Proof.
  intros S K. destruct (known_sized s dims K) as (extent & shape & E1 & E2 & Z). unfold allocate. rewrite E1, E2. cbn [bind].
  unfold numpy_alloc. rewrite (shape_nonneg _ _ _ _ S Z). cbn [bind new_quantity]. destruct (sized_lengths _ _ _ _ Z) as (L1 & L2).
  unfold validate_lengths. cbn [shp]. unfold get_origin at 1. rewrite map_length, L1, L2, Nat.eqb_refl. cbn [negb bind].
  eexists. split; [reflexivity|]. cbn [q_dims q_units q_data q_meta q_extent q_origin at_ shp]. repeat (split; [reflexivity|]).
  split; [split; [cbn; lia|apply (sized_axes s dims); auto]|]. split; [apply Z|]. split.
  - unfold get_origin. clear. induction dims as [|d dims IH]; cbn [map]; constructor; auto. rewrite sin_H. now destruct (axis_of d).
  - intros i Hi A. destruct (sized_nth _ _ _ _ i Z Hi) as (P & R). destruct (axis_fits s _ _ _ S P R) as (_ & _ & _ & F). destruct (F A) as (<- & F2 & _).
    unfold get_origin. rewrite (nth_indep _ 0 (if sin EmptyString HORIZONTAL_DIMS then s_halo s else 0)) by (now rewrite map_length).
    rewrite (map_nth (fun dim => if sin dim HORIZONTAL_DIMS then s_halo s else 0)). destruct (F A) as (E & F3 & _). rewrite E in F3 |- *. exact F3.
Qed.

Theorem unknown_dim s (contents : idx -> V) dims units : ~ known s dims -> allocate s contents dims units = Err KeyError.
Proof.
  intros N. unfold allocate. assert (E : get_extent s dims = Err KeyError).
  { rewrite get_extent_points. induction dims as [|d dims IH]; [exfalso; apply N; constructor|]. cbn [rmapM]. destruct (points s d) as [e|] eqn:P; [|reflexivity].
    cbn [lookup bind]. rewrite IH; [reflexivity|]. intros K. apply N. constructor; auto. congruence. }
  now rewrite E.
Qed.

(** regions next to and inside the boundary are in the array *)
Theorem halo_room s (contents : idx -> V) dims units q : sensible s -> allocate s contents dims units = Ok q ->
  forall b n interior, 0 <= n <= s_halo s -> exists box, get_boundary_slice (q_dims q) (q_origin q) (q_extent q) (shp (q_data q)) b n interior = Ok box.
Proof.
  intros S E b n interior Hn. unfold allocate in E. destruct (get_extent s dims) as [extent|] eqn:E1; [|discriminate]. destruct (get_shape s dims) as [shape|] eqn:E2; [|discriminate].
  cbn [bind] in E. unfold numpy_alloc in E. destruct (forallb (Z.leb 0) shape); [|discriminate]. cbn [bind new_quantity shp] in E.
  destruct (validate_lengths shape dims (get_origin s dims) extent); [|discriminate]. cbn [bind] in E. injection E as <-. cbn [q_dims q_origin q_extent q_data shp].
  rewrite get_extent_points in E1. rewrite get_shape_room in E2. apply rmapM_Ok in E1, E2. revert shape E2.
  induction E1 as [|d e dims extent P E1 IH]; intros shape E2; inversion E2 as [|? m ? shape' R E2']; subst; [eexists; reflexivity|].
  cbn [get_origin map get_boundary_slice]. destruct (IH shape' E2') as (box & B). unfold get_origin in B. 
  assert (P' : points s d = Some e) by (destruct (points s d); cbn in P; congruence). assert (R' : room s d = Some m) by (destruct (room s d); cbn in R; congruence).
  pose proof (axis_fits s d e m S P' R') as F. cbn zeta in F. set (o := if sin d HORIZONTAL_DIMS then s_halo s else 0) in *.
  assert (X : exists se, boundary_slice_1d d o e m b n interior = Ok se).
  { unfold boundary_slice_1d. rewrite sin_I. destruct F as (F1 & F2 & F3 & F4). pose proof (stag_range d) as SR.
    assert (SI : (if stag d =? 1 then 1 else 0) = stag d) by (destruct (Z.eqb_spec (stag d) 1); lia). rewrite SI. rewrite sin_H. 
    destruct (axis_of d) eqn:A; cbn [negb].
    - specialize (F4 ltac:(discriminate)). destruct (boundary_at_start_of_dim b d) as [[]|], interior;
      match goal with |- context [?a <? 0] => destruct (Z.ltb_spec a 0); [lia|] end; match goal with |- context [m <? ?a] => destruct (Z.ltb_spec m a); [lia|] end; eexists; reflexivity.
    - specialize (F4 ltac:(discriminate)). destruct (boundary_at_start_of_dim b d) as [[]|], interior;
      match goal with |- context [?a <? 0] => destruct (Z.ltb_spec a 0); [lia|] end; match goal with |- context [m <? ?a] => destruct (Z.ltb_spec m a); [lia|] end; eexists; reflexivity.
    - match goal with |- context [?a <? 0] => destruct (Z.ltb_spec a 0); [lia|] end; match goal with |- context [m <? ?a] => destruct (Z.ltb_spec m a); [lia|] end; eexists; reflexivity. }
  destruct X as (se & ->). cbn [bind]. rewrite B. eexists; reflexivity.
Qed.

(** all staggerings share one shape *)
Theorem one_shape s (contents : idx -> V) dims dims' units units' q q' : Forall2 same_direction dims dims' ->
  allocate s contents dims units = Ok q -> allocate s contents dims' units' = Ok q' -> shp (q_data q) = shp (q_data q').
Proof.
  intros F E E'.
  assert (G : forall ds u x, allocate s contents ds u = Ok x -> get_shape s ds = Ok (shp (q_data x))).
  { clear. intros ds u x E. unfold allocate in E. destruct (get_extent s ds) as [extent|]; [|discriminate]. destruct (get_shape s ds) as [shape|]; [|discriminate].
    cbn [bind] in E. unfold numpy_alloc in E. destruct (forallb (Z.leb 0) shape); [|discriminate]. cbn [bind new_quantity shp] in E.
    destruct (validate_lengths shape ds (get_origin s ds) extent); [|discriminate]. cbn [bind] in E. injection E as <-. reflexivity. }
  apply G in E, E'. rewrite get_shape_room in E, E'.
  assert (X : rmapM (fun d => lookup (room s d)) dims = rmapM (fun d => lookup (room s d)) dims').
  { clear - F. induction F as [|d d' dims dims' D F IH]; auto. cbn [rmapM]. rewrite IH. f_equal. f_equal. destruct D as [->|[(A & N)|(A & B)]]; auto.
    - unfold room. rewrite <- A. destruct (axis_of d); congruence.
    - destruct A as [<-|[<-|[]]], B as [<-|[<-|[]]]; reflexivity. }
  congruence.
Qed.
End Alloc.

(** sizes of a subtile *)
Theorem subtile_sizes nx ny nz h extra layout part r : let lay := match part with Some p => p | None => layout end in
  tile_ok lay [Y_DIM; X_DIM] [ny; nx] -> 0 <= r < fst lay * snd lay ->
  from_tile_params nx ny nz h extra layout part r = Ok (mkSizer (nx / snd lay) (ny / fst lay) nz h extra).
Proof.
  intros lay T Hr. unfold from_tile_params. fold lay. 
  pose proof T as (LO & M & _). destruct (overlap_slice lay [Y_DIM; X_DIM] [ny; nx] r T Hr) as (box & shape & E1 & E2 & Sh & _).
  unfold tp_subtile_extent in E2. rewrite rank_extent_ok in E2 by auto.
  match goal with |- bind ?x _ = _ => replace x with (Ok box) by (symmetry; exact E1) end. cbn [bind]. injection E2 as <-. destruct box as [|[y0 y1] [|[x0 x1] [|? ?]]]; try discriminate. cbn [map fst snd] in Sh. 
  assert (A : y1 - y0 = rank_extent1 lay Y_DIM ny) by congruence. assert (B : x1 - x0 = rank_extent1 lay X_DIM nx) by congruence. rewrite A, B. unfold rank_extent1. cbn.
  now rewrite !Z.sub_0_r, !Z.add_0_r.
Qed.

Theorem namelist_sizes layout npx npy npz part r : let lay := match part with Some p => p | None => layout end in
  tile_ok lay [Y_DIM; X_DIM] [npy - 1; npx - 1] -> 0 <= r < fst lay * snd lay ->
  from_namelist (Some (mkNml (Some layout) (Some npx) (Some npy) (Some npz))) part r = Ok (mkSizer ((npx - 1) / snd lay) ((npy - 1) / fst lay) npz 3 []).
Proof. intros lay T Hr. unfold from_namelist. cbn [lookup bind nml_layout nml_npx nml_npy nml_npz]. now apply subtile_sizes. Qed.
