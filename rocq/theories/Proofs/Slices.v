(** Extents and subtile slices (C01, C02, C03, C04). *)
From Verif.Base Require Import Base Lemmas.
From Verif.Model Require Import Consts Partitioner.
From Verif.Spec Require Import Grid Layouts.
From Verif.Proofs Require Import FloatExtent.
From Coq Require Import ZifyBool.
Ltac Zify.zify_post_hook ::= Z.div_mod_to_equations.

(** ** dimension names *)
Lemma sin_Y d : sin d Y_DIMS = match axis_of d with AxY => true | _ => false end.
Proof.
  unfold sin, Y_DIMS, Y_DIM, Y_INTERFACE_DIM, axis_of. cbn [existsb].
  destruct (String.eqb_spec d "x"); subst; [reflexivity|].
  destruct (String.eqb_spec d "x_interface"); subst; [reflexivity|].
  destruct (String.eqb_spec d "y"); subst; [reflexivity|].
  destruct (String.eqb_spec d "y_interface"); subst; reflexivity.
Qed.

Lemma sin_X d : sin d X_DIMS = match axis_of d with AxX => true | _ => false end.
Proof.
  unfold sin, X_DIMS, X_DIM, X_INTERFACE_DIM, axis_of. cbn [existsb].
  destruct (String.eqb_spec d "x"); subst; [reflexivity|].
  destruct (String.eqb_spec d "x_interface"); subst; [reflexivity|].
  destruct (String.eqb_spec d "y"); subst; [reflexivity|].
  destruct (String.eqb_spec d "y_interface"); subst; reflexivity.
Qed.

Lemma sin_H d : sin d HORIZONTAL_DIMS = match axis_of d with AxOther => false | _ => true end.
Proof.
  unfold sin, HORIZONTAL_DIMS. rewrite existsb_app.
  change (existsb (String.eqb d) X_DIMS) with (sin d X_DIMS).
  change (existsb (String.eqb d) Y_DIMS) with (sin d Y_DIMS).
  rewrite sin_X, sin_Y. now destruct (axis_of d).
Qed.

Lemma sin_I d : sin d INTERFACE_DIMS = (stag d =? 1).
Proof.
  unfold sin, INTERFACE_DIMS, X_INTERFACE_DIM, Y_INTERFACE_DIM, Z_INTERFACE_DIM, stag. cbn [existsb].
  destruct (String.eqb_spec d "x_interface"); subst; [reflexivity|].
  destruct (String.eqb_spec d "y_interface"); subst; [reflexivity|].
  destruct (String.eqb_spec d "z_interface"); subst; reflexivity.
Qed.

Lemma stag_01 d : stag d = 0 \/ stag d = 1.
Proof. unfold stag. repeat destruct (String.eqb _ _); auto. Qed.

Lemma add_extent_stag d : add_extent d = - stag d.
Proof. unfold add_extent. rewrite sin_I. destruct (stag_01 d) as [-> | ->]; reflexivity. Qed.

Lemma gridcell_stag d : extent_minus_gridcell_count d = stag d.
Proof. unfold extent_minus_gridcell_count. rewrite sin_I. destruct (stag_01 d) as [-> | ->]; reflexivity. Qed.

Lemma list_by_dims_map {T} dims (yx : T * T) o : list_by_dims dims yx o = map (fun d => along d yx o) dims.
Proof.
  induction dims as [|d dims IH]; cbn [list_by_dims map]; [reflexivity|].
  rewrite IH, sin_Y, sin_X. unfold along. now destruct (axis_of d).
Qed.

(** ** which layouts are computed exactly *)
Lemma layout_ok_recip n : layout_ok n <-> 1 <= n <= 2 ^ 49 /\ recip_ok n = true.
Proof.
  assert (E : forall k, float_extent "x" n (f64_recip n) = Ok k ->
    rank_extent_from_tile_metadata ["x"%string] [n] (n, n) = Ok [k]).
  { intros k H. unfold rank_extent_from_tile_metadata. rewrite list_by_dims_map.
    cbn [map extent_from_metadata_float]. change (along "x" (n, n) 1) with n. now rewrite H. }
  split; intros [B H]; split; auto.
  - destruct (recip_ok n) eqn:R; auto.
    apply (float_extent_fails "x" n) in R; [|lia|reflexivity].
    apply E in R. rewrite R in H. discriminate.
  - apply E. pose proof (float_extent_exact "x" n 1) as X. rewrite add_extent_stag in X.
    change (stag "x") with 0 in X. change (1 - - 0) with 1 in X.
    replace (1 * n - - 0) with n in X by lia. apply X; try lia. now left.
Qed.

Lemma layout_ok_below_49 n : 1 <= n < 49 -> layout_ok n.
Proof. intros H. apply layout_ok_recip. split; [lia|]. now apply recip_ok_below_49. Qed.

Lemma layout_ok_pos n : layout_ok n -> 1 <= n.
Proof. intros [[H _] _]. exact H. Qed.

Lemma recip_ok_1 : recip_ok 1 = true.
Proof. vm_compute. reflexivity. Qed.

Lemma along_ok layout d : layouts_ok layout -> layout_ok (along d layout 1).
Proof.
  intros [A B]. unfold along. destruct (axis_of d); auto. apply layout_ok_below_49. lia.
Qed.

(** ** rank extents *)
Definition rank_extent1 (layout : Z * Z) (d : string) (e : Z) : Z :=
  (e - stag d) / along d layout 1 + stag d.

Fixpoint map2 {A B C} (f : A -> B -> C) (l : list A) (l' : list B) : list C :=
  match l, l' with a :: l, b :: l' => f a b :: map2 f l l' | _, _ => [] end.

Lemma map2_length {A B C} (f : A -> B -> C) l l' : length l = length l' -> length (map2 f l l') = length l.
Proof. revert l'; induction l; destruct l'; simpl; intros; try discriminate; auto. Qed.

Lemma rank_extent_nondiv_ok layout dims ext :
  (forall d e, In (d, e) (combine dims ext) ->
     1 <= along d layout 1 /\ (recip_ok (along d layout 1) = true \/ (e - stag d) mod along d layout 1 <> 0 \/ e - stag d = 0)) ->
  moderate layout dims ext ->
  rank_extent_from_tile_metadata dims ext layout = Ok (map2 (rank_extent1 layout) dims ext).
Proof.
  intros LO M. unfold rank_extent_from_tile_metadata. rewrite list_by_dims_map, map_map.
  revert LO. induction M as [|d e dims ext [H0 H1] M IH]; intros LO; [reflexivity|].
  cbn [map extent_from_metadata_float map2].
  destruct (LO d e (or_introl eq_refl)) as [L1 L2].
  rewrite IH. 2:{ intros. apply LO. now right. }
  pose proof (float_extent_div d (along d layout 1) (e - stag d)) as X.
  rewrite add_extent_stag in X.
  replace (e - stag d - - stag d) with e in X by lia.
  rewrite X; try lia.
  - cbn [bind]. unfold rank_extent1. do 2 f_equal. lia.
  - destruct (stag_01 d); lia.
  - exact L2.
Qed.

Lemma rank_extent_ok layout dims ext : layouts_ok layout -> moderate layout dims ext ->
  rank_extent_from_tile_metadata dims ext layout = Ok (map2 (rank_extent1 layout) dims ext).
Proof.
  intros LO M. apply rank_extent_nondiv_ok; auto.
  intros d e _. pose proof (along_ok layout d LO) as A. apply layout_ok_recip in A. destruct A. split; [lia|]. now left.
Qed.

Lemma tile_extent_ok layout dims ext :
  tile_extent_from_rank_metadata dims ext layout
  = map2 (fun d e => (e - stag d) * along d layout 1 + stag d) dims ext.
Proof.
  unfold tile_extent_from_rank_metadata. rewrite list_by_dims_map.
  revert ext. induction dims as [|d dims IH]; destruct ext as [|e ext]; simpl; auto.
  rewrite IH, add_extent_stag. f_equal. lia.
Qed.

(** ** slices *)
Definition slice1 (overlap : bool) (layout s : Z * Z) (d : string) (e : Z) : Z * Z :=
  let k := rank_extent1 layout d e - stag d in
  let i := along d s 0 in
  (i * k, if overlap || (i =? along d layout 1 - 1) then i * k + k + stag d else i * k + k).

Lemma subtile_slice_raw overlap layout s dims ext : 
  rank_extent_from_tile_metadata dims ext layout = Ok (map2 (rank_extent1 layout) dims ext) ->
  length dims = length ext ->
  subtile_slice dims ext layout s overlap = Ok (map2 (slice1 overlap layout s) dims ext).
Proof.
  intros R L. unfold subtile_slice. rewrite R. cbn [bind]. f_equal.
  rewrite !list_by_dims_map. clear R.
  revert ext L. induction dims as [|d dims IH]; destruct ext as [|e ext]; simpl; intros L; try discriminate; auto.
  injection L as L. rewrite IH by auto. f_equal.
  unfold slice1, base_extent, is_end_index. rewrite gridcell_stag.
  rewrite (orb_comm overlap). destruct (_ || overlap); f_equal; lia.
Qed.

Lemma moderate_length layout dims ext : moderate layout dims ext -> length dims = length ext.
Proof. apply Forall2_length. Qed.

Lemma subtile_slice_ok overlap layout s dims ext : layouts_ok layout -> moderate layout dims ext ->
  subtile_slice dims ext layout s overlap = Ok (map2 (slice1 overlap layout s) dims ext).
Proof.
  intros LO M. apply subtile_slice_raw; [now apply rank_extent_ok|now apply moderate_length in M].
Qed.

(** ** subtile index *)
Lemma subtile_index_bound layout r : 1 <= fst layout -> 1 <= snd layout ->
  0 <= fst (tile_subtile_index layout r) < fst layout /\
  0 <= snd (tile_subtile_index layout r) < snd layout.
Proof.
  intros H1 H2. unfold tile_subtile_index, subtile_index, tile_total_ranks. simpl.
  destruct layout as [ny nx]; simpl in *.
  pose proof (Z.mod_pos_bound r (ny * nx) ltac:(nia)).
  split; [|apply Z.mod_pos_bound; lia].
  split; [apply Z.div_pos; lia|]. apply Z.div_lt_upper_bound; nia.
Qed.

Lemma subtile_index_rank layout j i : 0 <= j < fst layout -> 0 <= i < snd layout ->
  tile_subtile_index layout (j * snd layout + i) = (j, i).
Proof.
  destruct layout as [ny nx]; simpl. intros H1 H2.
  unfold tile_subtile_index, subtile_index, tile_total_ranks. simpl.
  rewrite Z.mod_small by nia.
  f_equal.
  - symmetry. apply Z.div_unique_pos with i; lia.
  - symmetry. apply Z.mod_unique_pos with j; lia.
Qed.

Lemma rank_of_subtile layout r : 1 <= fst layout -> 1 <= snd layout -> 0 <= r < tile_total_ranks layout ->
  r = fst (tile_subtile_index layout r) * snd layout + snd (tile_subtile_index layout r).
Proof.
  destruct layout as [ny nx]. unfold tile_subtile_index, subtile_index, tile_total_ranks. simpl.
  intros H1 H2 H. rewrite Z.mod_small by lia.
  pose proof (Z.div_mod r nx). lia.
Qed.

(** ** one dimension *)
Definition owner1 (n c x : Z) : Z := let k := c / n in if k =? 0 then n - 1 else Z.min (x / k) (n - 1).

Lemma owner1_spec n c s x i : 1 <= n -> 0 <= c -> c mod n = 0 -> s = 0 \/ s = 1 -> 0 <= x < c + s ->
  0 <= i < n ->
  ((let k := c / n in i * k <= x < (if i =? n - 1 then i * k + k + s else i * k + k)) <-> i = owner1 n c x).
Proof.
  intros Hn Hc Hd Hs Hx Hi. unfold owner1. cbv zeta.
  assert (D : c = n * (c / n)) by (pose proof (Z.div_mod c n); lia).
  assert (0 <= c / n) by (apply Z.div_pos; lia).
  set (k := c / n) in *. clearbody k. subst c.
  destruct (Z.eqb_spec k 0) as [->|Nk].
  - destruct (Z.eqb_spec i (n - 1)); lia.
  - pose proof (Z.div_mod x k ltac:(lia)) as DX. pose proof (Z.mod_pos_bound x k ltac:(lia)) as MX.
    set (q := x / k) in *. set (r := x mod k) in *. clearbody q r.
    destruct (Z.eqb_spec i (n - 1)) as [->|Ni].
    + split; intros H1; [|]; nia.
    + split; intros H1; nia.
Qed.

Lemma owner1_range n c s x : 1 <= n -> 0 <= c -> c mod n = 0 -> s = 0 \/ s = 1 -> 0 <= x < c + s ->
  0 <= owner1 n c x < n.
Proof.
  intros Hn Hc Hd Hs Hx. unfold owner1. cbv zeta.
  assert (0 <= c / n) by (apply Z.div_pos; lia).
  destruct (Z.eqb_spec (c / n) 0); [lia|].
  assert (0 <= x / (c / n)) by (apply Z.div_pos; lia). lia.
Qed.

(** a rank whose overlapping slice contains x is at most the owner *)
Lemma owner1_max n c s x i : 1 <= n -> 0 <= c -> c mod n = 0 -> s = 0 \/ s = 1 -> 0 <= x < c + s ->
  0 <= i < n -> i * (c / n) <= x -> i <= owner1 n c x.
Proof.
  intros Hn Hc Hd Hs Hx Hi H. unfold owner1. cbv zeta.
  assert (0 <= c / n) by (apply Z.div_pos; lia).
  set (k := c / n) in *. clearbody k.
  destruct (Z.eqb_spec k 0) as [->|Nk]; [lia|].
  pose proof (Z.div_mod x k ltac:(lia)) as DX. pose proof (Z.mod_pos_bound x k ltac:(lia)) as MX.
  set (q := x / k) in *. set (r := x mod k) in *. clearbody q r. nia.
Qed.
