(** Corner filling. *)
From Verif.Base Require Import Base Lemmas.
From Verif.Model Require Import Consts Partitioner Numpy Quantity Corners.
From Verif.Spec Require Import Grid Views Corners.
From Verif.Proofs Require Import NumpyProofs Regions ViewProofs Slices CornerProofs.
From Coq Require Import ZifyBool.
Ltac Zify.zify_post_hook ::= idtac.

Lemma all_picked_nil k dims : forall origin extent, length origin = length dims -> length extent = length dims -> all_picked k dims origin extent [] = rest_picks origin extent.
Proof.
  induction dims as [|d dims IH]; intros [|o origin] [|e extent] L1 L2; try discriminate; auto. cbn [all_picked tl rest_picks Numpy.map2 picked]. f_equal. apply IH; auto.
Qed.

Lemma rest_onto origin extent : forall rest, length origin = length extent -> in_column_of origin extent rest ->
  exists p, in_shape (pick_shape (rest_picks origin extent)) p /\ pick_place (rest_picks origin extent) p = rest.
Proof.
  unfold in_column_of. revert extent. induction origin as [|o origin IH]; intros [|e extent] rest L B; try discriminate; cbn in B; inversion B; subst.
  - exists []. split; [constructor|reflexivity].
  - destruct (IH extent l') as (p & P1 & P2); auto. cbn [fst snd] in *. exists (y - o :: p). cbn. split; [constructor; [lia|exact P1]|]. f_equal; [lia|exact P2].
Qed.
Lemma rest_into origin extent : forall p, in_shape (pick_shape (rest_picks origin extent)) p -> in_column_of origin extent (pick_place (rest_picks origin extent) p).
Proof.
  unfold in_column_of, in_box. revert extent. induction origin as [|o origin IH]; intros [|e extent] p P; cbn in *; try constructor.
  - cbn. inversion P; subst. cbn. lia.
  - inversion P; subst. cbn. apply IH. auto.
Qed.

Section Fill.
Context {V : Type}.
Implicit Type q : quantity V.

(** the quantity has dimensions x, y and others, and this compute domain *)
Record shaped (q : quantity V) (d : xy_domain) (dim0 dim1 : string) (dims : list string) (sx sy : Z) (origin extent shape : list Z) : Prop := {
  sh_dims : q_dims q = dim0 :: dim1 :: dims;
  sh_x : axis_of dim0 = AxX;
  sh_y : axis_of dim1 = AxY;
  sh_origin : q_origin q = xo d :: yo d :: origin;
  sh_extent : q_extent q = xe d :: ye d :: extent;
  sh_shape : shp (q_data q) = sx :: sy :: shape;
  sh_rest : axes_ok origin extent shape;
  sh_len : length dims = length shape;
  sh_dx : 0 <= xo d /\ 0 <= xe d /\ xo d + xe d <= sx;
  sh_dy : 0 <= yo d /\ 0 <= ye d /\ yo d + ye d <= sy
}.

Lemma shaped_wf q d dim0 dim1 dims sx sy origin extent shape : shaped q d dim0 dim1 dims sx sy origin extent shape -> well_formed (q_meta q).
Proof.
  intros H. split; cbn [q_meta m_dims m_shape m_origin m_extent].
  - rewrite (sh_dims _ _ _ _ _ _ _ _ _ _ H), (sh_shape _ _ _ _ _ _ _ _ _ _ H). cbn. f_equal. f_equal. apply (sh_len _ _ _ _ _ _ _ _ _ _ H).
  - rewrite (sh_origin _ _ _ _ _ _ _ _ _ _ H), (sh_extent _ _ _ _ _ _ _ _ _ _ H), (sh_shape _ _ _ _ _ _ _ _ _ _ H).
    destruct (sh_dx _ _ _ _ _ _ _ _ _ _ H) as (? & ? & ?). destruct (sh_dy _ _ _ _ _ _ _ _ _ _ H) as (? & ? & ?). repeat (constructor; auto). apply (sh_rest _ _ _ _ _ _ _ _ _ _ H).
Qed.

Definition start_x (d : xy_domain) (far : bool) := if far then xo d + xe d else xo d.
Definition start_y (d : xy_domain) (far : bool) := if far then yo d + ye d else yo d.

Lemma corner_picks q d dim0 dim1 dims sx sy origin extent shape b far_x far_y x0 x1 y0 y1 : shaped q d dim0 dim1 dims sx sy origin extent shape ->
  (b = SOUTHWEST /\ far_x = false /\ far_y = false \/ b = NORTHWEST /\ far_x = false /\ far_y = true \/ b = SOUTHEAST /\ far_x = true /\ far_y = false \/ b = NORTHEAST /\ far_x = true /\ far_y = true) ->
  all_picked (VCorner b) (q_dims q) (q_origin q) (q_extent q) [OFrom x0 x1; OFrom y0 y1] =
  Span (start_x d far_x + x0) (start_x d far_x + x1) :: Span (start_y d far_y + y0) (start_y d far_y + y1) :: rest_picks origin extent.
Proof.
  intros H C. destruct (axes_ok_lengths _ _ _ (sh_rest _ _ _ _ _ _ _ _ _ _ H)) as (L1 & L2). pose proof (sh_len _ _ _ _ _ _ _ _ _ _ H) as L3.
  rewrite (sh_dims _ _ _ _ _ _ _ _ _ _ H), (sh_origin _ _ _ _ _ _ _ _ _ _ H), (sh_extent _ _ _ _ _ _ _ _ _ _ H). cbn [all_picked tl]. rewrite all_picked_nil by lia.
  unfold picked, start_of, stop_of, far_end. rewrite (sh_x _ _ _ _ _ _ _ _ _ _ H), (sh_y _ _ _ _ _ _ _ _ _ _ H). unfold start_x, start_y.
  destruct C as [(-> & -> & ->)|[(-> & -> & ->)|[(-> & -> & ->)|(-> & -> & ->)]]]; reflexivity.
Qed.

Lemma rest_ok origin extent shape : axes_ok origin extent shape -> Forall2 pick_ok shape (rest_picks origin extent).
Proof. induction 1; cbn; constructor; auto. cbn. lia. Qed.

(** one statement of the program *)
Lemma copy_corner_ok q d dim0 dim1 dims sx sy origin extent shape b far_x far_y x0 y0 u0 w0 n ccw : shaped q d dim0 dim1 dims sx sy origin extent shape ->
  (b = SOUTHWEST /\ far_x = false /\ far_y = false \/ b = NORTHWEST /\ far_x = false /\ far_y = true \/ b = SOUTHEAST /\ far_x = true /\ far_y = false \/ b = NORTHEAST /\ far_x = true /\ far_y = true) ->
  0 <= n ->
  let X := start_x d far_x in let Y := start_y d far_y in
  0 <= X + x0 -> X + x0 + n <= sx -> 0 <= Y + y0 -> Y + y0 + n <= sy -> 0 <= X + u0 -> X + u0 + n <= sx -> 0 <= Y + w0 -> Y + w0 + n <= sy ->
  exists q', copy_corner q b (ISL x0 (x0 + n), ISL y0 (y0 + n)) (ISL u0 (u0 + n), ISL w0 (w0 + n)) ccw = Ok q' /\
    q_meta q' = q_meta q /\ q_units q' = q_units q /\ 
    (forall i j rest, 0 <= i < n -> 0 <= j < n -> in_column_of origin extent rest ->
       at_ (q_data q') (X + x0 + i :: Y + y0 + j :: rest) =
       at_ (q_data q) (if ccw then X + u0 + j :: Y + w0 + (n - 1 - i) :: rest else X + u0 + (n - 1 - j) :: Y + w0 + i :: rest)) /\
    (forall p, (forall i j rest, 0 <= i < n -> 0 <= j < n -> in_column_of origin extent rest -> p <> X + x0 + i :: Y + y0 + j :: rest) -> at_ (q_data q') p = at_ (q_data q) p).
Proof.
  intros H C Hn X Y A1 A2 A3 A4 B1 B2 B3 B4.
  assert (K : kind_ok (VCorner b)). { cbn. unfold is_corner. tauto. }
  pose proof (shaped_wf _ _ _ _ _ _ _ _ _ _ H) as W.
  assert (L : (2 <= length (q_dims q))%nat) by (rewrite (sh_dims _ _ _ _ _ _ _ _ _ _ H); cbn; lia).
  unfold copy_corner. cbn [fst snd]. unfold corner_get.
  change (PTuple [ISL u0 (u0 + n); ISL w0 (w0 + n)]) with (PTuple (map offset_entry [OFrom u0 (u0 + n); OFrom w0 (w0 + n)])).
  destruct (corner_read (q_meta q) (VCorner b) [OFrom u0 (u0 + n); OFrom w0 (w0 + n)] W K L) as (v & -> & SH).
  { cbn [q_meta m_dims m_origin m_extent m_shape]. rewrite (corner_picks _ _ _ _ _ _ _ _ _ _ _ _ _ _ _ _ _ H C), (sh_shape _ _ _ _ _ _ _ _ _ _ H).
    fold X Y. constructor; [cbn; lia|]. constructor; [cbn; lia|]. apply rest_ok, (sh_rest _ _ _ _ _ _ _ _ _ _ H). }
  cbn [q_meta m_dims m_origin m_extent] in SH. rewrite (corner_picks _ _ _ _ _ _ _ _ _ _ _ _ _ _ _ _ _ H C) in SH. fold X Y in SH. destruct SH as (SH & SM). rewrite SH in SM.
  cbn [rmap bind]. unfold np_rot90. cbn [v_read shp]. rewrite SH. cbn [pick_shape length Nat.ltb Nat.leb].
  replace (X + (u0 + n) - (X + u0)) with n in * by lia. replace (Y + (w0 + n) - (Y + w0)) with n in * by lia.
  set (rs := pick_shape (rest_picks origin extent)) in *.
  change (PTuple [ISL x0 (x0 + n); ISL y0 (y0 + n)]) with (PTuple (map offset_entry [OFrom x0 (x0 + n); OFrom y0 (y0 + n)])).
  cbn [bind]. cbn [pick_shape] in SH, SM. fold rs in SM.
  replace (X + (u0 + n) - (X + u0)) with n in SM by lia. replace (Y + (w0 + n) - (Y + w0)) with n in SM by lia.
  set (src := v_read (v_read (q_data q) v) (if ccw then v_rot90 (v_whole (n :: n :: rs)) 0 1 else v_rot90 (v_whole (n :: n :: rs)) 1 0)).
  assert (Sr : forall i j p, 0 <= i < n -> 0 <= j < n -> in_shape rs p -> at_ src (i :: j :: p) = at_ (q_data q) (if ccw then X + u0 + j :: Y + w0 + (n - 1 - i) :: pick_place (rest_picks origin extent) p
    else X + u0 + (n - 1 - j) :: Y + w0 + i :: pick_place (rest_picks origin extent) p)).
  { intros i j p Hi Hj Hp. unfold src. destruct ccw; cbn [v_read at_ vmap v_rot90 v_swap v_flip v_whole vshp i_swap i_flip upd nth].
    - rewrite SM by (constructor; [lia|]; constructor; [lia|]; exact Hp). reflexivity.
    - rewrite SM by (constructor; [lia|]; constructor; [lia|]; exact Hp). reflexivity. }
  assert (Ss : shp src = n :: n :: rs) by (unfold src; destruct ccw; reflexivity).
  destruct (corner_write q (VCorner b) [OFrom x0 (x0 + n); OFrom y0 (y0 + n)] src W K L) as (q' & E & M & U & R & F).
  { rewrite (corner_picks _ _ _ _ _ _ _ _ _ _ _ _ _ _ _ _ _ H C), (sh_shape _ _ _ _ _ _ _ _ _ _ H).
    fold X Y. constructor; [cbn; lia|]. constructor; [cbn; lia|]. apply rest_ok, (sh_rest _ _ _ _ _ _ _ _ _ _ H). }
  { rewrite (corner_picks _ _ _ _ _ _ _ _ _ _ _ _ _ _ _ _ _ H C), Ss. fold X Y. cbn [pick_shape]. fold rs. f_equal; [lia|]. f_equal. lia. }
  rewrite (corner_picks _ _ _ _ _ _ _ _ _ _ _ _ _ _ _ _ _ H C) in R, F. fold X Y in R, F. cbn [pick_shape pick_place] in R, F. fold rs in R, F.
  replace (X + (x0 + n) - (X + x0)) with n in R, F by lia. replace (Y + (y0 + n) - (Y + y0)) with n in R, F by lia.
  destruct (axes_ok_lengths _ _ _ (sh_rest _ _ _ _ _ _ _ _ _ _ H)) as (L1 & L2).
  exists q'. split; auto. split; auto. split; auto. split.
  - intros i j rest Hi Hj Hr. destruct (rest_onto origin extent rest) as (p & P1 & <-); [lia|auto|].
    specialize (R (i :: j :: p)). cbn [hd tl] in R. rewrite R by (constructor; [lia|]; constructor; [lia|]; exact P1). now apply Sr.
  - intros p N. apply F. intros p' P'. inversion P' as [|? i ? ? Hi P'' ]; subst. inversion P'' as [|? j ? rp Hj P3]; subst. cbn [hd tl]. apply N; auto. now apply rest_into.
Qed.

Lemma shaped_meta q q' d dim0 dim1 dims sx sy origin extent shape : q_meta q' = q_meta q -> shaped q d dim0 dim1 dims sx sy origin extent shape -> shaped q' d dim0 dim1 dims sx sy origin extent shape.
Proof.
  unfold q_meta. intros E [A B C D F G H I J K]. assert (E1 : q_dims q' = q_dims q) by congruence. assert (E2 : q_origin q' = q_origin q) by congruence.
  assert (E3 : q_extent q' = q_extent q) by congruence. assert (E4 : shp (q_data q') = shp (q_data q)) by congruence. constructor; auto; congruence.
Qed.

(** filling one corner after others *)
Lemma corner_points_differ d fx fy fx' fy' a b a' b' : 0 <= xe d -> 0 <= ye d -> 1 <= a -> 1 <= b -> 1 <= a' -> 1 <= b' ->
  corner_point d fx fy a b = corner_point d fx' fy' a' b' -> fx = fx' /\ fy = fy' /\ a = a' /\ b = b'.
Proof.
  intros Hx Hy A B A' B' E. unfold corner_point, outside in E.
  destruct fx, fy, fx', fy'; apply pair_equal_spec in E; destruct E; repeat split; lia.
Qed.

Lemma source_no_corner d y shift n fx fy fx' fy' a b a' b' : 0 <= shift -> n + shift <= (if y : bool then xe d else ye d) -> 1 <= a <= n -> 1 <= b <= n -> 1 <= a' -> 1 <= b' ->
  corner_source d y shift fx fy a b <> corner_point d fx' fy' a' b'.
Proof.
  intros Hs Hn A B A' B' E. unfold corner_point, corner_source, outside, inside in E. destruct y, fx, fy, fx', fy'; apply pair_equal_spec in E; destruct E; lia.
Qed.

Lemma filled_then d y shift n (C : bool -> bool -> Prop) column (f g h : idx -> V) fx fy : 0 <= xe d -> 0 <= ye d -> 0 <= shift -> n + shift <= (if y : bool then xe d else ye d) ->
  corners_filled d y shift n C column f g -> corners_filled d y shift n (fun x y => x = fx /\ y = fy) column g h ->
  corners_filled d y shift n (fun x y => C x y \/ (x = fx /\ y = fy)) column f h.
Proof.
  intros Hx Hy Hs Hn (A1 & A2) (B1 & B2). split.
  - intros gx gy a b rest HC Ha Hb Hr.
    assert (D : {gx = fx /\ gy = fy} + {~ (gx = fx /\ gy = fy)}) by (destruct gx, gy, fx, fy; try (left; split; reflexivity); right; intros (? & ?); discriminate).
    destruct D as [D|D].
    + rewrite B1 by auto. apply A2. intros gx' gy' a' b' rest' _ Ha' Hb' _ E. injection E as E1 E2 _.
      apply (source_no_corner d y shift n gx gy gx' gy' a b a' b'); auto; try lia. unfold corner_source, corner_point in *. destruct y; cbn [fst snd] in *; congruence.
    + destruct HC as [HC|HC]; [|contradiction]. rewrite B2; [auto|]. intros gx' gy' a' b' rest' (-> & ->) Ha' Hb' _ E. injection E as E1 E2 _. apply D.
      destruct (corner_points_differ d gx gy fx fy a b a' b') as (? & ? & _); try lia; auto. unfold corner_point in *. cbn [fst snd] in *. congruence.
  - intros i N. rewrite B2; [apply A2|]; intros; apply N; auto.
Qed.

Lemma filled_none d y shift n column (f : idx -> V) : corners_filled d y shift n (fun _ _ => False) column f f.
Proof. split; [contradiction|auto]. Qed.
Lemma filled_ext d y shift n (C C' : bool -> bool -> Prop) column (f g : idx -> V) : (forall fx fy, C fx fy <-> C' fx fy) -> corners_filled d y shift n C column f g -> corners_filled d y shift n C' column f g.
Proof. intros E (A & B). split; [intros; apply A; auto; now apply E|]. intros i N. apply B. intros. apply N; auto. now apply E. Qed.

(** the eight statements *)
(** as in the program *)
Definition corner_name (fx fy : bool) : btype := if fx then (if fy then NORTHEAST else SOUTHEAST) else (if fy then NORTHWEST else SOUTHWEST).
Definition out_slice (far : bool) (n : Z) : ientry := if far then ISL 0 n else ISL (- n) 0.
Definition in_slice (far : bool) (n shift : Z) : ientry := if far then ISL (- n - shift) (- shift) else ISL shift (n + shift).

Lemma statement q d dim0 dim1 dims sx sy origin extent shape (y : bool) shift n fx fy : shaped q d dim0 dim1 dims sx sy origin extent shape ->
  0 <= n -> 0 <= shift -> n + shift <= (if y then xe d else ye d) -> n <= xo d -> xo d + xe d + n <= sx -> n <= yo d -> yo d + ye d + n <= sy ->
  exists q', copy_corner q (corner_name fx fy) (out_slice fx n, out_slice fy n)
    (if y then (in_slice fx n shift, out_slice fy n) else (out_slice fx n, in_slice fy n shift)) (if y then xorb fx fy else negb (xorb fx fy)) = Ok q' /\
    q_meta q' = q_meta q /\ q_units q' = q_units q /\
    corners_filled d y shift n (fun x y => x = fx /\ y = fy) (in_column_of origin extent) (at_ (q_data q)) (at_ (q_data q')).
Proof.
  intros H Hn Hs Hy X1 X2 Y1 Y2. destruct (sh_dx _ _ _ _ _ _ _ _ _ _ H) as (D1 & D2 & D3). destruct (sh_dy _ _ _ _ _ _ _ _ _ _ H) as (D4 & D5 & D6).
  set (ox := if fx then 0 else - n). set (oy := if fy then 0 else - n).
  set (ix := if fx then - n - shift else shift). set (iy := if fy then - n - shift else shift).
  assert (O1 : out_slice fx n = ISL ox (ox + n)) by (unfold out_slice, ox; destruct fx; f_equal; lia).
  assert (O2 : out_slice fy n = ISL oy (oy + n)) by (unfold out_slice, oy; destruct fy; f_equal; lia).
  assert (I1 : in_slice fx n shift = ISL ix (ix + n)) by (unfold in_slice, ix; destruct fx; f_equal; lia).
  assert (I2 : in_slice fy n shift = ISL iy (iy + n)) by (unfold in_slice, iy; destruct fy; f_equal; lia).
  assert (P : (if y then (in_slice fx n shift, out_slice fy n) else (out_slice fx n, in_slice fy n shift)) =
    (ISL (if y then ix else ox) ((if y then ix else ox) + n), ISL (if y then oy else iy) ((if y then oy else iy) + n))) by (rewrite O1, O2, I1, I2; destruct y; reflexivity).
  rewrite P, O1, O2.
  destruct (copy_corner_ok q d dim0 dim1 dims sx sy origin extent shape (corner_name fx fy) fx fy ox oy (if y then ix else ox) (if y then oy else iy) n (if y then xorb fx fy else negb (xorb fx fy)) H)
    as (q' & E & M & U & R & F); try (unfold start_x, start_y, ox, oy, ix, iy; destruct y, fx, fy; lia).
  { destruct fx, fy; cbn; tauto. }
  exists q'. split; auto. split; auto. split; auto. split.
  - intros gx gy a b rest (-> & ->) Ha Hb Hr.
    set (i := if fx then a - 1 else n - a). set (j := if fy then b - 1 else n - b).
    specialize (R i j rest ltac:(unfold i; destruct fx; lia) ltac:(unfold j; destruct fy; lia) Hr).
    replace (fst (corner_point d fx fy a b)) with (start_x d fx + ox + i) by (unfold corner_point, outside, start_x, ox, i; destruct fx; cbn [fst]; lia).
    replace (snd (corner_point d fx fy a b)) with (start_y d fy + oy + j) by (unfold corner_point, outside, start_y, oy, j; destruct fy; cbn [snd]; lia).
    rewrite R. f_equal. unfold corner_source, outside, inside, start_x, start_y, ox, oy, ix, iy, i, j. destruct y, fx, fy; cbn [xorb negb fst snd]; (f_equal; [lia|]); (f_equal; lia).
  - intros p N. apply F. intros i j rest Hi Hj Hr E'. 
    apply (N fx fy (if fx then i + 1 else n - i) (if fy then j + 1 else n - j) rest); auto; try (destruct fx; lia); try (destruct fy; lia).
    rewrite E'. unfold corner_point, outside, start_x, start_y, ox, oy. destruct fx, fy; cbn [fst snd]; (f_equal; [lia|]); (f_equal; lia).
Qed.

Lemma on_corner layout rank (fx fy : bool) : 
  (if fy then tp_on_top layout rank else tp_on_bottom layout rank) && (if fx then tp_on_right layout rank else tp_on_left layout rank) = true <-> on_side layout rank fx fy.
Proof.
  unfold on_side, tp_on_top, tp_on_bottom, tp_on_right, tp_on_left, on_tile_top, on_tile_bottom, on_tile_right, on_tile_left, tile_subtile_index, subtile_index, tile_total_ranks. cbn [fst snd].
  rewrite andb_true_iff. destruct fx, fy; rewrite !Z.eqb_eq; tauto.
Qed.

Lemma fill_step q q0 d dim0 dim1 dims sx sy origin extent shape (y : bool) shift n (C : bool -> bool -> Prop) (c : bool) fx fy : 
  shaped q0 d dim0 dim1 dims sx sy origin extent shape ->
  0 <= n -> 0 <= shift -> n + shift <= (if y then xe d else ye d) -> n <= xo d -> xo d + xe d + n <= sx -> n <= yo d -> yo d + ye d + n <= sy ->
  q_meta q = q_meta q0 -> q_units q = q_units q0 -> corners_filled d y shift n C (in_column_of origin extent) (at_ (q_data q0)) (at_ (q_data q)) ->
  exists q', (if c then copy_corner q (corner_name fx fy) (out_slice fx n, out_slice fy n)
    (if y then (in_slice fx n shift, out_slice fy n) else (out_slice fx n, in_slice fy n shift)) (if y then xorb fx fy else negb (xorb fx fy)) else Ok q) = Ok q' /\
    q_meta q' = q_meta q0 /\ q_units q' = q_units q0 /\
    corners_filled d y shift n (fun x y => C x y \/ (c = true /\ x = fx /\ y = fy)) (in_column_of origin extent) (at_ (q_data q0)) (at_ (q_data q')).
Proof.
  intros H Hn Hs Hy X1 X2 Y1 Y2 M U F. destruct c.
  - destruct (statement q d dim0 dim1 dims sx sy origin extent shape y shift n fx fy) as (q' & E & M' & U' & F'); auto. { now apply (shaped_meta q0). }
    exists q'. split; auto. split; [congruence|]. split; [congruence|].
    destruct (sh_dx _ _ _ _ _ _ _ _ _ _ H) as (D1 & D2 & D3). destruct (sh_dy _ _ _ _ _ _ _ _ _ _ H) as (D4 & D5 & D6).
    eapply filled_ext; [|apply (filled_then d y shift n C (in_column_of origin extent) _ _ _ fx fy D2 D5 Hs Hy F F')]. intros. cbn. tauto.
  - exists q. split; auto. split; auto. split; auto. eapply filled_ext; [|exact F]. intros. cbn. split; [tauto|]. intros [?|(? & _)]; [auto|discriminate].
Qed.

(** C34 *)
Theorem corners_ok q dim0 dim1 dims ox oy origin ex ey extent sx sy shape direction layout rank n :
  well_formed (q_meta q) -> q_meta q = mkMeta (dim0 :: dim1 :: dims) (ox :: oy :: origin) (ex :: ey :: extent) (sx :: sy :: shape) ->
  axis_of dim0 = AxX -> axis_of dim1 = AxY -> direction = "x"%string \/ direction = "y"%string ->
  let y := String.eqb direction "y" in let shift := if y then stag dim0 else stag dim1 in
  0 <= n -> n <= ox -> ox + ex + n <= sx -> n <= oy -> oy + ey + n <= sy -> n + shift <= (if y then ex else ey) ->
  exists q', fill_scalar_corners q direction layout rank n = Ok q' /\ q_meta q' = q_meta q /\ q_units q' = q_units q /\
    corners_filled (mkXY ox ex oy ey) y shift n (on_side layout rank) (in_column_of origin extent) (at_ (q_data q)) (at_ (q_data q')).
Proof.
  intros (W1 & W2) M A0 A1 D y shift Hn X1 X2 Y1 Y2 Hs.
  assert (H : shaped q (mkXY ox ex oy ey) dim0 dim1 dims sx sy origin extent shape).
  { rewrite M in W1, W2. cbn in W1, W2. inversion W2 as [|? ? ? ? ? ? E1 E2 E3 W3]; subst. inversion W3 as [|? ? ? ? ? ? E4 E5 E6 W4]; subst. unfold q_meta in M. assert (q_dims q = dim0 :: dim1 :: dims) by congruence.
    assert (q_origin q = ox :: oy :: origin) by congruence. assert (q_extent q = ex :: ey :: extent) by congruence. assert (shp (q_data q) = sx :: sy :: shape) by congruence.
    constructor; cbn [xo xe yo ye]; auto; lia. }
  unfold fill_scalar_corners. rewrite (sh_dims _ _ _ _ _ _ _ _ _ _ H), sin_X, sin_Y, A0, A1. cbn [negb].
  assert (S0 : sin direction ["x"; "y"]%string = true) by (destruct D as [-> | ->]; reflexivity). rewrite S0. cbn [negb].
  assert (S1 : shared_edge_points direction dim0 dim1 = shift).
  { unfold shared_edge_points, shift, y. rewrite !sin_I. assert (G : forall d, (if stag d =? 1 then 1 else 0) = stag d) by (intros d; destruct (stag_01 d) as [-> | ->]; reflexivity).
    now rewrite !G. }
  rewrite S1. assert (S2 : 0 <= shift) by (unfold shift, stag; destruct y; repeat (match goal with |- context [if ?b then _ else _] => destruct b end); lia).
  fold y. cbv zeta.
  pose proof (fun q' C c fx fy M' U' F' => fill_step q' q _ _ _ _ _ _ _ _ _ y shift n C c fx fy H Hn S2 Hs X1 X2 Y1 Y2 M' U' F') as Step.
  destruct (Step q (fun _ _ => False) (tp_on_bottom layout rank && tp_on_left layout rank) false false eq_refl eq_refl (filled_none _ _ _ _ _ _)) as (q1 & E1 & M1 & U1 & F1).
  destruct (Step q1 _ (tp_on_top layout rank && tp_on_left layout rank) false true M1 U1 F1) as (q2 & E2 & M2 & U2 & F2).
  destruct (Step q2 _ (tp_on_bottom layout rank && tp_on_right layout rank) true false M2 U2 F2) as (q3 & E3 & M3 & U3 & F3).
  destruct (Step q3 _ (tp_on_top layout rank && tp_on_right layout rank) true true M3 U3 F3) as (q4 & E4 & M4 & U4 & F4).
  exists q4. split; [|split; [auto|split; [auto|]]].
  - unfold out_slice, in_slice, corner_name in E1, E2, E3, E4. cbn [xorb negb] in E1, E2, E3, E4.
    assert (If : forall (A : Type) (c y : bool) (a b : A), (if c then if y then a else b else a) = (if c then if y then a else b else a)) by auto. clear If.
    assert (G1 : (if tp_on_bottom layout rank && tp_on_left layout rank then
        if y then copy_corner q SOUTHWEST (ISL (- n) 0, ISL (- n) 0) (ISL shift (n + shift), ISL (- n) 0) false
        else copy_corner q SOUTHWEST (ISL (- n) 0, ISL (- n) 0) (ISL (- n) 0, ISL shift (n + shift)) true else Ok q) = Ok q1) by (rewrite <- E1; destruct y; reflexivity).
    rewrite G1. cbn [bind].
    assert (G2 : (if tp_on_top layout rank && tp_on_left layout rank then
        if y then copy_corner q1 NORTHWEST (ISL (- n) 0, ISL 0 n) (ISL shift (n + shift), ISL 0 n) true
        else copy_corner q1 NORTHWEST (ISL (- n) 0, ISL 0 n) (ISL (- n) 0, ISL (- n - shift) (- shift)) false else Ok q1) = Ok q2) by (rewrite <- E2; destruct y; reflexivity).
    rewrite G2. cbn [bind].
    assert (G3 : (if tp_on_bottom layout rank && tp_on_right layout rank then
        if y then copy_corner q2 SOUTHEAST (ISL 0 n, ISL (- n) 0) (ISL (- n - shift) (- shift), ISL (- n) 0) true
        else copy_corner q2 SOUTHEAST (ISL 0 n, ISL (- n) 0) (ISL 0 n, ISL shift (n + shift)) false else Ok q2) = Ok q3) by (rewrite <- E3; destruct y; reflexivity).
    rewrite G3. cbn [bind]. rewrite <- E4. destruct y; reflexivity.
  - eapply filled_ext; [|exact F4]. intros fx fy. rewrite <- (on_corner layout rank fx fy). cbn. destruct fx, fy; split; intros; repeat match goal with H : _ \/ _ |- _ => destruct H | H : _ /\ _ |- _ => destruct H end; try discriminate; try contradiction; auto 10.
Qed.

Theorem corners_x_first q dim0 dims direction layout rank n : q_dims q = dim0 :: dims -> axis_of dim0 <> AxX -> fill_scalar_corners q direction layout rank n = Err ValueError.
Proof. intros E A. unfold fill_scalar_corners. rewrite E, sin_X. destruct (axis_of dim0); [congruence| |]; reflexivity. Qed.
Theorem corners_y_second q dim0 dim1 dims direction layout rank n : q_dims q = dim0 :: dim1 :: dims -> axis_of dim1 <> AxY -> fill_scalar_corners q direction layout rank n = Err ValueError.
Proof. intros E A. unfold fill_scalar_corners. rewrite E, sin_X, sin_Y. destruct (axis_of dim0); [|reflexivity|reflexivity]. destruct (axis_of dim1); [|congruence|]; reflexivity. Qed.
Theorem corners_few q direction layout rank n : (q_dims q = [] \/ exists d, q_dims q = [d] /\ axis_of d = AxX) -> fill_scalar_corners q direction layout rank n = Err IndexError.
Proof. intros [E|(d & E & A)]; unfold fill_scalar_corners; rewrite E; [reflexivity|]. now rewrite sin_X, A. Qed.
Theorem corners_direction q dim0 dim1 dims direction layout rank n : q_dims q = dim0 :: dim1 :: dims -> axis_of dim0 = AxX -> axis_of dim1 = AxY ->
  direction <> "x"%string -> direction <> "y"%string -> fill_scalar_corners q direction layout rank n = Err TypeError.
Proof.
  intros E A B N1 N2. unfold fill_scalar_corners. rewrite E, sin_X, sin_Y, A, B. cbn [negb sin existsb]. apply String.eqb_neq in N1, N2. rewrite N1, N2. reflexivity.
Qed.
End Fill.

(** ** where on the cube the value comes from *)
From Verif.Spec Require Import Cube.
Theorem corner_around n N r sx sy fx fy (y : bool) a b : 1 <= n -> 1 <= N -> 0 <= r < 6 * (n * n) -> (sx = 0 \/ sx = 1) -> (sy = 0 \/ sy = 1) -> on_side (n, n) r fx fy ->
  let shift := if y then sx else sy in
  1 <= a -> 1 <= b -> a + shift <= N -> b + shift <= N ->
  let d := mkXY 0 (N + sx) 0 (N + sy) in
  position n N sy sx r (snd (corner_source d y shift fx fy a b)) (fst (corner_source d y shift fx fy a b)) =
  around y n N sy sx r (snd (corner_point d fx fy a b)) (fst (corner_point d fx fy a b)) <-> sx = sy.
Proof.
  intros Hn HN Hr Hsx Hsy (S1 & S2) shift Ha Hb Hsa Hsb d. cbn [fst snd] in S1, S2.
  assert (Mm : r mod (n * n) mod n = r mod n) by (rewrite Z.rem_mul_r, Z.mul_comm, Z_mod_plus_full, Z.mod_mod by nia; reflexivity).
  rewrite Mm in S1. unfold position, around, place.
  set (t := r / (n * n)) in *. assert (Ht : 0 <= t < 6). { unfold t. split; [apply Z.div_pos; nia|apply Z.div_lt_upper_bound; nia]. }
  rewrite S1, S2. clear S1 S2 Mm Hr. clearbody t. clear r.
  unfold corner_source, corner_point, outside, inside, offset, d. cbn [xo xe yo ye]. set (M := n * N).
  assert (HM : N <= M) by (unfold M; nia).
  (* offsets from the centre, all symbolic in M *)
  assert (U : exists u v u' v', 
    (2 * ((if fx then n - 1 else 0) * N + fst (if y then (if fx then 0 + (N + sx) - 1 - (b - 1 + shift) else 0 + (b - 1 + shift), if fy then 0 + (N + sy) - 1 + a else 0 - a) else (if fx then 0 + (N + sx) - 1 + b else 0 - b, if fy then 0 + (N + sy) - 1 - (a - 1 + shift) else 0 + (a - 1 + shift)))) + 1 - sx - M = u) /\
    (2 * ((if fy then n - 1 else 0) * N + snd (if y then (if fx then 0 + (N + sx) - 1 - (b - 1 + shift) else 0 + (b - 1 + shift), if fy then 0 + (N + sy) - 1 + a else 0 - a) else (if fx then 0 + (N + sx) - 1 + b else 0 - b, if fy then 0 + (N + sy) - 1 - (a - 1 + shift) else 0 + (a - 1 + shift)))) + 1 - sy - M = v) /\
    (2 * ((if fx then n - 1 else 0) * N + (if fx then 0 + (N + sx) - 1 + a else 0 - a)) + 1 - sx - M = u') /\
    (2 * ((if fy then n - 1 else 0) * N + (if fy then 0 + (N + sy) - 1 + b else 0 - b)) + 1 - sy - M = v') /\
    u' = (if fx then M + 2 * a - 1 + sx else - (M + 2 * a - 1 + sx)) /\ v' = (if fy then M + 2 * b - 1 + sy else - (M + 2 * b - 1 + sy)) /\
    u = (if y then (if fx then M - (2 * (b + shift) - 1 - sx) else - (M - (2 * (b + shift) - 1 - sx))) else (if fx then M + 2 * b - 1 + sx else - (M + 2 * b - 1 + sx))) /\
    v = (if y then (if fy then M + 2 * a - 1 + sy else - (M + 2 * a - 1 + sy)) else (if fy then M - (2 * (a + shift) - 1 - sy) else - (M - (2 * (a + shift) - 1 - sy))))).
  { do 4 eexists. split; [reflexivity|]. split; [reflexivity|]. split; [reflexivity|]. split; [reflexivity|]. unfold M. destruct fx, fy, y; cbn [fst snd]; repeat split; ring. }
  destruct U as (u & v & u' & v' & E1 & E2 & E3 & E4 & U' & V' & U & W). cbn [fst snd]. rewrite E1, E2, E3, E4. clear E1 E2 E3 E4. clearbody M.
  assert (S : surf M t u v = Some (if y then vadd (vadd (vscale u (xaxis t)) (vscale (Z.sgn v * M) (yaxis t))) (vscale (2 * M - Z.abs v) (normal t))
                                   else vadd (vadd (vscale (Z.sgn u * M) (xaxis t)) (vscale v (yaxis t))) (vscale (2 * M - Z.abs u) (normal t)))).
  { unfold surf. unfold shift in *. destruct y.
    - replace (Z.abs v <=? M) with false by (destruct fx, fy; lia). rewrite andb_false_r. replace (Z.abs u <=? M) with true by (destruct fx, fy; lia). reflexivity.
    - replace (Z.abs u <=? M) with false by (destruct fx, fy; lia). replace (Z.abs v <=? M) with true by (destruct fx, fy; lia). reflexivity. }
  rewrite S. clear S. 
  assert (K : forall a b : vec, Some a = Some b <-> a = b) by (intros; split; congruence). rewrite K. clear K.
  assert (G : forall p q r p' q' r', vadd (vadd (vscale p (xaxis t)) (vscale q (yaxis t))) (vscale r (normal t)) = vadd (vadd (vscale p' (xaxis t)) (vscale q' (yaxis t))) (vscale r' (normal t)) <-> p = p' /\ q = q' /\ r = r').
  { intros p q r p' q' r'. assert (t = 0 \/ t = 1 \/ t = 2 \/ t = 3 \/ t = 4 \/ t = 5) as T by lia.
    destruct T as [->|[->|[->|[->|[->| ->]]]]]; unfold vadd, vscale, xaxis, yaxis, normal; cbn [Z.eqb Pos.eqb]; split; intros X; [|f_equal; [f_equal|]; lia| |f_equal; [f_equal|]; lia| |f_equal; [f_equal|]; lia| |f_equal; [f_equal|]; lia| |f_equal; [f_equal|]; lia| |f_equal; [f_equal|]; lia];
    apply pair_equal_spec in X; destruct X as (X & X3); apply pair_equal_spec in X; destruct X as (X1 & X2); lia. }
  unfold around_x, around_y, shift in *. destruct y; rewrite G; split; [intros (A & B & C)|intros ->|intros (A & B & C)|intros ->]; destruct fx, fy; lia.
Qed.
