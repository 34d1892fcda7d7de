(** Sent and received arrays have the same shape (C98). *)
From Verif.Base Require Import Base Lemmas.
From Verif.Model Require Import Consts Numpy Quantity Partitioner Rotate Network Communicator.
From Verif.Spec Require Import Grid Cube Halo Lockstep Sync Client Shapes.
From Verif.Proofs Require Import NumpyProofs Boundaries Regions Transfer Phases Scripts Delivery HaloOps HaloResult HaloEffect SyncGeometry SyncViews SyncEffect.
From Coq Require Import ZifyBool.
Ltac Zify.zify_post_hook ::= idtac.

Lemma faces_back n r B r' B' : 1 <= n -> (r < ranks n)%nat -> faces n r B r' B' ->
  In B (blist n r) /\ r' = Z.to_nat (b_to B) /\ (r' < ranks n)%nat /\ In B' (blist n r') /\ B' = back n r B.
Proof.
  intros Hn Hr [F1 F2 F3 F4].
  assert (I : In B (blist n r)) by (eapply in_blist; eauto).
  assert (E : r' = Z.to_nat (b_to B)) by (rewrite F3, Nat2Z.id; reflexivity).
  destruct (back_ok n r B Hn Hr I) as (Ht & I' & T'). rewrite <- E in *.
  assert (I2 : In B' (blist n r')) by (eapply in_blist; eauto).
  split; [exact I|]. split; [reflexivity|]. split; [exact Ht|]. split; [exact I2|]. apply (blist_to_inj n Hn r'); auto. congruence.
Qed.

Theorem faces_exist n r b B : 1 <= n -> (r < ranks n)%nat -> cs_boundary (n, n) b (Z.of_nat r) = Ok (Some B) ->
  b_type B = b /\ exists r' B', (r' < ranks n)%nat /\ faces n r B r' B'.
Proof.
  intros Hn Hr E.
  assert (I : In B (blist n r)) by (eapply in_blist; eauto).
  destruct (boundary_reciprocal n Hn _ _ _ (proj1 (rank_range n Hn r) Hr) E) as (T & _). split; [exact T|].
  destruct (back_ok n r B Hn Hr I) as (Ht & I' & T').
  exists (Z.to_nat (b_to B)), (back n r B). split; [exact Ht|]. constructor.
  - rewrite T. exact E.
  - apply (in_blist_type n Hn); auto.
  - destruct (blist_back n Hn r B Hr I) as (? & _). lia.
  - exact T'.
Qed.

Lemma recv_strip N h len ix iy sy sx ext m B v : 1 <= N -> 0 <= h <= N -> fits N h len ix iy sy sx ext m ->
  recv_view B m h = Ok v -> strip m ix iy h (b_type B) (vshp v).
Proof.
  intros HN Hh F E.
  destruct (boundary_view_ok N h len ix iy HN Hh sy sx ext m F (b_type B) B false eq_refl) as (w & W & S & _).
  assert (w = v) by (unfold recv_view in E; congruence). subst w.
  assert (L : length (mboxes (b_type B) false h m) = len) by apply (length_mboxes N h len ix iy HN Hh sy sx ext m F).
  assert (LV : length (vshp v) = len) by (rewrite S; unfold box_shape; now rewrite map_length).
  unfold strip. rewrite LV, (fit_dims F). split; [reflexivity|]. intros i Hi. rewrite S, nth_box_shape by lia.
  rewrite (fit_ext F i Hi).
  destruct (Nat.eqb_spec i ix) as [-> | Nx].
  - rewrite (box_x N h len ix iy HN Hh sy sx ext m F). unfold hregion. destruct (b_type B); cbn; lia.
  - destruct (Nat.eqb_spec i iy) as [-> | Ny].
    + rewrite (box_y N h len ix iy HN Hh sy sx ext m F). unfold hregion. destruct (b_type B); cbn; lia.
    + rewrite (box_other N h len ix iy HN Hh sy sx ext m F) by auto. cbn. lia.
Qed.

Theorem scalar_shapes n N h len ix iy s ext m r B r' B' : 1 <= n -> 1 <= N -> 1 <= h <= N ->
  (forall r, (r < ranks n)%nat -> fits N h len ix iy s s ext (m r)) ->
  (r < ranks n)%nat -> faces n r B r' B' ->
  exists received cut sent,
    recv_view B (m r) h = Ok received /\ send_view B' (m r') h = Ok cut /\
    rotate_scalar_data cut (m_dims (m r')) (- b_rot B') = Ok sent /\
    vshp sent = vshp received /\ strip (m r) ix iy h (b_type B) (vshp received).
Proof.
  intros Hn HN Hh FF Hr HF. destruct (faces_back n r B r' B' Hn Hr HF) as (I & -> & Ht & I' & EB).
  assert (T' : b_to B' = Z.of_nat r) by apply HF.
  assert (Hh0 : 0 <= h <= N) by lia.
  assert (SW : swap_if (b_rot B) (s, s) = (s, s)) by (unfold swap_if; destruct (b_rot B =? 0); reflexivity).
  assert (F' : fits N h len ix iy (fst (swap_if (b_rot B) (s, s))) (snd (swap_if (b_rot B) (s, s))) ext (m (Z.to_nat (b_to B))))
    by (rewrite SW; exact (FF _ Ht)).
  pose proof (find_xy_fit _ _ _ _ _ _ _ _ _ (FF _ Ht)) as FXY.
  destruct (message_views n N h len ix iy Hn HN Hh0 s s ext (m r) (m (Z.to_nat (b_to B))) r B B' Hr I I' T' (FF r Hr) F' _ FXY) as (v1 & v2 & v3 & E1 & E2 & E3).
  destruct (message n N h len ix iy Hn HN Hh0 s s ext _ _ r B B' Hr I I' T' (FF r Hr) F' _ v1 v2 v3 FXY E1 E2 E3) as (S & _).
  exists v1, v2, v3. repeat (split; [assumption|]). exact (recv_strip N h len ix iy s s ext (m r) B v1 HN Hh0 (FF r Hr) E1).
Qed.

Theorem vector_shapes n N h len ix iy sy sx ext mx my r B r' B' : 1 <= n -> 1 <= N -> 1 <= h <= N ->
  (forall r, (r < ranks n)%nat -> fits N h len ix iy sy sx ext (mx r)) ->
  (forall r, (r < ranks n)%nat -> fits N h len ix iy sx sy ext (my r)) ->
  (r < ranks n)%nat -> faces n r B r' B' ->
  exists xreceived yreceived xcut ycut xfrom xsent xneg yfrom ysent yneg,
    recv_view B (mx r) h = Ok xreceived /\ recv_view B (my r) h = Ok yreceived /\
    send_view B' (mx r') h = Ok xcut /\ send_view B' (my r') h = Ok ycut /\
    rotate_vector_data xcut ycut (- b_rot B') (m_dims (mx r')) = Ok ((xfrom, xsent, xneg), (yfrom, ysent, yneg)) /\
    vshp xsent = vshp xreceived /\ vshp ysent = vshp yreceived /\
    strip (mx r) ix iy h (b_type B) (vshp xreceived) /\ strip (my r) ix iy h (b_type B) (vshp yreceived).
Proof.
  intros Hn HN Hh FX FY Hr HF. destruct (faces_back n r B r' B' Hn Hr HF) as (I & -> & Ht & I' & ->).
  assert (Hh0 : 0 <= h <= N) by lia.
  set (x := fun r => mkH 0 (mx r)). set (y := fun r => mkH 1 (my r)).
  assert (XY : forall r, (r < ranks n)%nat -> h_id (x r) <> h_id (y r)) by (cbn; auto).
  assert (HT : 0 <> 1) by lia.
  destruct (vector_parts Z (fun v => v) 0 n Hn x y h 0 1 N len ix iy sy sx ext HN Hh HT XY FX FY r B false Hr I) as (x1 & x2 & x3 & X1 & X2 & X3 & XS & _).
  destruct (vector_parts Z (fun v => v) 0 n Hn x y h 0 1 N len ix iy sy sx ext HN Hh HT XY FX FY r B true Hr I) as (y1 & y2 & y3 & Y1 & Y2 & Y3 & YS & _).
  pose proof (rotations_back Z (fun v => v) 0 n Hn x y h 0 1 N len ix iy sy sx ext HN Hh HT XY FX FY r B Hr I) as RB.
  unfold from_comp in *. cbn [x y h_meta hd negb] in *.
  assert (PX : strip (mx r) ix iy h (b_type B) (vshp x1)) by exact (recv_strip N h len ix iy sy sx ext (mx r) B x1 HN Hh0 (FX r Hr) X1).
  assert (PY : strip (my r) ix iy h (b_type B) (vshp y1)) by exact (recv_strip N h len ix iy sx sy ext (my r) B y1 HN Hh0 (FY r Hr) Y1).
  destruct RB as [[Q Q']|[[Q Q']|[Q Q']]]; rewrite Q in *; cbn [Z.eqb negb hd h_meta] in *.
  - exists x1, y1, x2, y2. do 6 eexists. repeat (split; [eassumption|]). split; [unfold rotate_vector_data; rewrite X3, Y3, Q'; reflexivity|].
    repeat (split; [eassumption|]). exact PY.
  - exists x1, y1, y2, x2. do 6 eexists. repeat (split; [eassumption|]). split; [unfold rotate_vector_data; rewrite X3, Y3, Q'; reflexivity|].
    repeat (split; [eassumption|]). exact PY.
  - exists x1, y1, y2, x2. do 6 eexists. repeat (split; [eassumption|]). split; [unfold rotate_vector_data; rewrite X3, Y3, Q'; reflexivity|].
    repeat (split; [eassumption|]). exact PY.
Qed.

Theorem interface_shapes n N len ix iy ext mx my r south west : 1 <= n -> 1 <= N ->
  ((ix = 0 /\ iy = 1) \/ (ix = 1 /\ iy = 0))%nat ->
  (forall r, (r < ranks n)%nat -> fits N 0 len ix iy 1 0 ext (mx r)) ->
  (forall r, (r < ranks n)%nat -> fits N 0 len ix iy 0 1 ext (my r)) ->
  (r < ranks n)%nat -> cs_boundary (n, n) SOUTH (Z.of_nat r) = Ok (Some south) -> cs_boundary (n, n) WEST (Z.of_nat r) = Ok (Some west) ->
  let shape := N :: map ext (seq 2 (len - 2)) in
  exists northern eastern s s' w w',
    edge_selection (mx r) (VCorner NORTHWEST) Y_INTERFACE_DIM (-1) X_DIM = Ok northern /\ vshp northern = shape /\
    edge_selection (my r) (VCorner SOUTHEAST) X_INTERFACE_DIM (-1) Y_DIM = Ok eastern /\ vshp eastern = shape /\
    edge_selection (mx r) (VCorner SOUTHWEST) Y_INTERFACE_DIM 0 X_DIM = Ok s /\
    rotate_scalar_data s [X_DIM] (- b_rot south) = Ok s' /\ vshp s' = shape /\
    edge_selection (my r) (VCorner SOUTHWEST) X_INTERFACE_DIM 0 Y_DIM = Ok w /\
    rotate_scalar_data w [Y_DIM] (- b_rot west) = Ok w' /\ vshp w' = shape.
Proof.
  intros Hn HN AXES FX FY Hr ES EW shape.
  set (x := fun r => mkH 0 (mx r)). set (y := fun r => mkH 1 (my r)).
  assert (XY : forall r, (r < ranks n)%nat -> h_id (x r) <> h_id (y r)) by (cbn; auto).
  assert (IS : bd n SOUTH r = south).
  { destruct (bd_ok n Hn r SOUTH Hr ltac:(cbn; auto)) as (_ & I & T). apply (in_blist_type n Hn) in I; auto. rewrite T in I. congruence. }
  assert (IW : bd n WEST r = west).
  { destruct (bd_ok n Hn r WEST Hr ltac:(cbn; auto)) as (_ & I & T). apply (in_blist_type n Hn) in I; auto. rewrite T in I. congruence. }
  assert (FS' : forall c : bool, fits N 0 len ix iy (if c then 0 else 1) (if c then 1 else 0) ext (h_meta (sq x y c r))) by (intros []; cbn; auto).
  destruct (recv_edge Z (fun v => v) 0 n Hn x y 0 N len ix iy ext HN AXES XY FX FY false r Hr) as (nv & N1 & N2).
  destruct (recv_edge Z (fun v => v) 0 n Hn x y 0 N len ix iy ext HN AXES XY FX FY true r Hr) as (ev & E1 & E2).
  pose proof (south_west_rot Z (fun v => v) 0 n Hn x y 0 N len ix iy ext HN AXES XY FX FY) as SW.
  destruct (send_edge Z (fun v => v) 0 n Hn x y 0 N len ix iy ext HN AXES XY FX FY false r _ Hr (SW false r Hr)) as (s & s' & S1 & S2 & S3 & S4).
  destruct (send_edge Z (fun v => v) 0 n Hn x y 0 N len ix iy ext HN AXES XY FX FY true r _ Hr (SW true r Hr)) as (w & w' & W1 & W2 & W3 & W4).
  cbn [sdir] in *. rewrite IS in *. rewrite IW in *.
  unfold sent_edge in S2, W2. rewrite S1 in S2. rewrite W1 in W2. cbn [bind] in S2, W2.
  exists nv, ev, s, s', w, w'.
  split; [exact N1|]. split; [exact (edge_shape N len ix iy HN AXES false ext _ (FS' false) N nv N2 ltac:(lia))|].
  split; [exact E1|]. split; [exact (edge_shape N len ix iy HN AXES true ext _ (FS' true) N ev E2 ltac:(lia))|].
  split; [exact S1|]. split; [exact S2|].
  split. { rewrite S4. pose proof (edge_shape N len ix iy HN AXES false ext _ (FS' false) 0 s S3 ltac:(lia)) as Q. destruct (b_rot south =? 0); exact Q. }
  split; [exact W1|]. split; [exact W2|].
  rewrite W4. pose proof (edge_shape N len ix iy HN AXES true ext _ (FS' true) 0 w W3 ltac:(lia)) as Q. destruct (b_rot west =? 0); exact Q.
Qed.

(** ** a scalar staggered in one horizontal direction only *)
Definition shx_m (d1 d2 : string) (e1 e2 : Z) : meta := mkMeta [d1; d2] [1; 1] [e1; e2] [e1 + 2; e2 + 2].
Lemma shx_fits h d1 d2 s1 s2 : h <= 1 -> (axis_of d1, stag d1) = (AxY, s1) -> (axis_of d2, stag d2) = (AxX, s2) -> 0 <= s1 -> 0 <= s2 ->
  fits 3 h 2 1 0 s1 s2 (fun _ => 0) (shx_m d1 d2 (3 + s1) (3 + s2)).
Proof.
  intros Hh E1 E2 P1 P2. injection E1 as A1 S1. injection E2 as A2 S2.
  constructor; try lia; try reflexivity; try assumption.
  - intros [|[|i]] Hi; [exact A1|exact A2|lia].
  - intros [|[|i]] Hi; [reflexivity|reflexivity|lia].
  - intros [|[|i]] Hi; unfold xat, shx_m; cbn [m_origin m_extent m_shape nth]; lia.
  - intros i [-> | ->]; unfold xat, shx_m; cbn [m_origin m_extent m_shape nth]; lia.
Qed.

Theorem one_way_refuted : ~ (forall n N h len ix iy sy sx ext m r B r' B' received cut sent, 1 <= n -> 1 <= N -> 1 <= h <= N ->
  (forall r, (r < ranks n)%nat -> fits N h len ix iy sy sx ext (m r)) ->
  (r < ranks n)%nat -> faces n r B r' B' ->
  recv_view B (m r) h = Ok received -> send_view B' (m r') h = Ok cut ->
  rotate_scalar_data cut (m_dims (m r')) (- b_rot B') = Ok sent -> vshp sent = vshp received).
Proof.
  intros C.
  set (m := shx_m Y_DIM X_INTERFACE_DIM 3 4).
  assert (F : fits 3 1 2 1 0 0 1 (fun _ => 0) m) by (apply (shx_fits 1 Y_DIM X_INTERFACE_DIM 0 1); try reflexivity; lia).
  set (B := mkB NORTH 0 2 3). set (B' := mkB WEST 2 0 1).
  assert (FA : faces 1 0 B 2 B') by (constructor; vm_compute; reflexivity).
  destruct (recv_view B m 1) as [v1|] eqn:E1; [|vm_compute in E1; discriminate].
  destruct (send_view B' m 1) as [v2|] eqn:E2; [|vm_compute in E2; discriminate].
  destruct (rotate_scalar_data v2 (m_dims m) (- b_rot B')) as [v3|] eqn:E3.
  - specialize (C 1 3 1 2%nat 1%nat 0%nat 0 1 (fun _ => 0) (fun _ => m) 0%nat B 2%nat B' v1 v2 v3
      ltac:(lia) ltac:(lia) ltac:(lia) (fun _ _ => F) ltac:(cbn; lia) FA E1 E2 E3).
    vm_compute in E1. injection E1 as <-. vm_compute in E2. injection E2 as <-. vm_compute in E3. injection E3 as <-. discriminate C.
  - vm_compute in E2. injection E2 as <-. vm_compute in E3. discriminate.
Qed.
