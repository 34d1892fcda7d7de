(** The edges exchanged by interface synchronisation (C18). *)
From Verif.Base Require Import Base Lemmas.
From Verif.Model Require Import Consts Numpy Quantity Partitioner Rotate Network Communicator.
From Verif.Spec Require Import Grid Cube Halo Lockstep Sync Client.
From Verif.Proofs Require Import NumpyProofs Regions.
From Coq Require Import ZifyBool.

Lemma name_y_interface d : axis_of d = AxY -> stag d = 1 -> d = Y_INTERFACE_DIM.
Proof.
  unfold axis_of, stag, Y_INTERFACE_DIM. intros A S.
  destruct (String.eqb_spec d "x"); [discriminate|]. destruct (String.eqb_spec d "x_interface"); [discriminate|].
  destruct (String.eqb_spec d "y"); [subst; discriminate|]. destruct (String.eqb_spec d "y_interface"); [auto|discriminate].
Qed.
Lemma name_y d : axis_of d = AxY -> stag d = 0 -> d = Y_DIM.
Proof.
  unfold axis_of, stag, Y_DIM. intros A S.
  destruct (String.eqb_spec d "x"); [discriminate|]. destruct (String.eqb_spec d "x_interface"); [discriminate|].
  destruct (String.eqb_spec d "y"); auto. destruct (String.eqb_spec d "y_interface"); discriminate.
Qed.
Lemma name_x_interface d : axis_of d = AxX -> stag d = 1 -> d = X_INTERFACE_DIM.
Proof.
  unfold axis_of, stag, X_INTERFACE_DIM. intros A S.
  destruct (String.eqb_spec d "x"); [subst; discriminate|]. destruct (String.eqb_spec d "x_interface"); auto.
  destruct (String.eqb_spec d "y"); [discriminate|]. destruct (String.eqb_spec d "y_interface"); discriminate.
Qed.
Lemma name_x d : axis_of d = AxX -> stag d = 0 -> d = X_DIM.
Proof.
  unfold axis_of, stag, X_DIM. intros A S.
  destruct (String.eqb_spec d "x"); auto. destruct (String.eqb_spec d "x_interface"); [discriminate|].
  destruct (String.eqb_spec d "y"); [discriminate|]. destruct (String.eqb_spec d "y_interface"); discriminate.
Qed.

Lemma other_names d : axis_of d = AxOther -> d <> X_DIM /\ d <> Y_DIM /\ d <> X_INTERFACE_DIM /\ d <> Y_INTERFACE_DIM.
Proof. intros A. repeat split; intros ->; discriminate. Qed.

Lemma at_start_other b d : axis_of d = AxOther -> boundary_at_start_of_dim b d = None.
Proof.
  intros A. destruct (other_names d A) as (N1 & N2 & N3 & N4). unfold boundary_at_start_of_dim.
  destruct b; cbn [at_start_mapping app dget];
  repeat match goal with |- context [String.eqb d ?s] => destruct (String.eqb_spec d s); [contradiction|] end; reflexivity.
Qed.

(** selection along the remaining dimensions *)
Lemma tail_shift b e1 e2 f a : forall dr org er : list _,
  length org = length dr -> length er = length dr -> (forall d, In d dr -> axis_of d = AxOther) ->
  axis_of f <> AxOther -> axis_of a <> AxOther ->
  shift_boundary_slice_tuple dr org er (VCorner b) (map (fun d => match dget d [(f, e1); (a, e2)] with Some e => e | None => IALL end) dr)
  = Ok (map (fun se => ISL (fst se) (snd se)) (map2 (fun o e => (o, o + e)) org er)).
Proof.
  induction dr as [|d dr IH]; intros [|o org] [|x er] L1 L2 A Nf Na; try discriminate; [reflexivity|].
  cbn [map shift_boundary_slice_tuple map2]. specialize (A d (or_introl eq_refl)) as Ad.
  cbn [dget]. destruct (String.eqb_spec d f); [congruence|]. destruct (String.eqb_spec d a); [congruence|].
  unfold shift_boundary_slice, get_offset. rewrite at_start_other by auto. cbn [IALL bound_default_slice bind].
  rewrite IH; auto. simpl in A. auto.
Qed.

Definition edge_of (c recv : bool) (m : meta) : res view :=
  if c then edge_selection m (VCorner (if recv then SOUTHEAST else SOUTHWEST)) X_INTERFACE_DIM (if recv then -1 else 0) Y_DIM
  else edge_selection m (VCorner (if recv then NORTHWEST else SOUTHWEST)) Y_INTERFACE_DIM (if recv then -1 else 0) X_DIM.

(** [v] runs through the points of the compute domain with index [t] along axis [fx]; its first axis is [al] *)
Definition is_edge (m : meta) (fx al : nat) (t : Z) (v : view) : Prop :=
  vshp v = xat (m_extent m) al :: skipn 2 (m_extent m) /\
  forall p, length p = length (vshp v) ->
    length (vmap v p) = length (m_dims m) /\ rel m (vmap v p) fx = t /\ rel m (vmap v p) al = xat p 0 /\
    forall i, (2 <= i < length (m_dims m))%nat -> rel m (vmap v p) i = xat p (i - 1).

Section Views.
Variables (N : Z) (len ix iy : nat).
Hypothesis HN : 1 <= N.
Hypothesis XY : ((ix = 0 /\ iy = 1) \/ (ix = 1 /\ iy = 0))%nat.
Variables (c : bool) (ext : nat -> Z) (m : meta).
Hypothesis F : fits N 0 len ix iy (if c then 0 else 1) (if c then 1 else 0) ext m.
Set Default Proof Using "All".
Let fx := if c then ix else iy.
Let al := if c then iy else ix.

Lemma edge_names : nth fx (m_dims m) EmptyString = (if c then X_INTERFACE_DIM else Y_INTERFACE_DIM) /\
  nth al (m_dims m) EmptyString = (if c then Y_DIM else X_DIM).
Proof.
  pose proof (fit_axis F ix (fit_ix F)) as Ax. pose proof (fit_axis F iy (fit_iy F)) as Ay.
  rewrite Nat.eqb_refl in Ax, Ay. pose proof (fit_xy F) as NE. destruct (Nat.eqb_spec iy ix); [congruence|].
  pose proof (fit_sx F) as Sx. pose proof (fit_sy F) as Sy. unfold fx, al. destruct c; split; auto using name_x, name_x_interface, name_y, name_y_interface.
Qed.

Lemma edge_view recv : exists v, edge_of c recv m = Ok v /\ is_edge m fx al (if recv then N else 0) v.
Proof.
  pose proof edge_names as [Nf Na]. pose proof (fit_ix F) as Hx. pose proof (fit_iy F) as Hy.
  pose proof (fit_dims F) as Ld. pose proof (fit_origin F) as Lo. pose proof (fit_extent F) as Le. pose proof (fit_shape F) as Ls.
  assert (OTH : forall i, (2 <= i < len)%nat -> axis_of (nth i (m_dims m) EmptyString) = AxOther).
  { intros i Hi. rewrite (fit_axis F) by lia. destruct (Nat.eqb_spec i ix); [lia|]. destruct (Nat.eqb_spec i iy); [lia|]. reflexivity. }
  pose proof (fit_dom F) as DOM.
  assert (EF : xat (m_extent m) fx = N + 1). { rewrite (fit_ext F) by (unfold fx; destruct c; lia). unfold fx. pose proof (fit_xy F). destruct c.
    - now rewrite Nat.eqb_refl. - destruct (Nat.eqb_spec iy ix); [congruence|]. now rewrite Nat.eqb_refl. }
  destruct m as [dims org xt sh]; cbn [m_dims m_origin m_extent m_shape] in *.
  destruct dims as [|d0 [|d1 dr]]; cbn [length] in Ld; try lia.
  destruct org as [|o0 [|o1 org]]; cbn [length] in Lo; try lia.
  destruct xt as [|x0 [|x1 xt]]; cbn [length] in Le; try lia.
  destruct sh as [|s0 [|s1 sh]]; cbn [length] in Ls; try lia.
  assert (OT : forall d, In d dr -> axis_of d = AxOther).
  { intros d I. apply In_nth with (d := EmptyString) in I. destruct I as (i & Hi & <-). exact (OTH (S (S i)) ltac:(lia)). }
  pose proof (DOM 0%nat ltac:(lia)) as D0. pose proof (DOM 1%nat ltac:(lia)) as D1. unfold xat in D0, D1. cbn [nth] in D0, D1.
  assert (TB : Forall2 in_axis sh (map2 (fun o e => (o, o + e)) org xt)).
  { apply (Forall2_nth _ _ _ 0 (0, 0)). rewrite length_map2. split; [lia|]. intros i Hi. rewrite (nth_map2 _ _ _ _ 0 0) by lia.
    specialize (DOM (S (S i)) ltac:(lia)). unfold xat in DOM. cbn [nth] in DOM. unfold in_axis. cbn [fst snd]. lia. }
  destruct (index_box _ _ TB) as (g & G1 & G2).
  assert (GL : length (map2 (fun o e : Z => (o, o + e)) org xt) = length dr) by (rewrite length_map2; lia).
  assert (GS : map (fun se => snd se - fst se) (map2 (fun o e : Z => (o, o + e)) org xt) = xt).
  { clear -Lo Le. assert (length org = length xt) by lia. clear Lo Le. revert xt H. induction org; destruct xt; simpl; intros H; try discriminate; auto.
    f_equal; [lia|]. apply IHorg. lia. }
  rewrite GS in G1.
  assert (GV : forall p i, length p = length dr -> (i < length dr)%nat -> nth i (g p) 0 = nth i org 0 + nth i p 0).
  { intros p i Lp Hi. rewrite G2 by lia. rewrite (nth_map2 _ _ _ _ (0, 0) 0) by lia. rewrite (nth_map2 _ _ _ _ 0 0) by lia. reflexivity. }
  assert (GLn : forall p, length p = length dr -> length (g p) = length dr).
  { intros p Lp. rewrite G2 by lia. rewrite length_map2. lia. }
  clear G2.
  destruct XY as [[Ex Ey]|[Ex Ey]]; unfold fx, al in *; clear fx al; destruct c; cbn [nth] in *; rewrite ?Ex, ?Ey in *; cbn [nth] in *; subst d0 d1;
    unfold edge_of, edge_selection, corner_sel, corner_index, sel_index, get_array_index; cbn [m_origin m_dims m_extent m_shape index_list];
    rewrite map_length, Nat.ltb_irrefl, Nat.sub_diag; cbn [repeat]; rewrite app_nil_r; cbn [map shift_boundary_slice_tuple];
    rewrite tail_shift by (auto; try lia; discriminate);
    unfold xat in EF; cbn [nth] in EF;
    destruct recv; cbn -[Z.add index_apply nth rel xat]; rewrite ?EF in *;
    unfold v_index, v_whole; cbn [index_apply vshp ISL extent_of dindex m_dims m_extent String.eqb Ascii.eqb Bool.eqb nth];
    repeat match goal with |- context [String.eqb ?a ?b] => let v := eval vm_compute in (String.eqb a b) in change (String.eqb a b) with v end;
    cbn [bound_default_slice];
    (rewrite slice_norm_inside by lia);
    match goal with |- context [(- ?s <=? ?a) && (?a <? ?s)] => replace ((- s <=? a) && (a <? s)) with true by lia end;
    cbn [bind]; rewrite G1; cbn [bind];
    eexists; (split; [reflexivity|]).
  all: split; [cbn [vshp m_extent skipn]; unfold xat; cbn [nth]; f_equal; lia|].
  all: cbn [vshp vmap m_dims length]; intros p Lp.
  all: assert (Lt : length (tl p) = length dr) by (destruct p; cbn in Lp |- *; lia).
  all: assert (Ep : List.hd 0 p = xat p 0) by (destruct p; reflexivity).
  all: assert (Et : forall i, nth i (tl p) 0 = xat p (S i)) by (intros i; destruct p; [destruct i|]; reflexivity).
  all: (split; [cbn [length]; rewrite GLn by auto; reflexivity|]).
  all: unfold rel, xat; cbn [m_origin nth].
  all: match goal with |- context [if ?a <? 0 then _ else _] => replace (a <? 0) with false by lia end.
  all: rewrite ?Ep; (split; [lia|]); (split; [unfold xat; lia|]).
  all: intros [|[|i]] Hi; try lia; cbn [nth]; rewrite GV by (auto; lia); rewrite Et; unfold xat; cbn [Nat.sub nth]; lia.
Qed.

Variables (t : Z) (v : view).
Hypothesis E : is_edge m fx al t v.
Hypothesis Ht : 0 <= t < N + 1.

Lemma axes i : (i < len)%nat -> i = fx \/ i = al \/ (2 <= i)%nat.
Proof. intros Hi. unfold fx, al. destruct c; lia. Qed.

Lemma edge_ext : xat (m_extent m) fx = N + 1 /\ xat (m_extent m) al = N /\ forall i, (2 <= i < len)%nat -> xat (m_extent m) i = ext i.
Proof.
  pose proof (fit_xy F). pose proof (fit_ix F). pose proof (fit_iy F).
  split; [|split].
  - rewrite (fit_ext F) by (unfold fx; destruct c; lia). unfold fx. destruct c; rewrite ?Nat.eqb_refl; auto. destruct (Nat.eqb_spec iy ix); [congruence|reflexivity].
  - rewrite (fit_ext F) by (unfold al; destruct c; lia). unfold al. destruct c; rewrite ?Nat.eqb_refl; [destruct (Nat.eqb_spec iy ix); [congruence|]|]; lia.
  - intros i Hi. rewrite (fit_ext F) by lia. destruct (Nat.eqb_spec i ix); [lia|]. destruct (Nat.eqb_spec i iy); [lia|]. reflexivity.
Qed.

Lemma edge_shape : vshp v = N :: map ext (seq 2 (len - 2)).
Proof.
  destruct E as [-> _]. destruct edge_ext as (_ & -> & X). f_equal. pose proof (fit_extent F) as Le. pose proof (fit_ix F). pose proof (fit_iy F).
  apply nth_eq with 0; rewrite skipn_length, Le.
  - rewrite map_length, seq_length. lia.
  - intros i Hi. rewrite nth_indep with (l := map _ _) (d' := ext 0%nat) by (rewrite map_length, seq_length; lia).
    rewrite map_nth, seq_nth by lia. rewrite <- X by lia. unfold xat. clear -Hi. generalize (m_extent m) as l. intros l. rewrite <- (firstn_skipn 2 l) at 2.
    destruct l as [|a [|b l]]; try reflexivity; cbn; try (destruct i; reflexivity).
Qed.

Lemma edge_points j : in_domain m j /\ rel m j fx = t <-> exists p, in_shape (vshp v) p /\ vmap v p = j.
Proof.
  pose proof edge_shape as S. destruct E as [_ M]. destruct edge_ext as (X1 & X2 & X3). pose proof (fit_dims F) as Ld.
  pose proof (fit_ix F). pose proof (fit_iy F). assert (LS : length (vshp v) = (len - 1)%nat) by (rewrite S; cbn; rewrite map_length, seq_length; lia).
  assert (XS : forall i, (2 <= i < len)%nat -> xat (vshp v) (i - 1) = ext i).
  { intros i Hi. rewrite S. unfold xat. replace (i - 1)%nat with (Datatypes.S (i - 2)) by lia. cbn [nth].
    rewrite nth_indep with (d' := ext 0%nat) by (rewrite map_length, seq_length; lia). rewrite map_nth, seq_nth by lia. f_equal. lia. }
  assert (X0 : xat (vshp v) 0 = N) by (rewrite S; reflexivity).
  split.
  - intros [[Lj D] Q]. rewrite ?Ld in *.
    set (p := rel m j al :: map (rel m j) (seq 2 (len - 2))).
    assert (Lp : length p = length (vshp v)) by (unfold p; cbn; rewrite map_length, seq_length; lia).
    assert (Xp : forall i, (2 <= i < len)%nat -> xat p (i - 1) = rel m j i).
    { intros i Hi. unfold p, xat. replace (i - 1)%nat with (Datatypes.S (i - 2)) by lia. cbn [nth].
      rewrite nth_indep with (d' := rel m j 0%nat) by (rewrite map_length, seq_length; lia). rewrite map_nth, seq_nth by lia. f_equal. lia. }
    exists p. split.
    + apply in_shape_nth. split; auto. intros i Hi. destruct i as [|i].
      * rewrite X0. change (xat p 0) with (rel m j al). rewrite <- X2. apply D. unfold al. destruct c; lia.
      * specialize (XS (Datatypes.S (Datatypes.S i)) ltac:(lia)). specialize (Xp (Datatypes.S (Datatypes.S i)) ltac:(lia)). cbn [Nat.sub] in XS, Xp. rewrite XS, Xp. rewrite <- X3 by lia. apply D. lia.
    + destruct (M p Lp) as (Lv & M1 & M2 & M3). rewrite ?Ld in *. apply nth_eq with 0; [lia|]. intros i Hi.
      assert (Q2 : rel m (vmap v p) i = rel m j i).
      { destruct (axes i ltac:(lia)) as [-> | [-> | G]]; [congruence|rewrite M2; reflexivity|]. rewrite M3 by lia. apply Xp. lia. }
      unfold rel, xat in Q2. lia.
  - intros (p & P & <-). apply in_shape_nth in P. destruct P as [Lp P]. destruct (M p Lp) as (Lv & M1 & M2 & M3). split; auto. split; auto.
    rewrite ?Ld in *. intros i Hi. destruct (axes i Hi) as [-> | [-> | G]].
    + rewrite M1, X1. lia.
    + rewrite M2, X2. rewrite <- X0. apply P. lia.
    + rewrite M3 by lia. rewrite X3, <- XS by lia. apply P. lia.
Qed.

Lemma edge_inj : inj_view v.
Proof.
  destruct E as [_ M]. pose proof edge_shape as S. pose proof (fit_dims F) as Ld. pose proof (fit_ix F). pose proof (fit_iy F). intros p q P Q Epq.
  apply in_shape_length in P, Q. destruct (M p P) as (_ & _ & M2 & M3). destruct (M q Q) as (_ & _ & M2' & M3').
  assert (LS : length (vshp v) = (len - 1)%nat) by (rewrite S; cbn; rewrite map_length, seq_length; lia).
  apply nth_eq with 0; [lia|]. intros i Hi. rewrite Epq in *. destruct i as [|i].
  - unfold xat in *. congruence.
  - specialize (M3 (Datatypes.S (Datatypes.S i)) ltac:(lia)). specialize (M3' (Datatypes.S (Datatypes.S i)) ltac:(lia)). cbn [Nat.sub] in *. unfold xat in *. congruence.
Qed.
End Views.

Lemma is_edge_flip m fx al t v : is_edge m fx al t v ->
  vshp (v_flip v 0) = vshp v /\
  forall p, length p = length (vshp v) -> length (vmap (v_flip v 0) p) = length (m_dims m) /\ rel m (vmap (v_flip v 0) p) fx = t /\
    rel m (vmap (v_flip v 0) p) al = xat (vshp v) 0 - 1 - xat p 0 /\
    forall i, (2 <= i < length (m_dims m))%nat -> rel m (vmap (v_flip v 0) p) i = xat p (i - 1).
Proof.
  intros [S M]. split; auto. intros p Lp. unfold v_flip, i_flip. cbn [vmap].
  destruct (M (upd p 0 (nth 0 (vshp v) 0 - 1 - nth 0 p 0))) as (M0 & M1 & M2 & M3); [now rewrite length_upd|].
  split; auto. split; auto. split.
  - rewrite M2. unfold xat. rewrite nth_upd_eq; auto. rewrite Lp, S. cbn. lia.
  - intros i Hi. rewrite M3 by auto. unfold xat. rewrite nth_upd_neq; auto. lia.
Qed.
