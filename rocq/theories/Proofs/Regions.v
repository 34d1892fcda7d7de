(** Boundary regions of an array (C29) and the views used for sending and receiving. *)
From Verif.Base Require Import Base Lemmas.
From Verif.Model Require Import Consts Numpy Quantity Partitioner Rotate.
From Verif.Spec Require Import Grid Cube Halo.
From Verif.Proofs Require Import Slices NumpyProofs.
From Coq Require Import ZifyBool.
Ltac Zify.zify_post_hook ::= idtac.

(** direction of a boundary along a dimension: -1 start, 1 end, 0 not involved *)
Definition toward (b : btype) (d : string) : Z := along d (heading b) 0.

Lemma at_start_toward b d : boundary_at_start_of_dim b d =
  if toward b d =? 0 then None else Some (toward b d <? 0).
Proof.
  unfold boundary_at_start_of_dim, at_start_mapping, toward, along, axis_of.
  unfold X_DIM, X_INTERFACE_DIM, Y_DIM, Y_INTERFACE_DIM.
  destruct b; cbn [app dget heading fst snd];
  destruct (String.eqb_spec d "x"); subst; try reflexivity;
  destruct (String.eqb_spec d "x_interface"); subst; try reflexivity;
  destruct (String.eqb_spec d "y"); subst; try reflexivity;
  destruct (String.eqb_spec d "y_interface"); subst; reflexivity.
Qed.

Lemma toward_cases b d : toward b d = 0 \/ toward b d = 1 \/ toward b d = -1.
Proof. unfold toward, along. destruct b, (axis_of d); simpl; auto. Qed.

Lemma toward_other b d : axis_of d = AxOther -> toward b d = 0.
Proof. unfold toward, along. now intros ->. Qed.
Lemma toward_X b d : axis_of d = AxX -> toward b d = snd (heading b).
Proof. unfold toward, along. now intros ->. Qed.
Lemma toward_Y b d : axis_of d = AxY -> toward b d = fst (heading b).
Proof. unfold toward, along. now intros ->. Qed.

(** the points sent (interior) or received along one dimension *)
Definition region (b : btype) (interior : bool) (h : Z) (d : string) (o e : Z) : Z * Z :=
  let c := toward b d in let s := stag d in
  if c =? 0 then (o, o + e)
  else if c <? 0 then (if interior then (o + s, o + s + h) else (o - h, o))
  else (if interior then (o + e - s - h, o + e - s) else (o + e, o + e + h)).

Lemma boundary_slice_1d_eq d o e s b h interior : boundary_slice_1d d o e s b h interior =
  (if fst (region b interior h d o e) <? 0 then Err OutOfBoundsError
   else if s <? snd (region b interior h d o e) then Err OutOfBoundsError
   else Ok (region b interior h d o e)).
Proof.
  unfold boundary_slice_1d, region. rewrite sin_I, sin_H, at_start_toward.
  destruct (axis_of d) eqn:A.
  3:{ rewrite (toward_other b d A). reflexivity. }
  all: cbn [negb]; destruct (toward_cases b d) as [-> | [-> | ->]]; cbn [Z.eqb Z.ltb Z.compare Pos.compare Pos.compare_cont CompOpp];
       destruct interior; destruct (stag_01 d) as [SG | SG]; rewrite ?SG; cbn [Z.eqb Pos.eqb fst snd]; rewrite ?Z.sub_0_r, ?Z.add_0_r;
       repeat (match goal with |- context [if ?c then _ else _] => destruct c eqn:? end); try reflexivity;
       try (f_equal; f_equal; lia); try lia.
Qed.

Fixpoint boxes (b : btype) (interior : bool) (h : Z) (dims : list string) (origin extent : list Z) : list (Z * Z) :=
  match dims, origin, extent with
  | d :: dims', o :: origin', e :: extent' => region b interior h d o e :: boxes b interior h dims' origin' extent'
  | _, _, _ => []
  end.

Lemma length_boxes b interior h dims origin extent : length origin = length dims -> length extent = length dims ->
  length (boxes b interior h dims origin extent) = length dims.
Proof. revert origin extent; induction dims; destruct origin, extent; simpl; intros; try lia. rewrite IHdims; lia. Qed.

Lemma nth_boxes b interior h dims origin extent i : length origin = length dims -> length extent = length dims ->
  (i < length dims)%nat -> nth i (boxes b interior h dims origin extent) (0, 0) =
  region b interior h (nth i dims EmptyString) (nth i origin 0) (nth i extent 0).
Proof.
  revert origin extent i; induction dims; destruct origin, extent; simpl; intros; try lia.
  destruct i; auto. apply IHdims; lia.
Qed.

(** the slices exist iff all stay inside the array *)
Lemma get_boundary_slice_ok dims origin extent shape b h interior :
  length origin = length dims -> length extent = length dims -> length shape = length dims ->
  (forall i, (i < length dims)%nat -> 0 <= fst (nth i (boxes b interior h dims origin extent) (0, 0)) /\
      snd (nth i (boxes b interior h dims origin extent) (0, 0)) <= nth i shape 0) ->
  get_boundary_slice dims origin extent shape b h interior = Ok (boxes b interior h dims origin extent).
Proof.
  revert origin extent shape; induction dims as [|d dims IH]; destruct origin, extent, shape; simpl; intros L1 L2 L3 H; try lia; auto.
  rewrite boundary_slice_1d_eq. destruct (H O ltac:(lia)) as [A B]. simpl in A, B.
  destruct (Z.ltb_spec (fst (region b interior h d z z0)) 0); [lia|].
  destruct (Z.ltb_spec z1 (snd (region b interior h d z z0))); [lia|]. cbn [bind].
  rewrite IH; auto. intros i Hi. apply (H (S i)). lia.
Qed.

Lemma get_boundary_slice_err dims origin extent shape b h interior :
  length origin = length dims -> length extent = length dims -> length shape = length dims ->
  (exists i, (i < length dims)%nat /\ (fst (nth i (boxes b interior h dims origin extent) (0, 0)) < 0 \/
      nth i shape 0 < snd (nth i (boxes b interior h dims origin extent) (0, 0)))) ->
  get_boundary_slice dims origin extent shape b h interior = Err OutOfBoundsError.
Proof.
  revert origin extent shape; induction dims as [|d dims IH]; destruct origin, extent, shape; simpl; intros L1 L2 L3 (i & Hi & H); try lia; auto.
  rewrite boundary_slice_1d_eq.
  destruct (Z.ltb_spec (fst (region b interior h d z z0)) 0); auto.
  destruct (Z.ltb_spec z1 (snd (region b interior h d z z0))); auto. cbn [bind].
  rewrite IH; auto. destruct i; simpl in H; [lia|]. exists i. split; [lia|auto].
Qed.

Definition mboxes (b : btype) (interior : bool) (h : Z) (m : meta) : list (Z * Z) :=
  boxes b interior h (m_dims m) (m_origin m) (m_extent m).

Lemma in_box_nth bx p : in_box bx p <-> length p = length bx /\
  forall i, (i < length bx)%nat -> fst (nth i bx (0, 0)) <= xat p i < snd (nth i bx (0, 0)).
Proof. unfold in_box, xat. rewrite (Forall2_nth _ _ _ (0, 0) 0). intuition. Qed.

Lemma in_shape_nth s p : in_shape s p <-> length p = length s /\
  forall i, (i < length s)%nat -> 0 <= xat p i < xat s i.
Proof. unfold in_shape, xat. rewrite (Forall2_nth _ _ _ 0 0). intuition. Qed.

Lemma nth_box_shape bx i : (i < length bx)%nat -> xat (box_shape bx) i = snd (nth i bx (0, 0)) - fst (nth i bx (0, 0)).
Proof.
  intros H. unfold xat, box_shape. rewrite nth_indep with (d' := (fun se => snd se - fst se) (0, 0)) by (now rewrite map_length).
  now rewrite (map_nth (fun se : Z * Z => snd se - fst se)).
Qed.

Section Fit.
Variables (N h : Z) (len ix iy : nat).
Hypothesis HN : 1 <= N.
Hypothesis Hh : 0 <= h <= N.
Variables (sy sx : Z) (ext : nat -> Z) (m : meta).
Hypothesis F : fits N h len ix iy sy sx ext m.

Set Default Proof Using "All".
Let Hix := fit_ix F.
Let Hiy := fit_iy F.
Let Hxy := fit_xy F.
Let Ld := fit_dims F.
Let Lo := fit_origin F.
Let Le := fit_extent F.
Let Ls := fit_shape F.

Lemma fit_stag_x : 0 <= sx <= 1.
Proof. pose proof (fit_sx F). destruct (stag_01 (nth ix (m_dims m) EmptyString)); lia. Qed.
Lemma fit_stag_y : 0 <= sy <= 1.
Proof. pose proof (fit_sy F). destruct (stag_01 (nth iy (m_dims m) EmptyString)); lia. Qed.

Lemma fit_axis_x : axis_of (nth ix (m_dims m) EmptyString) = AxX.
Proof. rewrite (fit_axis F) by auto. now rewrite Nat.eqb_refl. Qed.
Lemma fit_axis_y : axis_of (nth iy (m_dims m) EmptyString) = AxY.
Proof. rewrite (fit_axis F) by auto. rewrite Nat.eqb_refl. destruct (Nat.eqb_spec iy ix); [congruence|auto]. Qed.
Lemma fit_axis_other i : (i < len)%nat -> i <> ix -> i <> iy -> axis_of (nth i (m_dims m) EmptyString) = AxOther.
Proof.
  intros Hi A B. rewrite (fit_axis F) by auto.
  destruct (Nat.eqb_spec i ix); [congruence|]. destruct (Nat.eqb_spec i iy); [congruence|auto].
Qed.
Lemma fit_ext_x : xat (m_extent m) ix = N + sx.
Proof. rewrite (fit_ext F) by auto. now rewrite Nat.eqb_refl. Qed.
Lemma fit_ext_y : xat (m_extent m) iy = N + sy.
Proof. rewrite (fit_ext F) by auto. rewrite Nat.eqb_refl. destruct (Nat.eqb_spec iy ix); [congruence|auto]. Qed.
Lemma fit_ext_other i : (i < len)%nat -> i <> ix -> i <> iy -> xat (m_extent m) i = ext i.
Proof.
  intros Hi A B. rewrite (fit_ext F) by auto.
  destruct (Nat.eqb_spec i ix); [congruence|]. destruct (Nat.eqb_spec i iy); [congruence|auto].
Qed.

Lemma length_mboxes b interior : length (mboxes b interior h m) = len.
Proof. unfold mboxes. rewrite length_boxes; lia. Qed.

(** the box along x, y and the other dimensions *)
Definition hregion (c : Z) (interior : bool) (o s : Z) : Z * Z :=
  if c =? 0 then (o, o + (N + s))
  else if c <? 0 then (if interior then (o + s, o + s + h) else (o - h, o))
  else (if interior then (o + N - h, o + N) else (o + N + s, o + N + s + h)).

Lemma box_x b interior : nth ix (mboxes b interior h m) (0, 0) = hregion (snd (heading b)) interior (xat (m_origin m) ix) sx.
Proof.
  unfold mboxes. rewrite nth_boxes by lia. unfold region, hregion. rewrite (toward_X b _ fit_axis_x).
  fold (xat (m_extent m) ix). fold (xat (m_origin m) ix). rewrite fit_ext_x, (fit_sx F).
  destruct (snd (heading b) =? 0); auto. destruct (snd (heading b) <? 0); auto. destruct interior; f_equal; lia.
Qed.
Lemma box_y b interior : nth iy (mboxes b interior h m) (0, 0) = hregion (fst (heading b)) interior (xat (m_origin m) iy) sy.
Proof.
  unfold mboxes. rewrite nth_boxes by lia. unfold region, hregion. rewrite (toward_Y b _ fit_axis_y).
  fold (xat (m_extent m) iy). fold (xat (m_origin m) iy). rewrite fit_ext_y, (fit_sy F).
  destruct (fst (heading b) =? 0); auto. destruct (fst (heading b) <? 0); auto. destruct interior; f_equal; lia.
Qed.
Lemma box_other b interior i : (i < len)%nat -> i <> ix -> i <> iy ->
  nth i (mboxes b interior h m) (0, 0) = (xat (m_origin m) i, xat (m_origin m) i + ext i).
Proof.
  intros Hi A B. unfold mboxes. rewrite nth_boxes by lia. unfold region. rewrite toward_other by (now apply fit_axis_other).
  cbn [Z.eqb]. fold (xat (m_extent m) i). fold (xat (m_origin m) i). now rewrite fit_ext_other.
Qed.

Lemma heading_cases b : (fst (heading b) = 0 \/ fst (heading b) = 1 \/ fst (heading b) = -1) /\
  (snd (heading b) = 0 \/ snd (heading b) = 1 \/ snd (heading b) = -1).
Proof. destruct b; simpl; auto. Qed.

Lemma mboxes_in_axis b interior : Forall2 in_axis (m_shape m) (mboxes b interior h m).
Proof.
  rewrite (Forall2_nth _ _ _ 0 (0, 0)). rewrite length_mboxes. split; [auto|]. rewrite Ls. intros i Hi.
  pose proof (fit_dom F i Hi) as D. unfold in_axis. fold (xat (m_shape m) i).
  pose proof fit_stag_x. pose proof fit_stag_y. destruct (heading_cases b) as [Hy Hx].
  destruct (Nat.eq_dec i ix) as [->|Nx].
  { pose proof (fit_halo F ix (or_introl eq_refl)). rewrite box_x. rewrite fit_ext_x in *.
    unfold hregion. destruct Hx as [-> | [-> | ->]]; destruct interior; simpl; lia. }
  destruct (Nat.eq_dec i iy) as [->|Ny].
  { pose proof (fit_halo F iy (or_intror eq_refl)). rewrite box_y. rewrite fit_ext_y in *.
    unfold hregion. destruct Hy as [-> | [-> | ->]]; destruct interior; simpl; lia. }
  rewrite box_other by auto. rewrite fit_ext_other in D by auto. simpl. lia.
Qed.

(** the boundary view exists and is the box *)
Lemma boundary_view_ok b B interior : b_type B = b ->
  exists v, boundary_view B m h interior = Ok v /\ vshp v = box_shape (mboxes b interior h m) /\
    (forall p, length p = len -> vmap v p = box_map (mboxes b interior h m) p).
Proof.
  intros <-. unfold boundary_view.
  assert (A := mboxes_in_axis (b_type B) interior).
  rewrite get_boundary_slice_ok; [|lia|lia|lia|].
  - cbn [bind]. fold (mboxes (b_type B) interior h m). destruct (v_index_box _ _ A) as (v & E & S & M).
    exists v. split; auto. split; auto. intros p Hp. apply M. now rewrite length_mboxes.
  - rewrite Ld. intros i Hi. rewrite (Forall2_nth _ _ _ 0 (0, 0)) in A. destruct A as [_ A]. specialize (A i ltac:(lia)).
    unfold in_axis in A. fold (mboxes (b_type B) interior h m). lia.
Qed.

(** the points of the receive box are the halo points of that side *)
Lemma in_recv_box b p : in_box (mboxes b false h m) p <-> in_side m ix iy h b p.
Proof.
  rewrite in_box_nth, length_mboxes. unfold in_side, in_column, in_halo, side_range, rel. rewrite Ld.
  destruct (heading_cases b) as [Hy Hx]. rewrite fit_ext_x, fit_ext_y.
  split.
  - intros [L A]. pose proof (A ix Hix) as Ax. pose proof (A iy Hiy) as Ay. rewrite box_x in Ax. rewrite box_y in Ay.
    split; [split; [auto|]|].
    + intros i Hi Nx Ny. specialize (A i Hi). rewrite box_other in A by auto. rewrite fit_ext_other by auto. simpl in A. lia.
    + unfold hregion in *. destruct Hx as [Q | [Q | Q]]; rewrite Q in *; destruct Hy as [R | [R | R]]; rewrite R in *; simpl in *; lia.
  - intros ((L & A) & Py & Px). split; [auto|]. intros i Hi.
    destruct (Nat.eq_dec i ix) as [->|Nx].
    { rewrite box_x. unfold hregion. destruct Hx as [Q | [Q | Q]]; rewrite Q in *; simpl in *; lia. }
    destruct (Nat.eq_dec i iy) as [->|Ny].
    { rewrite box_y. unfold hregion. destruct Hy as [Q | [Q | Q]]; rewrite Q in *; simpl in *; lia. }
    rewrite box_other by auto. specialize (A i Hi Nx Ny). rewrite fit_ext_other in A by auto. simpl. lia.
Qed.

(** the points of the send box are in the compute domain *)
Lemma in_send_box b p : in_box (mboxes b true h m) p -> in_domain m p.
Proof.
  rewrite in_box_nth, length_mboxes. unfold in_domain, rel. rewrite Ld. intros [L A]. split; [auto|].
  intros i Hi. specialize (A i Hi). pose proof fit_stag_x. pose proof fit_stag_y. destruct (heading_cases b) as [Hy Hx].
  destruct (Nat.eq_dec i ix) as [->|Nx].
  { rewrite box_x in A. rewrite fit_ext_x. unfold hregion in A. destruct Hx as [Q | [Q | Q]]; rewrite Q in A; simpl in A; lia. }
  destruct (Nat.eq_dec i iy) as [->|Ny].
  { rewrite box_y in A. rewrite fit_ext_y. unfold hregion in A. destruct Hy as [Q | [Q | Q]]; rewrite Q in A; simpl in A; lia. }
  rewrite box_other in A by auto. rewrite fit_ext_other by auto. simpl in A. lia.
Qed.

(** a point is on one side only *)
Lemma in_side_unique b b' p : in_side m ix iy h b p -> in_side m ix iy h b' p -> b = b'.
Proof.
  intros [_ [Ay Ax]] [_ [By Bx]]. rewrite fit_ext_x, fit_ext_y in *. pose proof fit_stag_x. pose proof fit_stag_y.
  unfold side_range in *. destruct b, b'; simpl in *; auto; lia.
Qed.

(** points of the halo are not in the compute domain *)
Lemma side_not_domain b p : in_side m ix iy h b p -> ~ in_domain m p.
Proof.
  intros [_ [Ay Ax]] [_ D]. pose proof (D ix ltac:(lia)) as Dx. pose proof (D iy ltac:(lia)) as Dy.
  unfold side_range in *. destruct b; simpl in *; lia.
Qed.
End Fit.
