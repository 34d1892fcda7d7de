(** Rotations compose (C32); Boundary.rotate (C33). *)
From Verif.Base Require Import Base Lemmas.
From Verif.Model Require Import Consts Numpy Quantity Partitioner Rotate.
From Verif.Spec Require Import Grid Halo Views.
From Verif.Proofs Require Import Slices NumpyProofs Regions Transfer.
From Coq Require Import ZifyBool.
Ltac Zify.zify_post_hook ::= idtac.

Lemma slice_reverse n : 0 <= n -> slice_norm n None None (Some (-1)) = Ok (n - 1, n, -1).
Proof.
  intros H. unfold slice_norm. change (-1 =? 0) with false. change (-1 <? 0) with true. cbn [negb].
  destruct (Z.ltb_spec (-1) (n - 1)); [|replace n with 0 by lia; reflexivity]. change (- -1) with 1. rewrite Z.div_1_r. do 3 f_equal. lia.
Qed.
Lemma slice_all n : 0 <= n -> slice_norm n None None None = Ok (0, n, 1).
Proof.
  intros H.
  unfold slice_norm in *. cbn [Z.eqb Z.ltb Z.compare]. rewrite Z.div_1_r. replace (n - 0 - 1 + 1) with n by lia. destruct (Z.ltb_spec 0 n); [reflexivity|]. now replace n with 0 by lia.
Qed.

Lemma index_reverse dims : forall s, length s = length dims -> Forall (Z.le 0) s ->
  exists f, index_apply (reverse_entries dims) s = Ok (s, f) /\ forall p, length p = length s -> length (f p) = length s /\
    forall i, (i < length s)%nat -> nth i (f p) 0 = match axis_of (nth i dims EmptyString) with AxOther => nth i p 0 | _ => nth i s 0 - 1 - nth i p 0 end.
Proof.
  induction dims as [|d dims IH]; intros [|n s] L F; try discriminate; [exists (fun p => p); cbn; repeat split; auto; intros; lia|].
  inversion F; subst. cbn in L. destruct (IH s) as (f & E & G); auto. cbn [reverse_entries map]. fold (reverse_entries dims). rewrite sin_H.
  assert (X : exists a st, index_apply ((if match axis_of d with AxOther => false | _ => true end then ISlice None None (Some (-1)) else IALL) :: reverse_entries dims) (n :: s) =
      Ok (n :: s, fun p => (a + hd 0 p * st) :: f (tl p)) /\ forall z, a + z * st = match axis_of d with AxOther => z | _ => n - 1 - z end).
  { destruct (axis_of d); cbn [index_apply IALL]; [rewrite slice_reverse by auto|rewrite slice_reverse by auto|rewrite slice_all by auto]; cbn [bind]; rewrite E; cbn [bind]; eexists _, _; (split; [reflexivity|]); intros; lia. }
  destruct X as (a & st & -> & Z). eexists. split; [reflexivity|]. intros [|z p] LP; [discriminate|]. cbn in LP. destruct (G p) as (G1 & G2); [lia|]. cbn [hd tl length nth]. split; [lia|].
  intros [|i] Hi; [apply Z|apply G2; lia].
Qed.

Lemma mod4 k : k mod 4 = 0 \/ k mod 4 = 1 \/ k mod 4 = 2 \/ k mod 4 = 3.
Proof. pose proof (Z.mod_pos_bound k 4). lia. Qed.

Section Rot.
Variables (ix iy : nat) (dims : list string).
Hypothesis AX : axes_at ix iy dims.
Let Hx : (ix < length dims)%nat := proj1 AX.
Let Hy : (iy < length dims)%nat := proj1 (proj2 AX).
Let Hxy : ix <> iy := proj1 (proj2 (proj2 AX)).

(** source index of element [p] after [k] turns of data of shape [s] *)
Definition turn (k : Z) (s p : list Z) : list Z :=
  if k =? 0 then p
  else if k =? 1 then upd (upd p ix (xat s ix - 1 - xat p iy)) iy (xat p ix)
  else if k =? 2 then upd (upd p ix (xat s ix - 1 - xat p ix)) iy (xat s iy - 1 - xat p iy)
  else upd (upd p ix (xat p iy)) iy (xat s iy - 1 - xat p ix).
Definition turn_shape (k : Z) (s : list Z) : list Z := if (k =? 1) || (k =? 3) then i_swap ix iy s else s.

Lemma length_turn k s p : length (turn k s p) = length p.
Proof. unfold turn. destruct (k =? 0), (k =? 1), (k =? 2); rewrite ?length_upd; auto. Qed.
Lemma length_turn_shape k s : length (turn_shape k s) = length s.
Proof. unfold turn_shape. destruct (_ || _); auto. apply length_i_swap. Qed.

Lemma xat_upd2 p a b i : length p = length dims -> xat (upd (upd p ix a) iy b) i = if Nat.eqb i iy then b else if Nat.eqb i ix then a else xat p i.
Proof using AX.
  intros L. unfold xat. destruct (Nat.eqb_spec i iy); [subst; rewrite nth_upd_eq; auto; rewrite length_upd; lia|]. rewrite nth_upd_neq by auto.
  destruct (Nat.eqb_spec i ix); [subst; rewrite nth_upd_eq; auto; lia|now rewrite nth_upd_neq by auto].
Qed.

Lemma xat_swap s i : length s = length dims -> xat (i_swap ix iy s) i = if Nat.eqb i ix then xat s iy else if Nat.eqb i iy then xat s ix else xat s i.
Proof using AX. intros L. apply xat_i_swap; lia || auto. Qed.

Lemma xat_turn k s p i : length s = length dims -> length p = length dims -> k = 0 \/ k = 1 \/ k = 2 \/ k = 3 ->
  xat (turn k s p) i =
    if Nat.eqb i iy then (if k =? 0 then xat p iy else if k =? 1 then xat p ix else if k =? 2 then xat s iy - 1 - xat p iy else xat s iy - 1 - xat p ix)
    else if Nat.eqb i ix then (if k =? 0 then xat p ix else if k =? 1 then xat s ix - 1 - xat p iy else if k =? 2 then xat s ix - 1 - xat p ix else xat p iy)
    else xat p i.
Proof using AX.
  intros L1 L2 [->|[->|[->| ->]]]; unfold turn; cbn [Z.eqb Pos.eqb]; rewrite ?xat_upd2 by auto; auto.
  destruct (Nat.eqb_spec i iy); [now subst|]. destruct (Nat.eqb_spec i ix); [now subst|auto].
Qed.

Lemma xat_turn_shape k s i : length s = length dims -> xat (turn_shape k s) i = if (k =? 1) || (k =? 3) then (if Nat.eqb i ix then xat s iy else if Nat.eqb i iy then xat s ix else xat s i) else xat s i.
Proof using AX. intros L. unfold turn_shape. destruct (_ || _); auto. now apply xat_swap. Qed.


Lemma rotate_turn v k : length (vshp v) = length dims -> Forall (Z.le 0) (vshp v) ->
  exists v', rotate_scalar_data v dims k = Ok v' /\ vshp v' = turn_shape (k mod 4) (vshp v) /\
    forall p, length p = length dims -> vmap v' p = vmap v (turn (k mod 4) (vshp v) p).
Proof using AX.
  intros L F. unfold rotate_scalar_data. 
  assert (FX : find_xy 0 dims (None, None) = (Some ix, Some iy)).
  { rewrite find_xy_axes with (ix := ix) (iy := iy); [|intros i Hi; apply AX; auto|auto]. f_equal; match goal with |- (if ?c then _ else _) = _ => replace c with true by lia end; auto. }
  rewrite FX. unfold check_axis. rewrite L. destruct (Nat.ltb_spec ix (length dims)); [|lia]. destruct (Nat.ltb_spec iy (length dims)); [|lia]. cbn [bind].
  destruct (mod4 k) as [->|[->|[->| ->]]]; cbn [Z.eqb Pos.eqb orb].
  - eexists. split; [reflexivity|]. split; auto.
  - eexists. split; [reflexivity|]. split; [unfold turn_shape; cbn [Z.eqb Pos.eqb orb v_rot90 v_swap v_flip vshp]|].
    + apply nth_ext with (d := 0) (d' := 0); rewrite !length_i_swap; auto. intros i Hi. change (xat (i_swap iy ix (vshp v)) i = xat (i_swap ix iy (vshp v)) i).
      rewrite xat_swap by auto. rewrite xat_i_swap by (lia || auto). destruct (Nat.eqb_spec i ix), (Nat.eqb_spec i iy); subst; auto; congruence.
    + intros p LP. cbn [v_rot90 v_swap v_flip vmap vshp]. f_equal. apply nth_ext with (d := 0) (d' := 0); [now rewrite length_i_flip, length_i_swap, length_turn|].
      rewrite length_i_flip, length_i_swap. intros i Hi. change (xat (i_flip (nth ix (vshp v) 0) ix (i_swap iy ix p)) i = xat (turn 1 (vshp v) p) i).
      rewrite xat_turn by auto. rewrite xat_i_flip by (rewrite length_i_swap; lia). rewrite !xat_i_swap by (lia || auto). cbn [Z.eqb Pos.eqb]. unfold xat.
      destruct (Nat.eqb_spec i ix), (Nat.eqb_spec i iy); subst; auto; try congruence. destruct (Nat.eqb_spec ix iy); [congruence|]. rewrite Nat.eqb_refl. reflexivity.
  - unfold v_index. destruct (index_reverse dims (vshp v)) as (f & E & G); auto. rewrite E. cbn [bind]. eexists. split; [reflexivity|]. split; [reflexivity|].
    intros p LP. cbn [vmap]. f_equal. destruct (G p) as (G1 & G2); [lia|]. apply nth_ext with (d := 0) (d' := 0); [rewrite length_turn; lia|]. intros i Hi. rewrite G2 by lia.
    change (nth i (turn 2 (vshp v) p) 0) with (xat (turn 2 (vshp v) p) i). rewrite xat_turn by auto. cbn [Z.eqb Pos.eqb]. rewrite (proj2 (proj2 (proj2 AX))) by lia. unfold xat.
    destruct (Nat.eqb_spec i ix), (Nat.eqb_spec i iy); subst; auto; congruence.
  - eexists. split; [reflexivity|]. split; [reflexivity|].
    intros p LP. cbn [v_rot90 v_swap v_flip vmap vshp]. f_equal. apply nth_ext with (d := 0) (d' := 0); [now rewrite length_i_flip, length_i_swap, length_turn|].
    rewrite length_i_flip, length_i_swap. intros i Hi. change (xat (i_flip (nth iy (vshp v) 0) iy (i_swap ix iy p)) i = xat (turn 3 (vshp v) p) i).
    rewrite xat_turn by auto. rewrite xat_i_flip by (rewrite length_i_swap; lia). rewrite !xat_i_swap by (lia || auto). cbn [Z.eqb Pos.eqb]. unfold xat.
    destruct (Nat.eqb_spec i ix), (Nat.eqb_spec i iy); subst; auto; try congruence. destruct (Nat.eqb_spec iy ix); [congruence|]. rewrite Nat.eqb_refl. reflexivity.
Qed.

Ltac calc4 := repeat match goal with |- context [(?a + ?b) mod 4] => let v := eval compute in ((a + b) mod 4) in change ((a + b) mod 4) with v end; cbn [Z.eqb Pos.eqb orb].

Lemma turn_compose a b s p : length s = length dims -> length p = length dims -> (a = 0 \/ a = 1 \/ a = 2 \/ a = 3) -> (b = 0 \/ b = 1 \/ b = 2 \/ b = 3) ->
  turn a s (turn b (turn_shape a s) p) = turn ((a + b) mod 4) s p /\ turn_shape b (turn_shape a s) = turn_shape ((a + b) mod 4) s.
Proof using AX.
  intros Ls Lp A B. split.
  - apply nth_ext with (d := 0) (d' := 0); [now rewrite !length_turn|]. intros i _.
    change (xat (turn a s (turn b (turn_shape a s) p)) i = xat (turn ((a + b) mod 4) s p) i).
    rewrite !xat_turn by (rewrite ?length_turn, ?length_turn_shape; auto; apply mod4). rewrite !xat_turn_shape by auto.
    rewrite !Nat.eqb_refl. destruct (Nat.eqb_spec ix iy); [congruence|]. destruct (Nat.eqb_spec iy ix); [congruence|].
    destruct A as [->|[->|[->| ->]]], B as [->|[->|[->| ->]]]; calc4;
    destruct (Nat.eqb i iy), (Nat.eqb i ix); lia.
  - apply nth_ext with (d := 0) (d' := 0); [now rewrite !length_turn_shape|]. intros i _.
    change (xat (turn_shape b (turn_shape a s)) i = xat (turn_shape ((a + b) mod 4) s) i). rewrite !xat_turn_shape by (rewrite ?length_turn_shape; auto).
    rewrite !Nat.eqb_refl. destruct (Nat.eqb_spec ix iy); [congruence|]. destruct (Nat.eqb_spec iy ix); [congruence|].
    destruct A as [->|[->|[->| ->]]], B as [->|[->|[->| ->]]]; calc4;
    destruct (Nat.eqb_spec i iy), (Nat.eqb_spec i ix); subst; congruence.
Qed.

Lemma turn_shape_nonneg k s : length s = length dims -> Forall (Z.le 0) s -> Forall (Z.le 0) (turn_shape k s).
Proof using AX.
  intros L F. apply Forall_forall. intros z I. apply In_nth with (d := 0) in I. destruct I as (i & Hi & <-). rewrite length_turn_shape in Hi.
  change (0 <= xat (turn_shape k s) i). rewrite xat_turn_shape by auto. rewrite Forall_forall in F. unfold xat.
  destruct (_ || _), (Nat.eqb i ix), (Nat.eqb i iy); apply F, nth_In; lia.
Qed.

Theorem rotate_compose v a b : length (vshp v) = length dims -> Forall (Z.le 0) (vshp v) ->
  exists v1 v2 v3, rotate_scalar_data v dims a = Ok v1 /\ rotate_scalar_data v1 dims b = Ok v2 /\ rotate_scalar_data v dims (a + b) = Ok v3 /\ same_view v2 v3.
Proof using AX.
  intros L F. destruct (rotate_turn v a L F) as (v1 & E1 & S1 & M1).
  assert (L1 : length (vshp v1) = length dims) by (rewrite S1, length_turn_shape; auto).
  destruct (rotate_turn v1 b L1) as (v2 & E2 & S2 & M2); [rewrite S1; now apply turn_shape_nonneg|].
  destruct (rotate_turn v (a + b) L F) as (v3 & E3 & S3 & M3). exists v1, v2, v3. repeat (split; auto).
  - rewrite S2, S3, S1. rewrite Zplus_mod. apply turn_compose with (p := map (fun _ => 0) dims); auto using mod4. now rewrite map_length.
  - intros p P. apply in_shape_length in P. rewrite S2, length_turn_shape, L1 in P. rewrite M2, M1, M3 by (rewrite ?length_turn; auto). f_equal.
    rewrite S1, Zplus_mod. apply turn_compose; auto using mod4.
Qed.

Theorem rotate_quarter v k : length (vshp v) = length dims -> Forall (Z.le 0) (vshp v) -> k mod 4 = 1 ->
  exists w, rotate_scalar_data v dims k = Ok w /\ quarter_turn ix iy v w.
Proof using AX.
  intros L F K. destruct (rotate_turn v k L F) as (w & E & S & M). rewrite K in *. exists w. split; auto. split; [rewrite S; apply length_turn_shape|]. split.
  - intros i. rewrite S. change (xat (turn_shape 1 (vshp v)) i = nth (if Nat.eqb i ix then iy else if Nat.eqb i iy then ix else i) (vshp v) 0). rewrite xat_turn_shape by auto. cbn [Z.eqb Pos.eqb orb]. unfold xat.
    destruct (Nat.eqb i ix), (Nat.eqb i iy); reflexivity.
  - intros p P. assert (P' := P). apply in_shape_length in P'. rewrite S, length_turn_shape, L in P'. exists (turn 1 (vshp v) p). split; [auto|].
    apply in_shape_nth in P. destruct P as (_ & P). rewrite S, length_turn_shape in P.
    assert (G : forall i, xat (turn 1 (vshp v) p) i = if Nat.eqb i iy then xat p ix else if Nat.eqb i ix then xat (vshp v) ix - 1 - xat p iy else xat p i) by (intros i; rewrite xat_turn by auto; reflexivity).
    split; [|split; [|split]].
    + apply in_shape_nth. rewrite length_turn. split; [lia|]. intros i Hi. rewrite G.
      pose proof (P ix ltac:(lia)) as Px. pose proof (P iy ltac:(lia)) as Py. pose proof (P i Hi) as Pi. rewrite !xat_turn_shape in * by auto. cbn [Z.eqb Pos.eqb orb] in *. rewrite !Nat.eqb_refl in *.
      destruct (Nat.eqb_spec iy ix); [congruence|]. destruct (Nat.eqb_spec i iy); [subst; lia|]. destruct (Nat.eqb_spec i ix); [subst; lia|]. lia.
    + change (xat (turn 1 (vshp v) p) ix = xat (vshp v) ix - 1 - xat p iy). rewrite G. destruct (Nat.eqb_spec ix iy); [congruence|]. now rewrite Nat.eqb_refl.
    + change (xat (turn 1 (vshp v) p) iy = xat p ix). rewrite G. now rewrite Nat.eqb_refl.
    + intros i A B. change (xat (turn 1 (vshp v) p) i = xat p i). rewrite G. destruct (Nat.eqb_spec i iy); [congruence|]. destruct (Nat.eqb_spec i ix); [congruence|auto].
Qed.

(** rotating the result as an array of its own *)
Lemma rotate_again v a b : length (vshp v) = length dims -> Forall (Z.le 0) (vshp v) ->
  exists v1 w v3, rotate_scalar_data v dims a = Ok v1 /\ rotate_scalar_data (v_whole (vshp v1)) dims b = Ok w /\ rotate_scalar_data v dims (a + b) = Ok v3 /\
    vshp w = vshp v3 /\ forall p, in_shape (vshp w) p -> vmap v1 (vmap w p) = vmap v3 p.
Proof using AX.
  intros L F. destruct (rotate_turn v a L F) as (v1 & E1 & S1 & M1).
  assert (L1 : length (vshp v1) = length dims) by (rewrite S1, length_turn_shape; auto).
  destruct (rotate_turn (v_whole (vshp v1)) b L1) as (w & E2 & S2 & M2); [cbn; rewrite S1; now apply turn_shape_nonneg|]. cbn [v_whole vshp vmap] in S2, M2.
  destruct (rotate_turn v (a + b) L F) as (v3 & E3 & S3 & M3). exists v1, w, v3. do 3 (split; auto). split.
  - rewrite S2, S3, S1. rewrite Zplus_mod. apply turn_compose with (p := map (fun _ => 0) dims); auto using mod4. now rewrite map_length.
  - intros p P. apply in_shape_length in P. rewrite S2, length_turn_shape, L1 in P. rewrite M2, M1, M3 by (rewrite ?length_turn; auto). f_equal.
    rewrite S1, Zplus_mod. apply turn_compose; auto using mod4.
Qed.

(** ** vectors *)
Section Vec.
Context {V : Type} (neg : V -> V).
Hypothesis neg_neg : forall z, neg (neg z) = z.

Theorem rotate_vector_compose xv yv a b (X Y : idx -> V) : length (vshp xv) = length dims -> length (vshp yv) = length dims ->
  Forall (Z.le 0) (vshp xv) -> Forall (Z.le 0) (vshp yv) ->
  let shape_of (c : bool * view * bool) := vshp (snd (fst c)) in
  exists x1 y1 x2 y2 x3 y3, rotate_vector_data xv yv a dims = Ok (x1, y1) /\
    rotate_vector_data (v_whole (shape_of x1)) (v_whole (shape_of y1)) b dims = Ok (x2, y2) /\ rotate_vector_data xv yv (a + b) dims = Ok (x3, y3) /\
    shape_of x2 = shape_of x3 /\ shape_of y2 = shape_of y3 /\
    (forall p, in_shape (shape_of x3) p -> component neg (component neg X Y x1) (component neg X Y y1) x2 p = component neg X Y x3 p) /\
    (forall p, in_shape (shape_of y3) p -> component neg (component neg X Y x1) (component neg X Y y1) y2 p = component neg X Y y3 p).
Proof using AX neg_neg.
  intros Lx Ly Fx Fy. unfold rotate_vector_data.
  destruct (rotate_again xv a b Lx Fx) as (x1 & x2 & x3 & X1 & X2 & X3 & XS & XM). destruct (rotate_again yv a b Ly Fy) as (y1 & y2 & y3 & Y1 & Y2 & Y3 & YS & YM).
  rewrite X1, Y1. cbn [bind]. rewrite X3, Y3. cbn [bind]. rewrite (Zplus_mod a b).
  destruct (mod4 a) as [->|[->|[->| ->]]]; cbn [Z.eqb Pos.eqb]; destruct (mod4 b) as [->|[->|[->| ->]]];
  eexists _, _, _, _, _, _; (split; [reflexivity|]); cbn [fst snd]; rewrite ?X2, ?Y2; cbn [bind Z.eqb Pos.eqb]; (split; [reflexivity|]); (split; [reflexivity|]);
  cbn [fst snd vshp]; (split; [assumption|]); (split; [assumption|]); cbn [component fst snd vmap]; split; intros p P; rewrite ?XM, ?YM by congruence; auto.
Qed.

(** one turn: the new x component is the old y, the new y component minus the old x, both turned *)
Theorem rotate_vector_quarter xv yv k (X Y : idx -> V) : length (vshp xv) = length dims -> length (vshp yv) = length dims ->
  Forall (Z.le 0) (vshp xv) -> Forall (Z.le 0) (vshp yv) -> k mod 4 = 1 ->
  exists xw yw x1 y1, quarter_turn ix iy xv xw /\ quarter_turn ix iy yv yw /\ rotate_vector_data xv yv k dims = Ok (x1, y1) /\
    vshp (snd (fst x1)) = vshp yw /\ vshp (snd (fst y1)) = vshp xw /\
    forall p, component neg X Y x1 p = Y (vmap yw p) /\ component neg X Y y1 p = neg (X (vmap xw p)).
Proof using AX.
  intros Lx Ly Fx Fy K. destruct (rotate_quarter xv k Lx Fx K) as (xw & EX & QX). destruct (rotate_quarter yv k Ly Fy K) as (yw & EY & QY).
  unfold rotate_vector_data. rewrite EX, EY. cbn [bind]. rewrite K. cbn [Z.eqb Pos.eqb]. exists xw, yw. eexists _, _. repeat (split; eauto).
Qed.
End Vec.
End Rot.

(** ** data along one horizontal dimension *)
Definition flips (k : Z) (d : string) : bool :=
  match axis_of d with AxX => (k mod 4 =? 1) || (k mod 4 =? 2) | AxY => (k mod 4 =? 2) || (k mod 4 =? 3) | AxOther => false end.

Lemma find_xy_other dims : forall k acc, Forall (fun d => axis_of d = AxOther) dims -> find_xy k dims acc = acc.
Proof. induction dims as [|d dims IH]; cbn [find_xy]; intros k acc F; auto. inversion F; subst. rewrite sin_X, sin_Y, H1. apply IH; auto. Qed.
Lemma find_xy_app l r : forall k acc, find_xy k (l ++ r) acc = find_xy (k + length l) r (find_xy k l acc).
Proof. induction l as [|d l IH]; intros k acc; cbn [app find_xy length]; [now rewrite Nat.add_0_r|]. rewrite IH. f_equal. lia. Qed.

Lemma find_xy_line l d r : Forall (fun d => axis_of d = AxOther) l -> Forall (fun d => axis_of d = AxOther) r ->
  find_xy 0 (l ++ d :: r) (None, None) = match axis_of d with AxX => (Some (length l), None) | AxY => (None, Some (length l)) | AxOther => (None, None) end.
Proof.
  intros FL FR. rewrite find_xy_app, (find_xy_other l) by auto. cbn [find_xy]. rewrite sin_X, sin_Y. destruct (axis_of d); cbn [fst snd Nat.add]; now apply find_xy_other.
Qed.

Lemma rotate_line l d r v k : Forall (fun d => axis_of d = AxOther) l -> Forall (fun d => axis_of d = AxOther) r -> axis_of d <> AxOther ->
  length (vshp v) = length (l ++ d :: r) -> Forall (Z.le 0) (vshp v) ->
  exists v', rotate_scalar_data v (l ++ d :: r) k = Ok v' /\ vshp v' = vshp v /\
    forall p, length p = length (vshp v) -> vmap v' p = vmap v (if flips k d then i_flip (nth (length l) (vshp v) 0) (length l) p else p).
Proof.
  intros FL FR D L F. unfold rotate_scalar_data. rewrite find_xy_line by auto. unfold check_axis.
  assert (LL : (length l < length (vshp v))%nat) by (rewrite L, app_length; cbn; lia). unfold flips.
  destruct (mod4 k) as [->|[->|[->| ->]]]; cbn [Z.eqb Pos.eqb orb].
  - exists v. split; auto. split; auto. intros. destruct (axis_of d); reflexivity.
  - destruct (axis_of d); try congruence; [|eauto]. destruct (Nat.ltb_spec (length l) (length (vshp v))); [|lia]. cbn [bind]. eexists. split; [reflexivity|]. split; [reflexivity|]. intros; reflexivity.
  - destruct (index_reverse (l ++ d :: r) (vshp v)) as (f & E & G); auto. unfold v_index. rewrite E. cbn [bind]. eexists. split; [reflexivity|]. split; [reflexivity|].
    intros p LP. cbn [vmap]. f_equal. destruct (G p LP) as (G1 & G2).
    transitivity (i_flip (nth (length l) (vshp v) 0) (length l) p); [|destruct (axis_of d); congruence].
    apply nth_ext with (d := 0) (d' := 0); [rewrite length_i_flip; lia|]. intros i Hi. rewrite G2 by lia.
    change (nth i (i_flip (nth (length l) (vshp v) 0) (length l) p) 0) with (xat (i_flip (nth (length l) (vshp v) 0) (length l) p) i). rewrite xat_i_flip by lia.
    destruct (Nat.eqb_spec i (length l)) as [->|NE].
    + rewrite nth_middle. destruct (axis_of d); try congruence; reflexivity.
    + replace (axis_of (nth i (l ++ d :: r) EmptyString)) with AxOther; [reflexivity|]. destruct (Nat.lt_ge_cases i (length l)).
      * rewrite app_nth1 by auto. rewrite Forall_forall in FL. symmetry. apply FL, nth_In. auto.
      * rewrite app_nth2 by auto. destruct (i - length l)%nat as [|j] eqn:Q; [lia|]. cbn. rewrite Forall_forall in FR. symmetry. apply FR, nth_In.
        rewrite L, app_length in G1. cbn in G1. lia.
  - destruct (axis_of d); try congruence; [eauto|]. destruct (Nat.ltb_spec (length l) (length (vshp v))); [|lia]. cbn [bind]. eexists. split; [reflexivity|]. split; [reflexivity|]. intros; reflexivity.
Qed.

Lemma turned_other k d : axis_of d = AxOther -> turned_dim k d = d.
Proof.
  unfold turned_dim, axis_of, X_DIM, Y_DIM, X_INTERFACE_DIM, Y_INTERFACE_DIM. destruct (k mod 2 =? 0); auto.
  destruct (String.eqb d "x"), (String.eqb d "x_interface"), (String.eqb d "y"), (String.eqb d "y_interface"); try discriminate; auto.
Qed.
Lemma turned_axis k d : axis_of (turned_dim k d) = if k mod 2 =? 0 then axis_of d else match axis_of d with AxX => AxY | AxY => AxX | AxOther => AxOther end.
Proof.
  unfold turned_dim. destruct (k mod 2 =? 0); auto. unfold X_DIM, Y_DIM, X_INTERFACE_DIM, Y_INTERFACE_DIM.
  destruct (String.eqb_spec d "x"); [subst; reflexivity|]. destruct (String.eqb_spec d "y"); [subst; reflexivity|].
  destruct (String.eqb_spec d "x_interface"); [subst; reflexivity|]. destruct (String.eqb_spec d "y_interface"); [subst; reflexivity|].
  unfold axis_of. rewrite (proj2 (String.eqb_neq d "x")), (proj2 (String.eqb_neq d "x_interface")), (proj2 (String.eqb_neq d "y")), (proj2 (String.eqb_neq d "y_interface")) by auto. reflexivity.
Qed.

Lemma mod_two a : a mod 2 = (a mod 4) mod 2.
Proof. change 4 with (2 * 2). rewrite Z.rem_mul_r by lia. rewrite Z.mul_comm, Z_mod_plus_full. now rewrite Zmod_mod. Qed.

Lemma flips_compose a b d : axis_of d <> AxOther -> flips (a + b) d = xorb (flips a d) (flips b (turned_dim a d)).
Proof.
  intros D. unfold flips. rewrite turned_axis, mod_two, (Zplus_mod a b).
  destruct (axis_of d); try congruence; destruct (mod4 a) as [->|[->|[->| ->]]], (mod4 b) as [->|[->|[->| ->]]]; reflexivity.
Qed.

Theorem rotate_line_compose l d r v a b : Forall (fun d => axis_of d = AxOther) l -> Forall (fun d => axis_of d = AxOther) r -> axis_of d <> AxOther ->
  let dims := (l ++ d :: r)%list in length (vshp v) = length dims -> Forall (Z.le 0) (vshp v) ->
  exists v1 v2 v3, rotate_scalar_data v dims a = Ok v1 /\ rotate_scalar_data v1 (map (turned_dim a) dims) b = Ok v2 /\ rotate_scalar_data v dims (a + b) = Ok v3 /\ same_view v2 v3.
Proof.
  intros FL FR D dims L F. destruct (rotate_line l d r v a FL FR D L F) as (v1 & E1 & S1 & M1).
  assert (MO : forall l, Forall (fun d => axis_of d = AxOther) l -> map (turned_dim a) l = l) by (induction 1; cbn; auto; rewrite turned_other by auto; congruence).
  assert (TD : map (turned_dim a) dims = (l ++ turned_dim a d :: r)%list) by (unfold dims; rewrite map_app; cbn; now rewrite !MO).
  assert (D' : axis_of (turned_dim a d) <> AxOther) by (rewrite turned_axis; destruct (a mod 2 =? 0), (axis_of d); congruence).
  destruct (rotate_line l (turned_dim a d) r v1 b FL FR D') as (v2 & E2 & S2 & M2); [rewrite S1, L; unfold dims; rewrite !app_length; reflexivity|now rewrite S1|].
  destruct (rotate_line l d r v (a + b) FL FR D L F) as (v3 & E3 & S3 & M3). exists v1, v2, v3. rewrite TD. do 3 (split; auto). split; [congruence|].
  intros p P. apply in_shape_length in P. rewrite S2, S1 in P.
  assert (LF : forall n (p : idx), length p = length (vshp v) -> length (i_flip n (length l) p) = length (vshp v)) by (intros; now rewrite length_i_flip).
  rewrite M2, M3 by congruence. rewrite M1 by (destruct (flips b _); auto). f_equal. rewrite flips_compose by auto. rewrite S1.
  assert (LL : (length l < length (vshp v))%nat) by (rewrite L; unfold dims; rewrite app_length; cbn; lia).
  destruct (flips a d), (flips b (turned_dim a d)); cbn [xorb]; auto. apply nth_ext with (d := 0) (d' := 0); [now rewrite !LF by auto|]. intros i _.
  change (xat (i_flip (nth (length l) (vshp v) 0) (length l) (i_flip (nth (length l) (vshp v) 0) (length l) p)) i = xat p i).
  rewrite xat_i_flip by (rewrite LF by auto; lia). rewrite !xat_i_flip by lia. rewrite Nat.eqb_refl. destruct (Nat.eqb_spec i (length l)); [subst; lia|reflexivity].
Qed.

(** ** Boundary.rotate *)
Section BR.
Context {V : Type} (neg : V -> V).
Theorem boundary_rotate_result k y x : boundary_rotate neg k y x =
  if k mod 4 =? 1 then (fun i => neg (x i), fun i => neg (x i)) else if k mod 4 =? 3 then (y, x) else turned_vector neg k y x.
Proof. unfold boundary_rotate, turned_vector. destruct (mod4 k) as [->|[->|[->| ->]]]; reflexivity. Qed.
End BR.

Theorem boundary_rotate_odd : exists (y x : idx -> Z), forall k, Z.odd k = true ->
  fst (boundary_rotate Z.opp k y x) [] <> fst (turned_vector Z.opp k y x) [] \/ snd (boundary_rotate Z.opp k y x) [] <> snd (turned_vector Z.opp k y x) [].
Proof.
  exists (fun _ => 10), (fun _ => 3). intros k O. rewrite boundary_rotate_result. assert (k mod 2 = 1) by (rewrite Zmod_odd, O; reflexivity). rewrite mod_two in H.
  unfold turned_vector. destruct (mod4 k) as [E|[E|[E|E]]]; rewrite E in *; cbn in H; try discriminate; cbn; [right|left]; discriminate.
Qed.
Theorem rotate_zero v dims k : k mod 4 = 0 -> rotate_scalar_data v dims k = Ok v.
Proof. intros K. unfold rotate_scalar_data. now rewrite K. Qed.
