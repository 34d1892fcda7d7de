(** Ranks partition a tile (C01, C02, C04) and rank numbering (C05). *)
From Verif.Base Require Import Base Lemmas.
From Verif.Model Require Import Consts Partitioner.
From Verif.Spec Require Import Grid Layouts.
From Verif.Proofs Require Import Slices.
From Coq Require Import ZifyBool.
Ltac Zify.zify_post_hook ::= Z.div_mod_to_equations.

Lemma one_axis_pos a dims : one_axis a dims ->
  exists k, (k < length dims)%nat /\ axis_of (nth k dims ""%string) = a /\
    forall i, (i < length dims)%nat -> axis_of (nth i dims ""%string) = a -> i = k.
Proof.
  intros (l & r & d & -> & A & L & R). exists (length l).
  rewrite app_length. simpl. split; [lia|]. split.
  - now rewrite nth_middle.
  - intros i Hi Ai.
    destruct (Nat.lt_trichotomy i (length l)) as [H|[H|H]]; [|assumption|].
    + exfalso. rewrite app_nth1 in Ai by lia. rewrite Forall_forall in L. eapply L; [|exact Ai].
      apply nth_In. lia.
    + exfalso. rewrite app_nth2 in Ai by lia.
      destruct (i - length l)%nat as [|m] eqn:E; [lia|]. simpl in Ai.
      rewrite Forall_forall in R. eapply R; [|exact Ai]. apply nth_In. lia.
Qed.

Lemma nth_map2 {A B C} (f : A -> B -> C) l l' i a b c : length l = length l' -> (i < length l)%nat ->
  nth i (map2 f l l') c = f (nth i l a) (nth i l' b).
Proof.
  revert l' i; induction l; destruct l', i; simpl; intros; try lia; auto.
  apply IHl; lia.
Qed.

Lemma in_box_nth box p : in_box box p <-> length box = length p /\
  forall i, (i < length p)%nat -> fst (nth i box (0, 0)) <= nth i p 0 < snd (nth i box (0, 0)).
Proof.
  unfold in_box. rewrite (Forall2_nth _ _ _ (0, 0) 0). split; intros [L H]; split; auto; intros; apply H; lia.
Qed.

Lemma in_shape_nth s p : in_shape s p <-> length s = length p /\
  forall i, (i < length p)%nat -> 0 <= nth i p 0 < nth i s 0.
Proof.
  unfold in_shape. rewrite (Forall2_nth _ _ _ 0 0). split; intros [L H]; split; auto; intros; apply H; lia.
Qed.

Lemma along_pos layout d : 1 <= fst layout -> 1 <= snd layout -> 1 <= along d layout 1.
Proof. intros. unfold along. destruct (axis_of d); auto. lia. Qed.

Notation nd i dims := (nth i dims ""%string).

Lemma tile_ok_dim layout dims ext i : tile_ok layout dims ext -> (i < length dims)%nat ->
  let d := nd i dims in let e := nth i ext 0 in
  1 <= along d layout 1 /\ 0 <= e - stag d /\ (e - stag d) mod along d layout 1 = 0.
Proof.
  intros (LO & M & D) Hi. cbv zeta.
  unfold divides_evenly in D. rewrite (Forall2_nth _ _ _ ""%string 0) in D. destruct D as [_ D].
  specialize (D i Hi). cbv beta in D.
  pose proof (layout_ok_pos _ (along_ok layout (nd i dims) LO)). intuition.
Qed.

(** membership in a non-overlapping slice, dimension by dimension *)
Lemma in_slice_owner layout dims ext s p : tile_ok layout dims ext -> in_shape ext p ->
  0 <= fst s < fst layout -> 0 <= snd s < snd layout ->
  in_box (map2 (slice1 false layout s) dims ext) p <->
  forall i, (i < length dims)%nat ->
    along (nd i dims) s 0 = owner1 (along (nd i dims) layout 1) (nth i ext 0 - stag (nd i dims)) (nth i p 0).
Proof.
  intros T S F1 F2. pose proof T as (LO & M & D). apply moderate_length in M.
  apply in_shape_nth in S. destruct S as [LS S].
  rewrite in_box_nth, map2_length by auto.
  assert (K : forall i, (i < length dims)%nat ->
    (fst (nth i (map2 (slice1 false layout s) dims ext) (0, 0)) <= nth i p 0
     < snd (nth i (map2 (slice1 false layout s) dims ext) (0, 0))) <->
    along (nd i dims) s 0 = owner1 (along (nd i dims) layout 1) (nth i ext 0 - stag (nd i dims)) (nth i p 0)).
  { intros i Hi. rewrite (nth_map2 _ _ _ _ ""%string 0) by auto.
    destruct (tile_ok_dim _ _ _ i T Hi) as (N1 & C0 & DV).
    specialize (S i ltac:(lia)).
    set (d := nd i dims) in *. set (e := nth i ext 0) in *. set (x := nth i p 0) in *.
    unfold slice1, rank_extent1. cbn [fst snd].
    replace ((e - stag d) / along d layout 1 + stag d - stag d) with ((e - stag d) / along d layout 1) by lia.
    rewrite <- (owner1_spec _ (e - stag d) (stag d)); auto; try lia.
    - reflexivity.
    - apply stag_01.
    - unfold along. destruct (axis_of d); lia. }
  split.
  - intros [_ H] i Hi. apply K; auto. apply H. lia.
  - intros H. split; [lia|]. intros i Hi. apply K; [lia|]. apply H. lia.
Qed.

(** the rank owning a point *)
Lemma tile_partition layout dims ext p : tile_ok layout dims ext -> horizontal dims -> in_shape ext p ->
  exists r, (0 <= r < fst layout * snd layout /\
             exists box, tp_subtile_slice layout r dims ext false = Ok box /\ in_box box p) /\
  (forall r', 0 <= r' < fst layout * snd layout ->
     (exists box, tp_subtile_slice layout r' dims ext false = Ok box /\ in_box box p) -> r' = r) /\
  (forall r', 0 <= r' < fst layout * snd layout ->
     (exists box, tp_subtile_slice layout r' dims ext true = Ok box /\ in_box box p) -> r' <= r).
Proof.
  intros T [HX HY] S. pose proof T as (LO & M & D).
  pose proof (moderate_length _ _ _ M) as LE.
  pose proof (proj1 (in_shape_nth _ _) S) as [LS S'].
  destruct (one_axis_pos _ _ HX) as (kx & KX & AX & UX).
  destruct (one_axis_pos _ _ HY) as (ky & KY & AY & UY).
  pose proof LO as [LOy LOx]. apply layout_ok_pos in LOy, LOx.
  set (own := fun i => owner1 (along (nd i dims) layout 1) (nth i ext 0 - stag (nd i dims)) (nth i p 0)).
  assert (OR : forall i, (i < length dims)%nat -> 0 <= own i < along (nd i dims) layout 1).
  { intros i Hi. destruct (tile_ok_dim _ _ _ i T Hi) as (N1 & C0 & DV).
    apply (owner1_range _ _ (stag (nd i dims))); auto; try apply stag_01. specialize (S' i ltac:(lia)). lia. }
  pose proof (OR kx KX) as OX. pose proof (OR ky KY) as OY.
  unfold along in OX, OY. rewrite AX in OX. rewrite AY in OY.
  set (s := (own ky, own kx)).
  assert (SI : tile_subtile_index layout (own ky * snd layout + own kx) = s) by (now apply subtile_index_rank).
  exists (own ky * snd layout + own kx). split; [|split].
  - split; [nia|]. exists (map2 (slice1 false layout s) dims ext). split.
    + unfold tp_subtile_slice. rewrite SI. now apply subtile_slice_ok.
    + apply in_slice_owner; auto. intros i Hi. fold (own i).
      unfold along at 1. destruct (axis_of (nd i dims)) eqn:Ai.
      * now rewrite (UX i Hi Ai).
      * now rewrite (UY i Hi Ai).
      * pose proof (OR i Hi) as O. unfold along in O. rewrite Ai in O. lia.
  - intros r' Hr' (box & E & B).
    unfold tp_subtile_slice in E. rewrite subtile_slice_ok in E by auto. injection E as <-.
    pose proof (subtile_index_bound layout r' LOy LOx) as [B1 B2].
    rewrite in_slice_owner in B by auto.
    pose proof (B kx KX) as Bx. pose proof (B ky KY) as By. fold (own kx) in Bx. fold (own ky) in By.
    unfold along at 1 in Bx. unfold along at 1 in By. rewrite AX in Bx. rewrite AY in By.
    rewrite (rank_of_subtile layout r') by auto. congruence.
  - intros r' Hr' (box & E & B).
    unfold tp_subtile_slice in E. rewrite subtile_slice_ok in E by auto. injection E as <-.
    pose proof (subtile_index_bound layout r' LOy LOx) as [B1 B2].
    apply in_box_nth in B. destruct B as [_ B].
    assert (MX : forall i, (i < length dims)%nat -> along (nd i dims) (tile_subtile_index layout r') 0 <= own i).
    { intros i Hi. specialize (B i ltac:(lia)). rewrite (nth_map2 _ _ _ _ ""%string 0) in B by auto.
      destruct (tile_ok_dim _ _ _ i T Hi) as (N1 & C0 & DV). specialize (S' i ltac:(lia)).
      unfold slice1, rank_extent1 in B. cbn [fst snd] in B.
      apply (owner1_max _ _ (stag (nd i dims))); auto; try lia.
      - apply stag_01.
      - unfold along. destruct (axis_of (nd i dims)); lia. }
    pose proof (MX kx KX) as Mx. pose proof (MX ky KY) as My.
    unfold along in Mx, My. rewrite AX in Mx. rewrite AY in My.
    rewrite (rank_of_subtile layout r') by auto. nia.
Qed.

Lemma overlap_contains layout dims ext r box : layouts_ok layout -> moderate layout dims ext ->
  tp_subtile_slice layout r dims ext false = Ok box ->
  exists box', tp_subtile_slice layout r dims ext true = Ok box' /\ forall p, in_box box p -> in_box box' p.
Proof.
  unfold tp_subtile_slice. intros LO M. rewrite !subtile_slice_ok by auto. intros [= <-].
  eexists. split; [reflexivity|]. intros p. set (s := tile_subtile_index layout r). clear. revert ext p.
  induction dims as [|d dims IH]; intros [|e ext] p H; simpl in *; auto.
  inversion H as [|? x ? p' H1 H2]; subst. constructor; [|now apply IH].
  pose proof (stag_01 d). unfold slice1 in *. cbn [orb fst snd] in *. destruct (_ =? _); lia.
Qed.

(** overlapping slices: shape, bounds, sharing *)
Lemma overlap_slice layout dims ext r : tile_ok layout dims ext -> 0 <= r < fst layout * snd layout ->
  exists box shape, tp_subtile_slice layout r dims ext true = Ok box /\
    tp_subtile_extent layout dims ext = Ok shape /\
    map (fun b => snd b - fst b) box = shape /\
    Forall2 (fun b e => 0 <= fst b /\ fst b <= snd b /\ snd b <= e) box ext.
Proof.
  intros T Hr. pose proof T as (LO & M & D). pose proof (moderate_length _ _ _ M) as LE.
  pose proof LO as [LOy LOx]. apply layout_ok_pos in LOy, LOx.
  pose proof (subtile_index_bound layout r LOy LOx) as [B1 B2].
  set (s := tile_subtile_index layout r) in *.
  exists (map2 (slice1 true layout s) dims ext), (map2 (rank_extent1 layout) dims ext).
  split; [now apply subtile_slice_ok|]. split; [now apply rank_extent_ok|]. split.
  - clear. revert ext. induction dims as [|d dims IH]; destruct ext as [|e ext]; simpl; auto.
    rewrite IH. f_equal. lia.
  - apply (Forall2_nth _ _ _ (0, 0) 0). rewrite map2_length by auto. split; [auto|].
    intros i Hi. rewrite (nth_map2 _ _ _ _ ""%string 0) by auto.
    destruct (tile_ok_dim _ _ _ i T Hi) as (N1 & C0 & DV).
    set (d := nd i dims) in *. set (e := nth i ext 0) in *.
    unfold slice1, rank_extent1. cbn [fst snd orb].
    assert (0 <= along d s 0 < along d layout 1) by (unfold along; destruct (axis_of d); lia).
    assert (0 <= (e - stag d) / along d layout 1) by (apply Z.div_pos; lia).
    pose proof (Z.div_mod (e - stag d) (along d layout 1)).
    destruct (stag_01 d); nia.
Qed.

Lemma overlap_shared layout dims ext r r' p box box' :
  tile_ok layout dims ext -> Forall2 (fun d e => 1 <= e - stag d) dims ext ->
  0 <= r < fst layout * snd layout -> 0 <= r' < fst layout * snd layout ->
  tp_subtile_slice layout r dims ext true = Ok box ->
  tp_subtile_slice layout r' dims ext true = Ok box' ->
  in_box box p -> in_box box' p ->
  forall i, (i < length dims)%nat ->
    along (nd i dims) (tile_subtile_index layout r) 0 < along (nd i dims) (tile_subtile_index layout r') 0 ->
    stag (nd i dims) = 1 /\
    along (nd i dims) (tile_subtile_index layout r') 0 = along (nd i dims) (tile_subtile_index layout r) 0 + 1 /\
    nth i p 0 = snd (nth i box (0, 0)) - 1 /\ nth i p 0 = fst (nth i box' (0, 0)).
Proof.
  intros T P Hr Hr' E E' B B' i Hi Lt. pose proof T as (LO & M & D). pose proof (moderate_length _ _ _ M) as LE.
  pose proof LO as [LOy LOx]. apply layout_ok_pos in LOy, LOx.
  pose proof (subtile_index_bound layout r LOy LOx) as [B1 B2].
  pose proof (subtile_index_bound layout r' LOy LOx) as [B1' B2'].
  unfold tp_subtile_slice in E, E'. rewrite subtile_slice_ok in E, E' by auto.
  injection E as <-. injection E' as <-.
  set (s := tile_subtile_index layout r) in *. set (s' := tile_subtile_index layout r') in *.
  apply in_box_nth in B. destruct B as [L B]. rewrite map2_length in L by auto. specialize (B i ltac:(lia)).
  apply in_box_nth in B'. destruct B' as [_ B']. specialize (B' i ltac:(lia)).
  rewrite (nth_map2 _ _ _ _ ""%string 0) in B by auto.
  rewrite (nth_map2 _ _ _ _ ""%string 0) in B' by auto.
  rewrite !(nth_map2 _ _ _ _ ""%string 0) by auto.
  destruct (tile_ok_dim _ _ _ i T Hi) as (N1 & C0 & DV).
  rewrite (Forall2_nth _ _ _ ""%string 0) in P. destruct P as [_ P]. specialize (P i Hi). cbv beta in P.
  set (d := nd i dims) in *. set (e := nth i ext 0) in *.
  unfold slice1, rank_extent1 in *. cbn [fst snd orb] in *.
  assert (0 <= along d s 0 < along d layout 1) by (unfold along; destruct (axis_of d); lia).
  assert (0 <= along d s' 0 < along d layout 1) by (unfold along; destruct (axis_of d); lia).
  pose proof (Z.div_mod (e - stag d) (along d layout 1)).
  replace ((e - stag d) / along d layout 1 + stag d - stag d) with ((e - stag d) / along d layout 1) in * by lia.
  set (k := (e - stag d) / along d layout 1) in *. 
  assert (1 <= k) by nia.
  set (a := along d s 0) in *. set (a' := along d s' 0) in *.
  assert (K1 : (a + 1) * k <= a' * k) by (apply Z.mul_le_mono_nonneg_r; lia).
  assert (K2 : a' <> a + 1 -> (a + 2) * k <= a' * k) by (intros; apply Z.mul_le_mono_nonneg_r; lia).
  clearbody k a a'.
  destruct (stag_01 d) as [St|St]; rewrite St in *; [exfalso; lia|].
  assert (a' = a + 1) by lia. split; [reflexivity|]. split; [assumption|]. subst a'. lia.
Qed.

(** ** the cube *)
Lemma tile_index_eq layout r : 1 <= fst layout -> 1 <= snd layout ->
  tile_index layout r = Ok (r / (fst layout * snd layout)).
Proof.
  intros H1 H2. unfold tile_index, get_tile_index, total_ranks, tile_total_ranks.
  set (m := fst layout * snd layout). assert (1 <= m) by (unfold m; nia). clearbody m.
  replace (6 * m / 6) with m by lia.
  replace (6 * m mod 6 =? 0) with true by lia. simpl negb. cbv iota.
  destruct (Z.eqb_spec m 0); [lia|]. reflexivity.
Qed.

Lemma cs_partition layout dims ext t p : tile_ok layout dims ext -> horizontal dims ->
  0 <= t < 6 -> in_shape ext p ->
  exists r, (0 <= r < 6 * (fst layout * snd layout) /\
             exists box, cs_subtile_slice layout r ("tile"%string :: dims) (6 :: ext) false = Ok (t, box) /\ in_box box p) /\
  (forall r', 0 <= r' < 6 * (fst layout * snd layout) ->
     (exists box, cs_subtile_slice layout r' ("tile"%string :: dims) (6 :: ext) false = Ok (t, box) /\ in_box box p) -> r' = r) /\
  (forall r', 0 <= r' < 6 * (fst layout * snd layout) ->
     (exists box, cs_subtile_slice layout r' ("tile"%string :: dims) (6 :: ext) true = Ok (t, box) /\ in_box box p) -> r' <= r).
Proof.
  intros T H Ht S. pose proof T as ((LOy & LOx) & M & D). apply layout_ok_pos in LOy, LOx.
  destruct (tile_partition layout dims ext p T H S) as (r & (Hr & box & E & B) & U & Mx).
  set (m := fst layout * snd layout) in *. assert (Hm : 1 <= m) by (unfold m; nia).
  assert (SM : forall r, tile_subtile_index layout (r mod m) = tile_subtile_index layout r).
  { intros. unfold tile_subtile_index, subtile_index, tile_total_ranks. fold m.
    now rewrite Z.mod_mod by lia. }
  assert (SL : forall r ov, cs_subtile_slice layout r ("tile"%string :: dims) (6 :: ext) ov
            = do s <- tp_subtile_slice layout (r mod m) dims ext ov; Ok (r / m, s)).
  { intros r0 ov. unfold cs_subtile_slice. rewrite tile_index_eq by auto. fold m. cbn [negb tl bind].
    replace (negb (String.eqb "tile" TILE_DIM)) with false by reflexivity.
    unfold tp_subtile_slice. rewrite SM. reflexivity. }
  assert (R : forall r', 0 <= r' < 6 * m -> 0 <= r' mod m < m) by (intros; apply Z.mod_pos_bound; lia).
  exists (t * m + r). split; [|split].
  - split; [nia|]. exists box. split; auto. rewrite SL.
    replace ((t * m + r) mod m) with r by (apply Z.mod_unique_pos with t; lia).
    replace ((t * m + r) / m) with t by (apply Z.div_unique_pos with r; lia).
    now rewrite E.
  - intros r' Hr' (box' & E' & B'). rewrite SL in E'. apply bind_Ok in E'.
    destruct E' as (s & E' & F). injection F as F ->.
    assert (r' mod m = r) by (apply U; [auto|eauto]).
    pose proof (Z.div_mod r' m). lia.
  - intros r' Hr' (box' & E' & B'). rewrite SL in E'. apply bind_Ok in E'.
    destruct E' as (s & E' & F). injection F as F ->.
    assert (r' mod m <= r) by (apply Mx; [auto|eauto]).
    pose proof (Z.div_mod r' m). lia.
Qed.

(** ** C04: non-divisible extents lose points *)
Lemma nondivisible_lost layout dims ext p i :
  1 <= fst layout -> 1 <= snd layout ->
  moderate layout dims ext ->
  Forall2 (fun d e => layout_ok (along d layout 1) \/ (e - stag d) mod along d layout 1 <> 0) dims ext ->
  (i < length dims)%nat -> axis_of (nd i dims) <> AxOther -> 
  in_shape ext p ->
  nth i p 0 >= along (nd i dims) layout 1 * ((nth i ext 0 - stag (nd i dims)) / along (nd i dims) layout 1) + stag (nd i dims) ->
  forall r ov, exists box, tp_subtile_slice layout r dims ext ov = Ok box /\ ~ in_box box p.
Proof.
  intros L1 L2 M Q Hi Ax S G r ov.
  pose proof (moderate_length _ _ _ M) as LE.
  exists (map2 (slice1 ov layout (tile_subtile_index layout r)) dims ext). split.
  - unfold tp_subtile_slice. apply subtile_slice_raw; auto. apply rank_extent_nondiv_ok; auto.
    intros d e In. apply In_nth with (d := (""%string, 0)) in In. destruct In as (k & Hk & In).
    rewrite combine_length in Hk. rewrite combine_nth in In by auto. injection In as <- <-.
    rewrite (Forall2_nth _ _ _ ""%string 0) in Q. destruct Q as [_ Q]. specialize (Q k ltac:(lia)). cbv beta in Q.
    split; [now apply along_pos|].
    destruct Q as [Q|Q]; [left|right; left; exact Q]. apply layout_ok_recip in Q. tauto.
  - intros B. apply in_box_nth in B. destruct B as [L B]. rewrite map2_length in L by auto.
    specialize (B i ltac:(lia)). rewrite (nth_map2 _ _ _ _ ""%string 0) in B by auto.
    pose proof (subtile_index_bound layout r L1 L2) as [B1 B2].
    set (s := tile_subtile_index layout r) in *.
    set (d := nd i dims) in *. set (e := nth i ext 0) in *.
    unfold slice1, rank_extent1 in B. cbn [fst snd] in B.
    assert (0 <= along d s 0 < along d layout 1) by (unfold along; destruct (axis_of d); lia).
    replace ((e - stag d) / along d layout 1 + stag d - stag d) with ((e - stag d) / along d layout 1) in * by lia.
    assert (0 <= e - stag d).
    { unfold moderate in M. rewrite (Forall2_nth _ _ _ ""%string 0) in M. destruct M as [_ M]. apply (M i Hi). }
    assert (0 <= (e - stag d) / along d layout 1) by (apply Z.div_pos; lia).
    set (k := (e - stag d) / along d layout 1) in *. clearbody k.
    set (a := along d s 0) in *. clearbody a. 
    assert ((a + 1) * k <= along d layout 1 * k) by (apply Z.mul_le_mono_nonneg_r; lia).
    destruct (stag_01 d); destruct (ov || _); lia.
Qed.

(** ** C03: round trip *)
Lemma extent_roundtrip layout dims ext : layouts_ok layout ->
  Forall2 (fun d e => 0 <= e - stag d) dims ext ->
  Forall2 (fun d e => (e - stag d) * along d layout 1 + stag d + 2 * along d layout 1 <= 2 ^ 51) dims ext ->
  tp_subtile_extent layout dims (tp_global_extent layout dims ext) = Ok ext.
Proof.
  intros LO P B. unfold tp_subtile_extent, tp_global_extent. rewrite tile_extent_ok.
  assert (L : length dims = length ext) by (now apply Forall2_length in P).
  rewrite rank_extent_ok; auto.
  - f_equal. clear B. induction P as [|d e dims ext P0 P IH]; simpl; auto.
    rewrite IH by (simpl in L; lia). f_equal. unfold rank_extent1.
    pose proof (layout_ok_pos _ (along_ok layout d LO)).
    replace ((e - stag d) * along d layout 1 + stag d - stag d) with ((e - stag d) * along d layout 1) by lia.
    rewrite Z.div_mul by lia. lia.
  - unfold moderate. apply (Forall2_nth _ _ _ ""%string 0). rewrite map2_length by auto.
    rewrite (Forall2_nth _ _ _ ""%string 0) in P. rewrite (Forall2_nth _ _ _ ""%string 0) in B. destruct P as [_ P]. destruct B as [_ B].
    split; [auto|]. intros i Hi. rewrite (nth_map2 _ _ _ _ ""%string 0) by auto.
    specialize (P i Hi). specialize (B i Hi). cbv beta in *.
    pose proof (layout_ok_pos _ (along_ok layout (nd i dims) LO)).
    split; [nia|lia].
Qed.

Lemma extent_roundtrip' layout dims ext : tile_ok layout dims ext ->
  exists rext, tp_subtile_extent layout dims ext = Ok rext /\ tp_global_extent layout dims rext = ext.
Proof.
  intros T. pose proof T as (LO & M & D). pose proof (moderate_length _ _ _ M) as L.
  eexists. split; [now apply rank_extent_ok|].
  unfold tp_global_extent. rewrite tile_extent_ok.
  apply nth_eq with 0.
  - rewrite !map2_length; auto. now rewrite map2_length.
  - rewrite !map2_length by (rewrite ?map2_length; auto). intros i Hi.
    rewrite !(nth_map2 _ _ _ _ ""%string 0) by (rewrite ?map2_length; auto).
    destruct (tile_ok_dim _ _ _ i T Hi) as (N1 & C0 & DV).
    unfold rank_extent1. pose proof (Z.div_mod (nth i ext 0 - stag (nd i dims)) (along (nd i dims) layout 1)).
    lia.
Qed.

(** ** C05: numbering *)
Lemma rank_bijection layout : 1 <= fst layout -> 1 <= snd layout ->
  (forall r, 0 <= r < total_ranks layout ->
     exists t j i, 0 <= t < 6 /\ 0 <= j < fst layout /\ 0 <= i < snd layout /\
       tile_index layout r = Ok t /\ tile_subtile_index layout r = (j, i) /\
       r = (t * fst layout + j) * snd layout + i) /\
  (forall t j i, 0 <= t < 6 -> 0 <= j < fst layout -> 0 <= i < snd layout ->
     exists r, 0 <= r < total_ranks layout /\ tile_index layout r = Ok t /\
       tile_subtile_index layout r = (j, i) /\
       (forall r', 0 <= r' < total_ranks layout -> tile_index layout r' = Ok t ->
          tile_subtile_index layout r' = (j, i) -> r' = r)).
Proof.
  intros H1 H2. unfold total_ranks, tile_total_ranks.
  destruct layout as [ny nx]; simpl in *.
  assert (A : forall r, 0 <= r < 6 * (ny * nx) ->
     exists t j i, 0 <= t < 6 /\ 0 <= j < ny /\ 0 <= i < nx /\
       tile_index (ny, nx) r = Ok t /\ tile_subtile_index (ny, nx) r = (j, i) /\
       r = (t * ny + j) * nx + i).
  { intros r Hr. pose proof (subtile_index_bound (ny, nx) r H1 H2) as [B1 B2]. simpl in B1, B2.
    exists (r / (ny * nx)), (fst (tile_subtile_index (ny, nx) r)), (snd (tile_subtile_index (ny, nx) r)).
    split. { split; [apply Z.div_pos; nia|apply Z.div_lt_upper_bound; nia]. }
    split; [auto|]. split; [auto|]. split; [now apply (tile_index_eq (ny, nx))|].
    split; [now destruct (tile_subtile_index (ny, nx) r)|].
    unfold tile_subtile_index, subtile_index, tile_total_ranks. simpl.
    pose proof (Z.div_mod r (ny * nx) ltac:(nia)). pose proof (Z.div_mod (r mod (ny * nx)) nx ltac:(nia)). nia. }
  split; [exact A|].
  intros t j i Ht Hj Hi. exists ((t * ny + j) * nx + i).
  assert (0 <= t * ny + j) by nia.
  assert ((t * ny + j + 1) * nx <= 6 * ny * nx) by (apply Z.mul_le_mono_nonneg_r; nia).
  assert (Rg : 0 <= (t * ny + j) * nx + i < 6 * (ny * nx)) by nia.
  assert (Rj : 0 <= j * nx + i < ny * nx) by nia.
  assert (D : ((t * ny + j) * nx + i) / (ny * nx) = t).
  { symmetry. apply Z.div_unique_pos with (j * nx + i); nia. }
  assert (Mo : ((t * ny + j) * nx + i) mod (ny * nx) = j * nx + i).
  { symmetry. apply Z.mod_unique_pos with t; nia. }
  split; [exact Rg|]. split. { rewrite tile_index_eq by auto. simpl. now rewrite D. }
  split.
  { rewrite <- (subtile_index_rank (ny, nx) j i) by auto.
    unfold tile_subtile_index, subtile_index, tile_total_ranks. simpl. rewrite Mo.
    rewrite (Z.mod_small (j * nx + i) (ny * nx)) by exact Rj. reflexivity. }
  intros r' Hr' T' S'. destruct (A r' Hr') as (t' & j' & i' & _ & _ & _ & T2 & S2 & ->).
  rewrite T' in T2. rewrite S' in S2. congruence.
Qed.

Lemma root_rank_least layout r : 1 <= fst layout -> 1 <= snd layout ->
  tile_index layout (tile_root_rank layout r) = tile_index layout r /\
  (forall r', tile_index layout r' = tile_index layout r -> tile_root_rank layout r <= r').
Proof.
  intros H1 H2. rewrite !tile_index_eq by auto. unfold tile_root_rank, tile_total_ranks.
  set (m := fst layout * snd layout). assert (1 <= m) by (unfold m; nia).
  rewrite (Z.mul_comm m), Z.div_mul by lia. split; [reflexivity|].
  intros r'. rewrite tile_index_eq by auto. fold m. clearbody m. intros E.
  assert (E2 : r' / m = r / m) by congruence. clear E.
  pose proof (Z.div_mod r' m). pose proof (Z.mod_pos_bound r' m). nia.
Qed.

Lemma tile_number_errors rank total :
  (get_tile_index rank total = Err ValueError <-> ~ (6 | total)) /\
  (get_tile_number rank total = Err ValueError <-> ~ (6 | total)) /\
  (get_tile_number rank total = rmap (Z.add 1) (get_tile_index rank total)).
Proof.
  unfold get_tile_index, get_tile_number.
  assert (E : (total mod 6 =? 0) = true <-> (6 | total)).
  { rewrite Z.eqb_eq. apply Z.mod_divide. lia. }
  destruct (total mod 6 =? 0); simpl.
  - assert (6 | total) by tauto.
    destruct (total / 6 =? 0); simpl; repeat split; try discriminate; try tauto.
    f_equal. apply Z.add_comm.
  - assert (~ (6 | total)) by (rewrite <- E; discriminate). tauto.
Qed.
