(** The effect of halo updates (C12, C13, C14). *)
From Verif.Base Require Import Base Lemmas.
From Verif.Model Require Import Consts Numpy Quantity Partitioner Rotate Network Communicator.
From Verif.Spec Require Import Grid Cube Halo Lockstep Sync Client.
From Verif.Proofs Require Import Slices NumpyProofs Boundaries Regions Transfer Phases Scripts Delivery HaloOps.
From Coq Require Import ZifyBool.
Ltac Zify.zify_post_hook ::= idtac.

Section Geometry.
Variable n : Z.
Hypothesis Hn : 1 <= n.

Lemma rotations r b B : 0 <= r < 6 * (n * n) -> cs_boundary (n, n) b r = Ok (Some B) ->
  b_rot B = 0 \/ b_rot B = 1 \/ b_rot B = 3.
Proof.
  intros Hr E.
  assert (G := boundary_geometry n Hn r b B 1 0 0 1 (fst (heading b)) (snd (heading b)) Hr E ltac:(lia) ltac:(lia) ltac:(lia) ltac:(lia)).
  cbv zeta in G. destruct (unrot _ _ _ _) as [y' x']. destruct (swap_if _ _) as [sy' sx']. apply G.
  unfold in_halo, side_range. destruct b; simpl; lia.
Qed.

(** position is undefined beyond a corner of a tile *)
Lemma position_none r b N sy sx h y x : 0 <= r < 6 * (n * n) -> cs_boundary (n, n) b r = Ok None ->
  1 <= N -> 0 <= sy <= 1 -> 0 <= sx <= 1 -> in_halo b (N + sy) (N + sx) h y x -> position n N sy sx r y x = None.
Proof.
  intros Hr E HN Hsy Hsx Hin. destruct (boundary_none n Hn r b Hr) as [_ [H _]]. specialize (H E). destruct H as (A & B & C).
  destruct (Neighbors.rank_split n Hn r Hr) as (t & J & I & Ht & HJ & HI & ->).
  rewrite Neighbors.sub_index in C by auto. unfold position. rewrite place_rank_of by auto.
  unfold in_halo, side_range in Hin.
  assert (CJ : J = if 0 <? fst (heading b) then n - 1 else 0) by congruence.
  assert (CI : I = if 0 <? snd (heading b) then n - 1 else 0) by congruence.
  assert (OX : n * N < Z.abs (offset n N sx I x)).
  { unfold offset. subst I. destruct b; cbn [heading fst snd] in *; try (exfalso; lia); cbn [Z.eqb Z.ltb Z.compare Pos.compare Pos.compare_cont] in Hin |- *; destruct Hin; nia. }
  assert (OY : n * N < Z.abs (offset n N sy J y)).
  { unfold offset. subst J. destruct b; cbn [heading fst snd] in *; try (exfalso; lia); cbn [Z.eqb Z.ltb Z.compare Pos.compare Pos.compare_cont] in Hin |- *; destruct Hin; nia. }
  unfold surf. destruct (Z.leb_spec (Z.abs (offset n N sx I x)) (n * N)); [lia|]. destruct (Z.leb_spec (Z.abs (offset n N sy J y)) (n * N)); [lia|].
  reflexivity.
Qed.
End Geometry.

(** one message from boundary B' of the neighbour to boundary B of rank r; m, m': metadata of the
    array written and of the array read *)
Section Message.
Variables (n N h : Z) (len ix iy : nat).
Hypothesis Hn : 1 <= n.
Hypothesis HN : 1 <= N.
Hypothesis Hh : 0 <= h <= N.
Variables (sy sx : Z) (ext : nat -> Z) (m m' : meta) (r : nat) (B B' : boundary).
Hypothesis Hr : (r < ranks n)%nat.
Hypothesis IB : In B (blist n r).
Hypothesis IB' : In B' (blist n (Z.to_nat (b_to B))).
Hypothesis TB' : b_to B' = Z.of_nat r.
Hypothesis F : fits N h len ix iy sy sx ext m.
Hypothesis F' : fits N h len ix iy (fst (swap_if (b_rot B) (sy, sx))) (snd (swap_if (b_rot B) (sy, sx))) ext m'.
Set Default Proof Using "All".

Lemma message_facts :
  (b_rot B = 0 /\ b_rot B' = 0 \/ b_rot B = 1 /\ b_rot B' = 3 \/ b_rot B = 3 /\ b_rot B' = 1) /\
  heading (b_type B') = turn (Z.to_nat (b_rot B)) (- fst (heading (b_type B)), - snd (heading (b_type B))).
Proof.
  destruct (blist_back n Hn r B Hr IB) as (Ht & Ht' & B2 & I2 & T2 & K & HK1 & HK2 & HD).
  assert (B2 = B'). { eapply (blist_to_inj n Hn _ _ _ Ht'); eauto. congruence. } subst B2. split; auto.
  apply (in_blist_type n Hn) in IB; auto. apply (in_blist_type n Hn) in IB'; auto.
  pose proof (rotations n Hn _ _ _ (proj1 (rank_range n Hn r) Hr) IB).
  pose proof (rotations n Hn _ _ _ (proj1 (rank_range n Hn _) Ht') IB').
  destruct H as [Q|[Q|Q]], H0 as [Q'|[Q'|Q']]; rewrite Q, Q' in *; auto; vm_compute in K; discriminate.
Qed.

Lemma message dims v1 v2 v3 : find_xy 0 dims (None, None) = (Some ix, Some iy) ->
  recv_view B m h = Ok v1 -> send_view B' m' h = Ok v2 -> rotate_scalar_data v2 dims (- b_rot B') = Ok v3 ->
  vshp v3 = vshp v1 /\ inj_view v1 /\
  (forall j, in_side m ix iy h (b_type B) j <-> exists p, in_shape (vshp v1) p /\ vmap v1 p = j) /\
  (forall p, in_shape (vshp v1) p ->
     let j := vmap v1 p in let j' := vmap v3 p in let r' := Z.to_nat (b_to B) in
     in_domain m' j' /\ same_column m m' ix iy j j' /\ place_of n N ix iy m r j <> None /\
     place_of n N ix iy m' r' j' = place_of n N ix iy m r j /\
     (x_dir_of n N ix iy m' r' j', y_dir_of n N ix iy m' r' j') =
       unrot_dir (b_rot B) (x_dir_of n N ix iy m r j) (y_dir_of n N ix iy m r j)).
Proof.
  intros FX E1 E2 E3. destruct message_facts as [K HD].
  destruct (boundary_view_ok N h len ix iy HN Hh sy sx ext m F (b_type B) B false eq_refl) as (w1 & W1 & S1 & M1).
  assert (w1 = v1) by (unfold recv_view in E1; congruence). subst w1.
  destruct (boundary_view_ok N h len ix iy HN Hh _ _ ext m' F' (b_type B') B' true eq_refl) as (w2 & W2 & S2 & M2).
  assert (w2 = v2) by (unfold send_view in E2; congruence). subst w2.
  assert (L2 : length (vshp v2) = len).
  { rewrite S2. unfold box_shape. rewrite map_length. apply (length_mboxes N h len ix iy HN Hh _ _ ext m' F'). }
  assert (R3 : vshp v3 = rot_shape ix iy (b_rot B') (vshp v2) /\ forall p, vmap v3 p = vmap v2 (rot_idx ix iy (b_rot B') (vshp v2) p)).
  { pose proof (fit_ix F) as Hx. pose proof (fit_iy F) as Hy. unfold rotate_scalar_data in E3. rewrite FX in E3.
    unfold check_axis in E3. rewrite L2 in E3. destruct (Nat.ltb_spec ix len); [|lia]. destruct (Nat.ltb_spec iy len); [|lia].
    unfold rot_idx, rot_shape. destruct K as [[_ Q]|[[_ Q]|[_ Q]]]; rewrite Q in *; cbn in E3; injection E3 as <-; split; reflexivity. }
  destruct R3 as [S3 M3]. rewrite S2 in S3.
  rewrite (strip_shape N h len ix iy HN Hh sy sx ext m m' (b_type B) (b_type B') (b_rot B) (b_rot B') F F' K HD) in S3.
  rewrite <- S1 in S3. split; [exact S3|].
  assert (LB : length (mboxes (b_type B) false h m) = len) by apply (length_mboxes N h len ix iy HN Hh sy sx ext m F).
  assert (LP : forall p, in_shape (vshp v1) p -> length p = len).
  { intros p P. rewrite (in_shape_length _ _ P), S1. unfold box_shape. now rewrite map_length. }
  split. { intros p q P Q. rewrite !M1 by auto. apply box_map_inj; rewrite LB; auto. }
  split. { intros j. rewrite <- (in_recv_box N h len ix iy HN Hh sy sx ext m F). split.
    - intros I. destruct (box_map_onto _ _ I) as (p & P & E). exists p. rewrite S1. split; auto. rewrite M1; auto. apply LP. now rewrite S1.
    - intros (p & P & <-). rewrite M1 by auto. apply box_map_in_box. now rewrite <- S1. }
  intros p P j j' r'.
  assert (P0 : in_shape (box_shape (mboxes (b_type B) false h m)) p) by (now rewrite <- S1).
  destruct (transfer_geometry N h len ix iy HN Hh sy sx ext m m' (b_type B) (b_type B') (b_rot B) (b_rot B') F F' K HD p P0)
    as (IS & ID & SC & U).
  assert (Ej : j = box_map (mboxes (b_type B) false h m) p) by (apply M1; auto).
  assert (Ej' : j' = box_map (mboxes (b_type B') true h m') (rot_idx ix iy (b_rot B') (box_shape (mboxes (b_type B') true h m')) p)).
  { unfold j'. rewrite M3, S2. apply M2. rewrite length_rot_idx. auto. }
  rewrite <- Ej in *. rewrite <- Ej' in *. split; [auto|]. split; [auto|].
  assert (EB := in_blist_type n Hn r B Hr IB).
  assert (HS : in_halo (b_type B) (N + sy) (N + sx) h (rel m j iy) (rel m j ix)).
  { destruct IS as [_ HS]. rewrite (fit_ext_x N h len ix iy HN Hh sy sx ext m F), (fit_ext_y N h len ix iy HN Hh sy sx ext m F) in HS. exact HS. }
  pose proof (fit_stag_x N h len ix iy HN Hh sy sx ext m F) as Hsx.
  pose proof (fit_stag_y N h len ix iy HN Hh sy sx ext m F) as Hsy.
  assert (G := boundary_geometry n Hn _ _ _ N sy sx h _ _ (proj1 (rank_range n Hn r) Hr) EB HN Hsy Hsx (proj2 Hh) HS).
  cbv zeta in G. rewrite <- U in G.
  unfold place_of, x_dir_of, y_dir_of. rewrite (fit_sx F), (fit_sy F), (fit_sx F'), (fit_sy F').
  destruct (swap_if (b_rot B) (sy, sx)) as [sy' sx']. cbn [fst snd].
  destruct (blist_back n Hn r B Hr IB) as (Ht & _). unfold r'. rewrite Z2Nat.id by lia. tauto.
Qed.

Lemma message_views dims : find_xy 0 dims (None, None) = (Some ix, Some iy) ->
  exists v1 v2 v3, recv_view B m h = Ok v1 /\ send_view B' m' h = Ok v2 /\ rotate_scalar_data v2 dims (- b_rot B') = Ok v3.
Proof.
  intros FX. destruct message_facts as [K HD].
  destruct (boundary_view_ok N h len ix iy HN Hh sy sx ext m F (b_type B) B false eq_refl) as (w1 & W1 & S1 & M1).
  destruct (boundary_view_ok N h len ix iy HN Hh _ _ ext m' F' (b_type B') B' true eq_refl) as (w2 & W2 & S2 & M2).
  assert (L2 : length (vshp w2) = len).
  { rewrite S2. unfold box_shape. rewrite map_length. apply (length_mboxes N h len ix iy HN Hh _ _ ext m' F'). }
  exists w1, w2.
  pose proof (fit_ix F) as Hx. pose proof (fit_iy F) as Hy.
  unfold rotate_scalar_data. rewrite FX. unfold check_axis. rewrite L2. destruct (Nat.ltb_spec ix len); [|lia]. destruct (Nat.ltb_spec iy len); [|lia].
  destruct K as [[_ Q]|[[_ Q]|[_ Q]]]; rewrite Q in *; cbn; eexists; repeat split; eauto.
Qed.
End Message.

(** places to fill are those received *)
Lemma to_fill_boundary n N h len ix iy sy sx ext m r p : 1 <= n -> 1 <= N -> 0 <= h <= N -> fits N h len ix iy sy sx ext m ->
  (r < ranks n)%nat -> (to_fill n N h ix iy m r p <-> exists B, In B (blist n r) /\ in_side m ix iy h (b_type B) p).
Proof.
  intros Hn HN Hh F Hr. pose proof (fit_stag_x N h len ix iy HN Hh sy sx ext m F) as Hsx.
  pose proof (fit_stag_y N h len ix iy HN Hh sy sx ext m F) as Hsy.
  assert (HS : forall b, in_side m ix iy h b p -> in_halo b (N + sy) (N + sx) h (rel m p iy) (rel m p ix)).
  { intros b [_ HS]. rewrite (fit_ext_x N h len ix iy HN Hh sy sx ext m F), (fit_ext_y N h len ix iy HN Hh sy sx ext m F) in HS. exact HS. }
  unfold to_fill, place_of. rewrite (fit_sx F), (fit_sy F). pose proof (proj1 (rank_range n Hn r) Hr) as Hr'. split.
  - intros ((b & IS) & PD). destruct (boundary_none n Hn _ b Hr') as ((o & E) & _). destruct o as [B|].
    + exists B. assert (I : In B (blist n r)) by (apply in_blist; eauto). split; auto.
      assert (E2 := in_blist_type n Hn r B Hr I). destruct (boundary_reciprocal n Hn _ _ _ Hr' E) as (-> & _). exact IS.
    + exfalso. apply PD. eapply (position_none n Hn _ _ _ _ _ h _ _ Hr' E); eauto.
  - intros (B & I & IS). split; [eauto|].
    assert (G := boundary_geometry n Hn _ _ _ N sy sx h _ _ Hr' (in_blist_type n Hn r B Hr I) HN Hsy Hsx (proj2 Hh) (HS _ IS)).
    cbv zeta in G. destruct (unrot _ _ _ _) as [y' x']. destruct (swap_if _ _) as [sy' sx']. apply G.
Qed.
