(** Statements about boundary() built on the closed forms (C06-C09, C11). *)
From Verif.Base Require Import Base Lemmas.
From Verif.Model Require Import Consts Partitioner.
From Verif.Spec Require Import Cube.
From Verif.Proofs Require Import Neighbors Reciprocal Geometry.
From Coq Require Import ZifyBool.

Section Cube.
Variable n : Z.
Hypothesis Hn : 1 <= n.

Lemma boundary_inv t J I b B : 0 <= J < n -> 0 <= I < n ->
  cs_boundary (n, n) b (rank_of n t J I) = Ok (Some B) ->
  exists t' J' I' k, nbr n b t J I = Some (t', J', I', k) /\ 0 <= J' < n /\ 0 <= I' < n /\
    B = mkB b (rank_of n t J I) (rank_of n (t' mod 6) J' I') k.
Proof.
  intros HJ HI E. rewrite cs_boundary_eq in E by auto. unfold nbr_boundary in E.
  destruct (nbr n b t J I) as [[[[t' J'] I'] k]|] eqn:N; [|discriminate]. injection E as <-.
  pose proof (nbr_valid n Hn _ _ _ _ _ _ _ _ HJ HI N) as [? ?].
  eauto 10.
Qed.

Lemma boundary_of_nbr t J I b t' J' I' k : 0 <= J < n -> 0 <= I < n ->
  nbr n b t J I = Some (t', J', I', k) ->
  cs_boundary (n, n) b (rank_of n t J I) = Ok (Some (mkB b (rank_of n t J I) (rank_of n (t' mod 6) J' I') k)).
Proof. intros HJ HI E. rewrite cs_boundary_eq by auto. unfold nbr_boundary. now rewrite E. Qed.

Lemma mod6 t : 0 <= t mod 6 < 6.
Proof. apply Z.mod_pos_bound. lia. Qed.

Lemma boundary_distinct r b1 b2 B1 B2 : 0 <= r < 6 * (n * n) ->
  cs_boundary (n, n) b1 r = Ok (Some B1) -> cs_boundary (n, n) b2 r = Ok (Some B2) ->
  b_to B1 = b_to B2 -> b1 = b2.
Proof.
  intros Hr E1 E2 T. destruct (rank_split n Hn r Hr) as (t & J & I & Ht & HJ & HI & ->).
  apply boundary_inv in E1; auto. apply boundary_inv in E2; auto.
  destruct E1 as (t1 & J1 & I1 & k1 & N1 & V1 & W1 & ->). destruct E2 as (t2 & J2 & I2 & k2 & N2 & V2 & W2 & ->).
  cbn [b_to] in T. apply (rank_of_inj n Hn) in T; auto. destruct T as (T1 & T2 & T3).
  exact (nbr_distinct n _ _ _ _ _ _ _ _ _ _ _ _ _ Ht HJ HI N1 N2 T1 T2 T3).
Qed.

Lemma boundary_reciprocal r b B : 0 <= r < 6 * (n * n) -> cs_boundary (n, n) b r = Ok (Some B) ->
  b_type B = b /\ b_from B = r /\ 0 <= b_to B < 6 * (n * n) /\ b_to B <> r /\ 0 <= b_rot B < 4 /\
  exists b' B', cs_boundary (n, n) b' (b_to B) = Ok (Some B') /\ b_to B' = r /\
    (b_rot B + b_rot B') mod 4 = 0 /\
    heading b' = turn (Z.to_nat (b_rot B)) (- fst (heading b), - snd (heading b)) /\
    (forall b'' B'', cs_boundary (n, n) b'' (b_to B) = Ok (Some B'') -> b_to B'' = r -> b'' = b').
Proof.
  intros Hr E. destruct (rank_split n Hn r Hr) as (t & J & I & Ht & HJ & HI & ->).
  apply boundary_inv in E; auto. destruct E as (t' & J' & I' & k & N & V & W & ->). cbn [b_type b_from b_to b_rot].
  destruct (nbr_back n Hn _ _ _ _ _ _ _ _ Ht HJ HI N) as (t2 & k' & N' & T2 & K & KK & NE & HD).
  pose proof (mod6 t') as M6.
  pose proof (rank_of_range n Hn _ _ _ M6 V W) as RR.
  split; [auto|]. split; [auto|]. split; [exact RR|]. split.
  { intros Q. apply (rank_of_inj n Hn) in Q; auto. apply NE. destruct Q as (-> & -> & ->). reflexivity. }
  split; [lia|].
  pose proof (boundary_of_nbr _ _ _ _ _ _ _ _ V W N') as E'. rewrite T2 in E'.
  exists (back b k), (mkB (back b k) (rank_of n (t' mod 6) J' I') (rank_of n t J I) k').
  split; [exact E'|]. split; [auto|]. split; [exact K|]. split; [exact HD|].
  intros b'' B'' E'' Q. apply (boundary_distinct _ _ _ _ _ RR E'' E'). now rewrite Q.
Qed.

Lemma boundary_none r b : 0 <= r < 6 * (n * n) ->
  (exists B, cs_boundary (n, n) b r = Ok B) /\
  (cs_boundary (n, n) b r = Ok None <->
   (fst (heading b) <> 0 /\ snd (heading b) <> 0 /\
    tile_subtile_index (n, n) r =
     ((if 0 <? fst (heading b) then n - 1 else 0), (if 0 <? snd (heading b) then n - 1 else 0)))).
Proof.
  intros Hr. destruct (rank_split n Hn r Hr) as (t & J & I & Ht & HJ & HI & ->).
  rewrite cs_boundary_eq, sub_index by auto. split; [eauto|]. unfold nbr_boundary.
  pose proof (nbr_none n b t J I) as N.
  destruct (nbr n b t J I) as [[[[t' J'] I'] k]|].
  - split; [discriminate|]. intros (A & B & [= C D]). destruct N as [_ N]. discriminate N. auto.
  - split; [|auto]. intros _. destruct N as [N _]. specialize (N eq_refl).
    destruct N as (A & B & -> & ->). auto.
Qed.

(** C11 *)
Lemma place_rank_of t J I : 0 <= J < n -> 0 <= I < n -> place n (rank_of n t J I) = (t, J, I).
Proof.
  intros HJ HI. unfold place. rewrite rank_div, rank_mod by auto. f_equal; [f_equal|].
  - symmetry. apply Z.div_unique_pos with I; lia.
  - unfold rank_of. symmetry. apply Z.mod_unique_pos with (t * n + J); lia.
Qed.

Lemma boundary_geometry r b B N sy sx h y x : 0 <= r < 6 * (n * n) ->
  cs_boundary (n, n) b r = Ok (Some B) ->
  1 <= N -> 0 <= sy <= 1 -> 0 <= sx <= 1 -> h <= N ->
  in_halo b (N + sy) (N + sx) h y x ->
  let k := b_rot B in
  let '(y', x') := unrot k (N + sy) (N + sx) (y - fst (heading b) * N, x - snd (heading b) * N) in
  let '(sy', sx') := swap_if k (sy, sx) in
  (k = 0 \/ k = 1 \/ k = 3) /\
  0 <= y' < N + sy' /\ 0 <= x' < N + sx' /\
  position n N sy sx r y x <> None /\
  position n N sy' sx' (b_to B) y' x' = position n N sy sx r y x /\
  (x_direction n N sy' sx' (b_to B) y' x', y_direction n N sy' sx' (b_to B) y' x')
   = unrot_dir k (x_direction n N sy sx r y x) (y_direction n N sy sx r y x).
Proof.
  intros Hr E HN Hsy Hsx Hh Hin. destruct (rank_split n Hn r Hr) as (t & J & I & Ht & HJ & HI & ->).
  apply boundary_inv in E; auto. destruct E as (t' & J' & I' & k & Nb & V & W & ->). cbn [b_type b_from b_to b_rot].
  destruct (nbr_geom n Hn _ _ _ _ _ _ _ _ _ _ _ _ _ _ Ht HJ HI Nb HN Hsy Hsx Hh Hin) as [K G].
  destruct (unrot k (N + sy) (N + sx) (y - fst (heading b) * N, x - snd (heading b) * N)) as [y' x'] eqn:U.
  specialize (G y' x' eq_refl). unfold geo_concl in G.
  destruct (swap_if k (sy, sx)) as [sy' sx']. 
  unfold position, x_direction, y_direction. rewrite !place_rank_of by auto. tauto.
Qed.
End Cube.

(** non-square layouts *)
Lemma nonsquare ny nx b r : 1 <= ny -> 1 <= nx -> ny <> nx ->
  cs_boundary (ny, nx) b r = Err NotImplementedError \/
  (cs_boundary (ny, nx) b r = Ok None /\ fst (heading b) <> 0 /\ snd (heading b) <> 0 /\
   tile_subtile_index (ny, nx) r =
     ((if 0 <? fst (heading b) then ny - 1 else 0), (if 0 <? snd (heading b) then nx - 1 else 0))).
Proof.
  intros H1 H2 NE.
  assert (SQ : ensure_square_layout (ny, nx) = Err NotImplementedError).
  { unfold ensure_square_layout. simpl. destruct (Z.eqb_spec ny nx); [contradiction|reflexivity]. }
  assert (TI : exists t, tile_index (ny, nx) r = Ok t).
  { unfold tile_index, get_tile_index, total_ranks, tile_total_ranks. cbn [fst snd].
    assert (E' : 6 * (ny * nx) mod 6 = 0) by (rewrite Z.mul_comm; apply Z.mod_mul; lia).
    rewrite E'. simpl negb. cbv iota. rewrite (Z.mul_comm 6), Z.div_mul by lia.
    destruct (Z.eqb_spec (ny * nx) 0); [nia|eauto]. }
  destruct TI as [t TI].
  unfold cs_boundary; destruct b;
   unfold cs_left_edge, cs_right_edge, cs_top_edge, cs_bottom_edge; rewrite ?SQ; try (left; reflexivity);
   cbn [heading fst snd];
   unfold cs_top_left_corner, cs_top_right_corner, cs_bottom_left_corner, cs_bottom_right_corner,
     tp_on_top, tp_on_bottom, tp_on_left, tp_on_right;
   destruct (tile_subtile_index (ny, nx) r) as [J I];
   unfold on_tile_top, on_tile_left, on_tile_bottom, on_tile_right; cbn [fst snd];
   match goal with |- context [(?a =? ?b) && (?c =? ?d)] =>
     destruct (Z.eqb_spec a b); destruct (Z.eqb_spec c d); cbn [andb] end;
   try (right; simpl; repeat split; try lia; congruence);
   rewrite TI; cbn [bind]; unfold cs_get_corner, cs_left_edge, cs_right_edge, cs_top_edge, cs_bottom_edge; rewrite SQ; left; reflexivity.
Qed.

(** C09 *)
Section Tile.
Variables ny nx : Z.
Hypothesis Hy : 1 <= ny.
Hypothesis Hx : 1 <= nx.

Definition wrapped (r : Z) (d : Z * Z) : Z :=
  ((r / nx + fst d) mod ny) * nx + (r mod nx + snd d) mod nx.

Lemma tile_index_split r : 0 <= r < ny * nx ->
  tile_subtile_index (ny, nx) r = (r / nx, r mod nx) /\ 0 <= r / nx < ny /\ 0 <= r mod nx < nx /\ r = r / nx * nx + r mod nx.
Proof.
  intros Hr. unfold tile_subtile_index, subtile_index, tile_total_ranks. cbn [fst snd].
  rewrite (Z.mod_small r (ny * nx)) by lia. split; [auto|].
  split. { split; [apply Z.div_pos; lia|apply Z.div_lt_upper_bound; lia]. }
  split; [apply Z.mod_pos_bound; lia|]. pose proof (Z.div_mod r nx). lia.
Qed.

Lemma mod_wrap a m : 1 <= m -> 0 <= a < m ->
  (a + 1) mod m = (if a =? m - 1 then 0 else a + 1) /\ (a + -1) mod m = (if a =? 0 then m - 1 else a - 1) /\ (a + 0) mod m = a.
Proof.
  intros Hm Ha. destruct (Z.eqb_spec a (m - 1)); destruct (Z.eqb_spec a 0); repeat split.
  all: try (subst; apply Z.mod_small; lia).
  all: try (replace (a + 1) with m by lia; apply Z.mod_same; lia).
  all: try (symmetry; apply Z.mod_unique_pos with (-1); lia).
  all: try (symmetry; apply Z.mod_unique_pos with 0; lia).
Qed.

Lemma wrapped_range r d : 0 <= r < ny * nx -> 0 <= wrapped r d < ny * nx.
Proof.
  intros Hr. unfold wrapped. pose proof (Z.mod_pos_bound (r / nx + fst d) ny).
  pose proof (Z.mod_pos_bound (r mod nx + snd d) nx). nia.
Qed.

Lemma tile_edges r : 0 <= r < ny * nx ->
  tp_left_edge (ny, nx) r = mkB WEST r (wrapped r (0, -1)) 0 /\
  tp_right_edge (ny, nx) r = mkB EAST r (wrapped r (0, 1)) 0 /\
  tp_top_edge (ny, nx) r = mkB NORTH r (wrapped r (1, 0)) 0 /\
  tp_bottom_edge (ny, nx) r = mkB SOUTH r (wrapped r (-1, 0)) 0.
Proof.
  intros Hr. destruct (tile_index_split r Hr) as (E & BJ & BI & R).
  unfold tp_left_edge, tp_right_edge, tp_top_edge, tp_bottom_edge, tp_on_left, tp_on_right, tp_on_top, tp_on_bottom.
  rewrite E. unfold on_tile_left, on_tile_right, on_tile_top, on_tile_bottom, wrapped. cbn [fst snd].
  destruct (mod_wrap _ _ Hy BJ) as (A1 & A2 & A3). destruct (mod_wrap _ _ Hx BI) as (B1 & B2 & B3).
  rewrite A1, A2, A3, B1, B2, B3.
  set (J := r / nx) in *. set (i := r mod nx) in *. clearbody J i.
  split; [|split; [|split]]; f_equal;
  match goal with |- context [?a =? ?b] => destruct (Z.eqb_spec a b) end; subst; try lia; nia.
Qed.

Lemma wrapped_index r d : 0 <= r < ny * nx ->
  wrapped r d / nx = (r / nx + fst d) mod ny /\ wrapped r d mod nx = (r mod nx + snd d) mod nx.
Proof.
  intros Hr. unfold wrapped. pose proof (Z.mod_pos_bound (r / nx + fst d) ny).
  pose proof (Z.mod_pos_bound (r mod nx + snd d) nx). split; symmetry.
  - apply Z.div_unique_pos with ((r mod nx + snd d) mod nx); lia.
  - apply Z.mod_unique_pos with ((r / nx + fst d) mod ny); lia.
Qed.

Lemma wrapped_compose r d d' : 0 <= r < ny * nx ->
  wrapped (wrapped r d) d' = wrapped r (fst d + fst d', snd d + snd d').
Proof.
  intros Hr. unfold wrapped at 1. destruct (wrapped_index r d Hr) as [E1 E2]. rewrite E1, E2.
  unfold wrapped. cbn [fst snd]. rewrite (Zplus_mod_idemp_l (r / nx + fst d)), (Zplus_mod_idemp_l (r mod nx + snd d)), !Z.add_assoc. reflexivity.
Qed.

Lemma wrapped_zero r : 0 <= r < ny * nx -> wrapped r (0, 0) = r.
Proof.
  intros Hr. destruct (tile_index_split r Hr) as (E & BJ & BI & R). unfold wrapped. cbn [fst snd].
  rewrite !Z.add_0_r, !Z.mod_small by lia. lia.
Qed.

Lemma tile_boundary_wrapped b r : 0 <= r < ny * nx ->
  tp_boundary (ny, nx) b r = mkB b r (wrapped r (heading b)) 0.
Proof.
  intros Hr. destruct (tile_edges r Hr) as (L & R & T & B).
  assert (C : forall bt d1 d2 f1 f2, 
     (f1 r = mkB d1 r (wrapped r (heading d1)) 0) ->
     (forall r', 0 <= r' < ny * nx -> f2 r' = mkB d2 r' (wrapped r' (heading d2)) 0) ->
     tp_get_corner bt r f1 f2 = mkB bt r (wrapped r (fst (heading d1) + fst (heading d2), snd (heading d1) + snd (heading d2))) 0).
  { intros bt d1 d2 f1 f2 E1 E2. unfold tp_get_corner. rewrite E1. cbn [b_to b_rot].
    rewrite E2 by (now apply wrapped_range). cbn [b_to b_rot]. now rewrite wrapped_compose. }
  assert (T' : forall r', 0 <= r' < ny * nx -> tp_top_edge (ny, nx) r' = mkB NORTH r' (wrapped r' (1, 0)) 0).
  { intros r' Hr'. now destruct (tile_edges r' Hr') as (_ & _ & ? & _). }
  assert (B' : forall r', 0 <= r' < ny * nx -> tp_bottom_edge (ny, nx) r' = mkB SOUTH r' (wrapped r' (-1, 0)) 0).
  { intros r' Hr'. now destruct (tile_edges r' Hr') as (_ & _ & _ & ?). }
  destruct b; cbn [tp_boundary]; auto.
  - exact (C NORTHWEST WEST NORTH _ _ L T').
  - exact (C NORTHEAST EAST NORTH _ _ R T').
  - exact (C SOUTHWEST WEST SOUTH _ _ L B').
  - exact (C SOUTHEAST EAST SOUTH _ _ R B').
Qed.

Lemma tile_boundary_compose b1 b2 b3 r : 0 <= r < ny * nx ->
  (fst (heading b1) + fst (heading b2), snd (heading b1) + snd (heading b2)) = heading b3 ->
  b_to (tp_boundary (ny, nx) b2 (b_to (tp_boundary (ny, nx) b1 r))) = b_to (tp_boundary (ny, nx) b3 r).
Proof.
  intros Hr E. rewrite !tile_boundary_wrapped; cbn [b_to]; auto using wrapped_range.
  - now rewrite wrapped_compose, E.
  - rewrite tile_boundary_wrapped by auto. apply wrapped_range; auto.
Qed.

Lemma tile_boundary_opposite b1 b2 r : 0 <= r < ny * nx ->
  heading b2 = (- fst (heading b1), - snd (heading b1)) ->
  b_to (tp_boundary (ny, nx) b2 (b_to (tp_boundary (ny, nx) b1 r))) = r.
Proof.
  intros Hr E. rewrite !tile_boundary_wrapped; cbn [b_to]; auto using wrapped_range.
  - rewrite wrapped_compose, E by auto. cbn [fst snd]. rewrite !Z.add_opp_diag_r. now apply wrapped_zero.
  - rewrite tile_boundary_wrapped by auto. apply wrapped_range; auto.
Qed.
End Tile.
