(** Closed form of the cubed-sphere and tile boundaries (C06-C09, C11). *)
From Verif.Base Require Import Base Lemmas.
From Verif.Model Require Import Consts Partitioner.
From Coq Require Import ZifyBool.

(** ** np.where searches *)
Lemma in_cells h w r c : In (r, c) (cells h w) <-> 0 <= r < h /\ 0 <= c < w.
Proof.
  unfold cells. rewrite in_flat_map. split.
  - intros (r' & Hr & H). apply in_map_iff in H. destruct H as (c' & E & Hc).
    injection E as -> ->. apply in_zrange in Hr, Hc. auto.
  - intros [Hr Hc]. exists r. split; [now apply in_zrange|]. apply in_map_iff. exists c.
    split; auto. now apply in_zrange.
Qed.

Lemma NoDup_flat_map {A B} (f : A -> list B) l : NoDup l -> (forall a, In a l -> NoDup (f a)) ->
  (forall a a' b, In a l -> In a' l -> In b (f a) -> In b (f a') -> a = a') -> NoDup (flat_map f l).
Proof.
  induction l as [|a l IH]; simpl; intros N F D; [constructor|].
  inversion N; subst.
  assert (G : forall l1 l2 : list B, NoDup l1 -> NoDup l2 -> (forall b, In b l1 -> ~ In b l2) -> NoDup (l1 ++ l2)).
  { clear. induction l1; simpl; intros l2 N1 N2 D; auto. inversion N1; subst. constructor.
    - rewrite in_app_iff. intros [I|I]; [auto|]. apply (D a); auto.
    - apply IHl1; auto. }
  apply G.
  - apply F. now left.
  - apply IH; auto. intros; eapply D; eauto.
  - intros b Hb I. apply in_flat_map in I. destruct I as (a' & Ha' & Hb').
    assert (a = a') by (eapply D; eauto). subst. contradiction.
Qed.

Lemma NoDup_cells h w : NoDup (cells h w).
Proof.
  unfold cells. apply NoDup_flat_map.
  - apply zrange_NoDup.
  - intros a _. apply FinFun.Injective_map_NoDup; [|apply zrange_NoDup]. intros x y E. congruence.
  - intros a a' b _ _ H H'. apply in_map_iff in H, H'. destruct H as (x & <- & _). destruct H' as (y & E & _). congruence.
Qed.

Lemma first_match_unique layout h w m rank r0 c0 :
  0 <= r0 < h -> 0 <= c0 < w -> r0 < fst layout -> c0 < snd layout ->
  (forall r c, 0 <= r < h -> 0 <= c < w -> (m r c = rank <-> r = r0 /\ c = c0)) ->
  first_match layout h w m rank = Ok (r0 * snd layout + c0).
Proof.
  intros Hr Hc Hr' Hc' U. unfold first_match.
  assert (E : filter (fun rc => m (fst rc) (snd rc) =? rank) (cells h w) = [(r0, c0)]).
  { set (l := filter _ _).
    assert (N : NoDup l) by (apply NoDup_filter, NoDup_cells).
    assert (I : forall x, In x l <-> x = (r0, c0)).
    { intros [r c]. unfold l. rewrite filter_In, in_cells. simpl. split.
      - intros [[A B] C]. apply Z.eqb_eq in C. apply U in C; auto. destruct C; congruence.
      - intros [= -> ->]. split; [auto|]. apply Z.eqb_eq. apply U; auto. }
    clearbody l. destruct l as [|x [|y l]].
    - exfalso. apply (I (r0, c0)). reflexivity.
    - f_equal. apply I. now left.
    - exfalso. assert (x = (r0, c0)) by (apply I; now left).
      assert (y = (r0, c0)) by (apply I; right; now left).
      subst. inversion N; subst. apply H1. now left. }
  rewrite E. simpl. rewrite !(proj2 (Z.ltb_lt _ _)) by auto. reflexivity.
Qed.

(** ** square layouts *)
Section Square.
Variable n : Z.
Hypothesis Hn : 1 <= n.
Let L := (n, n).

Definition rank_of (t J I : Z) : Z := (t * n + J) * n + I.

Lemma flip_rot_eq J I : 0 <= J < n -> 0 <= I < n ->
  flip_rot L (J * n + I) = Ok ((n - 1 - I) * n + (n - 1 - J)).
Proof.
  intros HJ HI. unfold flip_rot, rotate_rank, rotate_subtile_rank, fliplr_rank, fliplr_subtile_rank, L.
  cbn [fst snd]. change (1 =? 0) with false. change (1 =? 1) with true. cbv iota.
  rewrite (first_match_unique _ _ _ _ _ (n - 1 - I) J); cbn [fst snd bind]; try lia.
  - rewrite (first_match_unique _ _ _ _ _ (n - 1 - I) (n - 1 - J)); cbn [fst snd]; try lia; try reflexivity.
    intros r c Hr Hc. unfold rank_array. cbn [snd]. split; [|intros [-> ->]; ring].
    intros E. assert (r = n - 1 - I) by nia. nia.
  - intros r c Hr Hc. unfold rank_array. cbn [snd]. split; [|intros [-> ->]; ring].
    intros E. assert (c = J) by nia. nia.
Qed.

Lemma tot : tile_total_ranks L = n * n.
Proof. reflexivity. Qed.

Lemma rank_div t J I : 0 <= J < n -> 0 <= I < n -> rank_of t J I / (n * n) = t.
Proof. intros. unfold rank_of. symmetry. apply Z.div_unique_pos with (J * n + I); nia. Qed.

Lemma rank_mod t J I : 0 <= J < n -> 0 <= I < n -> rank_of t J I mod (n * n) = J * n + I.
Proof. intros. unfold rank_of. symmetry. apply Z.mod_unique_pos with t; nia. Qed.

Lemma sub_index t J I : 0 <= J < n -> 0 <= I < n -> tile_subtile_index L (rank_of t J I) = (J, I).
Proof.
  intros. unfold tile_subtile_index, subtile_index. rewrite tot, rank_mod by auto. simpl.
  f_equal.
  - symmetry. apply Z.div_unique_pos with I; lia.
  - symmetry. apply Z.mod_unique_pos with J; lia.
Qed.

Lemma t_index t J I : 0 <= J < n -> 0 <= I < n -> tile_index L (rank_of t J I) = Ok t.
Proof.
  intros. unfold tile_index, get_tile_index, total_ranks. rewrite tot.
  assert (E : 6 * (n * n) / 6 = n * n) by (rewrite Z.mul_comm; apply Z.div_mul; lia).
  assert (E' : 6 * (n * n) mod 6 = 0) by (rewrite Z.mul_comm; apply Z.mod_mul; lia).
  rewrite E, E'. simpl negb. cbv iota.
  destruct (Z.eqb_spec (n * n) 0); [nia|]. now rewrite rank_div.
Qed.

Lemma root_rank_shift t J I k : 0 <= J < n -> 0 <= I < n ->
  tile_root_rank L (rank_of t J I + k * (n * n)) = (t + k) * (n * n).
Proof.
  intros. unfold tile_root_rank. rewrite tot, Z.div_add by nia. rewrite rank_div by auto. ring.
Qed.

Inductive edge := EW | EE | EN | ES.

(** one step over an edge: tile, row, column, rotations *)
Definition step (e : edge) (t J I : Z) : Z * Z * Z * Z :=
  match e with
  | EW => if I =? 0 then if is_even t then (t - 2, n - 1, n - 1 - J, 1) else (t - 1, J, n - 1, 0)
          else (t, J, I - 1, 0)
  | EE => if I =? n - 1 then if is_even t then (t + 1, J, 0, 0) else (t + 2, 0, n - 1 - J, 1)
          else (t, J, I + 1, 0)
  | EN => if J =? n - 1 then if is_even t then (t + 2, n - 1 - I, 0, 3) else (t + 1, 0, I, 0)
          else (t, J + 1, I, 0)
  | ES => if J =? 0 then if is_even t then (t - 1, n - 1, I, 0) else (t - 2, n - 1 - I, n - 1, 3)
          else (t, J - 1, I, 0)
  end.

Definition edge_type e := match e with EW => WEST | EE => EAST | EN => NORTH | ES => SOUTH end.
Definition cs_edge e := match e with EW => cs_left_edge L | EE => cs_right_edge L | EN => cs_top_edge L | ES => cs_bottom_edge L end.

Definition rank4 (p : Z * Z * Z * Z) : Z := let '(t, J, i, _) := p in rank_of t J i.
Definition rot4 (p : Z * Z * Z * Z) : Z := snd p.

Lemma square : ensure_square_layout L = Ok tt.
Proof. unfold ensure_square_layout, L. simpl. now rewrite Z.eqb_refl. Qed.

Ltac fin := rewrite ?Z.eqb_refl;
  repeat match goal with |- context [?a =? ?b] => destruct (Z.eqb_spec a b); [contradiction|] end;
  do 2 f_equal; ring.

Lemma cs_edge_eq e t J I : 0 <= J < n -> 0 <= I < n ->
  cs_edge e (rank_of t J I) =
  Ok (mkB (edge_type e) (rank_of t J I) (rank4 (step e t J I)) (rot4 (step e t J I))).
Proof.
  intros HJ HI. destruct e; unfold cs_edge, edge_type, step.
  - unfold cs_left_edge. rewrite square. cbn [bind]. unfold tp_boundary, tp_left_edge, tp_on_left.
    rewrite sub_index by auto. unfold on_tile_left. cbn [snd].
    destruct (Z.eqb_spec I 0) as [->|NI].
    + rewrite t_index by auto. cbn [bind]. destruct (is_even t).
      * rewrite tot, rank_mod, flip_rot_eq by auto. cbn [bind].
        replace (rank_of t J 0 - 2 * (n * n)) with (rank_of t J 0 + (-2) * (n * n)) by ring.
        rewrite root_rank_shift by auto. unfold rank4, rot4, rank_of. cbn [snd]. fin.
      * rewrite tot. unfold set_to, rank4, rot4, rank_of, L. cbn [b_to b_type b_from b_rot fst snd]. fin.
    + unfold rank4, rot4, rank_of. cbn [snd]. fin.
  - unfold cs_right_edge. rewrite square. cbn [bind]. unfold tp_boundary, tp_right_edge, tp_on_right.
    rewrite sub_index by auto. unfold on_tile_right. cbn [snd]. unfold L at 1 3 4. cbn [snd].
    destruct (Z.eqb_spec I (n - 1)) as [->|NI].
    + rewrite t_index by auto. cbn [bind]. destruct (is_even t); cbn [negb].
      * rewrite tot. unfold set_to, rank4, rot4, rank_of, L. cbn [b_to b_type b_from b_rot fst snd]. fin.
      * rewrite tot, rank_mod, flip_rot_eq by auto. cbn [bind].
        rewrite root_rank_shift by auto. unfold rank4, rot4, rank_of. cbn [snd]. fin.
    + unfold rank4, rot4, rank_of. cbn [snd]. fin.
  - unfold cs_top_edge. rewrite square. cbn [bind]. unfold tp_boundary, tp_top_edge, tp_on_top.
    rewrite sub_index by auto. unfold on_tile_top. cbn [fst snd]. unfold L at 1 3 4. cbn [fst snd].
    destruct (Z.eqb_spec J (n - 1)) as [->|NI].
    + rewrite t_index by auto. cbn [bind]. destruct (is_even t).
      * rewrite tot, rank_mod, flip_rot_eq by auto. cbn [bind].
        unfold rank4, rot4, rank_of. cbn [snd]. fin.
      * rewrite tot. unfold set_to, rank4, rot4, rank_of, L. cbn [b_to b_type b_from b_rot fst snd]. fin.
    + unfold rank4, rot4, rank_of, L. cbn [snd]. fin.
  - unfold cs_bottom_edge. rewrite square. cbn [bind]. unfold tp_boundary, tp_bottom_edge, tp_on_bottom.
    rewrite sub_index by auto. unfold on_tile_bottom. cbn [fst snd].
    destruct (Z.eqb_spec J 0) as [->|NI].
    + rewrite t_index by auto. cbn [bind]. destruct (is_even t); cbn [negb].
      * rewrite tot. unfold set_to, rank4, rot4, rank_of, L. cbn [b_to b_type b_from b_rot fst snd]. fin.
      * rewrite tot, rank_mod, flip_rot_eq by auto. cbn [bind].
        unfold rank4, rot4, rank_of. cbn [snd]. fin.
    + unfold rank4, rot4, rank_of, L. cbn [bind snd]. fin.
Qed.

Lemma step_valid e t J I : 0 <= J < n -> 0 <= I < n ->
  let '(t', J', I', _) := step e t J I in 0 <= J' < n /\ 0 <= I' < n.
Proof.
  intros. destruct e; unfold step;
    repeat match goal with |- context [if ?b then _ else _] => destruct b eqn:? end; lia.
Qed.

(** ** neighbours in closed form, with the tile number reduced modulo 6 *)
Definition two (e1 e2 : edge) (t J I : Z) : Z * Z * Z * Z :=
  let '(t1, J1, I1, r1) := step e1 t J I in
  let '(t2, J2, I2, r2) := step e2 t1 J1 I1 in (t2, J2, I2, r1 + r2).

Definition nbr (b : btype) (t J I : Z) : option (Z * Z * Z * Z) :=
  match b with
  | WEST => Some (step EW t J I)
  | EAST => Some (step EE t J I)
  | NORTH => Some (step EN t J I)
  | SOUTH => Some (step ES t J I)
  | NORTHWEST => if (J =? n - 1) && (I =? 0) then None
                 else Some (two EW (if is_even t && (I =? 0) then EW else EN) t J I)
  | NORTHEAST => if (J =? n - 1) && (I =? n - 1) then None
                 else Some (two EN (if is_even t && (J =? n - 1) then ES else EE) t J I)
  | SOUTHWEST => if (J =? 0) && (I =? 0) then None
                 else Some (two ES (if negb (is_even t) && (J =? 0) then EN else EW) t J I)
  | SOUTHEAST => if (J =? 0) && (I =? n - 1) then None
                 else Some (two ES (if negb (is_even t) && (J =? 0) then ES else EE) t J I)
  end.

Lemma corner_eq bt e1 e2 t J I : 0 <= J < n -> 0 <= I < n ->
  cs_get_corner bt (rank_of t J I) (cs_edge e1) (cs_edge e2)
  = Ok (Some (mkB bt (rank_of t J I) (rank4 (two e1 e2 t J I)) (rot4 (two e1 e2 t J I)))).
Proof.
  intros HJ HI. unfold cs_get_corner. rewrite cs_edge_eq by auto. cbn [bind b_to b_rot].
  pose proof (step_valid e1 t J I HJ HI) as V. unfold two.
  destruct (step e1 t J I) as [[[t1 J1] I1] r1] eqn:E1. destruct V as [V1 V2].
  cbn [rank4 rot4 snd]. rewrite cs_edge_eq by auto. cbn [bind b_to b_rot].
  destruct (step e2 t1 J1 I1) as [[[t2 J2] I2] r2] eqn:E2. reflexivity.
Qed.

Definition nbr_boundary (b : btype) (t J I : Z) : option boundary :=
  match nbr b t J I with
  | None => None
  | Some (t', J', I', r) => Some (mkB b (rank_of t J I) (rank_of (t' mod 6) J' I') r)
  end.

Lemma rank_mod6 t J I : 0 <= J < n -> 0 <= I < n -> rank_of t J I mod (6 * (n * n)) = rank_of (t mod 6) J I.
Proof.
  intros. unfold rank_of. symmetry. apply Z.mod_unique_pos with (t / 6).
  - pose proof (Z.mod_pos_bound t 6). 
    assert (0 <= t mod 6 * n + J) by nia.
    assert ((t mod 6 * n + J + 1) * n <= 6 * n * n) by (apply Z.mul_le_mono_nonneg_r; nia). nia.
  - pose proof (Z.div_mod t 6). rewrite H1 at 1 by lia. ring.
Qed.

Lemma two_valid e1 e2 t J I : 0 <= J < n -> 0 <= I < n ->
  let '(t', J', I', _) := two e1 e2 t J I in 0 <= J' < n /\ 0 <= I' < n.
Proof.
  intros HJ HI. unfold two. pose proof (step_valid e1 t J I HJ HI) as V.
  destruct (step e1 t J I) as [[[t1 J1] I1] r1]. destruct V as [V1 V2].
  pose proof (step_valid e2 t1 J1 I1 V1 V2) as V.
  destruct (step e2 t1 J1 I1) as [[[t2 J2] I2] r2]. exact V.
Qed.

Lemma cs_boundary_eq b t J I : 0 <= J < n -> 0 <= I < n ->
  cs_boundary L b (rank_of t J I) = Ok (nbr_boundary b t J I).
Proof.
  intros HJ HI. unfold cs_boundary, nbr_boundary.
  assert (ED : forall e, (do b <- rmap Some (cs_edge e (rank_of t J I));
     match b with
     | None => Ok None
     | Some b => Ok (Some (set_to b (b_to b mod total_ranks L)))
     end) = Ok (let '(t', J', I', r) := step e t J I in Some (mkB (edge_type e) (rank_of t J I) (rank_of (t' mod 6) J' I') r))).
  { intros e. rewrite cs_edge_eq by auto. cbn [rmap bind].
    pose proof (step_valid e t J I HJ HI) as V.
    destruct (step e t J I) as [[[t1 J1] I1] r1]. destruct V. 
    unfold set_to, total_ranks. rewrite tot. cbn [b_to b_type b_from b_rot rank4 rot4 snd].
    rewrite rank_mod6 by auto. reflexivity. }
  assert (CO : forall bt e1 e2, (do b <- cs_get_corner bt (rank_of t J I) (cs_edge e1) (cs_edge e2);
     match b with
     | None => Ok None
     | Some b => Ok (Some (set_to b (b_to b mod total_ranks L)))
     end) = Ok (let '(t', J', I', r) := two e1 e2 t J I in Some (mkB bt (rank_of t J I) (rank_of (t' mod 6) J' I') r))).
  { intros bt e1 e2. rewrite corner_eq by auto. cbn [rmap bind].
    pose proof (two_valid e1 e2 t J I HJ HI) as V.
    destruct (two e1 e2 t J I) as [[[t1 J1] I1] r1]. destruct V. 
    unfold set_to, total_ranks. rewrite tot. cbn [b_to b_type b_from b_rot rank4 rot4 snd].
    rewrite rank_mod6 by auto. reflexivity. }
  unfold nbr.
  destruct b.
  - etransitivity; [exact (ED EW)|]. now destruct (step EW t J I) as [[[? ?] ?] ?].
  - etransitivity; [exact (ED EE)|]. now destruct (step EE t J I) as [[[? ?] ?] ?].
  - etransitivity; [exact (ED EN)|]. now destruct (step EN t J I) as [[[? ?] ?] ?].
  - etransitivity; [exact (ED ES)|]. now destruct (step ES t J I) as [[[? ?] ?] ?].
  - unfold cs_top_left_corner, tp_on_top, tp_on_left. rewrite sub_index, t_index by auto.
    unfold on_tile_top, on_tile_left. unfold L at 1. cbn [fst snd bind].
    destruct ((J =? n - 1) && (I =? 0)); [reflexivity|].
    replace (if is_even t && (I =? 0) then cs_left_edge L else cs_top_edge L)
      with (cs_edge (if is_even t && (I =? 0) then EW else EN)) by (now destruct (is_even t && (I =? 0))).
    etransitivity; [exact (CO NORTHWEST EW _)|]. destruct (two _ _ t J I) as [[[? ?] ?] ?]. reflexivity.
  - unfold cs_top_right_corner, tp_on_top, tp_on_right. rewrite sub_index, t_index by auto.
    unfold on_tile_top, on_tile_right. change (fst L) with n. change (snd L) with n. cbn [fst snd bind].
    destruct ((J =? n - 1) && (I =? n - 1)); [reflexivity|].
    replace (if is_even t && (J =? n - 1) then cs_bottom_edge L else cs_right_edge L)
      with (cs_edge (if is_even t && (J =? n - 1) then ES else EE)) by (now destruct (is_even t && (J =? n - 1))).
    etransitivity; [exact (CO NORTHEAST EN _)|]. destruct (two _ _ t J I) as [[[? ?] ?] ?]. reflexivity.
  - unfold cs_bottom_left_corner, tp_on_bottom, tp_on_left. rewrite sub_index, t_index by auto.
    unfold on_tile_bottom, on_tile_left. cbn [fst snd bind].
    destruct ((J =? 0) && (I =? 0)); [reflexivity|].
    replace (if negb (is_even t) && (J =? 0) then cs_top_edge L else cs_left_edge L)
      with (cs_edge (if negb (is_even t) && (J =? 0) then EN else EW)) by (now destruct (negb (is_even t) && (J =? 0))).
    etransitivity; [exact (CO SOUTHWEST ES _)|]. destruct (two _ _ t J I) as [[[? ?] ?] ?]. reflexivity.
  - unfold cs_bottom_right_corner, tp_on_bottom, tp_on_right. rewrite sub_index, t_index by auto.
    unfold on_tile_bottom, on_tile_right. change (fst L) with n. change (snd L) with n. cbn [fst snd bind].
    destruct ((J =? 0) && (I =? n - 1)); [reflexivity|].
    replace (if negb (is_even t) && (J =? 0) then cs_bottom_edge L else cs_right_edge L)
      with (cs_edge (if negb (is_even t) && (J =? 0) then ES else EE)) by (now destruct (negb (is_even t) && (J =? 0))).
    etransitivity; [exact (CO SOUTHEAST ES _)|]. destruct (two _ _ t J I) as [[[? ?] ?] ?]. reflexivity.
Qed.

Lemma rank_of_inj t J I t' J' I' : 0 <= J < n -> 0 <= I < n -> 0 <= J' < n -> 0 <= I' < n ->
  rank_of t J I = rank_of t' J' I' -> t = t' /\ J = J' /\ I = I'.
Proof.
  intros HJ HI HJ' HI' E.
  assert (t = t') by (rewrite <- (rank_div t J I), <- (rank_div t' J' I'), E; auto). subst.
  unfold rank_of in E. assert (J = J') by nia. subst. lia.
Qed.

Lemma rank_split r : 0 <= r < 6 * (n * n) ->
  exists t J I, 0 <= t < 6 /\ 0 <= J < n /\ 0 <= I < n /\ r = rank_of t J I.
Proof.
  intros H. exists (r / (n * n)), (r mod (n * n) / n), (r mod (n * n) mod n).
  pose proof (Z.mod_pos_bound r (n * n) ltac:(nia)) as M.
  split. { split; [apply Z.div_pos; nia|apply Z.div_lt_upper_bound; nia]. }
  split. { split; [apply Z.div_pos; nia|apply Z.div_lt_upper_bound; nia]. }
  split. { apply Z.mod_pos_bound. lia. }
  unfold rank_of.
  pose proof (Z.div_mod r (n * n) ltac:(nia)). pose proof (Z.div_mod (r mod (n * n)) n ltac:(nia)). nia.
Qed.

Lemma rank_of_range t J I : 0 <= t < 6 -> 0 <= J < n -> 0 <= I < n -> 0 <= rank_of t J I < 6 * (n * n).
Proof.
  intros. unfold rank_of. assert (0 <= t * n + J) by nia.
  assert ((t * n + J + 1) * n <= 6 * n * n) by (apply Z.mul_le_mono_nonneg_r; nia). nia.
Qed.

End Square.
