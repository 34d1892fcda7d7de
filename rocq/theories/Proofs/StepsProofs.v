From Verif.Base Require Import Base Lemmas.
From Verif.Model Require Import Consts Numpy Quantity Partitioner Network Communicator.
From Verif.Spec Require Import Grid Cube Halo Lockstep Sync Client Updates Steps.
From Verif.Proofs Require Import ClientProofs UpdateProofs.
From Coq Require Import ZifyBool.

(** ** places *)
Lemma place_range n r : 1 <= n -> (r < ranks n)%nat -> forall t J K, place n (Z.of_nat r) = (t, J, K) -> 0 <= t < 6 /\ 0 <= J < n /\ 0 <= K < n.
Proof.
  intros Hn Hr t J K E. unfold place in E. injection E as <- <- <-. unfold ranks in Hr. assert (0 <= Z.of_nat r < 6 * (n * n)) by lia.
  assert (0 < n * n) by nia. assert (X := Z.mod_pos_bound (Z.of_nat r) (n * n) ltac:(lia)). assert (Y := Z.mod_pos_bound (Z.of_nat r) n ltac:(lia)).
  split; [split; [apply Z.div_pos; lia|apply Z.div_lt_upper_bound; lia]|]. split; [|lia]. split; [apply Z.div_pos; lia|apply Z.div_lt_upper_bound; lia].
Qed.
Lemma at_tile_defined M s t j i : 0 <= s <= 1 -> (0 <= j < M + s) \/ (0 <= i < M + s) -> at_tile M s t j i <> None.
Proof.
  intros S H. unfold at_tile, surf. destruct (Z.leb_spec (Z.abs (2 * i + 1 - s - M)) M), (Z.leb_spec (Z.abs (2 * j + 1 - s - M)) M); cbn [andb]; try discriminate. lia.
Qed.
Section Elements.
Variables (n N h : Z) (len ix iy : nat) (s : Z) (ext : nat -> Z) (m : meta).
Hypothesis F : Halo.fits N h len ix iy s s ext m.

Lemma nth_element y x c i : (i < len)%nat -> xat (element m ix iy y x c) i = xat (m_origin m) i + (if Nat.eqb i ix then x else if Nat.eqb i iy then y else xat c i).
Proof.
  intros Hi. unfold element, xat at 1. rewrite (fit_dims F). erewrite nth_indep by (rewrite map_length, seq_length; exact Hi).
  rewrite map_nth with (d := 0%nat). rewrite seq_nth by lia. reflexivity.
Qed.
Lemma rel_element y x c i : (i < len)%nat -> rel m (element m ix iy y x c) i = if Nat.eqb i ix then x else if Nat.eqb i iy then y else xat c i.
Proof. intros Hi. unfold rel. rewrite nth_element by auto. lia. Qed.
Lemma rel_element_x y x c : rel m (element m ix iy y x c) ix = x.
Proof. rewrite rel_element by apply (fit_ix F). now rewrite Nat.eqb_refl. Qed.
Lemma rel_element_y y x c : rel m (element m ix iy y x c) iy = y.
Proof. rewrite rel_element by apply (fit_iy F). rewrite Nat.eqb_refl. replace (Nat.eqb iy ix) with false by (symmetry; apply Nat.eqb_neq; intros E; now apply (fit_xy F)). reflexivity. Qed.

Lemma place_element r y x c : let '(t, J, K) := place n (Z.of_nat r) in place_of n N ix iy m r (element m ix iy y x c) = at_tile (n * N) s t (J * N + y) (K * N + x).
Proof.
  unfold place_of, position. rewrite rel_element_x, rel_element_y, (fit_sx F), (fit_sy F). destruct (place n (Z.of_nat r)) as [[t J] K]. reflexivity.
Qed.
Lemma place_point r p : let '(t, J, K) := place n (Z.of_nat r) in place_of n N ix iy m r p = at_tile (n * N) s t (J * N + rel m p iy) (K * N + rel m p ix).
Proof. unfold place_of, position. rewrite (fit_sx F), (fit_sy F). destruct (place n (Z.of_nat r)) as [[t J] K]. reflexivity. Qed.
Lemma column_element y x c : level len ix iy ext c -> column m ix iy (element m ix iy y x c) = c.
Proof.
  intros (L & B). unfold column. rewrite (fit_dims F). apply nth_ext with (d := 0) (d' := 0); [now rewrite map_length, seq_length|].
  rewrite map_length, seq_length. intros i Hi.
  transitivity ((fun i0 => if Nat.eqb i0 ix || Nat.eqb i0 iy then 0 else rel m (element m ix iy y x c) i0) (nth i (seq 0 len) 0%nat)).
  { rewrite <- map_nth with (f := fun i0 => if Nat.eqb i0 ix || Nat.eqb i0 iy then 0 else rel m (element m ix iy y x c) i0). apply nth_indep. now rewrite map_length, seq_length. }
  rewrite seq_nth by lia. cbn [Nat.add]. specialize (B i Hi). rewrite rel_element by lia. destruct (Nat.eqb i ix), (Nat.eqb i iy); cbn [orb] in *; unfold xat in *; auto.
Qed.
Lemma extent_x : xat (m_extent m) ix = N + s.
Proof. rewrite (fit_ext F) by apply (fit_ix F). now rewrite Nat.eqb_refl. Qed.
Lemma extent_y : xat (m_extent m) iy = N + s.
Proof. rewrite (fit_ext F) by apply (fit_iy F). replace (Nat.eqb iy ix) with false by (symmetry; apply Nat.eqb_neq; intros E; now apply (fit_xy F)). now rewrite Nat.eqb_refl. Qed.
Lemma element_column y x c : level len ix iy ext c -> in_column m ix iy (element m ix iy y x c).
Proof.
  intros (L & B). split; [unfold element; now rewrite map_length, seq_length|]. rewrite (fit_dims F). intros i Hi Nx Ny. rewrite rel_element by auto. specialize (B i Hi).
  rewrite (fit_ext F) by auto. apply Nat.eqb_neq in Nx, Ny. rewrite Nx, Ny in *. exact B.
Qed.
Lemma element_domain y x c : level len ix iy ext c -> 0 <= y < N + s -> 0 <= x < N + s -> in_domain m (element m ix iy y x c).
Proof.
  intros L Y X. destruct (element_column y x c L) as (E & C). split; auto. intros i Hi. destruct (Nat.eq_dec i ix) as [->|Nx]; [rewrite rel_element_x, extent_x; lia|].
  destruct (Nat.eq_dec i iy) as [->|Ny]; [rewrite rel_element_y, extent_y; lia|]. auto.
Qed.
Lemma point_level p : in_domain m p -> level len ix iy ext (column m ix iy p) /\ 0 <= rel m p iy < N + s /\ 0 <= rel m p ix < N + s.
Proof.
  intros (L & D). rewrite (fit_dims F) in *. split.
  - split; [unfold column; now rewrite map_length, seq_length, (fit_dims F)|]. intros i Hi. unfold column. rewrite (fit_dims F).
    assert (E : xat (map (fun i0 => if Nat.eqb i0 ix || Nat.eqb i0 iy then 0 else rel m p i0) (seq 0 len)) i = if Nat.eqb i ix || Nat.eqb i iy then 0 else rel m p i).
    { unfold xat. transitivity ((fun i0 => if Nat.eqb i0 ix || Nat.eqb i0 iy then 0 else rel m p i0) (nth i (seq 0 len) 0%nat)).
      { rewrite <- map_nth with (f := fun i0 => if Nat.eqb i0 ix || Nat.eqb i0 iy then 0 else rel m p i0). apply nth_indep. now rewrite map_length, seq_length. }
      now rewrite seq_nth by lia. }
    rewrite E. specialize (D i Hi). rewrite (fit_ext F) in D by auto. destruct (Nat.eqb i ix), (Nat.eqb i iy); cbn [orb]; auto.
  - rewrite <- extent_y at 1. rewrite <- extent_x. split; apply D; [apply (fit_iy F)|apply (fit_ix F)].
Qed.
Lemma around r y x dy dx c : 1 <= n -> 0 <= N -> 0 <= s <= 1 -> 0 <= h -> (r < ranks n)%nat -> level len ix iy ext c -> 0 <= y < N + s -> 0 <= x < N + s -> cross h dy dx ->
  let p := element m ix iy (y + dy) (x + dx) c in in_domain m p \/ to_fill n N h ix iy m r p.
Proof.
  intros Hn HN Hs Hh Hr L Y X C p. pose proof (place_element r (y + dy) (x + dx) c) as P. destruct (place n (Z.of_nat r)) as [[t J] K] eqn:E. apply place_range in E; auto. fold p in P.
  assert (D : place_of n N ix iy m r p <> None). { rewrite P. apply at_tile_defined; [lia|]. destruct C as [(-> & _)|(-> & _)]; [left|right]; nia. }
  assert (IN : in_domain m p \/ exists b, in_side m ix iy h b p).
  { pose proof (element_column (y + dy) (x + dx) c L) as IC. fold p in IC. unfold in_side, in_halo. rewrite extent_x, extent_y. unfold p at 3 4. rewrite rel_element_x, rel_element_y.
    destruct C as [(-> & B)|(-> & B)].
    - destruct (Z_lt_dec (x + dx) 0); [right; exists WEST; split; auto; cbn; unfold side_range; cbn; lia|].
      destruct (Z_lt_dec (x + dx) (N + s)); [left; apply element_domain; auto; lia|right; exists EAST; split; auto; cbn; unfold side_range; cbn; lia].
    - destruct (Z_lt_dec (y + dy) 0); [right; exists SOUTH; split; auto; cbn; unfold side_range; cbn; lia|].
      destruct (Z_lt_dec (y + dy) (N + s)); [left; apply element_domain; auto; lia|right; exists NORTH; split; auto; cbn; unfold side_range; cbn; lia]. }
  destruct IN as [IN|IN]; [now left|right; split; auto].
Qed.
End Elements.

(** ** one step *)
Section Steps.
Variable V : Type.
Variable neg : V -> V.
Variable d : V.
Variables (n N : Z) (len ix iy : nat) (q : nat -> handle) (h : Z) (k : nat) (s : Z) (ext : nat -> Z).
Hypothesis Hn : 1 <= n.
Hypothesis HN : 1 <= N.
Hypothesis Hh : 1 <= h <= N.
Hypothesis Q : forall r, (r < ranks n)%nat -> Halo.fits N h len ix iy s s ext (h_meta (q r)).
Hypothesis ID : ids_below k q.
Let mt := fun r => h_meta (q r).
Let at_q := fun m => content V m (fun r => h_id (q r)) d.
Notation held F m := (holds n N ix iy mt (fun r => in_domain (mt r)) F (at_q m)).
Let lev := level len ix iy ext.

Lemma ranks_positive : (0 < ranks n)%nat.
Proof. unfold ranks. nia. Qed.
Lemma stagger : 0 <= s <= 1.
Proof. rewrite <- (fit_sx (Q 0%nat ranks_positive)). apply stag_range. Qed.
Lemma ok : halo_ok n N len ix iy q h.
Proof. repeat split; auto; try lia. exists s, ext. auto. Qed.

Lemma step_holds g f m m1 F F' : looks_around h lev g -> applies n N ix iy q k g f -> next (n * N) s lev g F F' -> (forall r, (r < ranks n)%nat -> length (m1 r) = k) ->
  held F m -> effect V neg d n (CHalo V q h) m m m1 -> held F' (fun r => f r (m1 r)).
Proof.
  intros G (_ & A) NX L1 H (OC & EF) r p Hr D. pose proof (EF N len ix iy ok) as FI. cbv zeta in FI. fold at_q mt in FI. pose proof stagger as HS.
  pose proof (Q r Hr) as FR. fold (mt r) in FR.
  assert (H1 : held F m1).
  { intros r' p' Hr' D'. unfold at_q in *. destruct (FI r' p' Hr') as (_ & X). rewrite X; [auto|]. eapply fits_left_alone; try exact (Q r' Hr'); try lia. now left. }
  assert (H2 : holds n N ix iy mt (fun r => to_fill n N h ix iy (mt r) r) F (at_q m1)).
  { eapply scalar_field with (len := len) (sent := at_q m) (before := at_q m); eauto. intros r' Hr'. apply (fit_dims (Q r' Hr')). }
  destruct (nth_error (m1 r) (h_id (q r))) as [a|] eqn:E; [|apply nth_error_None in E; rewrite L1 in E by auto; pose proof (ID r); lia].
  destruct (A r (m1 r) a Hr E) as (a' & E' & _ & V'). specialize (V' p D). pose proof (place_point n N h len ix iy s ext (mt r) FR r p) as PP.
  pose proof (fun y x c => place_element n N h len ix iy s ext (mt r) FR r y x c) as PE.
  destruct (point_level N h len ix iy s ext (mt r) FR p D) as (LV & RY & RX).
  pose proof (fun dy dx c => around n N h len ix iy s ext (mt r) FR r (rel (mt r) p iy) (rel (mt r) p ix) dy dx c Hn ltac:(lia) HS ltac:(lia) Hr) as AR.
  destruct (place n (Z.of_nat r)) as [[t J] K] eqn:EP. apply place_range in EP; auto.
  unfold at_q, content. rewrite E'. fold (mt r) in V'. rewrite V', PP. rewrite NX; [|split; [lia|split; nia]|exact LV]. apply G. intros dy dx c' C LC.
  assert (X : at_q m1 r (element (mt r) ix iy (rel (mt r) p iy + dy) (rel (mt r) p ix + dx) c') = at_ a (element (mt r) ix iy (rel (mt r) p iy + dy) (rel (mt r) p ix + dx) c')).
  { unfold at_q, content. now rewrite E. }
  rewrite <- X. destruct (AR dy dx c' LC RY RX C) as [I|I]; [rewrite H1 by auto|rewrite H2 by auto]; rewrite PE, (column_element N h len ix iy s ext (mt r) FR) by exact LC; f_equal; f_equal; lia.
Qed.

Lemma step_shapes g f sh m m1 : applies n N ix iy q k g f -> shaped n q sh m -> effect V neg d n (CHalo V q h) m m m1 -> shaped n q sh (fun r => f r (m1 r)).
Proof.
  intros (_ & A) S (OC & _) r Hr. destruct (S r Hr) as (a & E & <-). destruct (OC r Hr) as (_ & X). destruct (X _ _ E) as (a1 & E1 & <- & _). destruct (A r _ _ Hr E1) as (a2 & E2 & <- & _). eauto.
Qed.
Lemma meaning_steps gs : forall fs, Forall2 (applies n N ix iy q k) gs fs -> Forall (looks_around h lev) gs -> forall started sh m m' F F', evolves (n * N) s lev gs F F' ->
  (forall r, (r < ranks n)%nat -> length (m r) = k) -> shaped n q sh m -> held F m -> meaning V neg d n (stepping q h fs (length started)) started m m' -> held F' m' /\ shaped n q sh m'.
Proof.
  induction gs as [|g gs IH]; intros fs A G started sh m m' F F' EV L S H M; inversion A; subst; cbn [stepping evolves] in *.
  - subst F'. cbn [meaning] in M. split; [|intros r Hr; rewrite M by auto; now apply S]. intros r p Hr D. unfold at_q, content. rewrite M by auto. exact (H r p Hr D).
  - destruct EV as (F1 & NX & EV). inversion_clear G as [|? ? G1 G2]. cbn [meaning] in M. destruct M as (c & sent & m1 & NE & EF & M).
    rewrite nth_error_app2, Nat.sub_diag in NE by lia. injection NE as <- <-.
    assert (L1 : forall r, (r < ranks n)%nat -> length (m1 r) = k). { intros r Hr. rewrite <- (L r Hr). destruct EF as (OC & _). apply OC; auto. }
    match goal with HA : applies _ _ _ _ _ _ g ?f |- _ =>
      pose proof (step_holds g f m m1 F F1 G1 HA NX L1 H EF) as H'; pose proof (step_shapes g f sh m m1 HA S EF) as S'; destruct HA as (LN & _) end.
    eapply (IH _ ltac:(eassumption) G2 (started ++ [(CHalo V q h, m)])%list sh _ _ F1 F' EV); [|exact S'|exact H'|].
    + intros r Hr. cbn beta. apply LN; auto.
    + rewrite app_length. cbn [length]. rewrite Nat.add_1_r. exact M.
Qed.

Lemma stepping_ok gs fs : Forall2 (applies n N ix iy q k) gs fs -> forall i, Forall (call_ok V n k) (stepping q h fs i).
Proof.
  induction 1 as [|g f gs fs (A & _) _ IH]; intros i; cbn [stepping]; repeat constructor; auto. exists N, len, ix, iy. exact ok.
Qed.
Lemma stepping_waits fs : forall i done, (forall j, In j done -> (j < i)%nat) -> waits_ok V (stepping q h fs i) i done.
Proof.
  induction fs as [|f fs IH]; intros i done D; cbn; auto. split; [intros X; apply D in X; lia|]. split; [lia|]. apply IH. intros j [<-|J]; [lia|]. apply D in J. lia.
Qed.

Lemma steps_shaped gs fs sh m F F' : Forall2 (applies n N ix iy q k) gs fs -> Forall (looks_around h lev) gs -> evolves (n * N) s lev gs F F' ->
  arrays n k m -> shaped n q sh m -> held F m ->
  exists m', always_completes (start_state (ranks n) (client_ops V neg n (stepping q h fs 0)) m) (tab (ranks n) m') /\ held F' m' /\ shaped n q sh m'.
Proof.
  intros A G EV L S H. destruct (client_correct V neg d n k (stepping q h fs 0) m) as (m' & M & C); auto.
  - eapply stepping_ok; eauto.
  - apply stepping_waits. easy.
  - exists m'. split; auto. eapply (meaning_steps gs fs A G []); eauto.
Qed.
Lemma some_shapes (m : nat -> mem V) : arrays n k m -> exists sh, shaped n q sh m.
Proof.
  intros L. exists (fun r => match nth_error (m r) (h_id (q r)) with Some a => shp a | None => [] end). intros r Hr.
  destruct (nth_error (m r) (h_id (q r))) as [a|] eqn:E; [eauto|]. apply nth_error_None in E. rewrite L in E by auto. pose proof (ID r). lia.
Qed.
Theorem steps_correct gs fs m F F' : Forall2 (applies n N ix iy q k) gs fs -> Forall (looks_around h lev) gs -> evolves (n * N) s lev gs F F' ->
  arrays n k m -> held F m ->
  exists m', always_completes (start_state (ranks n) (client_ops V neg n (stepping q h fs 0)) m) (tab (ranks n) m') /\ held F' m'.
Proof. intros A G EV L H. destruct (some_shapes m L) as (sh & S). destruct (steps_shaped gs fs sh m F F' A G EV L S H) as (m' & C & H' & _). eauto. Qed.
End Steps.

(** ** the next field, for cell centres *)
Definition dot (a b : vec) : Z := let '(a1, a2, a3) := a in let '(b1, b2, b3) := b in a1 * b1 + a2 * b2 + a3 * b3.
Definition tile_at (M : Z) (v : vec) : Z :=
  if dot v (normal 0) =? M then 0 else if dot v (normal 1) =? M then 1 else if dot v (normal 2) =? M then 2
  else if dot v (normal 3) =? M then 3 else if dot v (normal 4) =? M then 4 else 5.
Definition row_at (M : Z) (v : vec) : Z := (dot v (yaxis (tile_at M v)) + M - 1) / 2.
Definition column_at (M : Z) (v : vec) : Z := (dot v (xaxis (tile_at M v)) + M - 1) / 2.

Lemma half a b : a = 2 * b -> a / 2 = b.
Proof. intros ->. rewrite Z.mul_comm. apply Z.div_mul. lia. Qed.
Lemma at_tile_inv M t j i : on_tile M 0 t j i -> exists v, at_tile M 0 t j i = Some v /\ tile_at M v = t /\ row_at M v = j /\ column_at M v = i.
Proof.
  intros (T & J & I). unfold at_tile, surf. replace (Z.abs (2 * i + 1 - 0 - M) <=? M) with true by lia. replace (Z.abs (2 * j + 1 - 0 - M) <=? M) with true by lia. cbn [andb].
  eexists. split; [reflexivity|]. assert (C : t = 0 \/ t = 1 \/ t = 2 \/ t = 3 \/ t = 4 \/ t = 5) by lia. unfold row_at, column_at.
  assert (X : tile_at M (vadd (vadd (vscale (2 * i + 1 - 0 - M) (xaxis t)) (vscale (2 * j + 1 - 0 - M) (yaxis t))) (vscale M (normal t))) = t).
  { destruct C as [->|[->|[->|[->|[->| ->]]]]]; unfold tile_at, dot, vadd, vscale, normal, xaxis, yaxis; cbn [Z.eqb Pos.eqb];
      repeat match goal with |- context [?a =? ?b] => destruct (Z.eqb_spec a b) end; lia. }
  rewrite X. split; [reflexivity|]. destruct C as [->|[->|[->|[->|[->| ->]]]]]; unfold dot, vadd, vscale, normal, xaxis, yaxis; cbn [Z.eqb Pos.eqb]; split; apply half; lia.
Qed.

Section Exists.
Context {V : Type}.
Definition next_field (M : Z) (g : rule V) (F : field V) : field V := fun pl c =>
  match pl with
  | Some v => g (tile_at M v) (row_at M v) (column_at M v) (fun dy dx c' => F (at_tile M 0 (tile_at M v) (row_at M v + dy) (column_at M v + dx)) c') c
  | None => F None c
  end.
Lemma next_field_ok M lev g F : next M 0 lev g F (next_field M g F).
Proof. intros t j i c O _. destruct (at_tile_inv M t j i O) as (v & E & T & J & I). rewrite E. unfold next_field. now rewrite T, J, I. Qed.
Theorem evolution_exists M lev gs : forall F : field V, exists F', evolves M 0 lev gs F F'.
Proof.
  induction gs as [|g gs IH]; intros F; cbn; [eauto|]. destruct (IH (next_field M g F)) as (F' & E). exists F', (next_field M g F). split; auto. apply next_field_ok.
Qed.

(** any values in the tiles are a field *)
Definition field_of (M : Z) (A : Z -> Z -> Z -> list Z -> V) : field V := fun pl c =>
  match pl with Some v => A (tile_at M v) (row_at M v) (column_at M v) c | None => A 0 0 0 c end.
Lemma field_of_ok M A t j i c : on_tile M 0 t j i -> field_of M A (at_tile M 0 t j i) c = A t j i c.
Proof. intros O. destruct (at_tile_inv M t j i O) as (v & E & T & J & I). rewrite E. unfold field_of. now rewrite T, J, I. Qed.
End Exists.

(** ** any layout *)
Section Layouts.
Variables (V : Type) (neg : V -> V) (d : V).

Lemma tiled_holds n N h len ix iy ext (q : nat -> handle) m (F : field V) : 1 <= n -> (forall r, (r < ranks n)%nat -> Halo.fits N h len ix iy 0 0 ext (h_meta (q r))) ->
  tiled n N ix iy q d m (fun t j i => F (at_tile (n * N) 0 t j i)) <-> holds n N ix iy (fun r => h_meta (q r)) (fun r => in_domain (h_meta (q r))) F (content V m (fun r => h_id (q r)) d).
Proof.
  intros Hn Q. split; intros H r p Hr D; specialize (H r p Hr D); pose proof (place_point n N h len ix iy 0 ext _ (Q r Hr) r p) as PP.
  - rewrite PP || (destruct (place n (Z.of_nat r)) as [[t J] K]; rewrite PP). exact H.
  - destruct (place n (Z.of_nat r)) as [[t J] K]. rewrite <- PP. exact H.
Qed.
Lemma tiled_ext n N h len ix iy ext (q : nat -> handle) m (A B : Z -> Z -> Z -> list Z -> V) : 1 <= n -> 0 <= N -> (forall r, (r < ranks n)%nat -> Halo.fits N h len ix iy 0 0 ext (h_meta (q r))) ->
  (forall t j i c, on_tile (n * N) 0 t j i -> level len ix iy ext c -> A t j i c = B t j i c) -> tiled n N ix iy q d m A -> tiled n N ix iy q d m B.
Proof.
  intros Hn HN Q E H r p Hr D. specialize (H r p Hr D). destruct (place n (Z.of_nat r)) as [[t J] K] eqn:P. rewrite H. apply place_range in P; auto.
  destruct (point_level N h len ix iy 0 ext _ (Q r Hr) p D) as (L & Y & X). apply E; auto. split; [lia|split; nia].
Qed.

Lemma layouts_meaning M h len ix iy ext (gs : list (rule V)) A : Forall (looks_around h (level len ix iy ext)) gs -> exists A', forall n N q k fs sh started m m',
  1 <= n -> n * N = M -> 1 <= h <= N -> (forall r, (r < ranks n)%nat -> Halo.fits N h len ix iy 0 0 ext (h_meta (q r))) -> ids_below k q ->
  Forall2 (applies n N ix iy q k) gs fs -> arrays n k m -> shaped n q sh m -> tiled n N ix iy q d m A ->
  meaning V neg d n (stepping q h fs (length started)) started m m' -> tiled n N ix iy q d m' A' /\ shaped n q sh m'.
Proof.
  intros G. destruct (evolution_exists M (level len ix iy ext) gs (field_of M A)) as (F' & EV). exists (fun t j i => F' (at_tile M 0 t j i)).
  intros n N q k fs sh started m m' Hn <- Hh Q ID AP L S T ME.
  destruct (meaning_steps V neg d n N len ix iy q h k 0 ext Hn ltac:(lia) Hh Q ID gs fs AP G started sh m m' (field_of (n * N) A) F' EV L S) as (H & S'); auto.
  - apply (tiled_holds n N h len ix iy ext q m (field_of (n * N) A)); auto. eapply tiled_ext; eauto; [lia|]. intros t j i c O _. symmetry. now apply field_of_ok.
  - split; [|exact S']. apply (tiled_holds n N h len ix iy ext q m' F'); auto.
Qed.
Theorem layouts M h len ix iy ext (gs : list (rule V)) A : Forall (looks_around h (level len ix iy ext)) gs -> exists A', forall n N q k fs sh m,
  1 <= n -> n * N = M -> 1 <= h <= N -> (forall r, (r < ranks n)%nat -> Halo.fits N h len ix iy 0 0 ext (h_meta (q r))) -> ids_below k q ->
  Forall2 (applies n N ix iy q k) gs fs -> arrays n k m -> shaped n q sh m -> tiled n N ix iy q d m A ->
  exists m', always_completes (start_state (ranks n) (client_ops V neg n (stepping q h fs 0)) m) (tab (ranks n) m') /\ tiled n N ix iy q d m' A' /\ shaped n q sh m'.
Proof.
  intros G. destruct (layouts_meaning M h len ix iy ext gs A G) as (A' & LM). exists A'. intros n N q k fs sh m Hn HM Hh Q ID AP L S T.
  destruct (client_correct V neg d n k (stepping q h fs 0) m) as (m' & ME & C); auto.
  - eapply (stepping_ok V n N len ix iy q h k 0 ext); eauto; lia.
  - apply stepping_waits. easy.
  - exists m'. split; auto. eapply (LM n N q k fs sh []); eauto.
Qed.
End Layouts.

(** ** every rule can be applied by ranks *)
Definition run_rule {V} (n N : Z) (ix iy : nat) (q : nat -> handle) (g : rule V) (r : nat) (m : mem V) : mem V :=
  match nth_error m (h_id (q r)) with
  | Some a => upd m (h_id (q r)) (mkA (shp a) (fun p =>
      let '(t, J, K) := place n (Z.of_nat r) in
      g t (J * N + rel (h_meta (q r)) p iy) (K * N + rel (h_meta (q r)) p ix)
        (fun dy dx c => at_ a (element (h_meta (q r)) ix iy (rel (h_meta (q r)) p iy + dy) (rel (h_meta (q r)) p ix + dx) c)) (column (h_meta (q r)) ix iy p)))
  | None => m
  end.
Lemma nth_error_upd {A} (l : list A) i a : (i < length l)%nat -> nth_error (upd l i a) i = Some a.
Proof. revert i. induction l as [|x l IH]; intros [|i] H; cbn in *; try lia; auto. apply IH. lia. Qed.
Theorem run_rule_applies V n N ix iy q k (g : rule V) : applies n N ix iy q k g (run_rule n N ix iy q g).
Proof.
  split.
  - intros r m _ L. unfold run_rule. destruct (nth_error m (h_id (q r))); auto. now rewrite length_upd.
  - intros r m a Hr E. unfold run_rule. rewrite E. eexists. split; [apply nth_error_upd; apply nth_error_Some; congruence|]. split; [reflexivity|]. intros p D. cbn [at_].
    destruct (place n (Z.of_nat r)) as [[t J] K]. reflexivity.
Qed.
