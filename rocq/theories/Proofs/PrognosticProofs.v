From Verif.Base Require Import Base Lemmas.
From Verif.Model Require Import Consts Numpy Quantity Partitioner Network Communicator.
From Verif.Spec Require Import Grid Cube Halo Lockstep Sync Client Updates Steps Prognostic.
From Verif.Proofs Require Import ClientProofs UpdateProofs StepsProofs.
From Coq Require Import ZifyBool.

(** ** array elements, with different staggering in y and x *)
Lemma spot_defined M sy sx t j i : 0 <= sy <= 1 -> 0 <= sx <= 1 -> (0 <= j < M + sy) \/ (0 <= i < M + sx) -> spot M sy sx t j i <> None.
Proof.
  intros S1 S2 H. unfold spot, surf. destruct (Z.leb_spec (Z.abs (2 * i + 1 - sx - M)) M), (Z.leb_spec (Z.abs (2 * j + 1 - sy - M)) M); cbn [andb]; try discriminate. lia.
Qed.
Section Elements.
Variables (n N h : Z) (len ix iy : nat) (sy sx : Z) (ext : nat -> Z) (m : meta).
Hypothesis F : Halo.fits N h len ix iy sy sx ext m.

Lemma g_nth_element y x c i : (i < len)%nat -> xat (element m ix iy y x c) i = xat (m_origin m) i + (if Nat.eqb i ix then x else if Nat.eqb i iy then y else xat c i).
Proof.
  intros Hi. unfold element, xat at 1. rewrite (fit_dims F). erewrite nth_indep by (rewrite map_length, seq_length; exact Hi).
  rewrite map_nth with (d := 0%nat). rewrite seq_nth by lia. reflexivity.
Qed.
Lemma g_rel_element y x c i : (i < len)%nat -> rel m (element m ix iy y x c) i = if Nat.eqb i ix then x else if Nat.eqb i iy then y else xat c i.
Proof. intros Hi. unfold rel. rewrite g_nth_element by auto. lia. Qed.
Lemma g_rel_x y x c : rel m (element m ix iy y x c) ix = x.
Proof. rewrite g_rel_element by apply (fit_ix F). now rewrite Nat.eqb_refl. Qed.
Lemma g_rel_y y x c : rel m (element m ix iy y x c) iy = y.
Proof. rewrite g_rel_element by apply (fit_iy F). rewrite Nat.eqb_refl. replace (Nat.eqb iy ix) with false by (symmetry; apply Nat.eqb_neq; intros E; now apply (fit_xy F)). reflexivity. Qed.

Lemma g_place_element r y x c : let '(t, J, K) := place n (Z.of_nat r) in place_of n N ix iy m r (element m ix iy y x c) = spot (n * N) sy sx t (J * N + y) (K * N + x).
Proof.
  unfold place_of, position. rewrite g_rel_x, g_rel_y, (fit_sx F), (fit_sy F). destruct (place n (Z.of_nat r)) as [[t J] K]. reflexivity.
Qed.
Lemma g_place_point r p : let '(t, J, K) := place n (Z.of_nat r) in place_of n N ix iy m r p = spot (n * N) sy sx t (J * N + rel m p iy) (K * N + rel m p ix).
Proof. unfold place_of, position. rewrite (fit_sx F), (fit_sy F). destruct (place n (Z.of_nat r)) as [[t J] K]. reflexivity. Qed.
Lemma g_dir_element cp r y x c : let '(t, J, K) := place n (Z.of_nat r) in dir_of n N ix iy cp m r (element m ix iy y x c) = bearing (n * N) sy sx cp t (J * N + y) (K * N + x).
Proof.
  unfold dir_of, x_dir_of, y_dir_of, x_direction, y_direction, bearing. rewrite g_rel_x, g_rel_y, (fit_sx F), (fit_sy F). destruct (place n (Z.of_nat r)) as [[t J] K]. destruct cp; reflexivity.
Qed.
Lemma g_dir_point cp r p : let '(t, J, K) := place n (Z.of_nat r) in dir_of n N ix iy cp m r p = bearing (n * N) sy sx cp t (J * N + rel m p iy) (K * N + rel m p ix).
Proof.
  unfold dir_of, x_dir_of, y_dir_of, x_direction, y_direction, bearing. rewrite (fit_sx F), (fit_sy F). destruct (place n (Z.of_nat r)) as [[t J] K]. destruct cp; reflexivity.
Qed.
Lemma g_column_element y x c : level len ix iy ext c -> column m ix iy (element m ix iy y x c) = c.
Proof.
  intros (L & B). unfold column. rewrite (fit_dims F). apply nth_ext with (d := 0) (d' := 0); [now rewrite map_length, seq_length|].
  rewrite map_length, seq_length. intros i Hi.
  transitivity ((fun i0 => if Nat.eqb i0 ix || Nat.eqb i0 iy then 0 else rel m (element m ix iy y x c) i0) (nth i (seq 0 len) 0%nat)).
  { rewrite <- map_nth with (f := fun i0 => if Nat.eqb i0 ix || Nat.eqb i0 iy then 0 else rel m (element m ix iy y x c) i0). apply nth_indep. now rewrite map_length, seq_length. }
  rewrite seq_nth by lia. cbn [Nat.add]. specialize (B i Hi). rewrite g_rel_element by lia. destruct (Nat.eqb i ix), (Nat.eqb i iy); cbn [orb] in *; unfold xat in *; auto.
Qed.
Lemma g_extent_x : xat (m_extent m) ix = N + sx.
Proof. rewrite (fit_ext F) by apply (fit_ix F). now rewrite Nat.eqb_refl. Qed.
Lemma g_extent_y : xat (m_extent m) iy = N + sy.
Proof. rewrite (fit_ext F) by apply (fit_iy F). replace (Nat.eqb iy ix) with false by (symmetry; apply Nat.eqb_neq; intros E; now apply (fit_xy F)). now rewrite Nat.eqb_refl. Qed.
Lemma g_element_column y x c : level len ix iy ext c -> in_column m ix iy (element m ix iy y x c).
Proof.
  intros (L & B). split; [unfold element; now rewrite map_length, seq_length|]. rewrite (fit_dims F). intros i Hi Nx Ny. rewrite g_rel_element by auto. specialize (B i Hi).
  rewrite (fit_ext F) by auto. apply Nat.eqb_neq in Nx, Ny. rewrite Nx, Ny in *. exact B.
Qed.
Lemma g_element_domain y x c : level len ix iy ext c -> 0 <= y < N + sy -> 0 <= x < N + sx -> in_domain m (element m ix iy y x c).
Proof.
  intros L Y X. destruct (g_element_column y x c L) as (E & C). split; auto. intros i Hi. destruct (Nat.eq_dec i ix) as [->|Nx]; [rewrite g_rel_x, g_extent_x; lia|].
  destruct (Nat.eq_dec i iy) as [->|Ny]; [rewrite g_rel_y, g_extent_y; lia|]. auto.
Qed.
Lemma g_point_level p : in_domain m p -> level len ix iy ext (column m ix iy p) /\ 0 <= rel m p iy < N + sy /\ 0 <= rel m p ix < N + sx.
Proof.
  intros (L & D). rewrite (fit_dims F) in *. split.
  - split; [unfold column; now rewrite map_length, seq_length, (fit_dims F)|]. intros i Hi. unfold column. rewrite (fit_dims F).
    assert (E : xat (map (fun i0 => if Nat.eqb i0 ix || Nat.eqb i0 iy then 0 else rel m p i0) (seq 0 len)) i = if Nat.eqb i ix || Nat.eqb i iy then 0 else rel m p i).
    { unfold xat. transitivity ((fun i0 => if Nat.eqb i0 ix || Nat.eqb i0 iy then 0 else rel m p i0) (nth i (seq 0 len) 0%nat)).
      { rewrite <- map_nth with (f := fun i0 => if Nat.eqb i0 ix || Nat.eqb i0 iy then 0 else rel m p i0). apply nth_indep. now rewrite map_length, seq_length. }
      now rewrite seq_nth by lia. }
    rewrite E. specialize (D i Hi). rewrite (fit_ext F) in D by auto. destruct (Nat.eqb i ix), (Nat.eqb i iy); cbn [orb]; auto.
  - rewrite <- g_extent_y at 1. rewrite <- g_extent_x. split; apply D; [apply (fit_iy F)|apply (fit_ix F)].
Qed.
Lemma g_stag : 0 <= sy <= 1 /\ 0 <= sx <= 1.
Proof. rewrite <- (fit_sy F), <- (fit_sx F). split; apply stag_range. Qed.
(** elements reached from a point of an array with staggering [ty], [tx] *)
Lemma g_around ty tx r y x dy dx c : 1 <= n -> 0 <= N -> 0 <= h -> (r < ranks n)%nat -> level len ix iy ext c -> 0 <= y < N + ty -> 0 <= x < N + tx -> reach h ty tx sy sx dy dx ->
  let p := element m ix iy (y + dy) (x + dx) c in in_domain m p \/ to_fill n N h ix iy m r p.
Proof.
  intros Hn HN Hh Hr L Y X C p. destruct g_stag as (S1 & S2). pose proof (g_place_element r (y + dy) (x + dx) c) as P. destruct (place n (Z.of_nat r)) as [[t J] K] eqn:E. apply place_range in E; auto. fold p in P.
  unfold reach, inner, outer in C.
  assert (D : place_of n N ix iy m r p <> None). { rewrite P. apply spot_defined; [lia|lia|]. destruct C as [C|C]; [left|right]; nia. }
  assert (IN : in_domain m p \/ exists b, in_side m ix iy h b p).
  { pose proof (g_element_column (y + dy) (x + dx) c L) as IC. fold p in IC. unfold in_side, in_halo. rewrite g_extent_x, g_extent_y. unfold p at 3 4. rewrite g_rel_x, g_rel_y.
    destruct C as [C|C].
    - destruct (Z_lt_dec (x + dx) 0); [right; exists WEST; split; auto; cbn; unfold side_range; cbn; lia|].
      destruct (Z_lt_dec (x + dx) (N + sx)); [left; apply g_element_domain; auto; lia|right; exists EAST; split; auto; cbn; unfold side_range; cbn; lia].
    - destruct (Z_lt_dec (y + dy) 0); [right; exists SOUTH; split; auto; cbn; unfold side_range; cbn; lia|].
      destruct (Z_lt_dec (y + dy) (N + sy)); [left; apply g_element_domain; auto; lia|right; exists NORTH; split; auto; cbn; unfold side_range; cbn; lia]. }
  destruct IN as [IN|IN]; [now left|right; split; auto].
Qed.
End Elements.

Lemma fits_no_halo N h len ix iy sy sx ext m : 0 <= h -> Halo.fits N h len ix iy sy sx ext m -> Halo.fits N 0 len ix iy sy sx ext m.
Proof. intros Hh F. constructor; try apply F. intros i Hi. pose proof (fit_halo F i Hi). lia. Qed.

(** ** one step *)
Section Model.
Variable V : Type.
Variable neg : V -> V.
Variable d : V.
Variables (n N h : Z) (k : nat) (st : state).
Hypothesis Hn : 1 <= n.
Hypothesis HN : 1 <= N.
Hypothesis Hh : 1 <= h <= N.
Hypothesis OK : state_ok n N h k st.
Variable syn : nat -> bool.
Hypothesis SYN : syn_ok (kinds st) syn.

Lemma kinds_nth i v f : nth_error st i = Some (v, f) -> nth_error (kinds st) i = Some (is_vector v, f).
Proof using. intros E. unfold kinds. now rewrite nth_error_map, E. Qed.
Lemma comp_part i c v f : component st i c v f -> part (kinds st) i c f.
Proof using. intros (E & C). exists (is_vector v). split; [now apply kinds_nth|]. intros ->. now destruct v. Qed.
Lemma part_comp i c f : part (kinds st) i c f -> exists v, component st i c v f.
Proof using.
  intros (b & E & C). unfold kinds in E. rewrite nth_error_map in E. destruct (nth_error st i) as [[v f0]|] eqn:X; [|discriminate]. injection E as <- <-. exists v. split; [exact X|].
  destruct v; [|exact I]. cbn. destruct c; auto. now specialize (C eq_refl).
Qed.
Lemma comp_fits i c v f r : component st i c v f -> (r < ranks n)%nat -> Halo.fits N h (f_len f) (f_ix f) (f_iy f) (stag_y f c) (stag_x f c) (f_ext f) (h_meta (handles v c r)).
Proof. intros (E & C) Hr. destruct OK as (A & _). destruct (A i v f E) as ((_ & X) & _). auto. Qed.
Lemma comp_below i c v f r : component st i c v f -> (h_id (handles v c r) < k)%nat.
Proof. intros (E & C). destruct OK as (A & _). destruct (A i v f E) as (_ & X). now apply X. Qed.
Lemma variable_call i v f : nth_error st i = Some (v, f) -> call_ok V n k (update_of h v).
Proof.
  intros E. destruct OK as (A & B). destruct (A i v f E) as ((S & X) & ID). destruct v as [q|x y]; cbn in *.
  - split; [now apply (ID false)|]. exists N, (f_len f), (f_ix f), (f_iy f). split; auto. split; auto. split; auto. exists (f_sy f), (f_ext f). intros r Hr.
    pose proof (X false r eq_refl Hr) as Y. cbn in Y. now rewrite <- S in Y.
  - split; [now apply (ID false)|]. split; [now apply (ID true)|]. exists N, (f_len f), (f_ix f), (f_iy f). split; auto. split; auto. split; auto. split.
    + intros r Hr EQ. destruct (B i false _ _ i true _ _ r (conj E I) (conj E I) Hr EQ). discriminate.
    + exists (f_sy f), (f_sx f), (f_ext f). intros r Hr. split; [exact (X false r I Hr)|exact (X true r I Hr)].
Qed.

(** values in the halos of the first [j] variables *)
Definition filled_up (j : nat) (F : sphere V) (m : nat -> mem V) : Prop :=
  forall i c v f r p, component st i c v f -> (i < j)%nat -> (r < ranks n)%nat -> to_fill n N h (f_ix f) (f_iy f) (h_meta (handles v c r)) r p ->
    content V m (fun r => h_id (handles v c r)) d r p =
      F i (place_of n N (f_ix f) (f_iy f) (h_meta (handles v c r)) r p) (column (h_meta (handles v c r)) (f_ix f) (f_iy f) p)
          (dir_of n N (f_ix f) (f_iy f) c (h_meta (handles v c r)) r p).

Lemma content_kept hs (m m1 : nat -> mem V) i c v f r p : component st i c v f -> (r < ranks n)%nat -> length (m r) = k -> only_changed V n hs m m1 -> (forall hd, In hd hs -> h_id (hd r) <> h_id (handles v c r)) ->
  content V m1 (fun r => h_id (handles v c r)) d r p = content V m (fun r => h_id (handles v c r)) d r p.
Proof.
  intros C Hr L OC D. destruct (OC r Hr) as (_ & X). pose proof (comp_below i c v f r C) as B. unfold content.
  destruct (nth_error (m r) (h_id (handles v c r))) as [a|] eqn:E; [|apply nth_error_None in E; lia]. destruct (X _ _ E) as (a' & -> & _ & Y). auto.
Qed.

(** waiting for variable [j] *)
Lemma wait_one j v f F (m0 m m1 : nat -> mem V) : nth_error st j = Some (v, f) -> proper neg (kinds st) F -> arrays n k m ->
  state_held n N st d F m0 -> state_held n N st d F m -> filled_up j F m -> effect V neg d n (update_of h v) m0 m m1 ->
  arrays n k m1 /\ state_held n N st d F m1 /\ filled_up (S j) F m1.
Proof.
  intros E P L H0 H FU EF.
  assert (OC : exists hs, only_changed V n hs m m1 /\ forall hd, In hd hs -> exists c, is_component v c /\ hd = handles v c).
  { destruct v as [q|x y]; destruct EF as (OC & _); eexists; (split; [exact OC|]); cbn [In].
    - intros hd [<-|[]]. exists false. now split.
    - intros hd [<-|[<-|[]]]; [exists false|exists true]; now split. }
  destruct OC as (hs & OC & HS).
  assert (L1 : arrays n k m1). { intros r Hr. rewrite <- (L r Hr). apply (OC r Hr). }
  assert (OTHER : forall i c v' f' r p, component st i c v' f' -> (r < ranks n)%nat -> i <> j -> content V m1 (fun r => h_id (handles v' c r)) d r p = content V m (fun r => h_id (handles v' c r)) d r p).
  { intros i c v' f' r p C Hr NE. eapply content_kept; eauto. intros hd I EQ. destruct (HS hd I) as (c1 & C1 & ->). destruct OK as (_ & B).
    destruct (B j c1 v f i c v' f' r (conj E C1) C Hr EQ). congruence. }
  assert (OWN : forall c r p, is_component v c -> (r < ranks n)%nat ->
    (to_fill n N h (f_ix f) (f_iy f) (h_meta (handles v c r)) r p -> content V m1 (fun r => h_id (handles v c r)) d r p =
      F j (place_of n N (f_ix f) (f_iy f) (h_meta (handles v c r)) r p) (column (h_meta (handles v c r)) (f_ix f) (f_iy f) p) (dir_of n N (f_ix f) (f_iy f) c (h_meta (handles v c r)) r p)) /\
    (~ to_fill n N h (f_ix f) (f_iy f) (h_meta (handles v c r)) r p -> content V m1 (fun r => h_id (handles v c r)) d r p = content V m (fun r => h_id (handles v c r)) d r p)).
  { pose proof (variable_call j v f E) as CO. pose proof (P j _ f (kinds_nth j v f E)) as PR. intros c r p C Hr. destruct v as [q|x y]; cbn in CO, PR.
    - cbn in C. subst c. destruct EF as (_ & EF). specialize (EF N (f_len f) (f_ix f) (f_iy f)). cbv zeta in EF. cbn [handles].
      assert (HO : halo_ok n N (f_len f) (f_ix f) (f_iy f) q h).
      { split; auto. split; auto. split; auto. exists (f_sy f), (f_ext f). intros r' Hr'. pose proof (comp_fits j false _ f r' (conj E eq_refl) Hr') as Y. cbn in Y.
        destruct OK as (A & _). destruct (A j _ f E) as ((SS & _) & _). cbn in SS. now rewrite <- SS in Y. }
      specialize (EF HO). split; [|apply EF; auto]. intros T.
      rewrite (PR _ _ (dir_of n N (f_ix f) (f_iy f) false (h_meta (q r)) r p) (0, 0, 0)).
      eapply (scalar_field V n N h (f_ix f) (f_iy f) (fun r => h_meta (q r))) with (F := fun pl lev => F j pl lev (0, 0, 0)) (len := f_len f); eauto.
      + intros r' Hr'. apply (fit_dims (comp_fits j false _ f r' (conj E eq_refl) Hr')).
      + intros r' p' Hr' D'. pose proof (H0 j false _ f r' p' (conj E eq_refl) Hr' D') as Y. cbn [handles] in Y. rewrite Y. apply PR.
    - destruct EF as (_ & EF). specialize (EF N (f_len f) (f_ix f) (f_iy f)). cbv zeta in EF. cbn [handles].
      assert (VO : vector_ok n N (f_len f) (f_ix f) (f_iy f) x y h).
      { split; auto. split; auto. split; auto. split.
        - intros r' Hr' EQ. destruct OK as (_ & B). destruct (B j false _ _ j true _ _ r' (conj E I) (conj E I) Hr' EQ). discriminate.
        - exists (f_sy f), (f_sx f), (f_ext f). intros r' Hr'. split; [exact (comp_fits j false _ f r' (conj E I) Hr')|exact (comp_fits j true _ f r' (conj E I) Hr')]. }
      specialize (EF VO). pose proof (EF c r p Hr) as (_ & KEEP).
      split; [|destruct c; exact KEEP]. intros T.
      assert (Y := vector_field V neg n N h (f_ix f) (f_iy f) (fun c r => h_meta (if c then y r else x r))
        (fun c => content V m0 (fun r => h_id (if c then y r else x r)) d) (fun c => content V m (fun r => h_id (if c then y r else x r)) d)
        (fun c => content V m1 (fun r => h_id (if c then y r else x r)) d) (F j) (f_len f) PR).
      assert (Z : holds_vector n N (f_ix f) (f_iy f) (fun c r => h_meta (if c then y r else x r)) (fun c r => to_fill n N h (f_ix f) (f_iy f) (h_meta (if c then y r else x r)) r) (F j)
         (fun c => content V m1 (fun r => h_id (if c then y r else x r)) d)).
      { apply Y; auto.
        - intros c' r' Hr'. pose proof (fit_dims (comp_fits j c' _ f r' (conj E I) Hr')) as W. cbn [handles] in W. destruct c'; exact W.
        - intros c' r' p' Hr' D'. pose proof (H0 j c' _ f r' p' (conj E I) Hr') as W. cbn [handles] in W. destruct c'; apply W; exact D'. }
      specialize (Z c r p Hr). destruct c; apply Z; exact T. }
  split; [exact L1|]. split.
  - intros i c v' f' r p C Hr D. destruct (Nat.eq_dec i j) as [->|NE]; [|rewrite (OTHER i c v' f') by auto; auto].
    destruct C as (E' & C). rewrite E in E'. injection E' as <- <-. destruct (OWN c r p C Hr) as (_ & KEEP). rewrite KEEP; [apply H; auto; now split|].
    eapply fits_left_alone; try exact (comp_fits j c v f r (conj E C) Hr); try lia. now left.
  - intros i c v' f' r p C I Hr T. destruct (Nat.eq_dec i j) as [->|NE]; [|rewrite (OTHER i c v' f') by auto; apply (FU i c v' f'); auto; lia].
    destruct C as (E' & C). rewrite E in E'. injection E' as <- <-. destruct (OWN c r p C Hr) as (FILL & _). auto.
Qed.

(** all updates under way, then all waits *)
Lemma starts_all l : forall started m m' rest, meaning V neg d n (map (fun vf : variable * form => update_of h (fst vf)) l ++ rest) started m m' <->
  meaning V neg d n rest (started ++ map (fun vf => (update_of h (fst vf), m)) l) m m'.
Proof.
  induction l as [|[[q|x y] f] l IH]; intros started m m' rest; cbn [map app fst update_of meaning]; [now rewrite app_nil_r| |]; rewrite IH, <- app_assoc; reflexivity.
Qed.
Lemma waits_all F (m0 : nat -> mem V) started b rest m' : proper neg (kinds st) F -> state_held n N st d F m0 ->
  (forall i v f, nth_error st i = Some (v, f) -> nth_error started (b + i) = Some (update_of h v, m0)) ->
  forall todo j m, (j + todo = length st)%nat -> arrays n k m -> state_held n N st d F m -> filled_up j F m ->
  meaning V neg d n (map (fun i => CWait V (b + i)) (seq j todo) ++ rest) started m m' ->
  exists m1, arrays n k m1 /\ state_held n N st d F m1 /\ filled_up (length st) F m1 /\ meaning V neg d n rest started m1 m'.
Proof.
  intros P H0 ST. induction todo as [|todo IH]; intros j m J L H FU M.
  - exists m. rewrite Nat.add_0_r in J. subst j. auto.
  - cbn [seq map app meaning] in M. destruct M as (c & sent & m1 & NE & EF & M). destruct (nth_error st j) as [[v f]|] eqn:E; [|apply nth_error_None in E; lia].
    rewrite (ST j v f E) in NE. injection NE as <- <-. destruct (wait_one j v f F m0 m m1 E P L H0 H FU EF) as (L1 & H1 & FU1). apply (IH (S j) m1); auto. lia.
Qed.

(** values known after the computation: of the variables from [j] on which are synchronized, not those on the edges which will be filled *)
Definition held_from (j : nat) (F : sphere V) (m : nat -> mem V) : Prop :=
  forall i c v f r p, component st i c v f -> (r < ranks n)%nat -> in_domain (h_meta (handles v c r)) p ->
    (syn i = true -> (j <= i)%nat -> rel (h_meta (handles v c r)) p (if c then f_ix f else f_iy f) < N) ->
    content V m (fun r => h_id (handles v c r)) d r p =
      F i (place_of n N (f_ix f) (f_iy f) (h_meta (handles v c r)) r p) (column (h_meta (handles v c r)) (f_ix f) (f_iy f) p)
          (dir_of n N (f_ix f) (f_iy f) c (h_meta (handles v c r)) r p).

Lemma model_step g f F F' m1 : looks_near h (kinds st) g -> computes n N k st g f -> follows (n * N) (kinds st) syn g F F' -> arrays n k m1 -> state_held n N st d F m1 -> filled_up (length st) F m1 ->
  arrays n k (fun r => f r (m1 r)) /\ held_from 0 F' (fun r => f r (m1 r)).
Proof.
  intros G (LN & A) FO L H FU. split; [intros r Hr; apply LN; auto|]. intros i c v fm r p C Hr D ED.
  pose proof (comp_fits i c v fm r C Hr) as FR.
  destruct (nth_error (m1 r) (h_id (handles v c r))) as [a|] eqn:E; [|apply nth_error_None in E; rewrite L in E by auto; pose proof (comp_below i c v fm r C); lia].
  set (y := rel (h_meta (handles v c r)) p (f_iy fm)). set (x := rel (h_meta (handles v c r)) p (f_ix fm)).
  set (w := fun i' c' dy dx lev' => match nth_error st i' with
    | Some (v', fm') => content V m1 (fun r => h_id (handles v' c' r)) d r (element (h_meta (handles v' c' r)) (f_ix fm') (f_iy fm') (y + dy) (x + dx) lev')
    | None => d end).
  destruct (A r (m1 r) w Hr (L r Hr) i c v fm a C E) as (a' & E' & _ & V'). specialize (V' p D).
  pose proof (g_place_point n N h _ _ _ _ _ _ _ FR r p) as PP. pose proof (g_dir_point n N h _ _ _ _ _ _ _ FR c r p) as DP.
  destruct (g_point_level N h _ _ _ _ _ _ _ FR p D) as (LV & RY & RX).
  assert (AR : forall i' c' v' fm' dy dx lev', component st i' c' v' fm' -> reach h (stag_y fm c) (stag_x fm c) (stag_y fm' c') (stag_x fm' c') dy dx -> level (f_len fm') (f_ix fm') (f_iy fm') (f_ext fm') lev' ->
    let '(t, J, K) := place n (Z.of_nat r) in
    w i' c' dy dx lev' = F i' (spot (n * N) (stag_y fm' c') (stag_x fm' c') t (J * N + y + dy) (K * N + x + dx)) lev' (bearing (n * N) (stag_y fm' c') (stag_x fm' c') c' t (J * N + y + dy) (K * N + x + dx))).
  { intros i' c' v' fm' dy dx lev' C' RE LE. pose proof (comp_fits i' c' v' fm' r C' Hr) as FR'.
    pose proof (g_place_element n N h _ _ _ _ _ _ _ FR' r (y + dy) (x + dx) lev') as PE. pose proof (g_dir_element n N h _ _ _ _ _ _ _ FR' c' r (y + dy) (x + dx) lev') as DE.
    pose proof (g_around n N h _ _ _ _ _ _ _ FR' (stag_y fm c) (stag_x fm c) r y x dy dx lev' Hn ltac:(lia) ltac:(lia) Hr LE RY RX RE) as AR. cbv zeta in AR.
    destruct (place n (Z.of_nat r)) as [[t J] K]. unfold w. rewrite (proj1 C'). rewrite <- !Z.add_assoc, <- PE, <- DE, <- (g_column_element N h _ _ _ _ _ _ _ FR' (y + dy) (x + dx) lev' LE) at 1.
    rewrite (g_column_element N h _ _ _ _ _ _ _ FR' (y + dy) (x + dx) lev' LE).
    destruct AR as [I|I]; [rewrite (H i' c' v' fm' r _ C' Hr I)|rewrite (FU i' c' v' fm' r _ C') by (auto; apply nth_error_Some; rewrite (proj1 C'); discriminate)];
      rewrite (g_column_element N h _ _ _ _ _ _ _ FR' (y + dy) (x + dx) lev' LE); reflexivity. }
  cbv zeta in V'. destruct (place n (Z.of_nat r)) as [[t J] K] eqn:EP. apply place_range in EP; auto.
  unfold content. rewrite E'. rewrite V'.
  2:{ intros i' c' v' fm' b dy dx lev' C' EB. unfold w. rewrite (proj1 C'). unfold content. now rewrite EB. }
  rewrite PP, DP. fold y x.
  set (w0 := fun i' (c' : bool) dy dx lev' => match nth_error st i' with Some (_, f') => F i' (spot (n * N) (stag_y f' c') (stag_x f' c') t (J * N + y + dy) (K * N + x + dx)) lev'
     (bearing (n * N) (stag_y f' c') (stag_x f' c') c' t (J * N + y + dy) (K * N + x + dx)) | None => d end).
  assert (W0 : window (n * N) (kinds st) F t (J * N + y) (K * N + x) w0).
  { intros i' c' f' dy dx lev' PT. apply part_comp in PT. destruct PT as (v' & E1 & _). unfold w0. now rewrite E1. }
  fold y x in RY, RX.
  assert (RANGE : 0 <= y < N + (if syn i then 0 else stag_y fm c) /\ 0 <= x < N + (if syn i then 0 else stag_x fm c)).
  { destruct (syn i) eqn:SI; [|auto]. destruct (SYN i _ fm (kinds_nth i v fm (proj1 C)) SI) as (_ & S1 & S2 & _). specialize (ED eq_refl (Nat.le_0_l i)).
    destruct c; cbn [stag_y stag_x] in *; fold x y in ED; lia. }
  rewrite (FO i c fm t (J * N + y) (K * N + x) _ w0) by (try exact LV; try exact W0; try (eapply comp_part; eassumption); nia).
  apply (G i c fm); [eapply comp_part; eassumption|exact LV|]. intros i' c' fm' dy dx lev' PT RE LE. destruct (part_comp i' c' fm' PT) as (v' & C'). rewrite (AR i' c' v' fm' dy dx lev' C' RE LE). symmetry. now apply W0.
Qed.

(** waiting for the synchronization of variable [j] *)
Lemma sync_one j v f F (m0 m m1 : nat -> mem V) : nth_error st j = Some (v, f) -> syn j = true -> proper neg (kinds st) F -> arrays n k m ->
  held_from 0 F m0 -> held_from j F m -> effect V neg d n (sync_of v) m0 m m1 -> arrays n k m1 /\ held_from (S j) F m1.
Proof.
  intros E SJ P L H0 H (OC & EF). pose proof (kinds_nth j v f E) as KN. destruct (SYN j _ f KN SJ) as (VE & S1 & S2 & XY). destruct v as [|x y]; [discriminate VE|]. cbn [handles] in *.
  assert (L1 : arrays n k m1). { intros r Hr. rewrite <- (L r Hr). apply (OC r Hr). }
  split; [exact L1|]. pose proof (P j _ f KN) as PR. cbn in PR.
  assert (FT : forall c r, (r < ranks n)%nat -> Halo.fits N h (f_len f) (f_ix f) (f_iy f) (stag_y f c) (stag_x f c) (f_ext f) (h_meta (if c then y r else x r))).
  { intros c r Hr. pose proof (comp_fits j c _ f r (conj E I) Hr) as W. destruct c; exact W. }
  assert (F0 : forall c r, (r < ranks n)%nat -> Halo.fits N 0 (f_len f) (f_ix f) (f_iy f) (stag_y f c) (stag_x f c) (f_ext f) (h_meta (if c then y r else x r))).
  { intros c r Hr. eapply fits_no_halo; [|exact (FT c r Hr)]. lia. }
  assert (SO : sync_ok n N (f_len f) (f_ix f) (f_iy f) (fun r => h_meta (x r)) (fun r => h_meta (y r))).
  { split; auto. split; auto. split; auto. exists (f_ext f). intros r Hr. pose proof (F0 false r Hr) as A. pose proof (F0 true r Hr) as B. cbn [stag_y stag_x] in A, B. rewrite S1, S2 in A, B. auto. }
  specialize (EF N (f_len f) (f_ix f) (f_iy f) SO). cbv zeta in EF.
  assert (EDGE : holds_vector n N (f_ix f) (f_iy f) (fun c r => h_meta (if c then y r else x r)) (fun c r => in_edge N (f_ix f) (f_iy f) c (h_meta (if c then y r else x r))) (F j)
     (fun c => content V m1 (fun r => h_id (if c then y r else x r)) d)).
  { eapply (sync_field V neg n N (f_ix f) (f_iy f)) with (len := f_len f); [exact PR|intros c r Hr; exact (fit_dims (FT c r Hr))|exact EF|].
    intros c r p Hr (D & Z0). pose proof (H0 j c _ f r p (conj E I) Hr) as W. cbn [handles] in W. destruct c; apply W; auto; intros _ _; lia. }
  intros i c v f' r p C Hr D ED. destruct (Nat.eq_dec i j) as [->|NE].
  - destruct C as (E' & _). rewrite E in E'. injection E' as <- <-. cbn [handles] in *. pose proof (EDGE c r p Hr) as W. pose proof (proj2 (EF c r p Hr)) as KEEP.
    assert (DD : in_domain (h_meta (if c then y r else x r)) p) by (destruct c; exact D).
    destruct (g_point_level N h _ _ _ _ _ _ _ (FT c r Hr) p DD) as (_ & RY & RX).
    destruct (Z.eq_dec (rel (h_meta (if c then y r else x r)) p (if c then f_ix f else f_iy f)) N) as [EN|NN].
    + specialize (W (conj DD EN)). destruct c; exact W.
    + pose proof (H j c _ f r p (conj E I) Hr D) as HO. cbn [handles] in HO.
      assert (NI : ~ in_edge N (f_ix f) (f_iy f) c (h_meta (if c then y r else x r)) p) by (intros (_ & X); contradiction). specialize (KEEP NI).
      destruct c; cbn [stag_y stag_x] in *; rewrite KEEP; apply HO; intros _ _; lia.
  - assert (KEEP : content V m1 (fun r => h_id (handles v c r)) d r p = content V m (fun r => h_id (handles v c r)) d r p).
    { eapply content_kept; eauto. intros hd IN EQ. destruct OK as (_ & B). cbn [In] in IN. destruct IN as [<-|[<-|[]]].
      - destruct (B j false _ f i c v f' r (conj E I) C Hr EQ). congruence.
      - destruct (B j true _ f i c v f' r (conj E I) C Hr EQ). congruence. }
    rewrite KEEP. apply (H i c v f' r p C Hr D). intros SI J. apply ED; auto. lia.
Qed.

Lemma sync_starts l : forall started m m' rest, meaning V neg d n (map (fun vf : variable * form => sync_of (fst vf)) l ++ rest) started m m' <->
  meaning V neg d n rest (started ++ map (fun vf => (sync_of (fst vf), m)) l) m m'.
Proof using.
  induction l as [|[v f] l IH]; intros started m m' rest; cbn [map app fst sync_of meaning]; [now rewrite app_nil_r|]. rewrite IH, <- app_assoc. reflexivity.
Qed.
Lemma held_skip j F m : (syn j = false \/ length st <= j)%nat -> held_from j F m -> held_from (S j) F m.
Proof using.
  intros SJ H i c v f r p C Hr D ED. apply (H i c v f r p C Hr D). intros SI J. apply ED; auto. destruct (Nat.eq_dec i j) as [->|]; [|lia]. destruct SJ; [congruence|].
  assert (X : nth_error st j <> None) by (rewrite (proj1 C); discriminate). apply nth_error_Some in X. lia.
Qed.
Lemma sync_waits F (m0 : nat -> mem V) started b rest m' : proper neg (kinds st) F -> held_from 0 F m0 ->
  forall todo j base m, (forall i vf, nth_error todo i = Some vf -> nth_error st (j + i) = Some vf) -> (j + length todo = length st)%nat ->
  (forall i vf, nth_error (synced syn j todo) i = Some vf -> nth_error started (b + base + i) = Some (sync_of (fst vf), m0)) ->
  arrays n k m -> held_from j F m ->
  meaning V neg d n (map (fun i => CWait V (b + i)) (seq base (length (synced syn j todo))) ++ rest) started m m' ->
  exists m1, arrays n k m1 /\ state_held n N st d F m1 /\ meaning V neg d n rest started m1 m'.
Proof.
  intros P H0. induction todo as [|[v f] todo IH]; intros j base m TD LE ST L H M.
  - exists m. split; [exact L|]. split; [|exact M]. intros i c v f r p C Hr D. apply (H i c v f r p C Hr D). intros _ J. cbn in LE.
    assert (X : nth_error st i <> None) by (rewrite (proj1 C); discriminate). apply nth_error_Some in X. lia.
  - pose proof (TD 0%nat _ eq_refl) as E. rewrite Nat.add_0_r in E. cbn [synced] in ST, M. destruct (syn j) eqn:SJ.
    + cbn [length seq map app meaning] in M. destruct M as (c & sent & m1 & NE & EF & M). specialize (ST 0%nat _ eq_refl) as S0. rewrite Nat.add_0_r in S0. rewrite S0 in NE. injection NE as <- <-.
      destruct (sync_one j v f F m0 m m1 E SJ P L H0 H EF) as (L1 & H1). apply (IH (S j) (S base) m1); auto.
      * intros i vf X. specialize (TD (S i) vf X). now rewrite <- plus_n_Sm in TD.
      * cbn in LE. lia.
      * intros i vf X. specialize (ST (S i) vf X). rewrite <- ST. f_equal. lia.
    + apply (IH (S j) base m); auto.
      * intros i vf X. specialize (TD (S i) vf X). now rewrite <- plus_n_Sm in TD.
      * cbn in LE. lia.
      * apply held_skip; auto.
Qed.

Lemma meaning_model gs : forall fs, Forall2 (computes n N k st) gs fs -> Forall (looks_near h (kinds st)) gs -> forall started m m' F F', proper neg (kinds st) F -> develops neg (n * N) (kinds st) syn gs F F' ->
  arrays n k m -> state_held n N st d F m -> meaning V neg d n (model_steps st syn h fs (length started)) started m m' -> state_held n N st d F' m' /\ arrays n k m'.
Proof.
  induction gs as [|g gs IH]; intros fs A G started m m' F F' P DV L H M; inversion A; subst; cbn [model_steps develops] in *.
  - subst F'. cbn [meaning] in M. split; [|intros r Hr; rewrite M by auto; now apply L]. intros i c v f r p C Hr D. unfold content. rewrite M by auto. exact (H i c v f r p C Hr D).
  - destruct DV as (F1 & P1 & FO & DV). inversion_clear G as [|? ? G1 G2]. cbv zeta in M. rewrite starts_all in M.
    assert (ST : forall i v f, nth_error st i = Some (v, f) -> nth_error (started ++ map (fun vf => (update_of h (fst vf), m)) st) (length started + i) = Some (update_of h v, m)).
    { intros i v f E. rewrite nth_error_app2 by lia. replace (length started + i - length started)%nat with i by lia. rewrite nth_error_map, E. reflexivity. }
    assert (FU0 : filled_up 0 F m) by (intros i c v f r p C I; lia).
    destruct (waits_all F m _ (length started) _ m' P H ST (length st) 0%nat m eq_refl L H FU0 M) as (m1 & L1 & H1 & FU & M1).
    cbn [meaning] in M1. match goal with HA : computes _ _ _ _ g ?f |- _ => destruct (model_step g f F F1 m1 G1 HA FO L1 H1 FU) as (L2 & HF) end.
    rewrite sync_starts in M1.
    match type of M1 with meaning _ _ _ _ _ (?s ++ _) ?m2 _ => set (started2 := s) in *; set (mm := m2) in * end.
    assert (SS : forall i vf, nth_error (synced syn 0 st) i = Some vf -> nth_error (started2 ++ map (fun vf => (sync_of (fst vf), mm)) (synced syn 0 st)) (length started + length st + 0 + i) = Some (sync_of (fst vf), mm)).
    { intros i vf X. rewrite Nat.add_0_r. rewrite nth_error_app2 by (unfold started2; rewrite app_length, map_length; lia).
      replace (length started + length st + i - length started2)%nat with i by (unfold started2; rewrite app_length, map_length; lia). rewrite nth_error_map, X. reflexivity. }
    destruct (sync_waits F1 mm _ (length started + length st) _ m' P1 HF st 0%nat 0%nat mm (fun i vf X => X) eq_refl SS L2 HF M1) as (m3 & L3 & H3 & M3).
    eapply (IH _ ltac:(eassumption) G2 (started2 ++ map (fun vf => (sync_of (fst vf), mm)) (synced syn 0 st))%list _ _ F1 F' P1 DV L3 H3).
    unfold started2. rewrite !app_length, !map_length. exact M3.
Qed.

Lemma synced_nth i vf : forall l j, nth_error (synced syn j l) i = Some vf -> exists i', nth_error l i' = Some vf /\ syn (j + i')%nat = true.
Proof using.
  intros l. revert i. induction l as [|w l IH]; intros i j E; cbn [synced] in E; [destruct i; discriminate|]. destruct (syn j) eqn:SJ.
  - destruct i as [|i]; [injection E as ->; exists 0%nat; rewrite Nat.add_0_r; auto|]. apply IH in E. destruct E as (i' & E & S'). exists (S i'). rewrite <- plus_n_Sm. auto.
  - apply IH in E. destruct E as (i' & E & S'). exists (S i'). rewrite <- plus_n_Sm. auto.
Qed.
Lemma sync_call i v f : nth_error st i = Some (v, f) -> syn i = true -> call_ok V n k (sync_of v).
Proof.
  intros E SI. destruct (SYN i _ f (kinds_nth i v f E) SI) as (VE & S1 & S2 & XY). destruct v as [|x y]; [discriminate VE|]. destruct OK as (A & B). destruct (A i _ f E) as (_ & ID). cbn.
  split; [now apply (ID false)|]. split; [now apply (ID true)|]. split.
  - intros r Hr EQ. destruct (B i false _ _ i true _ _ r (conj E I) (conj E I) Hr EQ). discriminate.
  - exists N, (f_len f), (f_ix f), (f_iy f). split; auto. split; auto. split; auto. exists (f_ext f). intros r Hr.
    pose proof (comp_fits i false _ f r (conj E I) Hr) as FX. pose proof (comp_fits i true _ f r (conj E I) Hr) as FY. cbn [stag_y stag_x handles] in *. rewrite S1, S2 in *.
    split; [eapply fits_no_halo; [|exact FX]|eapply fits_no_halo; [|exact FY]]; lia.
Qed.
Lemma model_calls gs fs : Forall2 (computes n N k st) gs fs -> forall b, Forall (call_ok V n k) (model_steps st syn h fs b).
Proof.
  induction 1 as [|g f gs fs (A & _) _ IH]; intros b; cbn [model_steps]; [constructor|]. cbv zeta. apply Forall_app. split; [|apply Forall_app; split].
  - apply Forall_map, Forall_forall. intros [v fm] I. apply In_nth_error in I. destruct I as (i & E). exact (variable_call i v fm E).
  - apply Forall_map, Forall_forall. intros; exact I.
  - constructor; [exact A|]. apply Forall_app. split; [|apply Forall_app; split; auto].
    + apply Forall_map, Forall_forall. intros [v fm] I. apply In_nth_error in I. destruct I as (i & E). apply synced_nth in E. destruct E as (i' & E & S'). exact (sync_call i' v fm E S').
    + apply Forall_map, Forall_forall. intros; exact I.
Qed.
Lemma starts_count l : forall rest ns done, waits_ok V (map (fun vf : variable * form => update_of h (fst vf)) l ++ rest) ns done <-> waits_ok V rest (ns + length l) done.
Proof using.
  induction l as [|[[q|x y] f] l IH]; intros rest ns done; cbn [map app fst update_of waits_ok starts length]; [now rewrite Nat.add_0_r| |]; rewrite IH, Nat.add_succ_r; reflexivity.
Qed.
Lemma sync_count l : forall rest ns done, waits_ok V (map (fun vf : variable * form => sync_of (fst vf)) l ++ rest) ns done <-> waits_ok V rest (ns + length l) done.
Proof using.
  induction l as [|[v f] l IH]; intros rest ns done; cbn [map app fst sync_of waits_ok starts length]; [now rewrite Nat.add_0_r|]; rewrite IH, Nat.add_succ_r; reflexivity.
Qed.
Lemma waits_count b rest : forall todo j done, (forall x, In x done -> (x < b + j)%nat) -> (forall done', (forall x, In x done' -> (x < b + j + todo)%nat) -> waits_ok V rest (b + j + todo) done') ->
  waits_ok V (map (fun i => CWait V (b + i)) (seq j todo) ++ rest) (b + j + todo) done.
Proof using.
  induction todo as [|todo IH]; intros j done D R; cbn [seq map app waits_ok].
  - apply R. intros x I. apply D in I. lia.
  - split; [intros I; apply D in I; lia|]. split; [lia|]. replace (b + j + S todo)%nat with (b + S j + todo)%nat in * by lia. apply IH; auto. intros x [<-|I]; [lia|]. apply D in I. lia.
Qed.
Lemma waits_pass b l rest done : (forall x, In x done -> (x < b)%nat) -> (forall done', (forall x, In x done' -> (x < b + l)%nat) -> waits_ok V rest (b + l) done') -> waits_ok V (waits b l ++ rest) (b + l) done.
Proof using.
  intros D R. pose proof (waits_count b rest l 0 done) as W. rewrite !Nat.add_0_r in W. exact (W D R).
Qed.
Lemma model_waits fs : forall b done, (forall x, In x done -> (x < b)%nat) -> waits_ok V (model_steps st syn h fs b) b done.
Proof using.
  induction fs as [|f fs IH]; intros b done D; cbn [model_steps]; [exact I|]. cbv zeta. rewrite starts_count. apply waits_pass; [exact D|].
  intros done' D'. cbn [waits_ok starts]. rewrite sync_count. apply waits_pass; [exact D'|]. intros done'' D''. apply IH. exact D''.
Qed.

Theorem model_correct gs fs m F F' : Forall2 (computes n N k st) gs fs -> Forall (looks_near h (kinds st)) gs -> proper neg (kinds st) F -> develops neg (n * N) (kinds st) syn gs F F' ->
  arrays n k m -> state_held n N st d F m ->
  exists m', always_completes (start_state (ranks n) (client_ops V neg n (model_steps st syn h fs 0)) m) (tab (ranks n) m') /\ state_held n N st d F' m'.
Proof.
  intros A G P DV L H. destruct (client_correct V neg d n k (model_steps st syn h fs 0) m) as (m' & M & C); auto.
  - eapply model_calls; eauto.
  - apply model_waits. easy.
  - exists m'. split; auto. eapply (meaning_model gs fs A G [] m m' F F'); eauto.
Qed.
End Model.

(** ** the next state *)
Definition vec_eq_dec (a b : vec) : {a = b} + {a <> b}.
Proof. repeat decide equality. Defined.
Lemma vscale_twice v : vscale (-1) (vscale (-1) v) = v.
Proof. destruct v as [[a b] c]. unfold vscale. now rewrite !Z.mul_assoc, !Z.mul_1_l. Qed.
Lemma vec_inj (a b c a' b' c' : Z) : (a, b, c) = (a', b', c') -> a = a' /\ b = b' /\ c = c'.
Proof. intros E. injection E. auto. Qed.
Lemma some_inj {A} (a b : A) : Some a = Some b -> a = b.
Proof. congruence. Qed.
Section Exists.
Variable V : Type.
Variable neg : V -> V.
Variable d : V.
Variables (M h : Z) (ks : list (bool * form)).
Hypothesis NN : forall x, neg (neg x) = x.

Definition around_window (F : sphere V) (t j x : Z) (i : nat) (c : bool) (dy dx : Z) (lev : list Z) : V :=
  match nth_error ks i with Some (_, f) => F i (spot M (stag_y f c) (stag_x f c) t (j + dy) (x + dx)) lev (bearing M (stag_y f c) (stag_x f c) c t (j + dy) (x + dx)) | None => d end.
Lemma around_window_ok F t j x : window M ks F t j x (around_window F t j x).
Proof using. intros i c f dy dx lev (b & E & _). unfold around_window. now rewrite E. Qed.

Definition in_direction (t : Z) (a b : V) (dir : vec) (other : V) : V :=
  if vec_eq_dec dir (xaxis t) then a else if vec_eq_dec dir (vscale (-1) (xaxis t)) then neg a
  else if vec_eq_dec dir (yaxis t) then b else if vec_eq_dec dir (vscale (-1) (yaxis t)) then neg b else other.
Lemma in_direction_odd t a b dir other other' : other' = neg other -> in_direction t a b (vscale (-1) dir) other' = neg (in_direction t a b dir other).
Proof using NN.
  intros ->. unfold in_direction.
  assert (D : xaxis t <> vscale (-1) (xaxis t) /\ xaxis t <> yaxis t /\ xaxis t <> vscale (-1) (yaxis t) /\ yaxis t <> vscale (-1) (xaxis t) /\ yaxis t <> vscale (-1) (yaxis t) /\ vscale (-1) (xaxis t) <> vscale (-1) (yaxis t)).
  { unfold xaxis, yaxis, vscale. destruct (t =? 0), (t =? 1), (t =? 2), (t =? 3), (t =? 4); repeat split; intros E; discriminate E. }
  destruct D as (D1 & D2 & D3 & D4 & D5 & D6).
  assert (FLIP : forall u, vscale (-1) dir = u <-> dir = vscale (-1) u).
  { intros u. split; [intros <-; now rewrite vscale_twice|intros ->; apply vscale_twice]. }
  pose proof (FLIP (xaxis t)) as X1. pose proof (FLIP (vscale (-1) (xaxis t))) as X2. pose proof (FLIP (yaxis t)) as Y1. pose proof (FLIP (vscale (-1) (yaxis t))) as Y2. rewrite vscale_twice in X2, Y2.
  destruct (vec_eq_dec (vscale (-1) dir) (xaxis t)), (vec_eq_dec dir (xaxis t)); try (exfalso; intuition congruence);
  destruct (vec_eq_dec (vscale (-1) dir) (vscale (-1) (xaxis t))), (vec_eq_dec dir (vscale (-1) (xaxis t))); try (exfalso; intuition congruence); rewrite ?NN; auto;
  destruct (vec_eq_dec (vscale (-1) dir) (yaxis t)), (vec_eq_dec dir (yaxis t)); try (exfalso; intuition congruence);
  destruct (vec_eq_dec (vscale (-1) dir) (vscale (-1) (yaxis t))), (vec_eq_dec dir (vscale (-1) (yaxis t))); try (exfalso; intuition congruence); rewrite ?NN; auto.
Qed.
Lemma in_direction_x t a b other : in_direction t a b (xaxis t) other = a.
Proof using. unfold in_direction. destruct (vec_eq_dec (xaxis t) (xaxis t)); congruence. Qed.
Lemma in_direction_y t a b other : in_direction t a b (yaxis t) other = b.
Proof using.
  unfold in_direction. destruct (vec_eq_dec (yaxis t) (xaxis t)) as [E|_]; [exfalso|].
  { unfold xaxis, yaxis in E. destruct (t =? 0), (t =? 1), (t =? 2), (t =? 3), (t =? 4); discriminate E. }
  destruct (vec_eq_dec (yaxis t) (vscale (-1) (xaxis t))) as [E|_]; [exfalso|].
  { unfold xaxis, yaxis, vscale in E. destruct (t =? 0), (t =? 1), (t =? 2), (t =? 3), (t =? 4); discriminate E. }
  destruct (vec_eq_dec (yaxis t) (yaxis t)); congruence.
Qed.

(** *** points of vectors on edges: each belongs to one tile, of which it is not on the north or east edge *)
Definition edge_y (c : bool) : Z := if c then 0 else 1.
Definition edge_x (c : bool) : Z := if c then 1 else 0.
Lemma edge_spot c t j x : 0 <= j < M -> 0 <= x < M -> spot M (edge_y c) (edge_x c) t j x =
  Some (vadd (vadd (vscale (2 * x + 1 - edge_x c - M) (xaxis t)) (vscale (2 * j + 1 - edge_y c - M) (yaxis t))) (vscale M (normal t))).
Proof using.
  intros J X. unfold spot, surf. replace (Z.abs (2 * x + 1 - edge_x c - M) <=? M) with true by (destruct c; cbn [edge_x]; lia).
  replace (Z.abs (2 * j + 1 - edge_y c - M) <=? M) with true by (destruct c; cbn [edge_y]; lia). reflexivity.
Qed.
Lemma edge_bearing c t j x : 0 <= j < M -> 0 <= x < M -> bearing M (edge_y c) (edge_x c) c t j x = if c then yaxis t else xaxis t.
Proof using.
  intros J X. unfold bearing, xdir, ydir. destruct c; cbn [edge_x edge_y];
    [replace (Z.abs (2 * j + 1 - 0 - M) <=? M) with true by lia|replace (Z.abs (2 * x + 1 - 0 - M) <=? M) with true by lia]; reflexivity.
Qed.
Lemma edge_unique c t j x c' t' j' x' : 0 <= t < 6 -> 0 <= j < M -> 0 <= x < M -> 0 <= t' < 6 -> 0 <= j' < M -> 0 <= x' < M ->
  spot M (edge_y c) (edge_x c) t j x = spot M (edge_y c') (edge_x c') t' j' x' ->
  (if c then yaxis t else xaxis t) = (if c' then yaxis t' else xaxis t') \/ (if c then yaxis t else xaxis t) = vscale (-1) (if c' then yaxis t' else xaxis t') ->
  c = c' /\ t = t' /\ j = j' /\ x = x'.
Proof using.
  intros T J X T' J' X' E B. rewrite !edge_spot in E by auto. apply some_inj in E.
  assert (C : t = 0 \/ t = 1 \/ t = 2 \/ t = 3 \/ t = 4 \/ t = 5) by lia. assert (C' : t' = 0 \/ t' = 1 \/ t' = 2 \/ t' = 3 \/ t' = 4 \/ t' = 5) by lia.
  destruct C as [->|[->|[->|[->|[->| ->]]]]], C' as [->|[->|[->|[->|[->| ->]]]]], c, c';
    (destruct B as [B|B]; try discriminate B); unfold vadd, vscale, xaxis, yaxis, normal, edge_x, edge_y in E; cbn [Z.eqb Pos.eqb] in E; apply vec_inj in E; destruct E as (E1 & E2 & E3);
    try (exfalso; lia); try (repeat split; lia).
Qed.
Definition span (k : Z) : list Z := map Z.of_nat (seq 0 (Z.to_nat k)).
Lemma in_span k i : In i (span k) <-> 0 <= i < k.
Proof using.
  unfold span. rewrite in_map_iff. split; [intros (a & <- & A); apply in_seq in A; lia|]. intros H. exists (Z.to_nat i). split; [lia|]. apply in_seq. lia.
Qed.
Definition owners : list (bool * Z * Z * Z) :=
  flat_map (fun c => flat_map (fun t => flat_map (fun j => map (fun x => (c, t, j, x)) (span M)) (span M)) (span 6)) [false; true].
Lemma in_owners c t j x : In (c, t, j, x) owners <-> 0 <= t < 6 /\ 0 <= j < M /\ 0 <= x < M.
Proof using.
  unfold owners. rewrite <- !in_span. split.
  - intros H. apply in_flat_map in H. destruct H as (c1 & _ & H). apply in_flat_map in H. destruct H as (t1 & T & H). apply in_flat_map in H. destruct H as (j1 & J & H).
    apply in_map_iff in H. destruct H as (x1 & E & X). injection E as <- <- <- <-. auto.
  - intros (T & J & X). apply in_flat_map. exists c. split; [destruct c; cbn; auto|]. apply in_flat_map. exists t. split; auto. apply in_flat_map. exists j. split; auto. now apply in_map.
Qed.
Definition matches (v dir : vec) (o : bool * Z * Z * Z) : bool :=
  let '(c, t, j, x) := o in
  match spot M (edge_y c) (edge_x c) t j x with Some v' => if vec_eq_dec v v' then if vec_eq_dec dir (if c then yaxis t else xaxis t) then true else false else false | None => false end.
Definition seek (v dir : vec) : option (bool * Z * Z * Z) := find (matches v dir) owners.
Lemma seek_some v dir c t j x : seek v dir = Some (c, t, j, x) -> (0 <= t < 6 /\ 0 <= j < M /\ 0 <= x < M) /\ spot M (edge_y c) (edge_x c) t j x = Some v /\ (if c then yaxis t else xaxis t) = dir.
Proof using.
  intros E. apply find_some in E. destruct E as (I & E). apply in_owners in I. split; [exact I|]. unfold matches in E. destruct (spot M (edge_y c) (edge_x c) t j x) as [v'|]; [|discriminate].
  destruct (vec_eq_dec v v') as [->|]; [|discriminate]. destruct (vec_eq_dec dir (if c then yaxis t else xaxis t)) as [->|]; [auto|discriminate].
Qed.
Lemma seek_complete v dir c t j x : 0 <= t < 6 -> 0 <= j < M -> 0 <= x < M -> spot M (edge_y c) (edge_x c) t j x = Some v -> (if c then yaxis t else xaxis t) = dir -> seek v dir = Some (c, t, j, x).
Proof using.
  intros T J X E D. destruct (seek v dir) as [[[[c' t'] j'] x']|] eqn:S.
  - apply seek_some in S. destruct S as ((T' & J' & X') & E' & D'). destruct (edge_unique c t j x c' t' j' x') as (-> & -> & -> & ->); auto; [congruence|left; congruence].
  - exfalso. unfold seek in S. assert (I : In (c, t, j, x) owners) by now apply in_owners. apply (find_none _ _ S) in I. unfold matches in I. rewrite E in I.
    destruct (vec_eq_dec v v); [|congruence]. destruct (vec_eq_dec dir (if c then yaxis t else xaxis t)); congruence.
Qed.
Definition on_owner (a : bool -> Z -> Z -> Z -> V) (v dir : vec) (other : V) : V :=
  match seek v dir with
  | Some (c, t, j, x) => a c t j x
  | None => match seek v (vscale (-1) dir) with Some (c, t, j, x) => neg (a c t j x) | None => other end
  end.
Lemma on_owner_odd a v dir other other' : other' = neg other -> on_owner a v (vscale (-1) dir) other' = neg (on_owner a v dir other).
Proof using NN.
  intros ->. unfold on_owner. rewrite vscale_twice. destruct (seek v dir) as [[[[c t] j] x]|] eqn:S1, (seek v (vscale (-1) dir)) as [[[[c' t'] j'] x']|] eqn:S2; rewrite ?NN; auto.
  exfalso. apply seek_some in S1, S2. destruct S1 as ((T & J & X) & E & D), S2 as ((T' & J' & X') & E' & D').
  destruct (edge_unique c' t' j' x' c t j x) as (-> & -> & -> & ->); auto; [congruence|right; congruence|]. rewrite D in D'. rewrite <- D in D'.
  unfold xaxis, yaxis, vscale in D'. destruct c, (t =? 0), (t =? 1), (t =? 2), (t =? 3), (t =? 4); discriminate D'.
Qed.
Lemma on_owner_at a c t j x v dir other : 0 <= t < 6 -> 0 <= j < M -> 0 <= x < M -> spot M (edge_y c) (edge_x c) t j x = Some v -> (if c then yaxis t else xaxis t) = dir -> on_owner a v dir other = a c t j x.
Proof using. intros T J X E D. unfold on_owner. now rewrite (seek_complete v dir c t j x). Qed.

Variable syn : nat -> bool.
Hypothesis SYN : syn_ok ks syn.
Definition next_sphere (g : mrule V) (F : sphere V) : sphere V := fun i pl lev dir =>
  match nth_error ks i, pl with
  | Some (vector, f), Some v =>
      let value c t j x := g i c t j x (around_window F t j x) lev in
      if syn i then on_owner value v dir (F i pl lev dir)
      else if (f_sy f =? 0) && (f_sx f =? 0) then
        let t := tile_at M v in let j := row_at M v in let x := column_at M v in
        if vector then in_direction t (value false t j x) (value true t j x) dir (F i pl lev dir) else value false t j x
      else F i pl lev dir
  | _, _ => F i pl lev dir
  end.
Lemma next_proper g F : proper neg ks F -> proper neg ks (next_sphere g F).
Proof using NN SYN.
  intros P i vector f E. specialize (P i vector f E). unfold next_sphere. rewrite E. destruct (syn i) eqn:SI.
  { destruct (SYN i vector f E SI) as (-> & _). intros [v|] lev dir; [|apply P]. cbv zeta. apply on_owner_odd, P. }
  destruct vector.
  - intros pl lev dir. destruct pl as [v|]; [|apply P]. cbv zeta. destruct ((f_sy f =? 0) && (f_sx f =? 0)); [|apply P]. apply in_direction_odd, P.
  - intros pl lev dir dir'. destruct pl as [v|]; [|apply P]. cbv zeta. destruct ((f_sy f =? 0) && (f_sx f =? 0)); [reflexivity|apply P].
Qed.
(** variables a rule may change: those in cells, and those which are synchronized *)
Lemma next_follows g F : looks_near h ks g -> (forall i vector f, nth_error ks i = Some (vector, f) -> f_sy f = 0 /\ f_sx f = 0 \/ syn i = true \/ keeps g i) -> follows M ks syn g F (next_sphere g F).
Proof using SYN.
  intros G K i c f t j x lev w PT T J X LV W. pose proof PT as (b & E & CB). unfold next_sphere. rewrite E. cbv zeta.
  assert (GW : g i c t j x (around_window F t j x) lev = g i c t j x w lev).
  { apply (G i c f); auto. intros i' c' f' dy dx lev' PT' _ _. rewrite (W i' c' f' dy dx lev' PT'). now apply around_window_ok. }
  destruct (syn i) eqn:SI.
  { destruct (SYN i b f E SI) as (_ & S1 & S2 & _). assert (S3 : stag_y f c = edge_y c) by (destruct c; auto). assert (S4 : stag_x f c = edge_x c) by (destruct c; auto). rewrite S3, S4 in *.
    rewrite Z.add_0_r in J, X. rewrite edge_bearing by auto. pose proof (edge_spot c t j x J X) as ES. rewrite ES. rewrite (on_owner_at _ c t j x) by auto. exact GW. }
  destruct (Z.eqb_spec (f_sy f) 0) as [S1|S1], (Z.eqb_spec (f_sx f) 0) as [S2|S2]; cbn [andb];
    try (destruct (K i b f E) as [(? & ?)|[?|KE]]; [lia|congruence|]; rewrite KE, (W i c f 0 0 lev PT), !Z.add_0_r; now destruct (spot M _ _ t j x)).
  assert (S3 : stag_y f c = 0) by (destruct c; auto). assert (S4 : stag_x f c = 0) by (destruct c; auto). rewrite S3, S4 in *.
  destruct (at_tile_inv M t j x) as (v & P & T1 & J1 & X1); [split; lia|]. unfold at_tile in P. unfold spot. rewrite P, T1, J1, X1.
  assert (B : bearing M 0 0 c t j x = if c then yaxis t else xaxis t).
  { unfold bearing, xdir, ydir. destruct c; [replace (Z.abs (2 * j + 1 - 0 - M) <=? M) with true by lia|replace (Z.abs (2 * x + 1 - 0 - M) <=? M) with true by lia]; reflexivity. }
  rewrite B. destruct c; [rewrite (CB eq_refl), in_direction_y; exact GW|]. destruct b; [rewrite in_direction_x|]; exact GW.
Qed.
Theorem development_exists gs : Forall (fun g => looks_near h ks g /\ forall i vector f, nth_error ks i = Some (vector, f) -> f_sy f = 0 /\ f_sx f = 0 \/ syn i = true \/ keeps g i) gs ->
  forall F, proper neg ks F -> exists F', develops neg M ks syn gs F F'.
Proof using NN SYN d.
  induction 1 as [|g gs (G & K) _ IH]; intros F P; cbn [develops]; [eauto|]. destruct (IH (next_sphere g F) (next_proper g F P)) as (F' & D).
  exists F', (next_sphere g F). split; [now apply next_proper|]. split; [now apply next_follows|exact D].
Qed.
End Exists.

(** ** ranks can apply any rule *)
Fixpoint owner (st : state) (i : nat) (r id : nat) : option (nat * bool * variable * form) :=
  match st with
  | [] => None
  | (v, f) :: st' =>
      if Nat.eqb (h_id (handles v false r)) id then Some (i, false, v, f)
      else if is_vector v && Nat.eqb (h_id (handles v true r)) id then Some (i, true, v, f)
      else owner st' (S i) r id
  end.
Lemma owner_comp st r id : forall i i' c v f, owner st i r id = Some (i', c, v, f) -> (i <= i')%nat /\ component st (i' - i) c v f /\ h_id (handles v c r) = id.
Proof.
  induction st as [|[v0 f0] st IH]; intros i i' c v f E; cbn [owner] in E; [discriminate|].
  destruct (Nat.eqb_spec (h_id (handles v0 false r)) id) as [<-|_].
  { injection E as <- <- <- <-. rewrite Nat.sub_diag. split; [lia|]. split; [split; [reflexivity|now destruct v0]|reflexivity]. }
  destruct (is_vector v0) eqn:VE; cbn [andb] in E; [destruct (Nat.eqb_spec (h_id (handles v0 true r)) id) as [<-|_]|].
  { injection E as <- <- <- <-. rewrite Nat.sub_diag. split; [lia|]. split; [split; [reflexivity|now destruct v0]|reflexivity]. }
  all: apply IH in E; destruct E as (L & (E & C) & ID); split; [lia|]; split; [|exact ID]; split; [|exact C]; replace (i' - i)%nat with (S (i' - S i)) by lia; exact E.
Qed.
Lemma owner_found st r : forall i j c v f, component st j c v f -> owner st i r (h_id (handles v c r)) <> None.
Proof.
  induction st as [|[v0 f0] st IH]; intros i j c v f (E & C); [destruct j; discriminate|]. cbn [owner]. destruct (Nat.eqb_spec (h_id (handles v0 false r)) (h_id (handles v c r))) as [_|N1]; [discriminate|].
  destruct (is_vector v0 && Nat.eqb (h_id (handles v0 true r)) (h_id (handles v c r)))%bool eqn:B; [discriminate|]. destruct j as [|j]; [|apply (IH (S i) j c v f); split; assumption].
  injection E as -> ->. destruct c; [|congruence]. destruct v; [discriminate C|]. cbn [is_vector andb] in B. rewrite Nat.eqb_refl in B. discriminate.
Qed.

Section Run.
Variables (V : Type) (d : V).
Definition run_model (n N : Z) (st : state) (g : mrule V) (r : nat) (m : mem V) : mem V :=
  map (fun id => match nth_error m id with
    | Some a =>
        match owner st 0 r id with
        | Some (i, c, v, fm) => mkA (shp a) (fun p =>
            let '(t, J, K) := place n (Z.of_nat r) in
            let y := rel (h_meta (handles v c r)) p (f_iy fm) in
            let x := rel (h_meta (handles v c r)) p (f_ix fm) in
            g i c t (J * N + y) (K * N + x) (fun i' c' dy dx lev => match nth_error st i' with
                | Some (v', f') => match nth_error m (h_id (handles v' c' r)) with Some b => at_ b (element (h_meta (handles v' c' r)) (f_ix f') (f_iy f') (y + dy) (x + dx) lev) | None => d end
                | None => d end) (column (h_meta (handles v c r)) (f_ix fm) (f_iy fm) p))
        | None => a
        end
    | None => mkA [] (fun _ => d)
    end) (seq 0 (length m)).
Theorem run_model_computes n N h k st g : state_ok n N h k st -> looks_near h (kinds st) g -> computes n N k st g (run_model n N st g).
Proof.
  intros OK G. split; [intros r m _ L; unfold run_model; now rewrite map_length, seq_length|]. intros r m w Hr L i c v fm a C E.
  assert (B : (h_id (handles v c r) < length m)%nat) by (apply nth_error_Some; congruence). unfold run_model. rewrite nth_error_map.
  replace (nth_error (seq 0 (length m)) (h_id (handles v c r))) with (Some (h_id (handles v c r))).
  2:{ symmetry. rewrite (nth_error_nth' _ 0%nat) by now rewrite seq_length. now rewrite seq_nth. }
  cbn [option_map]. rewrite E.
  destruct (owner st 0 r (h_id (handles v c r))) as [[[[i1 c1] v1] f1]|] eqn:O; [|exfalso; exact (owner_found st r 0 i c v fm C O)].
  apply owner_comp in O. rewrite Nat.sub_0_r in O. destruct O as (_ & C1 & ID). pose proof OK as (IDS & DI). destruct (DI i1 c1 v1 f1 i c v fm r C1 C Hr ID) as (-> & ->).
  destruct C1 as (E1 & _). destruct C as (E2 & C2). assert (EQ : Some (v1, f1) = Some (v, fm)) by congruence. injection EQ as -> ->.
  eexists. split; [reflexivity|]. split; [reflexivity|]. intros p D.
  destruct (g_point_level N h _ _ _ _ _ _ _ (comp_fits n N h k st OK i c v fm r (conj E2 C2) Hr) p D) as (LV & _).
  destruct (place n (Z.of_nat r)) as [[t J] K] eqn:P. cbv zeta. cbn [at_]. intros W. rewrite ?P.
  apply (G i c fm); [eapply comp_part; split; eassumption|exact LV|]. intros i' c' f' dy dx lev' PT RE LE. apply part_comp in PT. destruct PT as (v' & C'). rewrite (proj1 C').
  destruct (nth_error m (h_id (handles v' c' r))) as [b|] eqn:EB; [symmetry; eapply W; eassumption|]. apply nth_error_None in EB. destruct (IDS _ _ _ (proj1 C')) as (_ & BE). specialize (BE c' (proj2 C') r). lia.
Qed.
End Run.

(** ** any layout *)
Theorem model_layouts V (neg : V -> V) (d : V) M h ks syn (gs : list (mrule V)) : (forall x, neg (neg x) = x) -> syn_ok ks syn ->
  Forall (fun g => looks_near h ks g /\ forall i vector f, nth_error ks i = Some (vector, f) -> f_sy f = 0 /\ f_sx f = 0 \/ syn i = true \/ keeps g i) gs ->
  forall F, proper neg ks F -> exists F', develops neg M ks syn gs F F' /\ forall n N k st fs m, 1 <= n -> n * N = M -> 1 <= h <= N -> kinds st = ks -> state_ok n N h k st ->
    Forall2 (computes n N k st) gs fs -> arrays n k m -> state_held n N st d F m ->
    exists m', always_completes (start_state (ranks n) (client_ops V neg n (model_steps st syn h fs 0)) m) (tab (ranks n) m') /\ state_held n N st d F' m'.
Proof.
  intros NN SY G F P. destruct (development_exists V neg d M h ks NN syn SY gs G F P) as (F' & D). exists F'. split; [exact D|]. intros n N k st fs m Hn <- Hh <- OK A L H.
  assert (HN : 1 <= N) by lia. apply (model_correct V neg d n N h k st Hn HN Hh OK syn SY gs fs m F F'); auto. eapply Forall_impl; [|exact G]. now intros g (X & _).
Qed.
