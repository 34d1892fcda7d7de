From Verif.Base Require Import Base Lemmas.
From Verif.Model Require Import Consts Numpy Quantity Partitioner Network Communicator.
From Verif.Spec Require Import Grid Cube Halo Lockstep Sync Client Updates Steps Prognostic Types.
From Verif.Proofs Require Import Neighbors Boundaries Regions ClientProofs UpdateProofs StepsProofs PrognosticProofs Geometry.
From Verif.Model Require ScatterGather.
From Verif.Spec Require Views Together Distribute.
From Verif.Proofs Require StateProofs.
From Coq Require Import ZifyBool.

(** ** which points an update fills can be decided *)
Lemma forall_below_dec (P : nat -> Prop) : (forall i, P i \/ ~ P i) -> forall k, (forall i, (i < k)%nat -> P i) \/ ~ (forall i, (i < k)%nat -> P i).
Proof.
  intros D. induction k as [|k [IH|IH]]; [left; lia| |right; intros H; apply IH; intros; apply H; lia].
  destruct (D k) as [K|K]; [left|right; intros H; apply K; apply H; lia]. intros i Hi. destruct (Nat.eq_dec i k) as [->|]; [auto|apply IH; lia].
Qed.
Lemma range_dec a x b : a <= x < b \/ ~ a <= x < b.
Proof. lia. Qed.
Lemma in_column_dec m ix iy p : in_column m ix iy p \/ ~ in_column m ix iy p.
Proof.
  unfold in_column. destruct (Nat.eq_dec (length p) (length (m_dims m))) as [E|E]; [|right; tauto].
  destruct (forall_below_dec (fun i => i <> ix -> i <> iy -> 0 <= rel m p i < xat (m_extent m) i)) with (k := length (m_dims m)) as [H|H].
  - intros i. destruct (Nat.eq_dec i ix); [left; tauto|]. destruct (Nat.eq_dec i iy); [left; tauto|]. destruct (range_dec 0 (rel m p i) (xat (m_extent m) i)); tauto.
  - left. auto.
  - right. intros [_ K]. apply H. intros i Hi. now apply K.
Qed.
Lemma in_domain_dec m p : in_domain m p \/ ~ in_domain m p.
Proof.
  unfold in_domain. destruct (Nat.eq_dec (length p) (length (m_dims m))) as [E|E]; [|right; tauto].
  destruct (forall_below_dec (fun i => 0 <= rel m p i < xat (m_extent m) i)) with (k := length (m_dims m)) as [H|H]; [intros i; apply range_dec|left; auto|].
  right. intros [_ K]. apply H. intros i Hi. now apply K.
Qed.
Lemma in_halo_dec b ey ex h y x : in_halo b ey ex h y x \/ ~ in_halo b ey ex h y x.
Proof.
  assert (D : forall s e i, side_range s e h i \/ ~ side_range s e h i).
  { intros s e i. unfold side_range. destruct (s =? 0); [apply range_dec|]. destruct (s <? 0); apply range_dec. }
  unfold in_halo. destruct (D (fst (heading b)) ey y), (D (snd (heading b)) ex x); tauto.
Qed.
Lemma to_fill_dec n N h ix iy m r p : to_fill n N h ix iy m r p \/ ~ to_fill n N h ix iy m r p.
Proof.
  unfold to_fill. destruct (place_of n N ix iy m r p) as [v|]; [|right; intros [_ X]; congruence].
  destruct (in_column_dec m ix iy p) as [C|C]; [|right; intros [(b & X & _) _]; auto].
  assert (D : (exists b, in_halo b (xat (m_extent m) iy) (xat (m_extent m) ix) h (rel m p iy) (rel m p ix)) \/
             ~ (exists b, in_halo b (xat (m_extent m) iy) (xat (m_extent m) ix) h (rel m p iy) (rel m p ix))).
  { set (P := fun b => in_halo b (xat (m_extent m) iy) (xat (m_extent m) ix) h (rel m p iy) (rel m p ix)).
    assert (Q : forall b, P b \/ ~ P b) by (intros; apply in_halo_dec).
    destruct (Q NORTH) as [X|X1]; [left; exists NORTH; exact X|]. destruct (Q SOUTH) as [X|X2]; [left; exists SOUTH; exact X|].
    destruct (Q EAST) as [X|X3]; [left; exists EAST; exact X|]. destruct (Q WEST) as [X|X4]; [left; exists WEST; exact X|].
    destruct (Q NORTHEAST) as [X|X5]; [left; exists NORTHEAST; exact X|]. destruct (Q NORTHWEST) as [X|X6]; [left; exists NORTHWEST; exact X|].
    destruct (Q SOUTHEAST) as [X|X7]; [left; exists SOUTHEAST; exact X|]. destruct (Q SOUTHWEST) as [X|X8]; [left; exists SOUTHWEST; exact X|].
    right. intros [[] B]; auto. }
  destruct D as [[b B]|B]; [left; split; [exists b; split; auto|discriminate]|right; intros [(b & _ & X) _]; eauto].
Qed.
Lemma in_edge_dec N ix iy c m p : in_edge N ix iy c m p \/ ~ in_edge N ix iy c m p.
Proof. unfold in_edge. destruct (in_domain_dec m p); [|tauto]. destruct (Z.eq_dec (rel m p (if c then ix else iy)) N); tauto. Qed.

Section Kept.
Variables Ty W : Type.
Variable neg : Types.element Ty W -> Types.element Ty W.
Hypothesis Hneg : keeps_type Ty W neg.
Variable d : Types.element Ty W.
Variables (n : Z) (k : nat) (ty : nat -> nat -> Ty).

Definition good (m : nat -> mem (Types.element Ty W)) : Prop := typed Ty W ty n m /\ forall r, (r < ranks n)%nat -> length (m r) = k.

Lemma content_typed m q r p : good m -> (r < ranks n)%nat -> (h_id (q r) < k)%nat ->
  fst (content _ m (fun r => h_id (q r)) d r p) = ty r (h_id (q r)).
Proof using.
  intros [T L] Hr Hi. unfold content. destruct (nth_error (m r) (h_id (q r))) as [a|] eqn:E; [exact (T r Hr _ _ E p)|].
  apply nth_error_None in E. rewrite L in E by auto. lia.
Qed.
(** arrays not in [hs] stay as they were; for those in [hs] it is enough to look at their contents *)
Lemma changed_typed hs before after : only_changed _ n hs before after -> good before ->
  (forall h r, In h hs -> (r < ranks n)%nat -> (h_id (h r) < k)%nat) ->
  (forall h r p, In h hs -> (r < ranks n)%nat -> fst (content _ after (fun r => h_id (h r)) d r p) = ty r (h_id (h r))) -> good after.
Proof using.
  intros O [T L] B H. split.
  - intros r Hr i a' E p. destruct (O r Hr) as [OL OK].
    destruct (nth_error (before r) i) as [a|] eqn:Eb.
    2:{ apply nth_error_None in Eb. assert (i < length (after r))%nat by (apply nth_error_Some; congruence). lia. }
    destruct (OK i a Eb) as (a2 & E2 & _ & K). rewrite E in E2. injection E2 as <-.
    destruct (in_dec Nat.eq_dec i (map (fun h => h_id (h r)) hs)) as [I|I].
    + apply in_map_iff in I. destruct I as (h & Eh & Ih). assert (X := H h r p Ih Hr). unfold content in X. rewrite Eh, E in X. exact X.
    + rewrite K; [exact (T r Hr _ _ Eb p)|]. intros h Ih Eh. apply I. apply in_map_iff. eauto.
  - intros r Hr. destruct (O r Hr) as [OL _]. rewrite OL. auto.
Qed.

Lemma effect_typed c sent before after : call_ok _ n k c -> call_typed Ty W ty n c -> starts _ c = true ->
  good sent -> good before -> effect _ neg d n c sent before after -> good after.
Proof using Hneg.
  destruct c as [q h|x y h|x y|i|f]; cbn [call_ok call_typed starts effect]; try discriminate.
  - intros (B & N & len & ix & iy & K) (t & S) _ Gs Gb (O & E). specialize (E _ _ _ _ K). cbv zeta in E.
    apply (changed_typed _ _ _ O Gb); [intros h' r [<-|[]] _; apply B|].
    intros h' r p [<-|[]] Hr. destruct (E r p Hr) as [E1 E2].
    destruct (to_fill_dec n N h ix iy (h_meta (q r)) r p) as [D|D].
    + destruct (E1 D) as (r' & p' & Hr' & _ & _ & _ & ->). rewrite content_typed by auto. rewrite (S q r'), (S q r); cbn; auto.
    + rewrite (E2 D). now apply content_typed.
  - intros (Bx & By & N & len & ix & iy & K) (t & S) _ Gs Gb (O & E). specialize (E _ _ _ _ K). cbv zeta in E.
    apply (changed_typed _ _ _ O Gb); [intros h' r [<-|[<-|[]]] _; auto|].
    assert (X : forall (c : bool) r p, (r < ranks n)%nat ->
      fst (content _ after (fun r => h_id (if c then y r else x r)) d r p) = ty r (h_id (if c then y r else x r))).
    { intros c r p Hr. destruct (E c r p Hr) as [E1 E2].
      destruct (to_fill_dec n N h ix iy (h_meta (if c then y r else x r)) r p) as [D|D].
      - destruct (E1 D) as (c' & r' & p' & Hr' & _ & _ & _ & [[_ ->]|[_ ->]]); rewrite ?Hneg;
        rewrite (content_typed sent (fun r => if c' then y r else x r)) by (destruct c'; auto);
        rewrite (S (fun r => if c then y r else x r) r), (S (fun r => if c' then y r else x r) r'); auto; destruct c, c'; cbn; auto.
      - rewrite (E2 D). apply (content_typed before (fun r => if c then y r else x r)); auto. destruct c; auto. }
    intros h' r p [<-|[<-|[]]] Hr; [exact (X false r p Hr)|exact (X true r p Hr)].
  - intros (Bx & By & _ & N & len & ix & iy & K) (t & S) _ Gs Gb (O & E). specialize (E _ _ _ _ K). cbv zeta in E.
    apply (changed_typed _ _ _ O Gb); [intros h' r [<-|[<-|[]]] _; auto|].
    assert (X : forall (c : bool) r p, (r < ranks n)%nat ->
      fst (content _ after (fun r => h_id (if c then y r else x r)) d r p) = ty r (h_id (if c then y r else x r))).
    { intros c r p Hr. destruct (E c r p Hr) as [E1 E2].
      destruct (in_edge_dec N ix iy c (h_meta (if c then y r else x r)) p) as [D|D].
      - destruct (E1 D) as (c' & r' & p' & Hr' & _ & _ & _ & [[_ ->]|[_ ->]]); rewrite ?Hneg;
        rewrite (content_typed sent (fun r => if c' then y r else x r)) by (destruct c'; auto);
        rewrite (S (fun r => if c then y r else x r) r), (S (fun r => if c' then y r else x r) r'); auto; destruct c, c'; cbn; auto.
      - rewrite (E2 D). apply (content_typed before (fun r => if c then y r else x r)); auto. destruct c; auto. }
    intros h' r p [<-|[<-|[]]] Hr; [exact (X false r p Hr)|exact (X true r p Hr)].
Qed.

Lemma meaning_typed calls : forall started m m', Forall (call_ok _ n k) calls -> Forall (call_typed Ty W ty n) calls ->
  Forall (fun cs => call_ok _ n k (fst cs) /\ call_typed Ty W ty n (fst cs) /\ starts _ (fst cs) = true /\ good (snd cs)) started -> good m ->
  meaning _ neg d n calls started m m' -> good m'.
Proof using Hneg.
  induction calls as [|c calls IH]; intros started m m' OK TY ST G M.
  - cbn in M. destruct G as [T L]. split; [intros r Hr|intros r Hr]; rewrite (M r Hr); auto.
  - inversion_clear OK as [|? ? O1 O2]. inversion_clear TY as [|? ? T1 T2].
    destruct c as [q h|x y h|x y|i|f]; cbn [meaning] in M;
      try (refine (IH _ _ _ O2 T2 _ G M); apply Forall_app; split; [exact ST|constructor; [cbn [fst snd]; auto|constructor]]).
    + destruct M as (c & sent & m1 & E & F & M). apply (IH _ _ _ O2 T2 ST) with (2 := M).
      apply nth_error_In in E. rewrite Forall_forall in ST. destruct (ST _ E) as (X1 & X2 & X3 & X4). cbn [fst snd] in *.
      exact (effect_typed _ _ _ _ X1 X2 X3 X4 G F).
    + refine (IH _ _ _ O2 T2 ST _ M). destruct G as [T L]. split; [intros r Hr; apply T1; auto|intros r Hr; apply O1; auto].
Qed.

Theorem types_kept calls m : Forall (call_ok _ n k) calls -> waits_ok _ calls 0 [] -> arrays n k m ->
  Forall (call_typed Ty W ty n) calls -> typed Ty W ty n m ->
  exists m', typed Ty W ty n m' /\ always_completes (start_state (ranks n) (client_ops _ neg n calls) m) (tab (ranks n) m').
Proof using Hneg d.
  intros OK WT AR TY T. destruct (client_correct _ neg d n k calls m OK WT AR) as (m' & M & C). exists m'. split; [|exact C].
  apply (meaning_typed calls [] m m' OK TY (Forall_nil _) (conj T AR) M).
Qed.
End Kept.

(** ** vectors whose components have different types *)
Lemma rank_at n t J K : 1 <= n -> 0 <= t < 6 -> 0 <= J < n -> 0 <= K < n ->
  exists r, (r < ranks n)%nat /\ place n (Z.of_nat r) = (t, J, K).
Proof.
  intros Hn Ht HJ HK. assert (B : 0 <= rank_of n t J K < 6 * (n * n)) by (unfold rank_of; nia).
  exists (Z.to_nat (rank_of n t J K)). rewrite Z2Nat.id by lia. split; [unfold ranks; lia|]. apply place_rank_of; lia.
Qed.
Lemma offset_in n N s K x : 1 <= n -> 1 <= N -> 0 <= s <= 1 -> 0 <= K < n -> 0 <= x < N + s -> Z.abs (2 * (K * N + x) + 1 - s - n * N) <= n * N.
Proof. intros. assert (0 <= K * N <= (n - 1) * N) by nia. lia. Qed.
Lemma vec_inj (a b c a' b' c' : Z) : (a, b, c) = (a', b', c') -> a = a' /\ b = b' /\ c = c'.
Proof. intros X. injection X. auto. Qed.
Lemma some_inj {A} (a b : A) : Some a = Some b -> a = b.
Proof. congruence. Qed.

(** x components do not come from x components across the northern edge of tile 0, y components not from y components across its western edge *)
Lemma surf_inside M t u v : Z.abs u <= M -> Z.abs v <= M -> surf M t u v = Some (vadd (vadd (vscale u (xaxis t)) (vscale v (yaxis t))) (vscale M (normal t))).
Proof. intros H1 H2. unfold surf. apply Z.leb_le in H1, H2. now rewrite H1, H2. Qed.
Lemma over_north M t u v u' v' : 1 <= M -> 0 <= t < 6 -> Z.abs u <= M -> M < v -> Z.abs u' <= M -> Z.abs v' <= M ->
  surf M t u' v' = surf M 0 u v -> xdir M t u' v' = xdir M 0 u v \/ xdir M t u' v' = vscale (-1) (xdir M 0 u v) -> False.
Proof.
  intros HM Ht Hu Hv Hu' Hv' P D. unfold xdir in D. replace (Z.abs u' <=? M) with true in D by lia. replace (Z.abs u <=? M) with true in D by lia.
  rewrite (surf_inside M t u' v') in P by auto. unfold surf in P.
  replace (Z.abs v <=? M) with false in P by lia. replace (Z.abs u <=? M) with true in P by lia. cbn [andb] in P. apply some_inj in P.
  replace (Z.sgn v) with 1 in P by lia. destruct (parity t Ht) as [->|[->|[->|[->|[->| ->]]]]]; cbn -[Z.mul Z.abs] in P, D; apply vec_inj in P; destruct D as [D|D]; apply vec_inj in D; lia.
Qed.
Lemma over_west M t u v u' v' : 1 <= M -> 0 <= t < 6 -> u < - M -> Z.abs v <= M -> Z.abs u' <= M -> Z.abs v' <= M ->
  surf M t u' v' = surf M 0 u v -> ydir M t u' v' = ydir M 0 u v \/ ydir M t u' v' = vscale (-1) (ydir M 0 u v) -> False.
Proof.
  intros HM Ht Hu Hv Hu' Hv' P D. unfold ydir in D. replace (Z.abs v' <=? M) with true in D by lia. replace (Z.abs v <=? M) with true in D by lia.
  rewrite (surf_inside M t u' v') in P by auto. unfold surf in P.
  replace (Z.abs u <=? M) with false in P by lia. replace (Z.abs v <=? M) with true in P by lia. cbn [andb] in P. apply some_inj in P.
  replace (Z.sgn u) with (-1) in P by lia. destruct (parity t Ht) as [->|[->|[->|[->|[->| ->]]]]]; cbn -[Z.mul Z.abs] in P, D; apply vec_inj in P; destruct D as [D|D]; apply vec_inj in D; lia.
Qed.
(** interfaces: x components on the northern edge of tile 0 do not come from southern edges, y components on the eastern edge of tile 1
    not from western edges *)
Lemma north_edge M t u u' v' : 1 <= M -> 0 <= t < 6 -> Z.abs u <= M -> Z.abs u' <= M -> Z.abs v' <= M -> v' < M ->
  surf M t u' v' = surf M 0 u M -> xdir M t u' v' = xdir M 0 u M \/ xdir M t u' v' = vscale (-1) (xdir M 0 u M) -> False.
Proof.
  intros HM Ht Hu Hu' Hv' Hlt P D. unfold xdir in D. replace (Z.abs u' <=? M) with true in D by lia. replace (Z.abs u <=? M) with true in D by lia.
  rewrite !surf_inside in P by lia. apply some_inj in P.
  destruct (parity t Ht) as [->|[->|[->|[->|[->| ->]]]]]; cbn -[Z.mul Z.abs] in P, D; apply vec_inj in P; destruct D as [D|D]; apply vec_inj in D; lia.
Qed.
Lemma east_edge M t v u' v' : 1 <= M -> 0 <= t < 6 -> Z.abs v <= M -> Z.abs u' <= M -> Z.abs v' <= M -> u' < M ->
  surf M t u' v' = surf M 1 M v -> ydir M t u' v' = ydir M 1 M v \/ ydir M t u' v' = vscale (-1) (ydir M 1 M v) -> False.
Proof.
  intros HM Ht Hu Hu' Hv' Hlt P D. unfold ydir in D. replace (Z.abs v' <=? M) with true in D by lia. replace (Z.abs v <=? M) with true in D by lia.
  rewrite !surf_inside in P by lia. apply some_inj in P.
  destruct (parity t Ht) as [->|[->|[->|[->|[->| ->]]]]]; cbn -[Z.mul Z.abs] in P, D; apply vec_inj in P; destruct D as [D|D]; apply vec_inj in D; lia.
Qed.

Section Mixed.
Variables Ty W : Type.
Variable neg : Types.element Ty W -> Types.element Ty W.
Hypothesis Hneg : keeps_type Ty W neg.
Variable d : Types.element Ty W.
Variables (n N : Z) (len ix iy : nat) (k : nat) (ty : nat -> nat -> Ty) (x y : nat -> handle) (tx tyy : Ty).
Hypothesis Hx : forall r, (r < ranks n)%nat -> ty r (h_id (x r)) = tx.
Hypothesis Hy : forall r, (r < ranks n)%nat -> ty r (h_id (y r)) = tyy.
Hypothesis Hd : tx <> tyy.
Hypothesis Hk : forall c : bool, ids_below k (fun r => if c then y r else x r).
Let hd := fun (c : bool) r => if c then y r else x r.

Lemma hd_type c r : (r < ranks n)%nat -> ty r (h_id (hd c r)) = if c then tyy else tx.
Proof using Hx Hy. intros Hr. destruct c; cbn; auto. Qed.

(** an element which got its value from the other component *)
Lemma mistyped_from m m' (c c' : bool) r p r' p' : typed Ty W ty n m -> arrays n k m -> arrays n k m' -> (r < ranks n)%nat -> (r' < ranks n)%nat -> c' <> c ->
  in_shape (m_shape (h_meta (hd c r))) p ->
  content _ m' (fun r => h_id (hd c r)) d r p = content _ m (fun r => h_id (hd c' r)) d r' p' \/
  content _ m' (fun r => h_id (hd c r)) d r p = neg (content _ m (fun r => h_id (hd c' r)) d r' p') ->
  mistyped Ty W ty n (hd c) m'.
Proof using Hneg Hx Hy Hd Hk.
  intros T A A' Hr Hr' C S E. assert (X : fst (content _ m' (fun r => h_id (hd c r)) d r p) = if c' then tyy else tx).
  { rewrite <- (hd_type c' r' Hr'), <- (content_typed Ty W d n k ty m (hd c') r' p' (conj T A) Hr' (Hk c' r')). destruct E as [->| ->]; [|rewrite Hneg]; reflexivity. }
  unfold content in X. destruct (nth_error (m' r) (h_id (hd c r))) as [a|] eqn:Ea.
  - exists r, a, p. split; [auto|]. split; [auto|]. split; [auto|]. rewrite X, hd_type by auto. destruct c, c'; congruence.
  - apply nth_error_None in Ea. rewrite A' in Ea by auto. specialize (Hk c r). cbn in Hk. unfold hd in Ea. lia.
Qed.

Lemma element_shape h sy sx ext mt yy xx c : Halo.fits N h len ix iy sy sx ext mt -> level len ix iy ext c -> - h <= yy < N + sy + h -> - h <= xx < N + sx + h ->
  in_shape (m_shape mt) (Steps.element mt ix iy yy xx c).
Proof using.
  intros F (L & B) Y X. apply in_shape_nth. split; [unfold Steps.element; now rewrite map_length, seq_length, (fit_dims F), (fit_shape F)|].
  intros i Hi. rewrite (fit_shape F) in Hi. fold (xat (Steps.element mt ix iy yy xx c) i) (xat (m_shape mt) i).
  rewrite (g_nth_element N h len ix iy sy sx ext mt F) by auto. destruct (fit_dom F i Hi) as (D1 & D2 & D3). rewrite (fit_ext F) in D3 by auto. specialize (B i Hi).
  destruct (Nat.eqb_spec i ix) as [Ex|Nx].
  - subst i. destruct (fit_halo F ix (or_introl eq_refl)) as (H1 & H2). rewrite (g_extent_x N h len ix iy sy sx ext mt F) in H2. lia.
  - destruct (Nat.eqb_spec i iy) as [Ey|Ny]; cbn [orb] in B; [|lia]. subst i.
    destruct (fit_halo F iy (or_intror eq_refl)) as (H1 & H2). rewrite (g_extent_y N h len ix iy sy sx ext mt F) in H2. lia.
Qed.

Theorem mixed_vector h m : vector_ok n N len ix iy x y h -> arrays n k m -> typed Ty W ty n m -> (exists p, in_domain (h_meta (x 0%nat)) p) ->
  exists m', all_ranks_end n (fun r => vector_halo_update _ neg (n, n) (Z.of_nat r) (x r) (y r) h) m m' /\
    mistyped Ty W ty n x m' /\ mistyped Ty W ty n y m'.
Proof using Hneg Hx Hy Hd Hk d.
  intros OK A T (p0 & D0). destruct (vector_halo_update_effect _ neg d n k N len ix iy x y h m OK (Hk false) (Hk true) A) as (m' & E & A' & _ & EF).
  specialize (EF N len ix iy OK). cbv zeta in EF. exists m'. split; [exact E|]. clear E.
  destruct OK as (Hn & HN & Hh & _ & sy & sx & ext & F).
  assert (R0 : (0 < ranks n)%nat) by (unfold ranks; nia). destruct (g_point_level N h len ix iy sy sx ext _ (proj1 (F 0%nat R0)) p0 D0) as (LV & _).
  set (lv := column (h_meta (x 0%nat)) ix iy p0) in *. clearbody lv. assert (HM : 1 <= n * N) by nia.
  split.
  - destruct (rank_at n 0 (n - 1) 0 Hn ltac:(lia) ltac:(lia) ltac:(lia)) as (r & Hr & PL). destruct (F r Hr) as [Fx _]. destruct (g_stag N h len ix iy sy sx ext _ Fx) as (Sy & Sx).
    set (p := Steps.element (h_meta (x r)) ix iy (N + sy) 0 lv).
    assert (PP := g_place_point n N h len ix iy sy sx ext _ Fx r p). assert (PD := g_dir_point n N h len ix iy sy sx ext _ Fx false r p). rewrite PL in PP, PD.
    assert (PY : rel (h_meta (x r)) p iy = N + sy) by apply (g_rel_y N h len ix iy sy sx ext _ Fx).
    assert (PX : rel (h_meta (x r)) p ix = 0) by apply (g_rel_x N h len ix iy sy sx ext _ Fx).
    rewrite PY, PX in PP, PD. unfold spot, bearing in PP, PD. replace (0 * N + 0) with 0 in * by lia. replace ((n - 1) * N + (N + sy)) with (n * N + sy) in * by lia.
    assert (TF : to_fill n N h ix iy (h_meta (x r)) r p).
    { split.
      - exists NORTH. split; [apply (g_element_column N h len ix iy sy sx ext _ Fx); exact LV|].
        rewrite PY, PX, (g_extent_y N h len ix iy sy sx ext _ Fx), (g_extent_x N h len ix iy sy sx ext _ Fx). cbn. unfold in_halo, side_range. cbn. lia.
      - rewrite PP. apply (spot_defined (n * N) sy sx 0 (n * N + sy) 0); lia. }
    destruct (EF false r p Hr) as [X _]. destruct (X TF) as (c' & r' & p' & Hr' & Dp & _ & P' & V'). clear X.
    apply (mistyped_from m m' false c' r p r' p' T A A' Hr Hr').
    + intros ->. destruct (F r' Hr') as [Fx' _]. destruct (g_point_level N h len ix iy sy sx ext _ Fx' p' Dp) as (_ & B1 & B2).
      assert (PP' := g_place_point n N h len ix iy sy sx ext _ Fx' r' p'). assert (PD' := g_dir_point n N h len ix iy sy sx ext _ Fx' false r' p').
      destruct (place n (Z.of_nat r')) as [[t J] K] eqn:PL'. destruct (place_range n r' Hn Hr' t J K PL') as (Ht & HJ & HK). unfold spot, bearing in PP', PD'. cbn beta iota in P', V'.
      assert (O1 := offset_in n N sx K (rel (h_meta (x r')) p' ix) Hn HN Sx HK B2). assert (O2 := offset_in n N sy J (rel (h_meta (x r')) p' iy) Hn HN Sy HJ B1).
      rewrite PP, PP' in P'. rewrite PD, PD' in V'.
      refine (over_north (n * N) t _ _ _ _ HM Ht _ _ O1 O2 P' _); [lia|lia|]. destruct V' as [[V' _]|[V' _]]; auto.
    + apply (element_shape h sy sx ext _ _ _ _ Fx LV); lia.
    + destruct V' as [[_ V']|[_ V']]; auto.
  - destruct (rank_at n 0 0 0 Hn ltac:(lia) ltac:(lia) ltac:(lia)) as (r & Hr & PL). destruct (F r Hr) as [_ Fx]. destruct (g_stag N h len ix iy sx sy ext _ Fx) as (Sx & Sy).
    set (p := Steps.element (h_meta (y r)) ix iy 0 (-1) lv).
    assert (PP := g_place_point n N h len ix iy sx sy ext _ Fx r p). assert (PD := g_dir_point n N h len ix iy sx sy ext _ Fx true r p). rewrite PL in PP, PD.
    assert (PY : rel (h_meta (y r)) p iy = 0) by apply (g_rel_y N h len ix iy sx sy ext _ Fx).
    assert (PX : rel (h_meta (y r)) p ix = -1) by apply (g_rel_x N h len ix iy sx sy ext _ Fx).
    rewrite PY, PX in PP, PD. unfold spot, bearing in PP, PD. replace (0 * N + 0) with 0 in * by lia. replace (0 * N + -1) with (-1) in * by lia.
    assert (TF : to_fill n N h ix iy (h_meta (y r)) r p).
    { split.
      - exists WEST. split; [apply (g_element_column N h len ix iy sx sy ext _ Fx); exact LV|].
        rewrite PY, PX, (g_extent_y N h len ix iy sx sy ext _ Fx), (g_extent_x N h len ix iy sx sy ext _ Fx). cbn. unfold in_halo, side_range. cbn. lia.
      - rewrite PP. apply (spot_defined (n * N) sx sy 0 0 (-1)); lia. }
    destruct (EF true r p Hr) as [X _]. destruct (X TF) as (c' & r' & p' & Hr' & Dp & _ & P' & V'). clear X.
    apply (mistyped_from m m' true c' r p r' p' T A A' Hr Hr').
    + intros ->. destruct (F r' Hr') as [_ Fx']. destruct (g_point_level N h len ix iy sx sy ext _ Fx' p' Dp) as (_ & B1 & B2).
      assert (PP' := g_place_point n N h len ix iy sx sy ext _ Fx' r' p'). assert (PD' := g_dir_point n N h len ix iy sx sy ext _ Fx' true r' p').
      destruct (place n (Z.of_nat r')) as [[t J] K] eqn:PL'. destruct (place_range n r' Hn Hr' t J K PL') as (Ht & HJ & HK). unfold spot, bearing in PP', PD'. cbn beta iota in P', V'.
      assert (O1 := offset_in n N sy K (rel (h_meta (y r')) p' ix) Hn HN Sy HK B2). assert (O2 := offset_in n N sx J (rel (h_meta (y r')) p' iy) Hn HN Sx HJ B1).
      rewrite PP, PP' in P'. rewrite PD, PD' in V'.
      refine (over_west (n * N) t _ _ _ _ HM Ht _ _ O1 O2 P' _); [lia|lia|]. destruct V' as [[V' _]|[V' _]]; auto.
    + apply (element_shape h sx sy ext _ _ _ _ Fx LV); lia.
    + destruct V' as [[_ V']|[_ V']]; auto.
Qed.

Theorem mixed_interfaces m : sync_ok n N len ix iy (fun r => h_meta (x r)) (fun r => h_meta (y r)) -> (forall r, (r < ranks n)%nat -> h_id (x r) <> h_id (y r)) ->
  arrays n k m -> typed Ty W ty n m -> (exists p, in_domain (h_meta (x 0%nat)) p) ->
  exists m', all_ranks_end n (fun r => synchronize_vector_interfaces _ neg (n, n) (Z.of_nat r) (x r) (y r)) m m' /\
    mistyped Ty W ty n x m' /\ mistyped Ty W ty n y m'.
Proof using Hneg Hx Hy Hd Hk d.
  intros OK XY A T (p0 & D0). destruct (synchronize_effect _ neg d n k N len ix iy x y m OK XY (Hk false) (Hk true) A) as (m' & E & A' & _ & EF).
  specialize (EF N len ix iy OK). cbv zeta in EF. exists m'. split; [exact E|]. clear E.
  destruct OK as (Hn & HN & _ & ext & F).
  assert (R0 : (0 < ranks n)%nat) by (unfold ranks; nia). destruct (g_point_level N 0 len ix iy 1 0 ext _ (proj1 (F 0%nat R0)) p0 D0) as (LV & _).
  set (lv := column (h_meta (x 0%nat)) ix iy p0) in *. clearbody lv. assert (HM : 1 <= n * N) by nia.
  split.
  - destruct (rank_at n 0 (n - 1) 0 Hn ltac:(lia) ltac:(lia) ltac:(lia)) as (r & Hr & PL). destruct (F r Hr) as [Fx _].
    set (p := Steps.element (h_meta (x r)) ix iy N 0 lv).
    assert (PP := g_place_point n N 0 len ix iy 1 0 ext _ Fx r p). assert (PD := g_dir_point n N 0 len ix iy 1 0 ext _ Fx false r p). rewrite PL in PP, PD.
    assert (PY : rel (h_meta (x r)) p iy = N) by apply (g_rel_y N 0 len ix iy 1 0 ext _ Fx).
    assert (PX : rel (h_meta (x r)) p ix = 0) by apply (g_rel_x N 0 len ix iy 1 0 ext _ Fx).
    rewrite PY, PX in PP, PD. unfold spot, bearing in PP, PD. replace (0 * N + 0) with 0 in * by lia. replace (2 * ((n - 1) * N + N) + 1 - 1 - n * N) with (n * N) in * by lia.
    assert (TF : in_edge N ix iy false (h_meta (x r)) p).
    { split; [apply (g_element_domain N 0 len ix iy 1 0 ext _ Fx); [exact LV|lia|lia]|exact PY]. }
    destruct (EF false r p Hr) as [X _]. destruct (X TF) as (c' & r' & p' & Hr' & (Dp & Z0) & _ & P' & V'). clear X.
    apply (mistyped_from m m' false c' r p r' p' T A A' Hr Hr').
    + intros ->. destruct (F r' Hr') as [Fx' _]. destruct (g_point_level N 0 len ix iy 1 0 ext _ Fx' p' Dp) as (_ & B1 & B2).
      assert (PP' := g_place_point n N 0 len ix iy 1 0 ext _ Fx' r' p'). assert (PD' := g_dir_point n N 0 len ix iy 1 0 ext _ Fx' false r' p').
      destruct (place n (Z.of_nat r')) as [[t J] K] eqn:PL'. destruct (place_range n r' Hn Hr' t J K PL') as (Ht & HJ & HK). unfold spot, bearing in PP', PD'. cbn beta iota in P', V', Z0.
      assert (O1 := offset_in n N 0 K (rel (h_meta (x r')) p' ix) Hn HN ltac:(lia) HK B2). assert (O2 := offset_in n N 1 J (rel (h_meta (x r')) p' iy) Hn HN ltac:(lia) HJ B1).
      rewrite PP, PP' in P'. rewrite PD, PD' in V'. assert (J * N <= (n - 1) * N) by nia.
      refine (north_edge (n * N) t _ _ _ HM Ht _ O1 O2 _ P' _); [lia|lia|]. destruct V' as [[V' _]|[V' _]]; auto.
    + apply (element_shape 0 1 0 ext _ _ _ _ Fx LV); lia.
    + destruct V' as [[_ V']|[_ V']]; auto.
  - destruct (rank_at n 1 0 (n - 1) Hn ltac:(lia) ltac:(lia) ltac:(lia)) as (r & Hr & PL). destruct (F r Hr) as [_ Fx].
    set (p := Steps.element (h_meta (y r)) ix iy 0 N lv).
    assert (PP := g_place_point n N 0 len ix iy 0 1 ext _ Fx r p). assert (PD := g_dir_point n N 0 len ix iy 0 1 ext _ Fx true r p). rewrite PL in PP, PD.
    assert (PY : rel (h_meta (y r)) p iy = 0) by apply (g_rel_y N 0 len ix iy 0 1 ext _ Fx).
    assert (PX : rel (h_meta (y r)) p ix = N) by apply (g_rel_x N 0 len ix iy 0 1 ext _ Fx).
    rewrite PY, PX in PP, PD. unfold spot, bearing in PP, PD. replace (0 * N + 0) with 0 in * by lia. replace (2 * ((n - 1) * N + N) + 1 - 1 - n * N) with (n * N) in * by lia.
    assert (TF : in_edge N ix iy true (h_meta (y r)) p).
    { split; [apply (g_element_domain N 0 len ix iy 0 1 ext _ Fx); [exact LV|lia|lia]|exact PX]. }
    destruct (EF true r p Hr) as [X _]. destruct (X TF) as (c' & r' & p' & Hr' & (Dp & Z0) & _ & P' & V'). clear X.
    apply (mistyped_from m m' true c' r p r' p' T A A' Hr Hr').
    + intros ->. destruct (F r' Hr') as [_ Fx']. destruct (g_point_level N 0 len ix iy 0 1 ext _ Fx' p' Dp) as (_ & B1 & B2).
      assert (PP' := g_place_point n N 0 len ix iy 0 1 ext _ Fx' r' p'). assert (PD' := g_dir_point n N 0 len ix iy 0 1 ext _ Fx' true r' p').
      destruct (place n (Z.of_nat r')) as [[t J] K] eqn:PL'. destruct (place_range n r' Hn Hr' t J K PL') as (Ht & HJ & HK). unfold spot, bearing in PP', PD'. cbn beta iota in P', V', Z0.
      assert (O1 := offset_in n N 1 K (rel (h_meta (y r')) p' ix) Hn HN ltac:(lia) HK B2). assert (O2 := offset_in n N 0 J (rel (h_meta (y r')) p' iy) Hn HN ltac:(lia) HJ B1).
      rewrite PP, PP' in P'. rewrite PD, PD' in V'. assert (K * N <= (n - 1) * N) by nia.
      refine (east_edge (n * N) t _ _ _ HM Ht _ O1 O2 _ P' _); [lia|lia|]. destruct V' as [[V' _]|[V' _]]; auto.
    + apply (element_shape 0 0 1 ext _ _ _ _ Fx LV); lia.
    + destruct V' as [[_ V']|[_ V']]; auto.
Qed.
End Mixed.

(** ** scatter *)
Theorem scatter_types Ty W T p dims rext : Distribute.fits (Distribute.layout_of p) dims rext ->
  forall (sends recv : nat -> option (quantity (Types.element Ty W))) send junk t, sends 0%nat = Some send -> Distribute.global_sized p dims rext send ->
  (forall r, (r < Distribute.ranks p)%nat -> Distribute.given (Distribute.rank_sized rext) (recv r)) -> of_type Ty W t (q_data send) ->
  exists outs, Together.always_ends (Distribute.ranks p) (fun r => ScatterGather.scatter _ T p (Z.of_nat r) (junk r) (sends r) (recv r)) (fun r => Ok (outs r)) /\
    forall r pt, (r < Distribute.ranks p)%nat -> in_shape rext pt -> fst (at_ (Views.domain_of (outs r)) pt) = t.
Proof.
  intros Fi sends recv send junk t S0 G R TT. destruct (StateProofs.scatter_result (T := T) p dims rext Fi sends recv send junk S0 G R) as (outs & E & Wr). exists outs. split; [exact E|].
  intros r pt Hr Hp. destruct (Wr r Hr) as ((Sh & V) & _). rewrite V; [|rewrite Sh; exact Hp]. cbn. apply TT.
Qed.
