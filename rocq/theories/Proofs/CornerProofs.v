(** Corner and interior views, negative indices, too many indices. *)
From Verif.Base Require Import Base Lemmas.
From Verif.Model Require Import Consts Numpy Quantity.
From Verif.Spec Require Import Grid Views.
From Verif.Proofs Require Import NumpyProofs Regions ViewProofs.
From Coq Require Import ZifyBool.
Ltac Zify.zify_post_hook ::= idtac.

Definition pick_entry (k : pick) : ientry := match k with Point i => IInt i | Span a b => ISL a b end.

Lemma picks_index s ks : Forall2 pick_ok s ks -> exists f, index_apply (map pick_entry ks) s = Ok (pick_shape ks, f) /\
  forall p, in_shape (pick_shape ks) p -> f p = pick_place ks p.
Proof.
  induction 1 as [|n k s ks K F (f & E & G)]; [exists (fun p => p); split; auto; intros p P; inversion P; reflexivity|].
  destruct k as [i|a b]; cbn [map pick_entry ISL index_apply pick_ok pick_shape pick_place] in *.
  - replace ((- n <=? i) && (i <? n)) with true by lia. rewrite E. cbn [bind]. eexists. split; [reflexivity|]. intros p P. cbn beta. rewrite G by auto.
    destruct (Z.ltb_spec i 0); [lia|reflexivity].
  - rewrite slice_norm_inside by lia. cbn [bind]. rewrite E. cbn [bind]. eexists. split; [reflexivity|]. intros p P. inversion P; subst. cbn [hd tl].
    rewrite G by auto. f_equal. lia.
Qed.

Lemma picks_view s ks : Forall2 pick_ok s ks -> exists v, v_index (v_whole s) (map pick_entry ks) = Ok v /\ shows v ks.
Proof.
  intros F. destruct (picks_index s ks F) as (f & E & G). unfold v_index, v_whole. cbn [vshp vmap]. rewrite E. cbn [bind].
  eexists. split; [reflexivity|]. split; cbn; auto.
Qed.

Lemma far_end_toward b d : is_corner b -> boundary_at_start_of_dim b d = Some (negb (far_end b d)) \/ (boundary_at_start_of_dim b d = None /\ far_end b d = false).
Proof.
  intros C. rewrite at_start_toward. unfold toward, along, far_end. destruct C as [->|[->|[->| ->]]]; destruct (axis_of d); cbn; auto.
Qed.

Lemma offset_start k d o e : kind_ok k -> get_offset k d o e = (start_of k d o e, stop_of k d o e).
Proof.
  destruct k as [b|]; cbn; auto. intros C. destruct (far_end_toward b d C) as [->|(-> & ->)]; auto. destruct (far_end b d); reflexivity.
Qed.

Lemma shift_offset k d o e f : kind_ok k -> shift_boundary_slice d o e k (offset_entry f) = Ok (pick_entry (picked k d o e f)).
Proof.
  intros C. unfold shift_boundary_slice. rewrite offset_start by auto. destruct f as [i|a b|]; cbn; auto.
  - f_equal. f_equal. lia.
  - unfold ISL, bound_default_slice. now rewrite (Z.add_comm a), (Z.add_comm b).
Qed.

Lemma shift_tuple k dims : kind_ok k -> forall origin extent fs, length origin = length dims -> length extent = length dims -> (length fs <= length dims)%nat ->
  shift_boundary_slice_tuple dims origin extent k (map offset_entry fs ++ repeat IALL (length dims - length fs)) = Ok (map pick_entry (all_picked k dims origin extent fs)).
Proof.
  intros C. induction dims as [|d dims IH]; intros [|o origin] [|e extent] fs L1 L2 L3; try discriminate.
  - destruct fs; [reflexivity|cbn in L3; lia].
  - cbn in L1, L2, L3. destruct fs as [|f fs].
    + cbn [map app length Nat.sub repeat shift_boundary_slice_tuple all_picked tl]. change IALL with (offset_entry OAll) at 1. rewrite shift_offset by auto. cbn [bind].
      specialize (IH origin extent [] ltac:(lia) ltac:(lia) ltac:(cbn; lia)). cbn [map app length] in IH. rewrite Nat.sub_0_r in IH. rewrite IH. reflexivity.
    + cbn [map app length Nat.sub shift_boundary_slice_tuple all_picked tl]. rewrite shift_offset by auto. cbn [bind].
      cbn in L3. rewrite IH by lia. reflexivity.
Qed.

Lemma array_index m k fs : well_formed m -> kind_ok k -> (length fs <= length (m_dims m))%nat ->
  get_array_index m k (PTuple (map offset_entry fs)) = Ok (map pick_entry (all_picked k (m_dims m) (m_origin m) (m_extent m) fs)).
Proof.
  intros (L & A) C H. destruct (axes_ok_lengths _ _ _ A). unfold get_array_index. cbn [index_list]. rewrite map_length.
  destruct (Nat.ltb_spec (length (m_dims m)) (length fs)); [lia|]. rewrite shift_tuple by (auto; lia). reflexivity.
Qed.

Theorem corner_read m k fs : well_formed m -> kind_ok k -> (length fs <= length (m_dims m))%nat ->
  let ks := all_picked k (m_dims m) (m_origin m) (m_extent m) fs in
  Forall2 pick_ok (m_shape m) ks -> exists v, corner_index m k (PTuple (map offset_entry fs)) = Ok v /\ shows v ks.
Proof.
  intros W C H ks F. unfold corner_index. destruct (m_origin m) as [|o origin] eqn:O.
  - destruct W as (L & A). rewrite O in A. inversion A as [E1 E2 E3|]; subst. rewrite <- E3 in *. destruct (m_dims m); [|discriminate].
    destruct fs; [|cbn in H; lia]. cbn. eexists. split; [reflexivity|]. split; cbn; auto. intros p P. inversion P. reflexivity.
  - unfold ks in F |- *. rewrite <- O in *. rewrite array_index by auto. cbn [bind]. apply picks_view. exact F.
Qed.

(** ** writing *)
Lemma map_const_app {A} (l : list A) : l = (l ++ [])%list.
Proof. now rewrite app_nil_r. Qed.

Lemma bcast_same s : exists f, bcast s s = Some f /\ forall p, in_shape s p -> f p = p.
Proof.
  unfold bcast. rewrite Nat.sub_diag. cbn [firstn skipn forallb map app]. 
  assert (E : forallb (fun st => (fst st =? snd st) || (fst st =? 1)) (combine s s) = true).
  { induction s; cbn; auto. rewrite Z.eqb_refl, IHs. reflexivity. }
  rewrite E. cbn. eexists. split; [reflexivity|]. intros p P. induction P as [|n x s p H P IH]; auto. cbn [map2]. f_equal; [|apply IH].
  - unfold bcast1. destruct (Z.eqb_spec n 1); lia.
  - cbn in E. rewrite Z.eqb_refl in E. exact E.
Qed.

Lemma pick_place_inj ks : forall p q, in_shape (pick_shape ks) p -> in_shape (pick_shape ks) q -> pick_place ks p = pick_place ks q -> p = q.
Proof.
  induction ks as [|[i|a b] ks IH]; cbn [pick_shape pick_place]; intros p q P Q E.
  - inversion P; inversion Q; reflexivity.
  - injection E as E. eauto.
  - inversion P; inversion Q; subst. cbn [hd tl] in E. injection E as E1 E2. f_equal; [lia|eauto].
Qed.

Lemma set_through {V} (a : arr V) v ks src : shows v ks -> shp src = pick_shape ks -> exists a', a_assign a v src = Ok a' /\ shp a' = shp a /\
  (forall p, in_shape (pick_shape ks) p -> at_ a' (pick_place ks p) = at_ src p) /\
  (forall i, (forall p, in_shape (pick_shape ks) p -> i <> pick_place ks p) -> at_ a' i = at_ a i).
Proof.
  intros (S & M) E. unfold a_assign. rewrite S, E. destruct (bcast_same (pick_shape ks)) as (f & -> & Hf).
  rewrite S in M.
  assert (IV : inj_view v).
  { intros p q. rewrite S. intros P Q X. rewrite !M in X by auto. now apply (pick_place_inj ks). }
  eexists. split; [reflexivity|]. split; [apply shp_a_write|]. split.
  - intros p P. assert (W := write_view_in a v (fun p => at_ src (f p)) p IV). rewrite S, M in W by auto. rewrite W by auto. now rewrite Hf.
  - intros i NI. assert (W := write_view_frame a v (fun p => at_ src (f p)) i). rewrite S in W. apply W.
    intros p P X. rewrite M in X by auto. apply (NI p P). congruence.
Qed.

Theorem corner_write {V} (q : quantity V) k fs src : well_formed (q_meta q) -> kind_ok k -> (length fs <= length (q_dims q))%nat ->
  let ks := all_picked k (q_dims q) (q_origin q) (q_extent q) fs in
  Forall2 pick_ok (shp (q_data q)) ks -> shp src = pick_shape ks ->
  exists q', corner_set q k (PTuple (map offset_entry fs)) src = Ok q' /\ q_meta q' = q_meta q /\ q_units q' = q_units q /\
    (forall p, in_shape (pick_shape ks) p -> at_ (q_data q') (pick_place ks p) = at_ src p) /\
    (forall i, (forall p, in_shape (pick_shape ks) p -> i <> pick_place ks p) -> at_ (q_data q') i = at_ (q_data q) i).
Proof.
  intros W C H ks F E. unfold corner_set, setitem. rewrite array_index by auto. cbn [bind]. cbn [q_meta m_dims m_origin m_extent]. fold ks.
  destruct (picks_view _ _ F) as (v & -> & SH). cbn [bind]. destruct (set_through (q_data q) v ks src SH E) as (a' & -> & S & R & FR). cbn [bind].
  exists (q_with_data q a'). split; auto. split; [unfold q_meta; cbn; now rewrite S|]. auto.
Qed.

(** selection by name *)
Lemma sel_offsets dims (kw : dict offset) : sel_index dims (map (fun df => (fst df, offset_entry (snd df))) kw) =
  PTuple (map offset_entry (map (fun d => match dget d kw with Some f => f | None => OAll end) dims)).
Proof.
  unfold sel_index. f_equal. rewrite map_map. apply map_ext. intros d. induction kw as [|[d' f] kw IH]; [reflexivity|]. cbn [map fst snd dget].
  destruct (String.eqb d d'); auto.
Qed.

Theorem sel_read m k (kw : dict offset) : well_formed m -> kind_ok k ->
  let ks := all_picked k (m_dims m) (m_origin m) (m_extent m) (map (fun d => match dget d kw with Some f => f | None => OAll end) (m_dims m)) in
  Forall2 pick_ok (m_shape m) ks ->
  exists v, corner_sel m k (map (fun df => (fst df, offset_entry (snd df))) kw) = Ok v /\ shows v ks.
Proof. intros W C ks F. unfold corner_sel. rewrite sel_offsets. apply corner_read; auto. now rewrite map_length. Qed.

(** ** negative indices on the first axis *)

Lemma rest_index origin extent shape : axes_ok origin extent shape ->
  shift_entries (repeat IALL (length shape)) origin extent = map pick_entry (rest_picks origin extent) /\ Forall2 pick_ok shape (rest_picks origin extent).
Proof.
  induction 1 as [|o e s origin extent shape Ho He Hs A (E & F)]; [cbn; auto|]. cbn [length repeat shift_entries rest_picks map2 map].
  fold (rest_picks origin extent). rewrite E. split; [reflexivity|]. constructor; auto. cbn. lia.
Qed.

Lemma first_axis m o origin e extent s shape ent : well_formed m -> m_origin m = o :: origin -> m_extent m = e :: extent -> m_shape m = s :: shape ->
  view_index m (PTuple [ent]) = v_index (v_whole (s :: shape)) (shift_entry ent o e :: map pick_entry (rest_picks origin extent)) /\
  Forall2 pick_ok shape (rest_picks origin extent).
Proof.
  intros (L & A) EO EE ES. rewrite EO, EE, ES in A. rewrite ES in L. inversion A; subst. destruct (rest_index origin extent shape) as (R & F); auto.
  unfold view_index. rewrite EO. unfold get_compute_index. cbn [index_list length]. rewrite EO, EE, ES.
  destruct (Nat.ltb_spec (length (m_dims m)) 1); [cbn in L; lia|]. cbn [bind]. split; auto. unfold fill_index. cbn [length app shift_entries Nat.sub]. now rewrite Nat.sub_0_r, R.
Qed.

Lemma first_pick m o origin e extent s shape ent k : well_formed m -> m_origin m = o :: origin -> m_extent m = e :: extent -> m_shape m = s :: shape ->
  shift_entry ent o e = pick_entry k -> pick_ok s k -> exists v, view_index m (PTuple [ent]) = Ok v /\ shows v (k :: rest_picks origin extent).
Proof.
  intros W EO EE ES EN K. destruct (first_axis m o origin e extent s shape ent W EO EE ES) as (-> & F). rewrite EN.
  change (pick_entry k :: map pick_entry (rest_picks origin extent)) with (map pick_entry (k :: rest_picks origin extent)). apply picks_view. constructor; auto.
Qed.

Lemma first_empty m o origin e extent s shape ent a b st : well_formed m -> m_origin m = o :: origin -> m_extent m = e :: extent -> m_shape m = s :: shape ->
  shift_entry ent o e = ISlice a b st -> (exists a' t', slice_norm s a b st = Ok (a', 0, t')) -> exists v, view_index m (PTuple [ent]) = Ok v /\ vshp v = 0 :: extent.
Proof.
  intros W EO EE ES EN (a' & t' & K). destruct (first_axis m o origin e extent s shape ent W EO EE ES) as (-> & F). rewrite EN.
  unfold v_index, v_whole. cbn [vshp vmap index_apply]. rewrite K. cbn [bind].
  destruct (picks_index _ _ F) as (f & -> & _). cbn [bind]. eexists. split; [reflexivity|]. cbn [vshp]. f_equal.
  destruct W as (_ & A). rewrite EO, EE, ES in A. inversion A; subst. match goal with H : axes_ok origin extent shape |- _ => clear - H; induction H end; auto. cbn. f_equal; [lia|auto].
Qed.

Section Negative.
Variables (m : meta) (o e s : Z) (origin extent shape : list Z).
Hypothesis W : well_formed m.
Hypothesis EO : m_origin m = o :: origin.
Hypothesis EE : m_extent m = e :: extent.
Hypothesis ES : m_shape m = s :: shape.

Lemma first_bounds : 0 <= o /\ 0 <= e /\ o + e <= s.
Proof. destruct W as (_ & A). rewrite EO, EE, ES in A. now inversion A. Qed.

Theorem one_to_minus_one : 1 <= o -> exists v, view_index m (PTuple [ISL 1 (-1)]) = Ok v /\ vshp v = 0 :: extent.
Proof.
  intros Ho. destruct first_bounds as (_ & He & Hs). eapply first_empty; eauto; [reflexivity|]. unfold slice_norm, shift_index, clamp. cbn [Z.eqb].
  destruct (Z.ltb_spec (1 + o) 0); try lia. destruct (Z.ltb_spec (-1 + o) 0); try lia. destruct (Z.ltb_spec 1 0); try lia.
  destruct (Z.ltb_spec (1 + o) 0); try lia. destruct (Z.ltb_spec (-1 + o) 0); try lia.
  destruct (Z.leb_spec s (1 + o)), (Z.leb_spec s (-1 + o)); repeat match goal with |- context [if ?a <? ?b then _ else _] => destruct (Z.ltb_spec a b); try lia end; eauto.
Qed.

Theorem backwards : exists v, view_index m (PTuple [ISlice None None (Some (-1))]) = Ok v /\ vshp v = 0 :: extent.
Proof.
  destruct first_bounds as (Ho & He & Hs). eapply first_empty; eauto; [reflexivity|]. unfold slice_norm, shift_index, clamp. cbn [Z.eqb].
  change (-1 <? 0) with true. cbn [Z.opp].
  destruct (Z.ltb_spec o 0); try lia. destruct (Z.ltb_spec (o + e) 0); try lia. 
  destruct (Z.leb_spec s (o + e)), (Z.leb_spec s o); repeat match goal with |- context [if ?a <? ?b then _ else _] => destruct (Z.ltb_spec a b); try lia end; eauto.
Qed.

Theorem last_few k : 1 <= k <= o -> exists v, view_index m (PTuple [ISlice (Some (- k)) None None]) = Ok v /\ shows v (Span (o - k) (o + e) :: rest_picks origin extent).
Proof.
  intros Hk. destruct first_bounds as (Ho & He & Hs). eapply first_pick; eauto; [|cbn; lia]. cbn. destruct (Z.ltb_spec (- k + o) 0); [lia|]. replace (- k + o) with (o - k) by lia. reflexivity.
Qed.

Theorem last_few_deep k : o < k <= e -> exists v, view_index m (PTuple [ISlice (Some (- k)) None None]) = Ok v /\ shows v (Span (o + e - k) (o + e) :: rest_picks origin extent).
Proof.
  intros Hk. destruct first_bounds as (Ho & He & Hs). eapply first_pick; eauto; [|cbn; lia]. cbn. destruct (Z.ltb_spec (- k + o) 0); [|lia]. replace (e + (- k + o)) with (o + e - k) by lia. reflexivity.
Qed.

Theorem minus_int k : 1 <= k -> k - o <= s -> exists v, view_index m (PTuple [IInt (- k)]) = Ok v /\
  shows v (Point (if k <=? o then o - k else s + o - k) :: rest_picks origin extent).
Proof.
  intros Hk Hs. destruct first_bounds as (Ho & He & Hoe). destruct (Z.leb_spec k o).
  - eapply first_pick; eauto; [|cbn; lia]. cbn. f_equal. lia.
  - destruct (first_axis m o origin e extent s shape (IInt (- k)) W EO EE ES) as (-> & F). unfold v_index, v_whole. cbn [vshp vmap index_apply shift_entry].
    replace ((- s <=? - k + o) && (- k + o <? s)) with true by lia. destruct (picks_index _ _ F) as (f & -> & G). cbn [bind]. eexists. split; [reflexivity|].
    split; cbn [vshp vmap pick_shape pick_place]; auto. intros p P. rewrite G by auto. destruct (Z.ltb_spec (- k + o) 0); [|lia]. f_equal. lia.
Qed.
Theorem int_outside i : i + o < - s \/ s <= i + o -> view_index m (PTuple [IInt i]) = Err IndexError.
Proof.
  intros H. destruct (first_axis m o origin e extent s shape (IInt i) W EO EE ES) as (-> & F). unfold v_index, v_whole. cbn [vshp vmap index_apply shift_entry].
  replace ((- s <=? i + o) && (i + o <? s)) with false by lia. reflexivity.
Qed.
End Negative.

(** ** too many indices *)
Theorem too_many_view {V} (q : quantity V) l src : well_formed (q_meta q) -> (length (q_dims q) < length l)%nat ->
  view_get q (PTuple l) = Err (match q_dims q with [] => IndexError | _ => AttributeError end) /\ view_set q (PTuple l) src = Err AttributeError.
Proof.
  intros (L & A) H. destruct (axes_ok_lengths _ _ _ A) as (LO & _). cbn in L, LO. 
  assert (E : get_compute_index (q_meta q) (PTuple l) = Err AttributeError).
  { unfold get_compute_index. cbn [index_list q_meta m_dims]. destruct (Nat.ltb_spec (length (q_dims q)) (length l)); [reflexivity|lia]. }
  unfold view_get, view_set, view_index. rewrite E. cbn. split; auto.
  destruct (q_origin q), (q_dims q); cbn in *; try lia; auto. destruct l; [cbn in H; lia|reflexivity].
Qed.

Theorem too_many_corner {V} (q : quantity V) k l src : well_formed (q_meta q) -> (length (q_dims q) < length l)%nat ->
  corner_get q k (PTuple l) = Err IndexError /\ corner_set q k (PTuple l) src = Err IndexError.
Proof.
  intros (L & A) H. destruct (axes_ok_lengths _ _ _ A) as (LO & _). cbn in L, LO. 
  assert (E : get_array_index (q_meta q) k (PTuple l) = Err IndexError).
  { unfold get_array_index. cbn [index_list q_meta m_dims]. destruct (Nat.ltb_spec (length (q_dims q)) (length l)); [reflexivity|lia]. }
  unfold corner_get, corner_set, corner_index. rewrite E. cbn. split; auto.
  destruct (q_origin q), (q_dims q); cbn in *; try lia; auto. destruct l; [cbn in H; lia|reflexivity].
Qed.

(** ** a single integer index on a zero-dimensional quantity is ignored *)
Theorem zero_dim_int {V} (q : quantity V) i k : q_origin q = [] ->
  view_get q (PSingle (IInt i)) = Ok (v_read (q_data q) (v_whole (shp (q_data q)))) /\
  corner_get q k (PSingle (IInt i)) = Ok (v_read (q_data q) (v_whole (shp (q_data q)))).
Proof. intros E. unfold view_get, view_index, corner_get, corner_index. cbn. now rewrite E. Qed.
