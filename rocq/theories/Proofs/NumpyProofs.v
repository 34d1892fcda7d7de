(** Lemmas on the numpy model: enumeration of indices, writes, basic indexing. *)
From Verif.Base Require Import Base Lemmas.
From Verif.Model Require Import Numpy.
From Verif.Spec Require Import Grid.
From Coq Require Import ZifyBool.

Lemma idx_eqb_spec p q : reflect (p = q) (idx_eqb p q).
Proof.
  revert q; induction p as [|a p IH]; destruct q as [|b q]; simpl; try (constructor; congruence).
  destruct (Z.eqb_spec a b); simpl.
  - destruct (IH q); constructor; congruence.
  - constructor. congruence.
Qed.

Lemma idx_eqb_refl p : idx_eqb p p = true.
Proof. now destruct (idx_eqb_spec p p). Qed.

Lemma in_all_idx s p : In p (all_idx s) <-> in_shape s p.
Proof.
  unfold in_shape. revert p; induction s as [|n s IH]; intros p; simpl.
  - split.
    + intros [<-|[]]. constructor.
    + inversion 1. now left.
  - rewrite in_flat_map. split.
    + intros (i & Hi & H). apply in_map_iff in H. destruct H as (q & <- & H).
      apply in_zrange in Hi. constructor; auto. now apply IH.
    + inversion 1; subst. exists y. split; [now apply in_zrange|].
      apply in_map_iff. exists l'. split; auto. now apply IH.
Qed.

Lemma NoDup_app {A} (l l' : list A) : NoDup l -> NoDup l' -> (forall a, In a l -> ~ In a l') -> NoDup (l ++ l').
Proof.
  induction 1; simpl; intros N D; auto. constructor.
  - rewrite in_app_iff. intros [I|I]; auto. apply (D x); auto.
  - apply IHNoDup; auto.
Qed.

Lemma NoDup_flat_map {A B} (f : A -> list B) l : NoDup l -> (forall a, In a l -> NoDup (f a)) ->
  (forall a a' b, In a l -> In a' l -> In b (f a) -> In b (f a') -> a = a') -> NoDup (flat_map f l).
Proof.
  induction 1; simpl; intros N D; [constructor|].
  apply NoDup_app.
  - apply N. now left.
  - apply IHNoDup; [intros; apply N; now right|]. intros. eapply D; eauto.
  - intros b Hb I. apply in_flat_map in I. destruct I as (a' & Ia & Ib).
    assert (x = a') by (eapply D; eauto). now subst.
Qed.

Lemma all_idx_NoDup s : NoDup (all_idx s).
Proof.
  induction s as [|n s IH]; simpl.
  - constructor; [simpl; tauto|constructor].
  - apply NoDup_flat_map.
    + apply zrange_NoDup.
    + intros a _. apply FinFun.Injective_map_NoDup; auto. intros p q E. congruence.
    + intros a a' b _ _ I I'. apply in_map_iff in I. apply in_map_iff in I'.
      destruct I as (p & <- & _). destruct I' as (q & E & _). congruence.
Qed.

Lemma in_shape_length s p : in_shape s p -> length p = length s.
Proof. intros H. symmetry. eapply Forall2_length, H. Qed.

(** writes *)
Lemma shp_a_write {V} l (a : arr V) : shp (a_write l a) = shp a.
Proof. unfold a_write. revert a; induction l; simpl; intros; auto. now rewrite IHl. Qed.

Lemma a_write_frame {V} l (a : arr V) i : ~ In i (map fst l) -> at_ (a_write l a) i = at_ a i.
Proof.
  unfold a_write. revert a; induction l as [|[j v] l IH]; simpl; intros a H; auto.
  rewrite IH by tauto. simpl. destruct (idx_eqb_spec i j); auto. subst. tauto.
Qed.

#[global] Arguments a_write : simpl never.
Lemma a_write_cons {V} j (v : V) l a : a_write ((j, v) :: l) a = a_write l (a_set a j v).
Proof. reflexivity. Qed.

Lemma a_write_app {V} l l' (a : arr V) : a_write (l ++ l') a = a_write l' (a_write l a).
Proof. unfold a_write. apply fold_left_app. Qed.

Lemma a_write_in {V} l (a : arr V) i v : NoDup (map fst l) -> In (i, v) l -> at_ (a_write l a) i = v.
Proof.
  revert a; induction l as [|[j w] l IH]; simpl; intros a N I; [tauto|].
  inversion N; subst. rewrite a_write_cons. destruct I as [E|I].
  - injection E as -> ->. rewrite a_write_frame by auto. simpl. now rewrite idx_eqb_refl.
  - now apply IH.
Qed.

(** a write of arbitrary length is a value of the list or the old value *)
Lemma a_write_cases {V} l (a : arr V) i :
  (~ In i (map fst l) /\ at_ (a_write l a) i = at_ a i) \/ (exists v, In (i, v) l /\ at_ (a_write l a) i = v).
Proof.
  revert a; induction l as [|[j w] l IH]; intros a; simpl.
  - left. auto.
  - rewrite a_write_cons. destruct (IH (a_set a j w)) as [[N E]|(v & I & E)].
    + destruct (idx_eqb_spec i j).
      * subst. right. exists w. split; auto. rewrite E. simpl. now rewrite idx_eqb_refl.
      * left. rewrite E. simpl. destruct (idx_eqb_spec i j); [contradiction|]. split; auto. intros [?|?]; [congruence|auto].
    + right. exists v. auto.
Qed.

Lemma nth_map2 {A B C} (f : A -> B -> C) l l' i da db dc : (i < length l)%nat -> (i < length l')%nat ->
  nth i (map2 f l l') dc = f (nth i l da) (nth i l' db).
Proof.
  revert l' i; induction l; destruct l'; simpl; intros i H H'; try lia. destruct i; auto. apply IHl; lia.
Qed.

Lemma length_map2 {A B C} (f : A -> B -> C) l l' : length (map2 f l l') = Nat.min (length l) (length l').
Proof. revert l'; induction l; destruct l'; simpl; auto. Qed.

(** Writing through a view with injective map *)
Definition inj_view (v : view) : Prop :=
  forall p q, in_shape (vshp v) p -> in_shape (vshp v) q -> vmap v p = vmap v q -> p = q.

Lemma NoDup_map_inj {A B} (f : A -> B) l : NoDup l ->
  (forall a a', In a l -> In a' l -> f a = f a' -> a = a') -> NoDup (map f l).
Proof.
  induction 1; simpl; intros H'; constructor.
  - rewrite in_map_iff. intros (y & E & I). assert (y = x) by (apply H'; auto). now subst.
  - apply IHNoDup. intros. apply H'; auto.
Qed.

Lemma write_view_in {V} (a : arr V) (v : view) (f : idx -> V) p : inj_view v -> in_shape (vshp v) p ->
  at_ (a_write (map (fun p => (vmap v p, f p)) (all_idx (vshp v))) a) (vmap v p) = f p.
Proof.
  intros I H. apply a_write_in.
  - rewrite map_map. simpl. apply NoDup_map_inj; [apply all_idx_NoDup|].
    intros p1 p2 H1 H2. apply in_all_idx in H1, H2. apply I; auto.
  - apply in_map_iff. exists p. split; auto. now apply in_all_idx.
Qed.

Lemma write_view_frame {V} (a : arr V) (v : view) (f : idx -> V) i :
  (forall p, in_shape (vshp v) p -> vmap v p <> i) ->
  at_ (a_write (map (fun p => (vmap v p, f p)) (all_idx (vshp v))) a) i = at_ a i.
Proof.
  intros H. apply a_write_frame. rewrite map_map. simpl. rewrite in_map_iff.
  intros (p & E & I). apply in_all_idx in I. now apply (H p).
Qed.

(** slices inside the axis *)
Lemma slice_norm_inside n a b : 0 <= a <= b -> b <= n -> slice_norm n (Some a) (Some b) None = Ok (a, b - a, 1).
Proof.
  intros H1 H2. unfold slice_norm. cbn [Z.eqb]. change (1 <? 0) with false. change (1 =? 0) with false. cbv iota.
  unfold clamp.
  destruct (Z.ltb_spec a 0); [lia|]. destruct (Z.ltb_spec b 0); [lia|].
  change (1 <? 0) with false. cbv iota.
  rewrite Z.div_1_r.
  destruct (Z.leb_spec n a); destruct (Z.leb_spec n b).
  - destruct (Z.ltb_spec n n); [lia|]. replace (b - a) with 0 by lia. replace n with a by lia. reflexivity.
  - lia.
  - destruct (Z.ltb_spec a n); [|lia]. do 3 f_equal. lia.
  - destruct (Z.ltb_spec a b).
    + do 3 f_equal. lia.
    + replace (b - a) with 0 by lia. reflexivity.
Qed.

Definition in_axis (n : Z) (se : Z * Z) : Prop := 0 <= fst se <= snd se /\ snd se <= n.

Lemma index_box s bx : Forall2 in_axis s bx ->
  exists f, index_apply (map (fun se => ISL (fst se) (snd se)) bx) s = Ok (map (fun se => snd se - fst se) bx, f) /\
   forall p, length p = length bx -> f p = map2 (fun se i => fst se + i) bx p.
Proof.
  induction 1 as [|n [a b] s bx [H1 H2] HF IH].
  - exists (fun p => p). split; auto. now destruct p.
  - cbn [fst snd] in H1, H2. destruct IH as (f & E & F). unfold ISL in *. cbn [map index_apply fst snd].
    rewrite slice_norm_inside by lia. cbn [bind]. rewrite E. cbn [bind].
    eexists. split; [reflexivity|]. intros [|i p]; simpl; [discriminate|].
    intros L. rewrite F by lia. f_equal. lia.
Qed.

(** the view given by a box of slices *)
Definition box_map (bx : list (Z * Z)) (p : idx) : idx := map2 (fun se i => fst se + i) bx p.
Definition box_shape (bx : list (Z * Z)) : list Z := map (fun se => snd se - fst se) bx.

Lemma v_index_box s bx : Forall2 in_axis s bx ->
  exists v, v_index (v_whole s) (map (fun se => ISL (fst se) (snd se)) bx) = Ok v /\
    vshp v = box_shape bx /\ forall p, length p = length bx -> vmap v p = box_map bx p.
Proof.
  intros H. destruct (index_box s bx H) as (f & E & F). unfold v_index. cbn [v_whole vshp]. rewrite E. cbn [bind].
  eexists. split; [reflexivity|]. simpl. auto.
Qed.

Lemma box_map_nth bx p i : length p = length bx -> (i < length bx)%nat ->
  nth i (box_map bx p) 0 = fst (nth i bx (0, 0)) + nth i p 0.
Proof. intros L H. unfold box_map. rewrite (nth_map2 _ _ _ _ (0, 0) 0) by lia. reflexivity. Qed.

Lemma box_map_length bx p : length p = length bx -> length (box_map bx p) = length bx.
Proof. intros L. unfold box_map. rewrite length_map2. lia. Qed.

Lemma box_map_inj bx p q : length p = length bx -> length q = length bx -> box_map bx p = box_map bx q -> p = q.
Proof.
  intros Lp Lq E. apply nth_eq with 0; [lia|]. intros i Hi.
  pose proof (f_equal (fun l => nth i l 0) E) as E'. cbv beta in E'. rewrite !box_map_nth in E' by lia. lia.
Qed.

Lemma box_map_in_box bx p : in_shape (box_shape bx) p <-> length p = length bx /\ in_box bx (box_map bx p).
Proof.
  unfold in_shape, in_box, box_shape, box_map. revert p; induction bx as [|[a b] bx IH]; destruct p as [|i p]; simpl.
  - split; [split; auto; constructor|constructor].
  - split; [inversion 1|intros [? _]; discriminate].
  - split; [inversion 1|intros [? _]; discriminate].
  - split.
    + inversion 1; subst. apply IH in H5. destruct H5. split; [lia|]. constructor; auto. simpl. lia.
    + intros [L H]. inversion H; subst. simpl in *. constructor; [lia|]. apply IH. split; [lia|auto].
Qed.

(** every point of the box is the image of a point *)
Lemma box_map_onto bx j : in_box bx j -> exists p, in_shape (box_shape bx) p /\ box_map bx p = j.
Proof.
  unfold in_shape, in_box, box_shape, box_map. induction 1 as [|[a b] x bx j H HF (p & Hp & E)]; simpl in *.
  - exists []. split; auto; constructor.
  - exists ((x - a) :: p). split; [constructor; auto; lia|]. simpl. rewrite E. f_equal. lia.
Qed.
