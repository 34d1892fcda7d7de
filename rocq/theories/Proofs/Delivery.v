(** Memory after all messages of an exchange have been stored. *)
From Verif.Base Require Import Base Lemmas.
From Verif.Model Require Import Consts Numpy Quantity Partitioner Rotate Network Communicator.
From Verif.Spec Require Import Grid Lockstep.
From Verif.Proofs Require Import NumpyProofs NetworkProofs Phases.
From Coq Require Import ZifyBool.

Section Delivery.
Context {V : Type}.

(** a message: source, tag, array and view written, array and view read, negated *)
Record write := mkW { w_src : Z; w_tag : Z; w_id : nat; w_view : view; w_from : nat; w_sview : view; w_neg : bool }.
Definition w_recv (w : write) : Z * Z * (list V -> mem V -> option (mem V)) :=
  (w_src w, w_tag w, store_payload V (w_id w) (w_view w)).

Definition write_list (val : write -> idx -> V) (w : write) : list (idx * V) :=
  map (fun p => (vmap (w_view w) p, val w p)) (all_idx (vshp (w_view w))).

Lemma combine_map {A B C} (f : A -> B) (g : A -> C) l : combine (map f l) (map g l) = map (fun a => (f a, g a)) l.
Proof. induction l; simpl; congruence. Qed.

Lemma upd_nth_error {A} (l : list A) i a : nth_error l i = Some a -> upd l i a = l.
Proof. revert i; induction l; destruct i; simpl; intros E; try discriminate; [congruence|]. now rewrite IHl. Qed.

(** contents of the arrays after storing *)
Lemma store_all_writes (ws : list write) (body : Z -> Z -> list V) val : forall m : mem V,
  (forall w, In w ws -> exists a, nth_error m (w_id w) = Some a) ->
  (forall w, In w ws -> body (w_src w) (w_tag w) = map (val w) (all_idx (vshp (w_view w)))) ->
  exists m', store_all (map w_recv ws) body m = Some m' /\ length m' = length m /\
    forall i a, nth_error m i = Some a ->
      nth_error m' i = Some (a_write (flat_map (write_list val) (filter (fun w => Nat.eqb (w_id w) i) ws)) a).
Proof.
  induction ws as [|w ws IH]; intros m HE HB.
  - exists m. split; [reflexivity|]. split; auto.
  - destruct (HE w (or_introl eq_refl)) as (a & E).
    set (m1 := upd m (w_id w) (a_write (write_list val w) a)).
    assert (S1 : store_payload V (w_id w) (w_view w) (body (w_src w) (w_tag w)) m = Some m1).
    { unfold store_payload. rewrite E, (HB w (or_introl eq_refl)). rewrite !map_length, Nat.eqb_refl.
      rewrite combine_map. reflexivity. }
    assert (L1 : length m1 = length m) by apply length_upd.
    destruct (IH m1) as (m' & S & L & A).
    + intros w' I. destruct (HE w' (or_intror I)) as (a' & E'). unfold m1.
      destruct (Nat.eq_dec (w_id w') (w_id w)) as [Q|Q].
      * rewrite Q. rewrite (nth_error_upd_eq _ _ _ _ E). eauto.
      * rewrite nth_error_upd_neq by auto. eauto.
    + intros w' I. apply HB. now right.
    + exists m'. split.
      { cbn [map store_all w_recv fst snd]. rewrite S1. exact S. }
      split; [lia|].
      intros i a0 E0. cbn [filter]. destruct (Nat.eqb_spec (w_id w) i) as [Q|Q].
      * subst i. assert (a0 = a) by congruence. subst a0. cbn [flat_map]. rewrite a_write_app.
        apply A. unfold m1. exact (nth_error_upd_eq _ _ _ _ E).
      * apply A. unfold m1. rewrite nth_error_upd_neq by auto. auto.
Qed.

(** distinct writes go to distinct places *)
Definition disjoint_writes (ws : list write) : Prop :=
  NoDup ws /\ (forall w, In w ws -> inj_view (w_view w)) /\
  (forall w w' p p', In w ws -> In w' ws -> w_id w = w_id w' ->
     in_shape (vshp (w_view w)) p -> in_shape (vshp (w_view w')) p' ->
     vmap (w_view w) p = vmap (w_view w') p' -> w = w').

Lemma writes_NoDup val ws : disjoint_writes ws -> forall i,
  NoDup (map fst (flat_map (write_list val) (filter (fun w => Nat.eqb (w_id w) i) ws))).
Proof.
  intros (ND & II & DJ) i.
  assert (ND' : NoDup (filter (fun w => Nat.eqb (w_id w) i) ws)) by (now apply NoDup_filter).
  assert (HI : forall w, In w (filter (fun w => Nat.eqb (w_id w) i) ws) -> In w ws /\ w_id w = i).
  { intros w I. apply filter_In in I. destruct I. split; auto. now apply Nat.eqb_eq. }
  revert ND' HI. generalize (filter (fun w => Nat.eqb (w_id w) i) ws) as l. intros l ND' HI.
  rewrite flat_map_concat_map, concat_map, map_map, <- flat_map_concat_map.
  apply NoDup_flat_map; auto.
  - intros w I. unfold write_list. rewrite map_map. cbn [fst]. apply NoDup_map_inj; [apply all_idx_NoDup|].
    intros p q Ip Iq. apply in_all_idx in Ip, Iq. apply II; auto. now apply HI.
  - intros w w' j I I' J J'. unfold write_list in J, J'. rewrite map_map in J, J'. cbn [fst] in J, J'.
    apply in_map_iff in J, J'. destruct J as (p & Ep & Ip), J' as (p' & Ep' & Ip').
    apply in_all_idx in Ip, Ip'. destruct (HI w I) as [? ?], (HI w' I') as [? ?].
    apply (DJ w w' p p'); auto; congruence.
Qed.

Lemma deliver_writes (e : @exchange (mem V) V) (snap : nat -> mem V) r (ws : list write) val (m : mem V) :
  x_recvs e r = map w_recv ws -> disjoint_writes ws ->
  (forall w, In w ws -> exists a, nth_error m (w_id w) = Some a) ->
  (forall w, In w ws -> payload_for (x_sends e (Z.to_nat (w_src w))) (Z.of_nat r) (w_tag w) (snap (Z.to_nat (w_src w)))
     = map (val w) (all_idx (vshp (w_view w)))) ->
  exists m', deliver e snap r m = Some m' /\ length m' = length m /\
    forall i a, nth_error m i = Some a -> exists a', nth_error m' i = Some a' /\ shp a' = shp a /\
      (forall w p, In w ws -> w_id w = i -> in_shape (vshp (w_view w)) p -> at_ a' (vmap (w_view w) p) = val w p) /\
      (forall j, (forall w p, In w ws -> w_id w = i -> in_shape (vshp (w_view w)) p -> vmap (w_view w) p <> j) -> at_ a' j = at_ a j).
Proof.
  intros HR DJ HE HP. rewrite deliver_store_all, HR.
  destruct (store_all_writes ws (fun src t => payload_for (x_sends e (Z.to_nat src)) (Z.of_nat r) t (snap (Z.to_nat src))) val m HE HP)
    as (m' & S & L & A).
  exists m'. split; [exact S|]. split; [auto|]. intros i a E.
  exists (a_write (flat_map (write_list val) (filter (fun w => Nat.eqb (w_id w) i) ws)) a).
  split; [auto|]. split; [apply shp_a_write|]. split.
  - intros w p I Q P. apply a_write_in; [now apply writes_NoDup|].
    apply in_flat_map. exists w. split.
    + apply filter_In. split; auto. now apply Nat.eqb_eq.
    + unfold write_list. apply in_map_iff. exists p. split; auto. now apply in_all_idx.
  - intros j NJ. apply a_write_frame. intros I. apply in_map_iff in I. destruct I as ([j' v] & <- & I).
    apply in_flat_map in I. destruct I as (w & Iw & I). apply filter_In in Iw. destruct Iw as [Iw Q]. apply Nat.eqb_eq in Q.
    unfold write_list in I. apply in_map_iff in I. destruct I as (p & [= <- <-] & Ip). apply in_all_idx in Ip.
    now apply (NJ w p).
Qed.

(** value delivered by message [w] at [p], given the memories at the time of sending *)
Definition sent_value (neg : V -> V) (d : V) (snap : nat -> mem V) (w : write) (p : idx) : V :=
  let x := match nth_error (snap (Z.to_nat (w_src w))) (w_from w) with
           | Some a => at_ a (vmap (w_sview w) p) | None => d end in
  if w_neg w then neg x else x.

Lemma deliver_msgs neg d (e : @exchange (mem V) V) (snap : nat -> mem V) r (ws : list write) (m : mem V) :
  x_recvs e r = map w_recv ws -> disjoint_writes ws ->
  (forall w, In w ws -> (w_id w < length m)%nat /\ (w_from w < length (snap (Z.to_nat (w_src w))))%nat /\
     vshp (w_sview w) = vshp (w_view w) /\
     filter (has_key (Z.of_nat r) (w_tag w)) (x_sends e (Z.to_nat (w_src w))) =
       [(Z.of_nat r, w_tag w, read_payload V neg (w_from w) (w_sview w) (w_neg w))]) ->
  exists m', deliver e snap r m = Some m' /\ length m' = length m /\
    forall i a, nth_error m i = Some a -> exists a', nth_error m' i = Some a' /\ shp a' = shp a /\
      (forall w p, In w ws -> w_id w = i -> in_shape (vshp (w_view w)) p ->
         at_ a' (vmap (w_view w) p) = sent_value neg d snap w p) /\
      (forall j, (forall w p, In w ws -> w_id w = i -> in_shape (vshp (w_view w)) p -> vmap (w_view w) p <> j) -> at_ a' j = at_ a j).
Proof.
  intros HR DJ H. apply deliver_writes; auto.
  - intros w I. destruct (H w I) as (L & _). destruct (nth_error m (w_id w)) eqn:E; eauto. apply nth_error_None in E. lia.
  - intros w I. destruct (H w I) as (_ & L & S & P). unfold payload_for. rewrite P. unfold read_payload, sent_value.
    destruct (nth_error (snap (Z.to_nat (w_src w))) (w_from w)) eqn:E; [|apply nth_error_None in E; lia].
    rewrite <- S. apply map_ext. intros p. now destruct (w_neg w).
Qed.
End Delivery.
