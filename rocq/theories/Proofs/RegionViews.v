(** C29: the regions exchanged at boundaries *)
From Verif.Base Require Import Base Lemmas.
From Verif.Model Require Import Consts Partitioner Numpy Quantity Rotate.
From Verif.Spec Require Import Grid Cube Halo Views.
From Verif.Proofs Require Import NumpyProofs Regions HaloErrors ViewProofs CornerProofs.

Definition box_pick (x : Z * Z) : pick := Span (fst x) (snd x).

Lemma picks_boxes b interior h dims : forall origin extent, region_picks b interior h dims origin extent = map box_pick (boxes b interior h dims origin extent).
Proof.
  induction dims as [|d dims IH]; intros [|o origin] [|e extent]; try reflexivity. cbn [region_picks boxes map]. rewrite IH. f_equal.
  unfold region_pick, region, box_pick. change (side_along b d) with (toward b d). destruct (toward_cases b d) as [->|[->| ->]]; cbn; destruct interior; reflexivity.
Qed.

Lemma region_ordered b interior h d o e : 0 <= h -> 0 <= e -> fst (region b interior h d o e) <= snd (region b interior h d o e).
Proof. intros. unfold region. destruct (toward b d =? 0); [cbn; lia|]. destruct (toward b d <? 0), interior; cbn; lia. Qed.

Theorem region_view B m h interior : length (m_origin m) = length (m_dims m) -> length (m_extent m) = length (m_dims m) -> length (m_shape m) = length (m_dims m) ->
  Forall (Z.le 0) (m_extent m) -> 0 <= h ->
  let ks := region_picks (b_type B) interior h (m_dims m) (m_origin m) (m_extent m) in
  (Forall2 pick_ok (m_shape m) ks -> exists v, boundary_view B m h interior = Ok v /\ shows v ks) /\
  (~ Forall2 pick_ok (m_shape m) ks -> boundary_view B m h interior = Err OutOfBoundsError).
Proof.
  intros LO LE LS FE Hh. cbv zeta. rewrite picks_boxes. unfold boundary_view.
  set (bx := boxes (b_type B) interior h (m_dims m) (m_origin m) (m_extent m)).
  assert (OR : Forall (fun x => fst x <= snd x) bx).
  { unfold bx. clear LS. revert LO LE FE. generalize (m_origin m), (m_extent m). induction (m_dims m) as [|d dims IH]; intros [|o origin] [|e extent]; cbn [boxes]; intros LO LE FE; try constructor; try (cbn in *; lia).
    - inversion FE; subst. now apply region_ordered.
    - inversion FE; subst. apply IH; cbn in *; auto. }
  destruct (get_boundary_slice_cases (m_dims m) (m_origin m) (m_extent m) (m_shape m) (b_type B) h interior LO LE LS) as [[E IN]|E]; rewrite E; cbn [bind].
  - fold bx in IN, E |- *. assert (P : Forall2 pick_ok (m_shape m) (map box_pick bx)).
    { clear - OR IN. induction IN; cbn [map]; constructor; inversion OR; subst; auto. cbn. lia. }
    split; [intros _|contradiction]. destruct (picks_view _ _ P) as (v & EV & S). exists v. split; auto.
    rewrite <- EV. f_equal. rewrite map_map. reflexivity.
  - split; auto. intros P. exfalso. clear OR. unfold bx in P.
    assert (G : get_boundary_slice (m_dims m) (m_origin m) (m_extent m) (m_shape m) (b_type B) h interior = Ok bx).
    { apply get_boundary_slice_ok; auto. intros i Hi. fold bx. fold bx in P.
      assert (LB : length bx = length (m_dims m)) by (apply length_boxes; auto).
      rewrite (Forall2_nth _ _ _ 0 (Span 0 0)) in P. rewrite map_length in P. destruct P as [_ P]. specialize (P i ltac:(lia)).
      change (Span 0 0) with (box_pick (0, 0)) in P. rewrite map_nth in P. cbn in P. lia. }
    congruence.
Qed.

Lemma boxes_cover bx v : vshp v = box_shape bx -> (forall p, length p = length bx -> vmap v p = box_map bx p) -> covers v (in_box bx).
Proof.
  intros S M. unfold covers. rewrite S.
  assert (LS : length (box_shape bx) = length bx) by (unfold box_shape; apply map_length).
  split; [|split].
  - intros p P. pose proof (in_shape_length _ _ P). rewrite M by lia. now apply box_map_in_box.
  - intros i Hi. destruct (box_map_onto bx i Hi) as (p & P & E). exists p. split; auto. rewrite M; auto. pose proof (in_shape_length _ _ P). lia.
  - intros p p' P P' E. pose proof (in_shape_length _ _ P). pose proof (in_shape_length _ _ P'). rewrite !M in E by lia. eapply box_map_inj; [| |eassumption]; lia.
Qed.
Section Fit.
Variables (N h : Z) (len ix iy : nat).
Hypothesis HN : 1 <= N.
Hypothesis Hh : 0 <= h <= N.
Variables (sy sx : Z) (ext : nat -> Z) (m : meta).
Hypothesis F : fits N h len ix iy sy sx ext m.

Theorem region_sets B B' : exists sv rv, send_view B m h = Ok sv /\ recv_view B m h = Ok rv /\ vshp sv = vshp rv /\
  (forall p, in_shape (vshp sv) p -> in_domain m (vmap sv p)) /\ covers rv (in_side m ix iy h (b_type B)) /\
  (forall i, in_side m ix iy h (b_type B) i -> ~ in_domain m i) /\
  (b_type B <> b_type B' -> forall i, ~ (in_side m ix iy h (b_type B) i /\ in_side m ix iy h (b_type B') i)).
Proof using HN Hh F.
  destruct (boundary_view_ok _ _ _ _ _ HN Hh _ _ _ _ F (b_type B) B true eq_refl) as (sv & ES & SS & MS).
  destruct (boundary_view_ok _ _ _ _ _ HN Hh _ _ _ _ F (b_type B) B false eq_refl) as (rv & ER & SR & MR).
  pose proof (length_mboxes _ _ _ _ _ HN Hh _ _ _ _ F (b_type B)) as LB.
  exists sv, rv. split; [auto|]. split; [auto|]. split; [|split; [|split; [|split]]].
  - rewrite SS, SR. apply nth_ext with (d := 0) (d' := 0); [unfold box_shape; rewrite !map_length, !LB; reflexivity|].
    unfold box_shape at 1. rewrite map_length, LB. intros i Hi. fold (xat (box_shape (mboxes (b_type B) true h m)) i). fold (xat (box_shape (mboxes (b_type B) false h m)) i).
    rewrite !nth_box_shape by (rewrite LB; auto).
    destruct (Nat.eq_dec i ix) as [->|NX]; [rewrite !(box_x _ _ _ _ _ HN Hh _ _ _ _ F)|]. { unfold hregion. destruct (snd (heading (b_type B)) =? 0); [reflexivity|]. destruct (snd (heading (b_type B)) <? 0); cbn; lia. }
    destruct (Nat.eq_dec i iy) as [->|NY]; [rewrite !(box_y _ _ _ _ _ HN Hh _ _ _ _ F)|]. { unfold hregion. destruct (fst (heading (b_type B)) =? 0); [reflexivity|]. destruct (fst (heading (b_type B)) <? 0); cbn; lia. }
    rewrite !(box_other _ _ _ _ _ HN Hh _ _ _ _ F) by auto. reflexivity.
  - intros p P. apply (in_send_box _ _ _ _ _ HN Hh _ _ _ _ F (b_type B)). apply (boxes_cover (mboxes (b_type B) true h m) sv); auto. intros q Q. apply MS. now rewrite LB in Q.
  - destruct (boxes_cover (mboxes (b_type B) false h m) rv) as (C1 & C2 & C3); auto. { intros q Q. apply MR. now rewrite LB in Q. }
    split; [|split]; auto.
    + intros p P. apply (in_recv_box _ _ _ _ _ HN Hh _ _ _ _ F). auto.
    + intros i P. apply (in_recv_box _ _ _ _ _ HN Hh _ _ _ _ F) in P. auto.
  - intros i. apply (side_not_domain _ _ _ _ _ HN Hh _ _ _ _ F).
  - intros NE i [P Q]. apply NE. eapply (in_side_unique _ _ _ _ _ HN Hh _ _ _ _ F); eauto.
Qed.
End Fit.
