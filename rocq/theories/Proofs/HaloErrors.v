(** Halo updates that cannot be done (C17, C53, C54). *)
From Verif.Base Require Import Base Lemmas.
From Verif.Model Require Import Consts Numpy Quantity Partitioner Rotate Network Communicator.
From Verif.Spec Require Import Grid Cube Halo Lockstep Client Errors.
From Verif.Proofs Require Import Slices NumpyProofs Boundaries Regions Transfer Phases HaloOps HaloResult.
From Coq Require Import ZifyBool.
Ltac Zify.zify_post_hook ::= idtac.

Lemma get_boundary_slice_cases dims origin extent shape b h interior :
  length origin = length dims -> length extent = length dims -> length shape = length dims ->
  (get_boundary_slice dims origin extent shape b h interior = Ok (boxes b interior h dims origin extent) /\
   Forall2 (fun s bx => 0 <= fst bx /\ snd bx <= s) shape (boxes b interior h dims origin extent)) \/
  get_boundary_slice dims origin extent shape b h interior = Err OutOfBoundsError.
Proof.
  revert origin extent shape; induction dims as [|d dims IH]; destruct origin, extent, shape; simpl; intros L1 L2 L3; try lia; auto.
  rewrite boundary_slice_1d_eq.
  destruct (Z.ltb_spec (fst (region b interior h d z z0)) 0); auto.
  destruct (Z.ltb_spec z1 (snd (region b interior h d z z0))); auto. cbn [bind].
  destruct (IH origin extent shape) as [(E & A)|E]; auto; rewrite E; cbn [bind]; auto.
Qed.

Section Errors.
Variable V : Type.
Variable neg : V -> V.
Variable n : Z.
Hypothesis Hn : 1 <= n.

Section One.
Variables (N h : Z) (len ix iy : nat) (sy sx : Z) (ext : nat -> Z) (m : meta).
Hypothesis HN : 1 <= N.
Hypothesis Hh : 1 <= h.
Hypothesis F : fits N 0 len ix iy sy sx ext m.

Lemma view_cases B interior :
  (exists v, boundary_view B m h interior = Ok v /\ length (vshp v) = len /\
     forall i, (i < len)%nat -> 0 <= fst (nth i (mboxes (b_type B) interior h m) (0, 0)) /\ snd (nth i (mboxes (b_type B) interior h m) (0, 0)) <= xat (m_shape m) i) \/
  boundary_view B m h interior = Err OutOfBoundsError.
Proof using HN Hh F.
  pose proof (fit_dims F) as Ld. pose proof (fit_origin F) as Lo. pose proof (fit_extent F) as Le. pose proof (fit_shape F) as Ls.
  unfold boundary_view.
  destruct (get_boundary_slice_cases (m_dims m) (m_origin m) (m_extent m) (m_shape m) (b_type B) h interior) as [(E & A)|E]; try congruence.
  - rewrite E. cbn [bind]. fold (mboxes (b_type B) interior h m) in *. left.
    assert (LB : length (mboxes (b_type B) interior h m) = len) by (unfold mboxes; rewrite length_boxes; congruence).
    rewrite (Forall2_nth _ _ _ 0 (0, 0)) in A. destruct A as (LA & A).
    assert (A' : Forall2 in_axis (m_shape m) (mboxes (b_type B) interior h m)).
    { rewrite (Forall2_nth _ _ _ 0 (0, 0)). split; auto. intros i Hi. specialize (A i Hi). unfold in_axis.
      assert (fst (nth i (mboxes (b_type B) interior h m) (0, 0)) <= snd (nth i (mboxes (b_type B) interior h m) (0, 0))); [|lia].
      unfold mboxes. rewrite nth_boxes by lia. pose proof (fit_dom F i ltac:(lia)) as D. unfold xat in D. unfold region.
      destruct (toward_cases (b_type B) (nth i (m_dims m) EmptyString)) as [-> | [-> | ->]]; cbn [Z.eqb Z.ltb Z.compare]; destruct interior; cbn [fst snd]; lia. }
    destruct (v_index_box _ _ A') as (v & E' & S & M). exists v. split; auto. split.
    + rewrite S. unfold box_shape. now rewrite map_length.
    + intros i Hi. apply A. lia.
  - right. rewrite E. reflexivity.
Qed.

Lemma send_cases B : b_rot B = 0 \/ b_rot B = 1 \/ b_rot B = 3 ->
  (exists v v', send_view B m h = Ok v /\ rotate_scalar_data v (m_dims m) (- b_rot B) = Ok v') \/ send_view B m h = Err OutOfBoundsError.
Proof using HN Hh F.
  intros K. unfold send_view. destruct (view_cases B true) as [(v & E & L & _)|E]; auto. left. exists v.
  destruct (rotate_view _ _ _ _ _ _ _ _ _ v (b_rot B) F L K) as (v' & E' & _). exists v'. auto.
Qed.

(** with enough room all views exist *)
Lemma room_views B : room h ix iy m -> b_rot B = 0 \/ b_rot B = 1 \/ b_rot B = 3 ->
  (exists v v', send_view B m h = Ok v /\ rotate_scalar_data v (m_dims m) (- b_rot B) = Ok v') /\ (exists v, recv_view B m h = Ok v).
Proof using HN Hh F.
  intros R K.
  assert (G : forall interior, boundary_view B m h interior <> Err OutOfBoundsError).
  { intros interior E. unfold boundary_view in E. 
    pose proof (fit_dims F) as Ld. pose proof (fit_origin F) as Lo. pose proof (fit_extent F) as Le. pose proof (fit_shape F) as Ls.
    destruct (get_boundary_slice_cases (m_dims m) (m_origin m) (m_extent m) (m_shape m) (b_type B) h interior) as [(E' & A)|E']; try congruence.
    - destruct (view_cases B interior) as [(v & E2 & _)|E2]; unfold boundary_view in E2; rewrite E' in *; cbn [bind] in *; try congruence.
      destruct (v_index_box (m_shape m) (boxes (b_type B) interior h (m_dims m) (m_origin m) (m_extent m))) as (v & Q & _); [|congruence].
      rewrite (Forall2_nth _ _ _ 0 (0, 0)) in A. rewrite (Forall2_nth _ _ _ 0 (0, 0)). destruct A as (LA & A). split; auto. intros i Hi. specialize (A i Hi). unfold in_axis.
      rewrite nth_boxes in A by lia. rewrite nth_boxes by lia. pose proof (fit_dom F i ltac:(lia)) as D. unfold xat in D. unfold region in *.
      destruct (toward_cases (b_type B) (nth i (m_dims m) EmptyString)) as [T | [T | T]]; rewrite T in *; cbn [Z.eqb Z.ltb Z.compare] in *; destruct interior; cbn [fst snd] in *; lia.
    - rewrite get_boundary_slice_ok in E'; try congruence.
      intros i Hi. rewrite nth_boxes by lia. pose proof (fit_dom F i ltac:(lia)) as D. unfold xat in D. unfold region.
      pose proof (fit_axis F i ltac:(lia)) as AX.
      destruct (toward_cases (b_type B) (nth i (m_dims m) EmptyString)) as [T | T].
      { rewrite T. cbn [Z.eqb fst snd]. lia. }
      assert (i = ix \/ i = iy) as Q.
      { destruct (Nat.eqb_spec i ix); auto. destruct (Nat.eqb_spec i iy); auto. rewrite (toward_other _ _ AX) in T. lia. }
      specialize (R i Q). unfold xat in R. pose proof (stag_01 (nth i (m_dims m) EmptyString)) as SG.
      assert (xat (m_extent m) i = N + stag (nth i (m_dims m) EmptyString)) as EX.
      { rewrite (fit_ext F) by lia. pose proof (fit_sx F) as FX. pose proof (fit_sy F) as FY. pose proof (fit_xy F).
        destruct Q as [-> | ->]; rewrite ?Nat.eqb_refl; [lia|]. destruct (Nat.eqb_spec iy ix); [congruence|lia]. }
      unfold xat in EX.
      destruct T as [T | T]; rewrite T in *; cbn [Z.eqb Z.ltb Z.compare]; destruct interior; cbn [fst snd]; lia. }
  split.
  - destruct (send_cases B K) as [X|X]; auto. destruct (G true X).
  - unfold recv_view. destruct (view_cases B false) as [(v & E & _)|E]; eauto. destruct (G false E).
Qed.

(** without, some edge cannot be received *)
Lemma no_room_view : ~ room h ix iy m -> exists b, In b EDGE_BOUNDARY_TYPES /\ forall B, b_type B = b -> recv_view B m h = Err OutOfBoundsError.
Proof using HN Hh F.
  intros R. pose proof (fit_dims F) as Ld. pose proof (fit_origin F) as Lo. pose proof (fit_extent F) as Le. pose proof (fit_shape F) as Ls.
  pose proof (fit_ix F) as Hx. pose proof (fit_iy F) as Hy.
  assert (G : forall b i, (i = ix \/ i = iy) -> (toward b (nth i (m_dims m) EmptyString) = -1 /\ xat (m_origin m) i < h) \/
     (toward b (nth i (m_dims m) EmptyString) = 1 /\ xat (m_shape m) i < xat (m_origin m) i + xat (m_extent m) i + h) ->
     forall B, b_type B = b -> recv_view B m h = Err OutOfBoundsError).
  { intros b i Q H B <-. unfold recv_view, boundary_view. rewrite get_boundary_slice_err; try congruence; auto.
    exists i. assert (i < len)%nat by (destruct Q; congruence). split; [lia|]. rewrite nth_boxes by lia. unfold region, xat in *.
    destruct H as [(-> & H)|(-> & H)]; cbn [Z.eqb Z.ltb Z.compare fst snd]; lia. }
  assert (AXx : axis_of (nth ix (m_dims m) EmptyString) = AxX) by (rewrite (fit_axis F) by auto; now rewrite Nat.eqb_refl).
  assert (AXy : axis_of (nth iy (m_dims m) EmptyString) = AxY).
  { rewrite (fit_axis F) by auto. pose proof (fit_xy F). destruct (Nat.eqb_spec iy ix); [congruence|]. now rewrite Nat.eqb_refl. }
  destruct (Z.lt_ge_cases (xat (m_origin m) ix) h).
  { exists WEST. split; [cbn; tauto|]. apply (G WEST ix); auto. left. rewrite (toward_X _ _ AXx). auto. }
  destruct (Z.lt_ge_cases (xat (m_shape m) ix) (xat (m_origin m) ix + xat (m_extent m) ix + h)).
  { exists EAST. split; [cbn; tauto|]. apply (G EAST ix); auto. right. rewrite (toward_X _ _ AXx). auto. }
  destruct (Z.lt_ge_cases (xat (m_origin m) iy) h).
  { exists SOUTH. split; [cbn; tauto|]. apply (G SOUTH iy); auto. left. rewrite (toward_Y _ _ AXy). auto. }
  destruct (Z.lt_ge_cases (xat (m_shape m) iy) (xat (m_origin m) iy + xat (m_extent m) iy + h)).
  { exists NORTH. split; [cbn; tauto|]. apply (G NORTH iy); auto. right. rewrite (toward_Y _ _ AXy). auto. }
  exfalso. apply R. intros i [->| ->]; lia.
Qed.
End One.

(** ** combining calls *)
Definition stuck (c : comm) : Prop :=
  (In "pack"%string (c_running c) \/ In "unpack"%string (c_running c)) /\ exists B l, c_bounds c = Some (B :: l).

(** what a step does with an idle communicator: succeeds and leaves it idle, or raises and leaves it stuck *)
Definition outcome {A} (x : list (pop V) * comm * res A) (bs : option (list boundary)) : Prop :=
  (exists ops c' a, x = (ops, c', Ok a) /\ c_running c' = [] /\ c_bounds c' = bs) \/
  (exists ops c', x = (ops, c', Err OutOfBoundsError) /\ stuck c').
Definition fails {A} (x : list (pop V) * comm * res A) : Prop :=
  exists ops c', x = (ops, c', Err OutOfBoundsError) /\ stuck c'.

Lemma emapM_outcome {A B} (f : A -> eff V B) l bs :
  (forall a c, In a l -> c_running c = [] -> c_bounds c = bs -> outcome (f a c) bs) ->
  forall c, c_running c = [] -> c_bounds c = bs ->
  outcome (emapM V f l c) bs /\
  ((exists a, In a l /\ forall c, c_running c = [] -> c_bounds c = bs -> fails (f a c)) -> fails (emapM V f l c)).
Proof.
  induction l as [|a l IH]; intros H c R Bd; cbn [emapM].
  - split; [left; exists [], c, []; auto|]. intros (a & [] & _).
  - unfold ebind, eret. destruct (H a c (or_introl eq_refl) R Bd) as [(ops & c' & b & E & R' & B')|(ops & c' & E & S)]; rewrite E.
    + destruct (IH (fun a c I => H a c (or_intror I)) c' R' B') as (O & FA). split.
      * destruct O as [(ops2 & c2 & b2 & E2 & R2 & B2)|(ops2 & c2 & E2 & S2)]; rewrite E2.
        -- left. exists (ops ++ ops2 ++ [])%list, c2, (b :: b2). auto.
        -- right. exists (ops ++ ops2)%list, c2. auto.
      * intros (x & [->|I] & FX).
        -- destruct (FX c R Bd) as (? & ? & Q & _). congruence.
        -- destruct FA as (ops2 & c2 & E2 & S2); eauto. rewrite E2. exists (ops ++ ops2)%list, c2. auto.
    + split; [right|intros _]; exists ops, c'; auto.
Qed.

Section Scalar.
Variables (N h : Z) (len ix iy : nat) (sy sx : Z) (ext : nat -> Z) (q : handle) (r : nat).
Hypothesis HN : 1 <= N.
Hypothesis Hh : 1 <= h.
Hypothesis F : fits N 0 len ix iy sy sx ext (h_meta q).
Hypothesis Hr : (r < ranks n)%nat.

Lemma blist_rot B : In B (blist n r) -> b_rot B = 0 \/ b_rot B = 1 \/ b_rot B = 3.
Proof using Hn Hr. intros I. apply (in_blist_type n Hn) in I; auto. eapply (rotations n Hn); eauto. now apply rank_range. Qed.

Lemma edge_in_blist b : In b EDGE_BOUNDARY_TYPES -> exists B, In B (blist n r) /\ b_type B = b.
Proof using Hn Hr.
  intros I. pose proof (proj1 (rank_range n Hn r) Hr) as Hr'.
  destruct (boundary_none n Hn (Z.of_nat r) b Hr') as (([B|] & E) & NN).
  - exists B. split; [apply in_blist; eauto|]. now destruct (boundary_reciprocal n Hn _ _ _ Hr' E) as (<- & _).
  - exfalso. apply NN in E. destruct E as (A & A' & _). cbn in I. destruct I as [<-|[<-|[<-|[<-|[]]]]]; cbn in *; lia.
Qed.

Lemma blist_cons : exists B l, blist n r = B :: l.
Proof using Hn Hr. destruct (edge_in_blist NORTH) as (B & I & _); [cbn; auto|]. destruct (blist n r); [destruct I|eauto]. Qed.

Lemma isend_outcome tag B c : In B (blist n r) -> c_running c = [] -> c_bounds c = Some (blist n r) ->
  outcome (isend_halo V neg q h tag B c) (Some (blist n r)) /\ (send_view B (h_meta q) h = Err OutOfBoundsError -> fails (isend_halo V neg q h tag B c)).
Proof using HN Hh F Hn Hr.
  intros I R Bd. destruct (send_cases N h len ix iy sy sx ext (h_meta q) HN Hh F B (blist_rot B I)) as [X|X].
  - rewrite isend_halo_ok; auto. split.
    + left. eexists _, _, _. split; [reflexivity|]. auto.
    + intros Q. destruct X as (v & v' & E & _). congruence.
  - assert (fails (isend_halo V neg q h tag B c)) as FA.
    { unfold isend_halo, ebind, clock, elift. rewrite R, X. cbn. eexists _, _. split; [reflexivity|]. split; [left; cbn; auto|].
      destruct blist_cons as (B0 & l & EB). exists B0, l. cbn. congruence. }
    split; [right|intros _]; exact FA.
Qed.

Lemma irecv_outcome tag B c : In B (blist n r) -> c_running c = [] -> c_bounds c = Some (blist n r) ->
  outcome (irecv_halo V q h tag B c) (Some (blist n r)) /\ (recv_view B (h_meta q) h = Err OutOfBoundsError -> fails (irecv_halo V q h tag B c)).
Proof using HN Hh F Hn Hr.
  intros I R Bd. destruct (view_cases N h len ix iy sy sx ext (h_meta q) HN Hh F B false) as [(v & X & _)|X]; change (boundary_view B (h_meta q) h false) with (recv_view B (h_meta q) h) in X.
  - rewrite irecv_halo_ok; eauto. split.
    + left. eexists _, _, _. split; [reflexivity|]. auto.
    + congruence.
  - assert (fails (irecv_halo V q h tag B c)) as FA.
    { unfold irecv_halo, ebind, clock, elift. rewrite R, X. cbn. eexists _, _. split; [reflexivity|]. split; [right; cbn; auto|].
      destruct blist_cons as (B0 & l & EB). exists B0, l. cbn. congruence. }
    split; [right|intros _]; exact FA.
Qed.

Lemma isend_halos_outcome tag c : idle n r c -> outcome (isend_halos V neg (n, n) (Z.of_nat r) q h tag c) (Some (blist n r)).
Proof using HN Hh F Hn Hr.
  intros ID. unfold isend_halos, ebind. rewrite boundaries_idle by auto.
  match goal with |- context [emapM V ?f ?l ?c] => destruct (emapM_outcome f l (Some (blist n r)) ltac:(intros; apply isend_outcome; auto) c eq_refl eq_refl) as (O & _) end.
  destruct O as [(ops & c' & b & E & R & Bd)|(ops & c' & E & S)]; rewrite E; [left|right]; eauto 10.
Qed.

Lemma irecv_halos_outcome tag c : idle n r c -> outcome (irecv_halos V (n, n) (Z.of_nat r) q h tag c) (Some (blist n r)) /\
  (~ room h ix iy (h_meta q) -> fails (irecv_halos V (n, n) (Z.of_nat r) q h tag c)).
Proof using HN Hh F Hn Hr.
  intros ID. unfold irecv_halos, ebind. rewrite boundaries_idle by auto.
  match goal with |- context [emapM V ?f ?l ?c] => destruct (emapM_outcome f l (Some (blist n r)) ltac:(intros; apply irecv_outcome; auto) c eq_refl eq_refl) as (O & FA) end.
  split.
  - destruct O as [(ops & c' & b & E & R & Bd)|(ops & c' & E & S)]; rewrite E; [left|right]; eauto 10.
  - intros NR. destruct (no_room_view N h len ix iy sy sx ext (h_meta q) HN Hh F NR) as (b & Ib & X).
    destruct (edge_in_blist b Ib) as (B & IB & T).
    destruct FA as (ops & c' & E & S).
    { exists B. split; auto. intros c0 R0 B0. apply irecv_outcome; auto. }
    rewrite E. eexists _, _. split; [reflexivity|auto].
Qed.

Lemma no_room_scalar c : idle n r c -> ~ room h ix iy (h_meta q) ->
  exists ops c', start_halo_update V neg (n, n) (Z.of_nat r) q h c = (ops, c', Err OutOfBoundsError) /\ stuck c'.
Proof using HN Hh F Hn Hr.
  intros ID NR. unfold start_halo_update. destruct (Z.eqb_spec h 0); [lia|]. unfold ebind at 1. unfold get_halo_tag at 1.
  set (c1 := mkC _ _ _ _). assert (ID1 : idle n r c1) by exact ID. set (t := c_tag c + 1).
  unfold ebind. destruct (isend_halos_outcome t c1 ID1) as [(ops & c2 & b & E & R & Bd)|(ops & c2 & E & S)]; rewrite E.
  - destruct (irecv_halos_outcome t c2) as (_ & FA); [split; auto; right; auto|].
    destruct (FA NR) as (ops2 & c3 & E2 & S2). rewrite E2. eexists _, _. split; [reflexivity|auto].
  - eexists _, _. split; [reflexivity|auto].
Qed.

Lemma room_scalar c : idle n r c -> room h ix iy (h_meta q) ->
  exists ops c' rq, start_halo_update V neg (n, n) (Z.of_nat r) q h c = (ops, c', Ok rq) /\ idle n r c'.
Proof using HN Hh F Hn Hr.
  intros ID RM. pose proof (start_halo_update_ok V neg n Hn (fun _ => q) h r c Hr ID Hh) as E. cbv beta in E.
  rewrite E; [eexists _, _, _; split; [reflexivity|apply idle_after]|].
  intros B IB. apply (room_views N h len ix iy sy sx ext (h_meta q) HN Hh F B RM (blist_rot B IB)).
Qed.
End Scalar.

Section Vector.
Variables (N h : Z) (len ix iy : nat) (sy sx : Z) (ext : nat -> Z) (x y : handle) (r : nat).
Hypothesis HN : 1 <= N.
Hypothesis Hh : 1 <= h.
Hypothesis FX : fits N 0 len ix iy sy sx ext (h_meta x).
Hypothesis FY : fits N 0 len ix iy sx sy ext (h_meta y).
Hypothesis Hr : (r < ranks n)%nat.

Lemma rotate_vector_ok xv yv B : In B (blist n r) -> length (vshp xv) = len -> length (vshp yv) = len ->
  exists xd yd, rotate_vector_data xv yv (- b_rot B) (m_dims (h_meta x)) = Ok (xd, yd).
Proof using Hn FX Hr.
  intros I LX LY. unfold rotate_vector_data. pose proof (blist_rot r Hr B I) as K.
  destruct (rotate_view _ _ _ _ _ _ _ _ _ xv (b_rot B) FX LX K) as (x' & -> & _).
  destruct (rotate_view _ _ _ _ _ _ _ _ _ yv (b_rot B) FX LY K) as (y' & -> & _). cbn [bind].
  destruct K as [-> | [-> | ->]]; cbn; eauto.
Qed.

Lemma isend_vector_outcome tag1 tag2 B c : In B (blist n r) -> c_running c = [] -> c_bounds c = Some (blist n r) ->
  outcome (isend_vector_halo V neg x y h tag1 tag2 B c) (Some (blist n r)).
Proof using HN Hh FX FY Hn Hr.
  intros I R Bd. unfold isend_vector_halo, ebind, clock, elift, send_view. rewrite R.
  assert (ST : stuck (mkC (c_tag c) (c_bounds c) (c_nsent c) ["pack"%string])).
  { split; [left; cbn; auto|]. destruct (blist_cons r Hr) as (B0 & l & EB). exists B0, l. cbn. congruence. }
  destruct (view_cases N h len ix iy sy sx ext (h_meta x) HN Hh FX B true) as [(xv & X & LX & _)|X]; rewrite X; cbn [sin existsb].
  2:{ right. eexists _, _. split; [reflexivity|exact ST]. }
  destruct (view_cases N h len ix iy sx sy ext (h_meta y) HN Hh FY B true) as [(yv & Y & LY & _)|Y]; rewrite Y.
  2:{ right. eexists _, _. split; [reflexivity|exact ST]. }
  destruct (rotate_vector_ok xv yv B I LX LY) as (xd & yd & E). rewrite E. left. destruct xd as [[a v] b], yd as [[a' v'] b'].
  unfold isend, clock, ebind, eret, post_send. cbn. eexists _, _, _. split; [reflexivity|]. auto.
Qed.

Lemma no_room_vector c : idle n r c -> ~ (room h ix iy (h_meta x) /\ room h ix iy (h_meta y)) ->
  exists ops c', start_vector_halo_update V neg (n, n) (Z.of_nat r) x y h c = (ops, c', Err OutOfBoundsError) /\ stuck c'.
Proof using HN Hh FX FY Hn Hr.
  intros ID NR. unfold start_vector_halo_update. destruct (Z.eqb_spec h 0); [lia|]. unfold ebind at 1. unfold get_halo_tag at 1.
  unfold ebind at 1. unfold get_halo_tag at 1. cbn [c_tag c_bounds c_nsent c_running].
  set (c1 := mkC _ _ _ _). assert (ID1 : idle n r c1) by exact ID. set (t1 := c_tag c + 1). set (t2 := t1 + 1).
  unfold ebind. rewrite boundaries_idle by auto.
  match goal with |- context [emapM V ?f ?l ?c] => destruct (emapM_outcome f l (Some (blist n r)) ltac:(intros; apply isend_vector_outcome; auto) c eq_refl eq_refl) as (O & _) end.
  destruct O as [(ops & c2 & b & E & R & Bd)|(ops & c2 & E & S)]; rewrite E.
  - destruct (irecv_halos_outcome N h len ix iy sy sx ext x r HN Hh FX Hr t1 c2) as (O1 & FA1); [split; auto; right; auto|].
    destruct O1 as [(ops2 & c3 & b2 & E2 & R2 & B2)|(ops2 & c3 & E2 & S2)]; rewrite E2.
    + destruct (irecv_halos_outcome N h len ix iy sx sy ext y r HN Hh FY Hr t2 c3) as (O2 & FA2); [split; auto; right; auto|].
      destruct O2 as [(ops4 & c4 & b4 & E4 & R4 & B4)|(ops4 & c4 & E4 & S4)]; rewrite E4.
      * exfalso. apply NR. split.
        -- intros i Hi. destruct (Z_le_dec h (xat (m_origin (h_meta x)) i)), (Z_le_dec (xat (m_origin (h_meta x)) i + xat (m_extent (h_meta x)) i + h) (xat (m_shape (h_meta x)) i)); auto;
             exfalso; destruct FA1 as (? & ? & Q & _); try congruence; intros RR; specialize (RR i Hi); lia.
        -- intros i Hi. destruct (Z_le_dec h (xat (m_origin (h_meta y)) i)), (Z_le_dec (xat (m_origin (h_meta y)) i + xat (m_extent (h_meta y)) i + h) (xat (m_shape (h_meta y)) i)); auto;
             exfalso; destruct FA2 as (? & ? & Q & _); try congruence; intros RR; specialize (RR i Hi); lia.
      * eexists _, _. split; [reflexivity|auto].
    + eexists _, _. split; [reflexivity|auto].
  - eexists _, _. split; [reflexivity|auto].
Qed.

Lemma room_vector c : idle n r c -> room h ix iy (h_meta x) -> room h ix iy (h_meta y) ->
  exists ops c' rq, start_vector_halo_update V neg (n, n) (Z.of_nat r) x y h c = (ops, c', Ok rq) /\ idle n r c'.
Proof using HN Hh FX FY Hn Hr.
  intros ID RX RY. pose proof (start_vector_halo_update_ok V neg n Hn (fun _ => x) (fun _ => y) h r c Hr ID Hh) as E. cbv beta in E.
  rewrite E; [eexists _, _, _; split; [reflexivity|apply idle_after]|].
  intros B IB. pose proof (blist_rot r Hr B IB) as K.
  destruct (room_views N h len ix iy sy sx ext (h_meta x) HN Hh FX B RX K) as ((xv & ? & X & _) & RXV).
  destruct (room_views N h len ix iy sx sy ext (h_meta y) HN Hh FY B RY K) as ((yv & ? & Y & _) & RYV).
  split; auto. exists xv, yv.
  destruct (view_cases N h len ix iy sy sx ext (h_meta x) HN Hh FX B true) as [(xv' & X' & LX & _)|X']; unfold send_view in X; [|congruence].
  destruct (view_cases N h len ix iy sx sy ext (h_meta y) HN Hh FY B true) as [(yv' & Y' & LY & _)|Y']; unfold send_view in Y; [|congruence].
  assert (xv' = xv) by congruence. assert (yv' = yv) by congruence. subst xv' yv'.
  destruct (rotate_vector_ok xv yv B IB LX LY) as (xd & yd & E'). exists (xd, yd). auto.
Qed.
End Vector.
End Errors.

(** ** a communicator that is stuck stays stuck *)
Section Stuck.
Variable V : Type.
Variable neg : V -> V.

Lemma sin_In s l : sin s l = true <-> In s l.
Proof.
  unfold sin. rewrite existsb_exists. split; [intros (x & I & E); apply String.eqb_eq in E; now subst|].
  intros I. exists s. split; auto. apply String.eqb_refl.
Qed.
Lemma sin_false s l : sin s l = false -> ~ In s l.
Proof. intros E I. apply sin_In in I. congruence. Qed.

(** running clocks keep running and known boundaries stay known *)
Definition keeps {A} (m : eff V A) : Prop := forall c ops c' x, m c = (ops, c', x) ->
  (forall s, In s (c_running c) -> In s (c_running c')) /\ (forall l, c_bounds c = Some l -> c_bounds c' = Some l).

Lemma keeps_ret {A} (a : A) : keeps (eret V a).
Proof. intros c ops c' x E. injection E as <- <- <-. auto. Qed.
Lemma keeps_lift {A} (a : res A) : keeps (elift V a).
Proof. intros c ops c' x E. injection E as <- <- <-. auto. Qed.
Lemma keeps_bind {A B} (m : eff V A) (f : A -> eff V B) : keeps m -> (forall a, keeps (f a)) -> keeps (ebind V m f).
Proof.
  intros K KF c ops c' x E. unfold ebind in E. destruct (m c) as [[l c1] [a|e]] eqn:M.
  - destruct (f a c1) as [[l' c2] y] eqn:M'. injection E as <- <- <-. destruct (K _ _ _ _ M). destruct (KF _ _ _ _ _ M'). auto.
  - injection E as <- <- <-. eapply K; eauto.
Qed.
Lemma keeps_map {A B} (f : A -> eff V B) l : (forall a, keeps (f a)) -> keeps (emapM V f l).
Proof. intros K. induction l; cbn [emapM]; [apply keeps_ret|]. apply keeps_bind; auto. intros b. apply keeps_bind; auto. intros. apply keeps_ret. Qed.
Lemma keeps_clock {A} name (m : eff V A) : keeps m -> keeps (clock V name m).
Proof.
  intros K c ops c' x E. unfold clock in E. destruct (sin name (c_running c)) eqn:S.
  - injection E as <- <- <-. auto.
  - destruct (m _) as [[l c1] [a|e]] eqn:M; injection E as <- <- <-; destruct (K _ _ _ _ M) as (K1 & K2); cbn in *; split; auto.
    intros s I. apply in_in_remove; auto. intros ->. apply (sin_false _ _ S). exact I.
Qed.
Lemma keeps_tag : keeps (get_halo_tag V).
Proof. intros c ops c' x E. injection E as <- <- <-. auto. Qed.
Lemma keeps_boundaries layout rank : keeps (boundaries V layout rank).
Proof.
  intros c ops c' x E. unfold boundaries in E. destruct (c_bounds c) eqn:B.
  - injection E as <- <- <-. rewrite B. auto.
  - destruct (fill_boundaries _ _ _ _) as [l [u|e]]; injection E as <- <- <-; cbn; split; auto; discriminate.
Qed.
Lemma keeps_post dst tag p : keeps (post_send V dst tag p).
Proof. intros c ops c' x E. injection E as <- <- <-. auto. Qed.

Ltac keeps_tac := repeat first [apply keeps_ret | apply keeps_lift | apply keeps_bind | apply keeps_map | apply keeps_clock | apply keeps_tag | apply keeps_boundaries | apply keeps_post | progress intros | match goal with |- keeps (if ?b then _ else _) => destruct b | |- keeps (match ?p with pair _ _ => _ end) => destruct p end].

Lemma keeps_isend_halo q h tag b : keeps (isend_halo V neg q h tag b).
Proof. unfold isend_halo, isend. keeps_tac. Qed.
Lemma keeps_irecv_halo q h tag b : keeps (irecv_halo V q h tag b).
Proof. unfold irecv_halo. keeps_tac. Qed.
Lemma keeps_isend_vector_halo x y h t1 t2 b : keeps (isend_vector_halo V neg x y h t1 t2 b).
Proof. unfold isend_vector_halo, isend. keeps_tac. Qed.
Lemma keeps_start layout rank a : keeps (start_attempt V neg layout rank a).
Proof.
  destruct a; cbn [start_attempt]; unfold start_halo_update, start_vector_halo_update, isend_halos, irecv_halos;
  repeat first [apply keeps_isend_halo | apply keeps_irecv_halo | apply keeps_isend_vector_halo | progress keeps_tac].
Qed.

Lemma clock_running {A} name (m : eff V A) c : In name (c_running c) -> clock V name m c = ([], c, Err ValueError).
Proof. intros I. unfold clock. apply sin_In in I. now rewrite I. Qed.

Lemma irecv_unpack layout rank q h tag c : stuck c -> In "unpack"%string (c_running c) ->
  irecv_halos V layout rank q h tag c = ([], c, Err ValueError).
Proof.
  intros (_ & B & l & Bd) I. unfold irecv_halos, ebind, boundaries. rewrite Bd. cbn [emapM].
  unfold irecv_halo, ebind. rewrite clock_running; auto.
Qed.

Lemma stuck_raises layout rank a c : stuck c -> points a <> 0 -> exists ops c' e, start_attempt V neg layout rank a c = (ops, c', Err e).
Proof.
  intros S P. destruct (start_attempt V neg layout rank a c) as [[ops c'] [rq|e]] eqn:E; [exfalso|eauto].
  assert (S' := S). destruct S' as ([I|I] & B & l & Bd).
  - destruct a; cbn in E, P; unfold start_halo_update, start_vector_halo_update in E; destruct (Z.eqb_spec h 0); try lia;
      unfold isend_halos, ebind, get_halo_tag, boundaries in E; cbn in E; rewrite Bd in E; cbn in E;
      unfold isend_halo, isend_vector_halo, ebind in E; rewrite clock_running in E by auto; discriminate.
  - destruct a; cbn in E, P; unfold start_halo_update, start_vector_halo_update in E; destruct (Z.eqb_spec h 0); try lia.
    + unfold ebind at 1 in E. unfold get_halo_tag in E. unfold ebind at 1 in E.
      set (c1 := mkC _ _ _ _) in E. destruct (isend_halos V neg layout rank q h (c_tag c + 1) c1) as [[l2 c2] [rs|e]] eqn:M; [|discriminate].
      assert (K : keeps (isend_halos V neg layout rank q h (c_tag c + 1))) by (unfold isend_halos; keeps_tac; apply keeps_isend_halo).
      destruct (K _ _ _ _ M) as (K1 & K2). unfold ebind at 1 in E.
      rewrite irecv_unpack in E; [discriminate| |apply K1; exact I]. split; [right; apply K1; exact I|]. exists B, l. apply K2. exact Bd.
    + unfold ebind at 1 in E. unfold get_halo_tag at 1 in E. unfold ebind at 1 in E. unfold get_halo_tag at 1 in E. cbn [c_tag c_bounds c_nsent c_running] in E.
      set (c1 := mkC _ _ _ _) in E. unfold ebind at 1 in E. unfold boundaries in E. replace (c_bounds c1) with (Some (B :: l)) in E by (symmetry; exact Bd).
      unfold ebind at 1 in E.
      destruct (emapM V (isend_vector_halo V neg x y h (c_tag c + 1) (c_tag c + 1 + 1)) (B :: l) c1) as [[l2 c2] [rs|e]] eqn:M; [|discriminate].
      assert (K : keeps (emapM V (isend_vector_halo V neg x y h (c_tag c + 1) (c_tag c + 1 + 1)) (B :: l))) by (apply keeps_map; intros; apply keeps_isend_vector_halo).
      destruct (K _ _ _ _ M) as (K1 & K2). unfold ebind at 1 in E.
      rewrite irecv_unpack in E; [discriminate| |apply K1; exact I]. split; [right; apply K1; exact I|]. exists B, l. apply K2. exact Bd.
Qed.

Lemma stuck_forever layout rank l : forall c, stuck c -> Forall (fun a => points a <> 0) l -> Forall raised (fst (attempts V neg layout rank l c)).
Proof.
  induction l as [|a l IH]; intros c S P; cbn [attempts]; [constructor|]. inversion P; subst.
  destruct (stuck_raises layout rank a c S) as (ops & c' & e & E); auto. rewrite E.
  destruct (keeps_start layout rank a _ _ _ _ E) as (K1 & K2).
  assert (S' : stuck c') by (destruct S as ([I|I] & B & l0 & Bd); split; eauto).
  specialize (IH c' S' H2). destruct (attempts V neg layout rank l c') as [xs o]. constructor; [exact I|exact IH].
Qed.
End Stuck.

(** ** the theorems of Props/Updates.v *)
Section Final.
Variable V : Type.
Variable neg : V -> V.

Theorem zero_points layout rank a (c : comm) : points a = 0 -> start_attempt V neg layout rank a c = ([], c, Err ValueError).
Proof. destruct a; cbn; intros ->; reflexivity. Qed.
Theorem not_c_grid layout rank x y (c : comm) :
  ~ (In X_DIM (m_dims (h_meta x)) /\ In Y_INTERFACE_DIM (m_dims (h_meta x)) /\ In Y_DIM (m_dims (h_meta y)) /\ In X_INTERFACE_DIM (m_dims (h_meta y))) ->
  start_synchronize_vector_interfaces V neg layout rank x y c = ([], c, Err ValueError).
Proof.
  intros N. unfold start_synchronize_vector_interfaces. destruct (on_c_grid (h_meta x) (h_meta y)) eqn:G; [|reflexivity]. exfalso. apply N. unfold on_c_grid in G.
  repeat rewrite <- sin_In. destruct (sin X_DIM _), (sin Y_INTERFACE_DIM _), (sin Y_DIM _), (sin X_INTERFACE_DIM _); try discriminate G; auto.
Qed.

(** calls that return leave no clock running *)
Definition clean {A} (n : Z) (r : nat) (m : eff V A) : Prop := forall c ops c' a, m c = (ops, c', Ok a) ->
  c_running c' = c_running c /\ (c_bounds c' = c_bounds c \/ c_bounds c' = Some (blist n r)).
Lemma clean_ret {A} n r (a : A) : clean n r (eret V a).
Proof. intros c ops c' x E. injection E as <- <- <-. auto. Qed.
Lemma clean_lift {A} n r (a : res A) : clean n r (elift V a).
Proof. intros c ops c' x E. injection E as <- <- ->. auto. Qed.
Lemma clean_bind {A B} n r (m : eff V A) (f : A -> eff V B) : clean n r m -> (forall a, clean n r (f a)) -> clean n r (ebind V m f).
Proof.
  intros K KF c ops c' x E. unfold ebind in E. destruct (m c) as [[l c1] [a|e]] eqn:M; [|discriminate].
  destruct (f a c1) as [[l' c2] y] eqn:M'. injection E as <- <- ->. destruct (K _ _ _ _ M) as (A1 & A2). destruct (KF _ _ _ _ _ M') as (B1 & B2).
  split; [congruence|]. destruct B2 as [B2|B2]; rewrite B2; auto.
Qed.
Lemma clean_map {A B} n r (f : A -> eff V B) l : (forall a, clean n r (f a)) -> clean n r (emapM V f l).
Proof. intros K. induction l; cbn [emapM]; [apply clean_ret|]. apply clean_bind; auto. intros b. apply clean_bind; auto. intros. apply clean_ret. Qed.
Lemma clean_clock {A} n r name (m : eff V A) : clean n r m -> clean n r (clock V name m).
Proof.
  intros K c ops c' x E. unfold clock in E. destruct (sin name (c_running c)) eqn:S; [discriminate|].
  destruct (m _) as [[l c1] [a|e]] eqn:M; [|discriminate]. injection E as <- <- <-. destruct (K _ _ _ _ M) as (K1 & K2). cbn in *. split; auto.
  rewrite K1. cbn [remove]. destruct (string_dec name name); [|congruence]. apply notin_remove. now apply sin_false.
Qed.
Lemma clean_tag n r : clean n r (get_halo_tag V).
Proof. intros c ops c' x E. injection E as <- <- <-. auto. Qed.
Lemma clean_boundaries n r : 1 <= n -> (r < ranks n)%nat -> clean n r (boundaries V (n, n) (Z.of_nat r)).
Proof.
  intros Hn Hr c ops c' x E. unfold boundaries in E. destruct (c_bounds c) as [l|] eqn:B.
  - injection E as <- <- <-. rewrite B. auto.
  - rewrite (fill_boundaries_ok n Hn r _ _ Hr) in E. injection E as <- <- <-. cbn. auto.
Qed.
Lemma clean_post n r dst tag p : clean n r (post_send V dst tag p).
Proof. intros c ops c' x E. injection E as <- <- <-. auto. Qed.
Ltac clean_tac := repeat first [apply clean_ret | apply clean_lift | apply clean_bind | apply clean_map | apply clean_clock | apply clean_tag | apply clean_boundaries; assumption | apply clean_post | progress intros | match goal with |- clean _ _ (if ?b then _ else _) => destruct b | |- clean _ _ (match ?p with pair _ _ => _ end) => destruct p end].
Lemma clean_start n r a : 1 <= n -> (r < ranks n)%nat -> clean n r (start_attempt V neg (n, n) (Z.of_nat r) a).
Proof.
  intros Hn Hr. destruct a; cbn [start_attempt]; unfold start_halo_update, start_vector_halo_update, isend_halos, irecv_halos, isend_halo, irecv_halo, isend_vector_halo, isend; clean_tac.
Qed.

(** the state after calls that returned, and the results of further calls *)
Lemma returned_idle n r l : 1 <= n -> (r < ranks n)%nat -> forall c, idle n r c -> Forall returned (fst (attempts V neg (n, n) (Z.of_nat r) l c)) ->
  exists c', idle n r c' /\ forall l', fst (attempts V neg (n, n) (Z.of_nat r) (l ++ l') c) =
    (fst (attempts V neg (n, n) (Z.of_nat r) l c) ++ fst (attempts V neg (n, n) (Z.of_nat r) l' c'))%list.
Proof.
  intros Hn Hr. induction l as [|a l IH]; intros c ID R; [exists c; auto|]. cbn [attempts app] in *.
  destruct (start_attempt V neg (n, n) (Z.of_nat r) a c) as [[ops c1] x] eqn:E.
  specialize (IH c1). destruct (attempts V neg (n, n) (Z.of_nat r) l c1) as [xs o] eqn:E1. cbn [fst] in R, IH. inversion R; subst.
  destruct x as [rq|e]; [|destruct H1]. destruct (clean_start n r a Hn Hr _ _ _ _ E) as (C1 & C2).
  destruct IH as (c' & ID' & G); auto. { destruct ID as (I1 & I2). split; [congruence|]. destruct C2 as [->| ->]; auto. }
  exists c'. split; auto. intros l'. specialize (G l'). destruct (attempts V neg (n, n) (Z.of_nat r) (l ++ l') c1). cbn in *. now rewrite G.
Qed.

Lemma one_attempt n r a c : fst (attempts V neg (n, n) (Z.of_nat r) [a] c) = [snd (start_attempt V neg (n, n) (Z.of_nat r) a c)].
Proof. cbn [attempts]. destruct (start_attempt V neg (n, n) (Z.of_nat r) a c) as [[? ?] ?]. reflexivity. Qed.
Lemma first_attempt n r a l c ops c' x : start_attempt V neg (n, n) (Z.of_nat r) a c = (ops, c', x) ->
  fst (attempts V neg (n, n) (Z.of_nat r) (a :: l) c) = x :: fst (attempts V neg (n, n) (Z.of_nat r) l c').
Proof. intros E. cbn [attempts]. rewrite E. now destruct (attempts V neg (n, n) (Z.of_nat r) l c'). Qed.

Lemma after_returned n r l : 1 <= n -> (r < ranks n)%nat -> Forall returned (results V neg (n, n) (Z.of_nat r) l) ->
  exists c, idle n r c /\ forall a rest, results V neg (n, n) (Z.of_nat r) (l ++ a :: rest) =
    (results V neg (n, n) (Z.of_nat r) l ++ fst (attempts V neg (n, n) (Z.of_nat r) (a :: rest) c))%list.
Proof. intros Hn Hr R. destruct (returned_idle n r l Hn Hr new_comm (conj eq_refl (or_introl eq_refl)) R) as (c & ID & G). exists c. split; auto. intros. apply G. Qed.

Theorem scalar_possible n N len ix iy sy sx ext l q h r : 1 <= n -> 1 <= N -> 1 <= h -> (r < ranks n)%nat ->
  fits N 0 len ix iy sy sx ext (h_meta q) -> let run := results V neg (n, n) (Z.of_nat r) in Forall returned (run l) ->
  (room h ix iy (h_meta q) -> exists rq, run (l ++ [AHalo q h]) = (run l ++ [Ok rq])%list) /\
  (~ room h ix iy (h_meta q) -> run (l ++ [AHalo q h]) = (run l ++ [Err OutOfBoundsError])%list).
Proof.
  intros Hn HN Hh Hr F run R. destruct (after_returned n r l Hn Hr R) as (c & ID & G). unfold run. split; intros RM; rewrite G, one_attempt; cbn [start_attempt].
  - destruct (room_scalar V neg n Hn N h len ix iy sy sx ext q r HN Hh F Hr c ID RM) as (ops & c' & rq & E & _). rewrite E. cbn. eauto.
  - destruct (no_room_scalar V neg n Hn N h len ix iy sy sx ext q r HN Hh F Hr c ID RM) as (ops & c' & E & S). now rewrite E.
Qed.

Theorem vector_possible n N len ix iy sy sx ext l x y h r : 1 <= n -> 1 <= N -> 1 <= h -> (r < ranks n)%nat ->
  fits N 0 len ix iy sy sx ext (h_meta x) -> fits N 0 len ix iy sx sy ext (h_meta y) ->
  let run := results V neg (n, n) (Z.of_nat r) in let both := room h ix iy (h_meta x) /\ room h ix iy (h_meta y) in Forall returned (run l) ->
  (both -> exists rq, run (l ++ [AVector x y h]) = (run l ++ [Ok rq])%list) /\
  (~ both -> run (l ++ [AVector x y h]) = (run l ++ [Err OutOfBoundsError])%list).
Proof.
  intros Hn HN Hh Hr FX FY run both R. destruct (after_returned n r l Hn Hr R) as (c & ID & G). unfold run. split; intros RM; rewrite G, one_attempt; cbn [start_attempt].
  - destruct RM as (RX & RY). destruct (room_vector V neg n Hn N h len ix iy sy sx ext x y r HN Hh FX FY Hr c ID RX RY) as (ops & c' & rq & E & _). rewrite E. cbn. eauto.
  - destruct (no_room_vector V neg n Hn N h len ix iy sy sx ext x y r HN Hh FX FY Hr c ID RM) as (ops & c' & E & S). now rewrite E.
Qed.

Theorem unusable_after n N len ix iy sy sx ext l a rest r : 1 <= n -> 1 <= N -> (r < ranks n)%nat ->
  impossible N len ix iy sy sx ext a -> Forall (fun a => points a <> 0) rest ->
  let run := results V neg (n, n) (Z.of_nat r) in Forall returned (run l) ->
  exists errors, run (l ++ a :: rest) = (run l ++ Err OutOfBoundsError :: errors)%list /\ length errors = length rest /\ Forall raised errors.
Proof.
  intros Hn HN Hr IM P run R. destruct (after_returned n r l Hn Hr R) as (c & ID & G).
  assert (X : exists ops c', start_attempt V neg (n, n) (Z.of_nat r) a c = (ops, c', Err OutOfBoundsError) /\ stuck c').
  { destruct a; cbn [start_attempt]; destruct IM as (Hh & IM).
    - destruct IM as (F & RM). apply (no_room_scalar V neg n Hn N h len ix iy sy sx ext q r HN Hh F Hr c ID RM).
    - destruct IM as (FX & FY & RM). apply (no_room_vector V neg n Hn N h len ix iy sy sx ext x y r HN Hh FX FY Hr c ID RM). }
  destruct X as (ops & c' & E & S). unfold run. rewrite G, (first_attempt _ _ _ _ _ _ _ _ E).
  exists (fst (attempts V neg (n, n) (Z.of_nat r) rest c')). split; auto. split; [|now apply stuck_forever].
  clear. revert c'. induction rest as [|a l IH]; intros c; auto. cbn [attempts]. destruct (start_attempt V neg (n, n) (Z.of_nat r) a c) as [[? c'] ?].
  specialize (IH c'). destruct (attempts V neg (n, n) (Z.of_nat r) l c'). cbn in *. congruence.
Qed.

(** on a layout that is not square the first call raises, the later ones do nothing *)
Lemma empty_bounds layout rank a c : points a <> 0 -> c_bounds c = Some [] ->
  exists c', start_attempt V neg layout rank a c = ([], c', Ok (mkReq V [] [])) /\ c_bounds c' = Some [].
Proof.
  intros P B. destruct a; cbn in *; unfold start_halo_update, start_vector_halo_update, isend_halos, irecv_halos; destruct (Z.eqb_spec h 0); try lia;
  unfold ebind, get_halo_tag, boundaries; cbn; rewrite B; cbn; rewrite ?B; cbn; rewrite ?B; cbn; eexists; split; reflexivity || auto.
Qed.

Theorem nonsquare_silent ny nx rank a l : 1 <= ny -> 1 <= nx -> ny <> nx -> Forall (fun a => points a <> 0) (a :: l) ->
  attempts V neg (ny, nx) rank (a :: l) new_comm = (Err NotImplementedError :: map (fun _ => Ok (mkReq V [] [])) l, []).
Proof.
  intros H1 H2 NE P. inversion P as [|? ? P1 P2]; subst. cbn [attempts].
  assert (E : exists c', start_attempt V neg (ny, nx) rank a new_comm = ([], c', Err NotImplementedError) /\ c_bounds c' = Some []).
  { assert (FB : fill_boundaries (ny, nx) rank BOUNDARY_TYPES [] = ([], Err NotImplementedError)).
    { unfold BOUNDARY_TYPES, EDGE_BOUNDARY_TYPES. cbn [app fill_boundaries].
      destruct (nonsquare ny nx NORTH rank H1 H2 NE) as [->|(_ & _ & X & _)]; auto. cbn in X. lia. }
    destruct a; cbn in P1 |- *; unfold start_halo_update, start_vector_halo_update, isend_halos; destruct (Z.eqb_spec h 0); try lia;
    unfold ebind, get_halo_tag, boundaries; cbn [c_bounds new_comm c_tag c_nsent c_running]; rewrite FB; eexists; split; reflexivity. }
  destruct E as (c & -> & B). clear P P1 a.
  assert (G : attempts V neg (ny, nx) rank l c = (map (fun _ => Ok (mkReq V [] [])) l, [])).
  { revert c B. induction l as [|a l IH]; intros c B; cbn [attempts map]; auto. inversion P2; subst.
    destruct (empty_bounds (ny, nx) rank a c) as (c' & -> & B'); auto. rewrite IH; auto. }
  now rewrite G.
Qed.
End Final.
