(** What a halo update does to the arrays (C12, C13, C14). *)
From Verif.Base Require Import Base Lemmas.
From Verif.Model Require Import Consts Numpy Quantity Partitioner Rotate Network Communicator.
From Verif.Spec Require Import Grid Cube Halo Lockstep Sync Client.
From Verif.Proofs Require Import Slices NumpyProofs Boundaries Regions Transfer Phases Scripts Delivery HaloOps HaloResult.
From Coq Require Import ZifyBool.
Ltac Zify.zify_post_hook ::= idtac.

(** the neighbour's boundary leading back *)
Definition back (n : Z) (r : nat) (B : boundary) : boundary :=
  match find (fun B' => b_to B' =? Z.of_nat r) (blist n (Z.to_nat (b_to B))) with Some B' => B' | None => B end.

Lemma back_ok n r B : 1 <= n -> (r < ranks n)%nat -> In B (blist n r) ->
  (Z.to_nat (b_to B) < ranks n)%nat /\ In (back n r B) (blist n (Z.to_nat (b_to B))) /\ b_to (back n r B) = Z.of_nat r.
Proof.
  intros Hn Hr I. destruct (blist_back n Hn r B Hr I) as (_ & Ht & B' & I' & T & _). split; auto.
  unfold back. destruct (find _ _) as [B2|] eqn:E.
  - apply find_some in E. destruct E as [E1 E2]. split; auto. lia.
  - apply (find_none _ _ E) in I'. lia.
Qed.

Section Effect.
Variable V : Type.
Variable neg : V -> V.
Variable d : V.
Variable n : Z.
Hypothesis Hn : 1 <= n.

(** memory after completion, if nothing fails *)
Definition delivered (e : @exchange (mem V) V) (snap m : nat -> mem V) (r : nat) : mem V :=
  match deliver e snap r (m r) with Some x => x | None => m r end.

(** ** scalar *)
Section Scalar.
Variables (q : nat -> handle) (h tag : Z).
Variables (N : Z) (len ix iy : nat) (s : Z) (ext : nat -> Z).
Hypothesis HN : 1 <= N.
Hypothesis Hh : 1 <= h <= N.
Hypothesis FF : forall r, (r < ranks n)%nat -> fits N h len ix iy s s ext (h_meta (q r)).
Set Default Proof Using "All".

Let Hh0 : 0 <= h <= N. Proof. lia. Qed.

Lemma swap_same k : swap_if k (s, s) = (s, s).
Proof. unfold swap_if. destruct (k =? 0); reflexivity. Qed.

Lemma dims_xy r : (r < ranks n)%nat -> find_xy 0 (m_dims (h_meta (q r))) (None, None) = (Some ix, Some iy).
Proof. intros Hr. eapply find_xy_fit. exact (FF r Hr). Qed.

Lemma scalar_views_exist r : (r < ranks n)%nat -> views_exist n (q r) h r.
Proof.
  intros Hr B I. destruct (back_ok n r B Hn Hr I) as (Ht & I' & T').
  assert (I2 : In B (blist n (Z.to_nat (b_to (back n r B))))) by (rewrite T', Nat2Z.id; auto).
  assert (T2 : b_to B = Z.of_nat (Z.to_nat (b_to B))). { destruct (blist_back n Hn r B Hr I) as (? & _). lia. }
  destruct (message_views n N h len ix iy Hn HN Hh0 s s ext (h_meta (q (Z.to_nat (b_to B)))) (h_meta (q r)) _ _ _
     Ht I' I2 T2 (FF _ Ht) ltac:(rewrite swap_same; exact (FF r Hr)) _ (dims_xy r Hr)) as (_ & v2 & v3 & _ & E2 & E3).
  destruct (message_views n N h len ix iy Hn HN Hh0 s s ext (h_meta (q r)) (h_meta (q (Z.to_nat (b_to B)))) r B (back n r B)
     Hr I I' T' (FF _ Hr) ltac:(rewrite swap_same; exact (FF _ Ht)) _ (dims_xy _ Ht)) as (v1 & _ & _ & E1 & _).
  split; eauto.
Qed.

Definition scalar_write (r : nat) (B : boundary) : write :=
  let r' := Z.to_nat (b_to B) in
  mkW (b_to B) tag (h_id (q r)) (rview (q r) h B) (h_id (q r')) (sview (q r') h (back n r B)) false.

Lemma scalar_message r B : (r < ranks n)%nat -> In B (blist n r) ->
  let v1 := rview (q r) h B in let v3 := sview (q (Z.to_nat (b_to B))) h (back n r B) in
  let m := h_meta (q r) in let m' := h_meta (q (Z.to_nat (b_to B))) in
  vshp v3 = vshp v1 /\ inj_view v1 /\
  (forall j, in_side m ix iy h (b_type B) j <-> exists p, in_shape (vshp v1) p /\ vmap v1 p = j) /\
  (forall p, in_shape (vshp v1) p ->
     let j := vmap v1 p in let j' := vmap v3 p in let r' := Z.to_nat (b_to B) in
     in_domain m' j' /\ same_column m m' ix iy j j' /\ place_of n N ix iy m r j <> None /\
     place_of n N ix iy m' r' j' = place_of n N ix iy m r j).
Proof.
  intros Hr I. destruct (back_ok n r B Hn Hr I) as (Ht & I' & T').
  assert (F' : fits N h len ix iy (fst (swap_if (b_rot B) (s, s))) (snd (swap_if (b_rot B) (s, s))) ext (h_meta (q (Z.to_nat (b_to B)))))
    by (rewrite swap_same; exact (FF _ Ht)).
  destruct (message_views n N h len ix iy Hn HN Hh0 s s ext _ _ r B (back n r B) Hr I I' T' (FF r Hr) F' _ (dims_xy _ Ht)) as (v1 & v2 & v3 & E1 & E2 & E3).
  destruct (message n N h len ix iy Hn HN Hh0 s s ext _ _ r B (back n r B) Hr I I' T' (FF r Hr) F' _ v1 v2 v3 (dims_xy _ Ht) E1 E2 E3) as (S & J & SD & G).
  unfold rview, sview. rewrite E1, E2. cbn [bind]. rewrite E3. cbn [ok_or].
  split; auto. split; auto. split; auto. intros p P. specialize (G p P). cbv zeta in *. tauto.
Qed.

Lemma scalar_disjoint r : (r < ranks n)%nat -> disjoint_writes (map (scalar_write r) (blist n r)).
Proof.
  intros Hr. split; [|split].
  - apply (NoDup_map_inv w_src). rewrite map_map. cbn [w_src scalar_write]. now apply blist_NoDup_to.
  - intros w I. apply in_map_iff in I. destruct I as (B & <- & I). now apply scalar_message.
  - intros w w' p p' I I' _ P P' E. apply in_map_iff in I, I'. destruct I as (B & <- & I), I' as (B' & <- & I').
    cbn [w_view scalar_write] in *. f_equal. apply (blist_type_inj n Hn r); auto.
    destruct (scalar_message r B Hr I) as (_ & _ & S & _). destruct (scalar_message r B' Hr I') as (_ & _ & S' & _).
    apply (in_side_unique N h len ix iy HN Hh0 s s ext _ (FF r Hr) _ _ (vmap (rview (q r) h B) p)).
    + apply S. eauto. + apply S'. eauto.
Qed.

Lemma scalar_deliver k snap m r : (forall r, (r < ranks n)%nat -> h_id (q r) < k)%nat ->
  (forall r, (r < ranks n)%nat -> length (snap r) = k) -> length m = k -> (r < ranks n)%nat ->
  exists m', deliver (halo_x V neg n q h tag) snap r m = Some m' /\ length m' = length m /\
    forall i a, nth_error m i = Some a -> exists a', nth_error m' i = Some a' /\ shp a' = shp a /\
      (i <> h_id (q r) -> forall p, at_ a' p = at_ a p) /\
      (i = h_id (q r) -> forall p,
         (to_fill n N h ix iy (h_meta (q r)) r p -> exists r' p', (r' < ranks n)%nat /\ in_domain (h_meta (q r')) p' /\
            same_column (h_meta (q r)) (h_meta (q r')) ix iy p p' /\
            place_of n N ix iy (h_meta (q r')) r' p' = place_of n N ix iy (h_meta (q r)) r p /\
            at_ a' p = content V snap (fun r => h_id (q r)) d r' p') /\
         (~ to_fill n N h ix iy (h_meta (q r)) r p -> at_ a' p = at_ a p)).
Proof.
  intros Hid Hsnap Hm Hr.
  destruct (deliver_msgs neg d (halo_x V neg n q h tag) snap r (map (scalar_write r) (blist n r)) m) as (m' & D & L & A).
  - cbn [halo_x x_recvs]. rewrite map_map. reflexivity.
  - now apply scalar_disjoint.
  - intros w I. apply in_map_iff in I. destruct I as (B & <- & I). cbn [scalar_write w_src w_tag w_id w_view w_from w_sview w_neg].
    destruct (back_ok n r B Hn Hr I) as (Ht & I' & T'). split; [rewrite Hm; auto|]. split; [rewrite Hsnap; auto|].
    split; [now apply scalar_message|]. cbn [halo_x x_sends]. rewrite filter_map. unfold has_key. cbn [fst snd].
    rewrite filter_ext with (g := fun x => b_to x =? b_to (back n r B)) by (intros a; rewrite T', Z.eqb_refl, andb_true_r; auto).
    rewrite (filter_key b_to) by (auto; now apply blist_NoDup_to). cbn [map]. now rewrite T'.
  - exists m'. split; auto. split; auto. intros i a E. destruct (A i a E) as (a' & E' & S & VW & FR). exists a'. split; auto. split; auto. split.
    + intros NE p. apply FR. intros w p0 I Q. apply in_map_iff in I. destruct I as (B & <- & I). cbn in Q. congruence.
    + intros -> p. pose proof (to_fill_boundary n N h len ix iy s s ext (h_meta (q r)) r p Hn HN Hh0 (FF r Hr) Hr) as TF. split.
      * intros T. apply TF in T. destruct T as (B & I & IS). destruct (scalar_message r B Hr I) as (_ & _ & SD & G).
        apply SD in IS. destruct IS as (p0 & P & <-). specialize (G p0 P). cbv zeta in G.
        destruct (back_ok n r B Hn Hr I) as (Ht & _).
        exists (Z.to_nat (b_to B)), (vmap (sview (q (Z.to_nat (b_to B))) h (back n r B)) p0). split; auto. split; [tauto|]. split; [tauto|]. split; [tauto|].
        rewrite (VW (scalar_write r B)); auto. apply in_map. auto.
      * intros NT. apply FR. intros w p0 I Q P Ep. apply in_map_iff in I. destruct I as (B & <- & I). apply NT, TF. exists B. split; auto.
        apply scalar_message; auto. cbn in P. eauto.
Qed.
End Scalar.

(** ** vector *)
Section Vector.
Variables (x y : nat -> handle) (h tag1 tag2 : Z).
Variables (N : Z) (len ix iy : nat) (sy sx : Z) (ext : nat -> Z).
Hypothesis HN : 1 <= N.
Hypothesis Hh : 1 <= h <= N.
Hypothesis HT : tag1 <> tag2.
Hypothesis XY : forall r, (r < ranks n)%nat -> h_id (x r) <> h_id (y r).
Hypothesis FX : forall r, (r < ranks n)%nat -> fits N h len ix iy sy sx ext (h_meta (x r)).
Hypothesis FY : forall r, (r < ranks n)%nat -> fits N h len ix iy sx sy ext (h_meta (y r)).
Set Default Proof Using "All".

Let Hh0 : 0 <= h <= N. Proof. lia. Qed.

Definition hd (c : bool) (r : nat) : handle := if c then y r else x r.
Definition vsy (c : bool) : Z := if c then sx else sy.
Definition vsx (c : bool) : Z := if c then sy else sx.
Definition vtag (c : bool) : Z := if c then tag2 else tag1.
Definition from_comp (B : boundary) (c : bool) : bool := if b_rot B =? 0 then c else negb c.
Definition negated (B : boundary) (c : bool) : bool := if b_rot B =? 0 then false else if b_rot B =? 1 then c else negb c.

Lemma FV c r : (r < ranks n)%nat -> fits N h len ix iy (vsy c) (vsx c) ext (h_meta (hd c r)).
Proof. intros Hr. destruct c; cbn; auto. Qed.

Lemma FV' B c r : (r < ranks n)%nat ->
  fits N h len ix iy (fst (swap_if (b_rot B) (vsy c, vsx c))) (snd (swap_if (b_rot B) (vsy c, vsx c))) ext (h_meta (hd (from_comp B c) r)).
Proof. intros Hr. unfold swap_if, from_comp. destruct (b_rot B =? 0); cbn [fst snd]; [now apply FV|]. destruct c; cbn; auto. Qed.

Lemma vdims_xy r : (r < ranks n)%nat -> find_xy 0 (m_dims (h_meta (x r))) (None, None) = (Some ix, Some iy).
Proof. intros Hr. eapply find_xy_fit. exact (FX r Hr). Qed.

Lemma vector_parts r B c : (r < ranks n)%nat -> In B (blist n r) ->
  let r' := Z.to_nat (b_to B) in let B' := back n r B in
  exists v1 v2 v3, recv_view B (h_meta (hd c r)) h = Ok v1 /\ send_view B' (h_meta (hd (from_comp B c) r')) h = Ok v2 /\
    rotate_scalar_data v2 (m_dims (h_meta (x r'))) (- b_rot B') = Ok v3 /\
    vshp v3 = vshp v1 /\ inj_view v1 /\
    (forall j, in_side (h_meta (hd c r)) ix iy h (b_type B) j <-> exists p, in_shape (vshp v1) p /\ vmap v1 p = j) /\
    (forall p, in_shape (vshp v1) p ->
       let m := h_meta (hd c r) in let m' := h_meta (hd (from_comp B c) r') in
       let j := vmap v1 p in let j' := vmap v3 p in
       in_domain m' j' /\ same_column m m' ix iy j j' /\ place_of n N ix iy m r j <> None /\
       place_of n N ix iy m' r' j' = place_of n N ix iy m r j /\
       (x_dir_of n N ix iy m' r' j', y_dir_of n N ix iy m' r' j') =
         unrot_dir (b_rot B) (x_dir_of n N ix iy m r j) (y_dir_of n N ix iy m r j)).
Proof.
  intros Hr I r' B'. destruct (back_ok n r B Hn Hr I) as (Ht & I' & T').
  destruct (message_views n N h len ix iy Hn HN Hh0 _ _ ext _ _ r B B' Hr I I' T' (FV c r Hr) (FV' B c _ Ht) _ (vdims_xy _ Ht)) as (v1 & v2 & v3 & E1 & E2 & E3).
  pose proof (message n N h len ix iy Hn HN Hh0 _ _ ext _ _ r B B' Hr I I' T' (FV c r Hr) (FV' B c _ Ht) _ v1 v2 v3 (vdims_xy _ Ht) E1 E2 E3).
  exists v1, v2, v3. tauto.
Qed.

Lemma rotations_back r B : (r < ranks n)%nat -> In B (blist n r) ->
  b_rot B = 0 /\ b_rot (back n r B) = 0 \/ b_rot B = 1 /\ b_rot (back n r B) = 3 \/ b_rot B = 3 /\ b_rot (back n r B) = 1.
Proof.
  intros Hr I. destruct (back_ok n r B Hn Hr I) as (Ht & I' & T').
  exact (proj1 (message_facts n N h len ix iy Hn HN Hh0 _ _ ext _ _ r B (back n r B) Hr I I' T' (FV true r Hr) (FV' B true _ Ht))).
Qed.

Definition vpart (c : bool) (r : nat) (B : boundary) : bool * view * bool :=
  (if c then snd else fst) (vview (x r) (y r) h B).

(** what is sent for component c *)
Lemma vpart_ok r B c : (r < ranks n)%nat -> In B (blist n r) ->
  let r' := Z.to_nat (b_to B) in let B' := back n r B in
  exists v2 v3, send_view B' (h_meta (hd (from_comp B c) r')) h = Ok v2 /\
    rotate_scalar_data v2 (m_dims (h_meta (x r'))) (- b_rot B') = Ok v3 /\
    vpart c r' B' = (from_comp B c, v3, negated B c).
Proof.
  intros Hr I r' B'.
  destruct (vector_parts r B false Hr I) as (_ & x2 & x3 & _ & X2 & X3 & _).
  destruct (vector_parts r B true Hr I) as (_ & y2 & y3 & _ & Y2 & Y3 & _).
  fold r' B' in X2, X3, Y2, Y3. unfold vpart, vview, from_comp, negated in *.
  destruct (rotations_back r B Hr I) as [[Q Q']|[[Q Q']|[Q Q']]]; fold B' in Q'; rewrite Q in *; cbn [Z.eqb negb hd] in *.
  - rewrite X2, Y2. cbn [bind]. unfold rotate_vector_data. rewrite X3, Y3. cbn [bind].
    replace ((- b_rot B') mod 4) with 0 by (rewrite Q'; reflexivity). destruct c; [exists y2, y3|exists x2, x3]; cbn [negb Z.eqb Pos.eqb fst snd ok_or]; auto.
  - rewrite X2, Y2. cbn [bind]. unfold rotate_vector_data. rewrite X3, Y3. cbn [bind].
    replace ((- b_rot B') mod 4) with 1 by (rewrite Q'; reflexivity). destruct c; [exists y2, y3|exists x2, x3]; cbn [negb Z.eqb Pos.eqb fst snd ok_or]; auto.
  - rewrite X2, Y2. cbn [bind]. unfold rotate_vector_data. rewrite X3, Y3. cbn [bind].
    replace ((- b_rot B') mod 4) with 3 by (rewrite Q'; reflexivity). destruct c; [exists y2, y3|exists x2, x3]; cbn [negb Z.eqb Pos.eqb fst snd ok_or]; auto.
Qed.

Lemma vector_views_exist r : (r < ranks n)%nat -> vviews_exist n (x r) (y r) h r.
Proof.
  intros Hr B I. destruct (back_ok n r B Hn Hr I) as (Ht & I' & T').
  assert (I2 : In B (blist n (Z.to_nat (b_to (back n r B))))) by (rewrite T', Nat2Z.id; auto).
  assert (T2 : b_to B = Z.of_nat (Z.to_nat (b_to B))). { destruct (blist_back n Hn r B Hr I) as (? & _). lia. }
  assert (back n (Z.to_nat (b_to B)) (back n r B) = B) as BB.
  { destruct (back_ok n _ _ Hn Ht I') as (_ & I3 & T3). rewrite T', Nat2Z.id in I3. apply (blist_to_inj n Hn r); auto. congruence. }
  split; [|split].
  - destruct (vector_parts _ _ true Ht I') as (_ & v2 & v3 & _ & E2 & E3 & _).
    destruct (vector_parts _ _ false Ht I') as (_ & w2 & w3 & _ & G2 & G3 & _).
    cbv zeta in *. rewrite BB, T', Nat2Z.id in *. unfold from_comp in *. destruct (b_rot (back n r B) =? 0); cbn [negb hd] in *.
    + exists w2, v2. eexists. split; [exact G2|]. split; [exact E2|]. unfold rotate_vector_data. rewrite G3, E3. reflexivity.
    + exists v2, w2. eexists. split; [exact E2|]. split; [exact G2|]. unfold rotate_vector_data. rewrite G3, E3. reflexivity.
  - destruct (vector_parts r B false Hr I) as (v & _ & _ & E & _). eauto.
  - destruct (vector_parts r B true Hr I) as (v & _ & _ & E & _). eauto.
Qed.

Definition vector_write (c : bool) (r : nat) (B : boundary) : write :=
  let r' := Z.to_nat (b_to B) in
  mkW (b_to B) (vtag c) (h_id (hd c r)) (rview (hd c r) h B) (h_id (hd (from_comp B c) r')) (snd (fst (vpart c r' (back n r B)))) (negated B c).
Definition vector_writes (r : nat) : list write := (map (vector_write false r) (blist n r) ++ map (vector_write true r) (blist n r))%list.

Lemma in_vector_writes r w : In w (vector_writes r) <-> exists c B, In B (blist n r) /\ w = vector_write c r B.
Proof.
  unfold vector_writes. rewrite in_app_iff, !in_map_iff. split.
  - intros [(B & <- & I)|(B & <- & I)]; eauto.
  - intros ([] & B & I & ->); eauto.
Qed.

Lemma vector_message r B c : (r < ranks n)%nat -> In B (blist n r) ->
  let r' := Z.to_nat (b_to B) in let B' := back n r B in
  let w := vector_write c r B in let v1 := w_view w in let v3 := w_sview w in
    vpart c r' B' = (from_comp B c, v3, negated B c) /\
    vshp v3 = vshp v1 /\ inj_view v1 /\
    (forall j, in_side (h_meta (hd c r)) ix iy h (b_type B) j <-> exists p, in_shape (vshp v1) p /\ vmap v1 p = j) /\
    (forall p, in_shape (vshp v1) p ->
       let m := h_meta (hd c r) in let m' := h_meta (hd (from_comp B c) r') in
       let j := vmap v1 p in let j' := vmap v3 p in
       in_domain m' j' /\ same_column m m' ix iy j j' /\ place_of n N ix iy m r j <> None /\
       place_of n N ix iy m' r' j' = place_of n N ix iy m r j /\
       dir_of n N ix iy (from_comp B c) m' r' j' = vscale (if negated B c then -1 else 1) (dir_of n N ix iy c m r j)).
Proof.
  intros Hr I r' B' w v1 v3. destruct (vector_parts r B c Hr I) as (u1 & u2 & u3 & E1 & E2 & E3 & S & J & SD & G).
  destruct (vpart_ok r B c Hr I) as (t2 & t3 & E2' & E3' & P). fold r' B' in E2, E3, E2', E3', P.
  assert (t2 = u2) by congruence. subst t2. assert (t3 = u3) by congruence. subst t3.
  assert (v1 = u1). { unfold v1, w, vector_write. cbn [w_view]. unfold rview. now rewrite E1. }
  assert (v3 = u3). { unfold v3, w, vector_write. cbn [w_sview]. fold r' B'. now rewrite P. }
  rewrite H, H0. split; auto. split; auto. split; auto. split; auto.
  intros p Pp. specialize (G p Pp). cbv zeta in *. destruct G as (G1 & G2 & G3 & G4 & G5). split; auto. split; auto. split; auto. split; auto.
  unfold dir_of, from_comp, negated, unrot_dir in *. fold r' B' in G5.
  assert (V1 : forall u, u = vscale 1 u) by (intros [[]]; unfold vscale; f_equal; [f_equal|]; lia).
  destruct (rotations_back r B Hr I) as [[Q Q']|[[Q Q']|[Q Q']]]; rewrite Q in *; cbn [Z.eqb Pos.eqb negb] in *; injection G5 as Gx Gy;
  destruct c; cbn [negb] in *; rewrite <- ?V1; auto.
Qed.

Lemma hd_inj c c' r : (r < ranks n)%nat -> h_id (hd c r) = h_id (hd c' r) -> c = c'.
Proof. intros Hr E. specialize (XY r Hr). destruct c, c'; cbn in E; congruence. Qed.

Lemma vector_disjoint r : (r < ranks n)%nat -> disjoint_writes (vector_writes r).
Proof.
  intros Hr. split; [|split].
  - pose proof (blist_NoDup_to n Hn r Hr) as ND. apply NoDup_app.
    + apply (NoDup_map_inv w_src). rewrite map_map. exact ND.
    + apply (NoDup_map_inv w_src). rewrite map_map. exact ND.
    + intros w I I'. apply in_map_iff in I, I'. destruct I as (B & <- & _), I' as (B' & E & _).
      apply (f_equal w_tag) in E. cbn in E. congruence.
  - intros w I. apply in_vector_writes in I. destruct I as (c & B & I & ->). now apply vector_message.
  - intros w w' p p' I I' Q P P' E. apply in_vector_writes in I, I'. destruct I as (c & B & I & ->), I' as (c' & B' & I' & ->).
    cbn [w_id vector_write] in Q. apply hd_inj in Q; auto. subst c'. f_equal. apply (blist_type_inj n Hn r); auto.
    destruct (vector_message r B c Hr I) as (_ & _ & _ & S & _). destruct (vector_message r B' c Hr I') as (_ & _ & _ & S' & _).
    apply (in_side_unique N h len ix iy HN Hh0 _ _ ext _ (FV c r Hr) _ _ (vmap (w_view (vector_write c r B)) p)).
    + apply S. eauto. + apply S'. eauto.
Qed.

Lemma vector_deliver k snap m r : (forall c r, (r < ranks n)%nat -> h_id (hd c r) < k)%nat ->
  (forall r, (r < ranks n)%nat -> length (snap r) = k) -> length m = k -> (r < ranks n)%nat ->
  exists m', deliver (vector_x V neg n x y h tag1 tag2) snap r m = Some m' /\ length m' = length m /\
    forall i a, nth_error m i = Some a -> exists a', nth_error m' i = Some a' /\ shp a' = shp a /\
      (i <> h_id (x r) -> i <> h_id (y r) -> forall p, at_ a' p = at_ a p) /\
      (forall c, i = h_id (hd c r) -> forall p,
         (to_fill n N h ix iy (h_meta (hd c r)) r p -> exists c' r' p', (r' < ranks n)%nat /\ in_domain (h_meta (hd c' r')) p' /\
            same_column (h_meta (hd c r)) (h_meta (hd c' r')) ix iy p p' /\
            place_of n N ix iy (h_meta (hd c' r')) r' p' = place_of n N ix iy (h_meta (hd c r)) r p /\
            ((dir_of n N ix iy c' (h_meta (hd c' r')) r' p' = dir_of n N ix iy c (h_meta (hd c r)) r p /\
              at_ a' p = content V snap (fun r => h_id (hd c' r)) d r' p') \/
             (dir_of n N ix iy c' (h_meta (hd c' r')) r' p' = vscale (-1) (dir_of n N ix iy c (h_meta (hd c r)) r p) /\
              at_ a' p = neg (content V snap (fun r => h_id (hd c' r)) d r' p')))) /\
         (~ to_fill n N h ix iy (h_meta (hd c r)) r p -> at_ a' p = at_ a p)).
Proof.
  intros Hid Hsnap Hm Hr.
  destruct (deliver_msgs neg d (vector_x V neg n x y h tag1 tag2) snap r (vector_writes r) m) as (m' & D & L & A).
  - cbn [vector_x x_recvs]. unfold vector_writes. rewrite map_app, !map_map. reflexivity.
  - now apply vector_disjoint.
  - intros w I. apply in_vector_writes in I. destruct I as (c & B & I & ->).
    destruct (vector_message r B c Hr I) as (VP & S & _). cbv zeta in VP, S.
    destruct (back_ok n r B Hn Hr I) as (Ht & I' & T').
    split; [rewrite Hm; cbn; auto|]. split; [cbn; rewrite Hsnap; auto|]. split; [auto|].
    cbn [vector_x x_sends]. rewrite filter_pairs by auto. cbn [w_src w_tag w_from w_neg vector_write].
    rewrite filter_ext with (g := fun x => b_to x =? b_to (back n r B)) by (intros a; now rewrite T').
    rewrite (filter_key b_to) by (auto; now apply blist_NoDup_to). cbn [map]. rewrite T'.
    unfold vpart in VP. unfold vtag, vpayload. destruct c.
    + destruct (Z.eqb_spec tag2 tag1); [congruence|]. rewrite Z.eqb_refl, VP. reflexivity.
    + rewrite Z.eqb_refl, VP. reflexivity.
  - exists m'. split; auto. split; auto. intros i a E. destruct (A i a E) as (a' & E' & S & VW & FR). exists a'. split; auto. split; auto. split.
    + intros NX NY p. apply FR. intros w p0 I Q. apply in_vector_writes in I. destruct I as (c & B & I & ->). cbn in Q. destruct c; cbn in Q; congruence.
    + intros c -> p. pose proof (to_fill_boundary n N h len ix iy _ _ ext (h_meta (hd c r)) r p Hn HN Hh0 (FV c r Hr) Hr) as TF. split.
      * intros T. apply TF in T. destruct T as (B & I & IS). destruct (vector_message r B c Hr I) as (_ & _ & _ & SD & G).
        apply SD in IS. destruct IS as (p0 & P & <-). specialize (G p0 P). cbv zeta in G. destruct G as (G1 & G2 & G3 & G4 & G5).
        destruct (back_ok n r B Hn Hr I) as (Ht & _).
        exists (from_comp B c), (Z.to_nat (b_to B)), (vmap (w_sview (vector_write c r B)) p0). split; auto. split; auto. split; auto. split; auto.
        rewrite (VW (vector_write c r B)); auto; [|apply in_vector_writes; eauto].
        unfold sent_value. change (w_neg (vector_write c r B)) with (negated B c). change (w_from (vector_write c r B)) with (h_id (hd (from_comp B c) (Z.to_nat (b_to B)))).
        change (w_src (vector_write c r B)) with (b_to B). unfold content. destruct (negated B c); [right|left]; split; auto.
        rewrite G5. destruct (dir_of n N ix iy c _ r _) as [[]]. unfold vscale. f_equal; [f_equal|]; lia.
      * intros NT. apply FR. intros w p0 I Q P Ep. apply in_vector_writes in I. destruct I as (c' & B & I & ->). apply NT, TF. exists B. split; auto.
        cbn [w_id vector_write] in Q. apply hd_inj in Q; auto. subst c'. apply (vector_message r B c Hr I). eauto.
Qed.
End Vector.
End Effect.
