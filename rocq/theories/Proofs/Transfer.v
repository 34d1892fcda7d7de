(** One halo message: the sender's rotated interior strip lands on the receiver's halo so that
    positions on the cube agree. *)
From Verif.Base Require Import Base Lemmas.
From Verif.Model Require Import Consts Numpy Quantity Partitioner Rotate.
From Verif.Spec Require Import Grid Cube Halo.
From Verif.Proofs Require Import Slices NumpyProofs Regions.
From Coq Require Import ZifyBool.
Ltac Zify.zify_post_hook ::= idtac.

Lemma find_xy_axes ix iy dims : forall k a b,
  (forall i, (i < length dims)%nat -> axis_of (nth i dims EmptyString) =
     if Nat.eqb (k + i) ix then AxX else if Nat.eqb (k + i) iy then AxY else AxOther) -> ix <> iy ->
  find_xy k dims (a, b) =
    (if (k <=? ix)%nat && (ix <? k + length dims)%nat then Some ix else a,
     if (k <=? iy)%nat && (iy <? k + length dims)%nat then Some iy else b).
Proof.
  induction dims as [|d dims IH]; intros k a b H NE; cbn [find_xy length].
  - f_equal; match goal with |- _ = if ?c then _ else _ => replace c with false by lia end; auto.
  - pose proof (H O ltac:(simpl; lia)) as H0. simpl in H0. rewrite Nat.add_0_r in H0.
    assert (HS : forall i, (i < length dims)%nat -> axis_of (nth i dims EmptyString) =
     if Nat.eqb (S k + i) ix then AxX else if Nat.eqb (S k + i) iy then AxY else AxOther).
    { intros i Hi. specialize (H (S i) ltac:(simpl; lia)). simpl in H. rewrite H. now replace (k + S i)%nat with (S (k + i)) by lia. }
    rewrite sin_X, sin_Y, H0. cbn [fst snd].
    destruct (Nat.eqb_spec k ix); [|destruct (Nat.eqb_spec k iy)]; rewrite IH by auto; f_equal;
    repeat match goal with |- context [if ?c then _ else _] => destruct c eqn:? end; try lia; congruence.
Qed.

Lemma find_xy_fit N h len ix iy sy sx ext m :
  fits N h len ix iy sy sx ext m -> find_xy 0 (m_dims m) (None, None) = (Some ix, Some iy).
Proof.
  intros F. pose proof (fit_ix F) as Hx. pose proof (fit_iy F) as Hy. pose proof (fit_xy F) as NE. pose proof (fit_dims F) as Ld. rewrite find_xy_axes with (ix := ix) (iy := iy).
  - rewrite Ld. f_equal; match goal with |- (if ?c then _ else _) = _ => replace c with true by lia end; auto.
  - intros i Hi. rewrite Ld in Hi. apply (fit_axis F i Hi).
  - auto.
Qed.

(** index map and shape of a rotated view (k quarter turns back) *)
Definition rot_idx (ix iy : nat) (k : Z) (s p : list Z) : list Z :=
  if k =? 0 then p
  else if k =? 1 then i_flip (nth iy s 0) iy (i_swap ix iy p)
  else i_flip (nth ix s 0) ix (i_swap iy ix p).
Definition rot_shape (ix iy : nat) (k : Z) (s : list Z) : list Z :=
  if k =? 0 then s else if k =? 1 then i_swap ix iy s else i_swap iy ix s.

Lemma length_i_swap a b p : length (i_swap a b p) = length p.
Proof. unfold i_swap. now rewrite !length_upd. Qed.
Lemma length_i_flip n a p : length (i_flip n a p) = length p.
Proof. unfold i_flip. now rewrite length_upd. Qed.
Lemma length_rot_idx ix iy k s p : length (rot_idx ix iy k s p) = length p.
Proof. unfold rot_idx. destruct (k =? 0); auto. destruct (k =? 1); now rewrite length_i_flip, length_i_swap. Qed.

Lemma xat_i_swap a b p i : (a < length p)%nat -> (b < length p)%nat -> a <> b ->
  xat (i_swap a b p) i = if Nat.eqb i a then xat p b else if Nat.eqb i b then xat p a else xat p i.
Proof.
  intros Ha Hb NE. unfold xat, i_swap. destruct (Nat.eqb_spec i a); [subst|destruct (Nat.eqb_spec i b); [subst|]].
  - rewrite nth_upd_neq by auto. now rewrite nth_upd_eq.
  - rewrite nth_upd_eq; auto. now rewrite length_upd.
  - now rewrite !nth_upd_neq by auto.
Qed.
Lemma xat_i_flip n a p i : (a < length p)%nat -> xat (i_flip n a p) i = if Nat.eqb i a then n - 1 - xat p a else xat p i.
Proof.
  intros Ha. unfold xat, i_flip. destruct (Nat.eqb_spec i a); [subst; now rewrite nth_upd_eq|now rewrite nth_upd_neq].
Qed.

Lemma rotate_view N h len ix iy sy sx ext m v k :
  fits N h len ix iy sy sx ext m -> length (vshp v) = len -> k = 0 \/ k = 1 \/ k = 3 ->
  exists v', rotate_scalar_data v (m_dims m) (- k) = Ok v' /\ vshp v' = rot_shape ix iy k (vshp v) /\
    forall p, vmap v' p = vmap v (rot_idx ix iy k (vshp v) p).
Proof.
  intros F L K. pose proof (fit_ix F) as Hx. pose proof (fit_iy F) as Hy. unfold rotate_scalar_data. rewrite (find_xy_fit _ _ _ _ _ _ _ _ _ F).
  unfold check_axis. rewrite L. destruct (Nat.ltb_spec ix len); [|lia]. destruct (Nat.ltb_spec iy len); [|lia].
  unfold rot_idx, rot_shape. destruct K as [-> | [-> | ->]]; cbn; eexists; split; try reflexivity; cbn; auto.
Qed.

Section Transfer.
Variables (N h : Z) (len ix iy : nat).
Hypothesis HN : 1 <= N.
Hypothesis Hh : 0 <= h <= N.
Variables (sy sx : Z) (ext : nat -> Z) (m m' : meta) (b b' : btype) (k k' : Z).
Hypothesis F : fits N h len ix iy sy sx ext m.
Hypothesis F' : fits N h len ix iy (fst (swap_if k (sy, sx))) (snd (swap_if k (sy, sx))) ext m'.
Hypothesis K : (k = 0 /\ k' = 0) \/ (k = 1 /\ k' = 3) \/ (k = 3 /\ k' = 1).
Hypothesis HD : heading b' = turn (Z.to_nat k) (- fst (heading b), - snd (heading b)).

Set Default Proof Using "All".
Let Hix := fit_ix F.
Let Hiy := fit_iy F.
Let Hxy := fit_xy F.
Let rb := mboxes b false h m.
Let sb := mboxes b' true h m'.

Lemma rb_len : length rb = len. Proof. apply (length_mboxes _ _ _ _ _ HN Hh _ _ _ _ F). Qed.
Lemma sb_len : length sb = len. Proof. apply (length_mboxes _ _ _ _ _ HN Hh _ _ _ _ F'). Qed.

(** sizes along x and y of the two strips *)
Lemma strip_sizes : let s := box_shape sb in let t := box_shape rb in
  (k = 0 -> xat s ix = xat t ix /\ xat s iy = xat t iy) /\
  (k <> 0 -> xat s ix = xat t iy /\ xat s iy = xat t ix).
Proof.
  cbv zeta. rewrite !nth_box_shape by (rewrite ?rb_len, ?sb_len; auto).
  unfold rb, sb. rewrite !(box_x _ _ _ _ _ HN Hh _ _ _ _ F), !(box_y _ _ _ _ _ HN Hh _ _ _ _ F),
    !(box_x _ _ _ _ _ HN Hh _ _ _ _ F'), !(box_y _ _ _ _ _ HN Hh _ _ _ _ F').
  unfold hregion, swap_if. rewrite HD.
  destruct K as [[-> ->]|[[-> ->]|[-> ->]]]; try change (Z.to_nat 0) with 0%nat; try change (Z.to_nat 1) with 1%nat; try change (Z.to_nat 3) with 3%nat;
  cbn [Z.eqb Pos.eqb turn quarter fst snd];
  destruct b; cbn; split; intros; lia.
Qed.

Lemma strip_shape : rot_shape ix iy k' (box_shape sb) = box_shape rb.
Proof.
  destruct strip_sizes as [S0 S1].
  assert (Ls : length (box_shape sb) = len) by (unfold box_shape; rewrite map_length; apply sb_len).
  assert (Lr : length (box_shape rb) = len) by (unfold box_shape; rewrite map_length; apply rb_len).
  assert (O : forall i, (i < len)%nat -> i <> ix -> i <> iy -> xat (box_shape sb) i = xat (box_shape rb) i).
  { intros i Hi A B. rewrite !nth_box_shape by (rewrite ?rb_len, ?sb_len; auto). unfold rb, sb.
    rewrite (box_other _ _ _ _ _ HN Hh _ _ _ _ F), (box_other _ _ _ _ _ HN Hh _ _ _ _ F') by auto. cbn. lia. }
  apply nth_eq with 0. { unfold rot_shape. destruct (k' =? 0); [|destruct (k' =? 1)]; rewrite ?length_i_swap; lia. }
  assert (LL : length (rot_shape ix iy k' (box_shape sb)) = len).
  { unfold rot_shape. destruct (k' =? 0); [|destruct (k' =? 1)]; rewrite ?length_i_swap; lia. }
  rewrite LL. intros i Hi. fold (xat (rot_shape ix iy k' (box_shape sb)) i). fold (xat (box_shape rb) i).
  unfold rot_shape. destruct K as [[Ek ->]|[[Ek ->]|[Ek ->]]]; cbn [Z.eqb Pos.eqb].
  - destruct (S0 Ek). destruct (Nat.eq_dec i ix) as [->|]; auto. destruct (Nat.eq_dec i iy) as [->|]; auto.
  - destruct (S1 ltac:(lia)). rewrite xat_i_swap by lia.
    destruct (Nat.eqb_spec i iy) as [->|]; [lia|]. destruct (Nat.eqb_spec i ix) as [->|]; [lia|]. auto.
  - destruct (S1 ltac:(lia)). rewrite xat_i_swap by lia.
    destruct (Nat.eqb_spec i ix) as [->|]; [lia|]. destruct (Nat.eqb_spec i iy) as [->|]; [lia|]. auto.
Qed.

Lemma rot_in_strip p : in_shape (box_shape rb) p -> in_shape (box_shape sb) (rot_idx ix iy k' (box_shape sb) p).
Proof.
  destruct strip_sizes as [S0 S1].
  assert (Ls : length (box_shape sb) = len) by (unfold box_shape; rewrite map_length; apply sb_len).
  assert (Lr : length (box_shape rb) = len) by (unfold box_shape; rewrite map_length; apply rb_len).
  assert (O : forall i, (i < len)%nat -> i <> ix -> i <> iy -> xat (box_shape sb) i = xat (box_shape rb) i).
  { intros i Hi A B. rewrite !nth_box_shape by (rewrite ?rb_len, ?sb_len; auto). unfold rb, sb.
    rewrite (box_other _ _ _ _ _ HN Hh _ _ _ _ F), (box_other _ _ _ _ _ HN Hh _ _ _ _ F') by auto. cbn. lia. }
  rewrite !in_shape_nth. intros [L P]. rewrite length_rot_idx, Ls. split; [lia|]. rewrite Lr in *.
  pose proof (P ix Hix) as Px. pose proof (P iy Hiy) as Py.
  intros i Hi. specialize (P i Hi). unfold rot_idx. destruct K as [[Ek ->]|[[Ek ->]|[Ek ->]]]; cbn [Z.eqb Pos.eqb].
  - destruct (S0 Ek). destruct (Nat.eq_dec i ix) as [->|]; [lia|]. destruct (Nat.eq_dec i iy) as [->|]; [lia|].
    rewrite O; auto.
  - destruct (S1 ltac:(lia)). rewrite xat_i_flip by (rewrite length_i_swap; lia). rewrite !xat_i_swap by lia.
    rewrite Nat.eqb_refl. fold (xat (box_shape sb) ix).
    destruct (Nat.eqb_spec i ix) as [->|]. { destruct (Nat.eqb_spec ix iy); [congruence|]. lia. }
    destruct (Nat.eqb_spec i iy) as [->|]; [lia|]. rewrite O; auto.
  - destruct (S1 ltac:(lia)). rewrite xat_i_flip by (rewrite length_i_swap; lia). rewrite !xat_i_swap by lia.
    rewrite Nat.eqb_refl. fold (xat (box_shape sb) iy).
    destruct (Nat.eqb_spec i iy) as [->|]. { destruct (Nat.eqb_spec iy ix); [congruence|]. lia. }
    destruct (Nat.eqb_spec i ix) as [->|]; [lia|]. rewrite O; auto.
Qed.

(** where the element stored at [p] of the receive box comes from *)
Lemma transfer_geometry p : in_shape (box_shape rb) p ->
  let j := box_map rb p in
  let j' := box_map sb (rot_idx ix iy k' (box_shape sb) p) in
  in_side m ix iy h b j /\ in_domain m' j' /\ same_column m m' ix iy j j' /\
  (rel m' j' iy, rel m' j' ix) = unrot k (N + sy) (N + sx) (rel m j iy - fst (heading b) * N, rel m j ix - snd (heading b) * N).
Proof.
  intros P j j'. assert (P' := rot_in_strip p P).
  pose proof (in_shape_length _ _ P) as L. pose proof (in_shape_length _ _ P') as L'.
  assert (Ls : length (box_shape sb) = len) by (unfold box_shape; rewrite map_length; apply sb_len).
  assert (Lr : length (box_shape rb) = len) by (unfold box_shape; rewrite map_length; apply rb_len).
  split. { apply (in_recv_box _ _ _ _ _ HN Hh _ _ _ _ F). apply box_map_in_box in P. apply P. }
  split. { apply (in_send_box _ _ _ _ _ HN Hh _ _ _ _ F' b'). apply box_map_in_box in P'. apply P'. }
  assert (XJ : forall i, (i < len)%nat -> xat j i = fst (nth i rb (0,0)) + xat p i).
  { intros i Hi. unfold j, xat. apply box_map_nth; rewrite rb_len; lia. }
  assert (XJ' : forall i, (i < len)%nat -> xat j' i = fst (nth i sb (0,0)) + xat (rot_idx ix iy k' (box_shape sb) p) i).
  { intros i Hi. unfold j', xat. apply box_map_nth; rewrite sb_len; lia. }
  split.
  - intros i Hi A B. rewrite (fit_dims F) in Hi. unfold rel. rewrite XJ, XJ' by auto. unfold rb, sb.
    rewrite (box_other _ _ _ _ _ HN Hh _ _ _ _ F), (box_other _ _ _ _ _ HN Hh _ _ _ _ F') by auto. fold sb. cbn [fst].
    enough (xat (rot_idx ix iy k' (box_shape sb) p) i = xat p i) by lia.
    unfold rot_idx. destruct K as [[_ ->]|[[_ ->]|[_ ->]]]; cbn [Z.eqb Pos.eqb]; auto;
    rewrite xat_i_flip by (rewrite length_i_swap; lia); rewrite !xat_i_swap by lia;
    destruct (Nat.eqb_spec i ix), (Nat.eqb_spec i iy); congruence.
  - unfold rel. rewrite !XJ, !XJ' by auto.
    assert (R : xat (rot_idx ix iy k' (box_shape sb) p) ix =
               (if k' =? 0 then xat p ix else if k' =? 1 then xat p iy else xat (box_shape sb) ix - 1 - xat p iy) /\
               xat (rot_idx ix iy k' (box_shape sb) p) iy =
               (if k' =? 0 then xat p iy else if k' =? 1 then xat (box_shape sb) iy - 1 - xat p ix else xat p ix)).
    { unfold rot_idx. destruct K as [[_ ->]|[[_ ->]|[_ ->]]]; cbn [Z.eqb Pos.eqb]; auto;
      rewrite !xat_i_flip by (rewrite length_i_swap; lia); rewrite !xat_i_swap by lia; rewrite !Nat.eqb_refl;
      destruct (Nat.eqb_spec ix iy), (Nat.eqb_spec iy ix); try congruence; auto. }
    destruct R as [-> ->]. rewrite !nth_box_shape by (rewrite ?rb_len, ?sb_len; auto).
    unfold rb, sb. rewrite !(box_x _ _ _ _ _ HN Hh _ _ _ _ F), !(box_y _ _ _ _ _ HN Hh _ _ _ _ F),
      !(box_x _ _ _ _ _ HN Hh _ _ _ _ F'), !(box_y _ _ _ _ _ HN Hh _ _ _ _ F').
    unfold hregion, swap_if, unrot. rewrite HD.
    destruct K as [[-> ->]|[[-> ->]|[-> ->]]]; try change (Z.to_nat 0) with 0%nat; try change (Z.to_nat 1) with 1%nat; try change (Z.to_nat 3) with 3%nat;
  cbn [Z.eqb Pos.eqb turn quarter fst snd];
    destruct b; cbn [heading fst snd Z.opp Z.eqb Z.ltb Z.compare Pos.compare Pos.compare_cont CompOpp]; f_equal; lia.
Qed.
End Transfer.
