(** Exactness of the float64 extent computation (C03). *)
From Coq Require Import Reals Lra Psatz.
From Flocq Require Import Core.Core Relative IEEE754.BinarySingleNaN Calc.Bracket.
From Verif.Base Require Import Base.
From Verif.Model Require Import Consts Partitioner.
From Coq Require Import SpecFloat.
Open Scope Z_scope.

Definition prec := 53.
Definition emax := 1024.
#[local] Instance Hprec : FLX.Prec_gt_0 prec := eq_refl _.
#[local] Instance Hmax : Prec_lt_emax prec emax := eq_refl _.

Notation bf := (binary_float prec emax).
Notation fexp := (FLT_exp (3 - emax - prec) prec).
Notation rnd := (round radix2 fexp ZnearestE).

Lemma rne_equiv s m l : round_nearest_even m l = choice_mode mode_NE s m l.
Proof.
  case l; [reflexivity|intro c].
  case c; [ | reflexivity..].
  now simpl; unfold Round.cond_incr; case Z.even.
Qed.

Lemma round_aux_equiv sx mx ex lx :
  SpecFloat.binary_round_aux prec emax sx mx ex lx
  = BinarySingleNaN.binary_round_aux prec emax mode_NE sx mx ex lx.
Proof.
  unfold SpecFloat.binary_round_aux, BinarySingleNaN.binary_round_aux.
  set (mrse' := shr_fexp _ _ _ _ _).
  case mrse'; intros mrs' e'; simpl.
  now rewrite (rne_equiv sx).
Qed.

Lemma round_equiv s m e :
  SpecFloat.binary_round prec emax s m e = BinarySingleNaN.binary_round prec emax mode_NE s m e.
Proof.
  unfold SpecFloat.binary_round, BinarySingleNaN.binary_round, shl_align_fexp.
  set (mez := shl_align _ _ _); case mez as [mz ez].
  apply round_aux_equiv.
Qed.

Lemma normalize_equiv m e sz :
  SpecFloat.binary_normalize prec emax m e sz
  = B2SF (BinarySingleNaN.binary_normalize prec emax Hprec Hmax mode_NE m e sz).
Proof.
  case m as [ | p | p].
  - now simpl.
  - simpl; rewrite B2SF_SF2B; apply round_equiv.
  - simpl; rewrite B2SF_SF2B; apply round_equiv.
Qed.

Lemma mul_equiv (x y : bf) : SFmul prec emax (B2SF x) (B2SF y) = B2SF (Bmult mode_NE x y).
Proof.
  case x as [sx|sx| |sx mx ex Bx]; case y as [sy|sy| |sy my ey By]; [now trivial.. | ].
  simpl. rewrite B2SF_SF2B. apply round_aux_equiv.
Qed.

Lemma sub_equiv (x y : bf) : SFsub prec emax (B2SF x) (B2SF y) = B2SF (Bminus mode_NE x y).
Proof.
  case x as [sx|sx| |sx mx ex Bx]; case y as [sy|sy| |sy my ey By];
    [now (trivial || simpl; case Bool.eqb).. | ].
  simpl. unfold Zminus. rewrite <- cond_Zopp_negb. apply normalize_equiv.
Qed.

Lemma div_equiv (x y : bf) : SFdiv prec emax (B2SF x) (B2SF y) = B2SF (Bdiv mode_NE x y).
Proof.
  case x as [sx|sx| |sx mx ex Bx]; case y as [sy|sy| |sy my ey By];
    [now (trivial || simpl; case Bool.eqb).. | ].
  simpl. rewrite B2SF_SF2B.
  set (melz := SFdiv_core_binary _ _ _ _ _ _).
  case melz as [[mz ez] lz].
  apply round_aux_equiv.
Qed.

Lemma bpow2 e : 0 <= e -> bpow radix2 e = IZR (2 ^ e).
Proof. intros H. symmetry. now apply (IZR_Zpower radix2). Qed.

Lemma format_Z z : Z.abs z <= 2 ^ prec -> generic_format radix2 fexp (IZR z).
Proof.
  intros H. apply generic_format_FLT.
  destruct (Z.eq_dec (Z.abs z) (2 ^ prec)) as [E|E].
  - exists (Float radix2 (Z.sgn z) prec).
    + unfold F2R; simpl Fnum; simpl Fexp.
      rewrite bpow2 by (unfold prec; lia).
      rewrite <- mult_IZR. f_equal. change (2 ^ prec) with 9007199254740992 in *. lia.
    + simpl. change (2 ^ prec) with 9007199254740992 in *. change (radix2 ^ prec) with 9007199254740992. lia.
    + simpl. unfold emax, prec. lia.
  - exists (Float radix2 z 0).
    + unfold F2R; simpl. ring.
    + simpl Fnum. change (Z.pow_pos 2 53) with (2 ^ prec). change (radix2 ^ prec) with (2 ^ prec). lia.
    + simpl. unfold emax, prec. lia.
Qed.

Lemma big_lt_emax z : Z.abs z <= 2 ^ (prec + 1) -> (Rabs (IZR z) < bpow radix2 emax)%R.
Proof.
  intros H. rewrite <- abs_IZR.
  apply Rle_lt_trans with (bpow radix2 (prec + 1)).
  - rewrite bpow2 by (unfold prec; lia).
    now apply IZR_le.
  - apply bpow_lt. unfold prec, emax. lia.
Qed.

Definition repr (f : spec_float) (x : R) : Prop :=
  exists b : bf, f = B2SF b /\ B2R b = x /\ is_finite b = true.

Lemma of_Z_repr z : Z.abs z <= 2 ^ prec -> repr (f64_of_Z z) (IZR z).
Proof.
  intros H.
  exists (BinarySingleNaN.binary_normalize prec emax Hprec Hmax mode_NE z 0 false).
  split; [apply normalize_equiv|].
  generalize (binary_normalize_correct prec emax Hprec Hmax mode_NE z 0 false). cbv zeta.
  change (SpecFloat.fexp prec emax) with fexp.
  change (round_mode mode_NE) with ZnearestE.
  replace (F2R (Float radix2 z 0)) with (IZR z) by (unfold F2R; simpl; ring).
  rewrite round_generic; [|now apply valid_rnd_N|now apply format_Z].
  rewrite Rlt_bool_true.
  - intros [E [F _]]. now split.
  - apply big_lt_emax. change (2 ^ prec) with 9007199254740992 in H.
    change (2 ^ (prec + 1)) with 18014398509481984. lia.
Qed.

Lemma mul_repr f g x y : repr f x -> repr g y -> (Rabs (rnd (x * y)) < bpow radix2 emax)%R ->
  repr (f64_mul f g) (rnd (x * y)).
Proof.
  intros (b & -> & <- & Fb) (c & -> & <- & Fc) H.
  exists (Bmult mode_NE b c). split; [apply mul_equiv|].
  generalize (Bmult_correct prec emax Hprec Hmax mode_NE b c).
  change (SpecFloat.fexp prec emax) with fexp. change (round_mode mode_NE) with ZnearestE.
  rewrite Rlt_bool_true by exact H.
  intros [E [F _]]. rewrite Fb, Fc in F. now split.
Qed.

Lemma sub_repr f g x y : repr f x -> repr g y -> (Rabs (rnd (x - y)) < bpow radix2 emax)%R ->
  repr (f64_sub f g) (rnd (x - y)).
Proof.
  intros (b & -> & <- & Fb) (c & -> & <- & Fc) H.
  exists (Bminus mode_NE b c). split; [apply sub_equiv|].
  generalize (Bminus_correct prec emax Hprec Hmax mode_NE b c Fb Fc).
  change (SpecFloat.fexp prec emax) with fexp. change (round_mode mode_NE) with ZnearestE.
  rewrite Rlt_bool_true by exact H.
  intros [E [F _]]. now split.
Qed.

Lemma div_repr f g x y : repr f x -> repr g y -> y <> 0%R ->
  (Rabs (rnd (x / y)) < bpow radix2 emax)%R ->
  repr (f64_div f g) (rnd (x / y)).
Proof.
  intros (b & -> & <- & Fb) (c & -> & <- & Fc) N H.
  exists (Bdiv mode_NE b c). split; [apply div_equiv|].
  generalize (Bdiv_correct prec emax Hprec Hmax mode_NE b c N).
  change (SpecFloat.fexp prec emax) with fexp. change (round_mode mode_NE) with ZnearestE.
  rewrite Rlt_bool_true by exact H.
  intros [E [F _]]. rewrite Fb in F. now split.
Qed.

Lemma trunc_repr f x k : repr f x -> 0 <= k -> (IZR k <= x < IZR (k + 1))%R -> f64_trunc f = Ok k.
Proof.
  intros (b & -> & <- & Fb) Hk [Lo Hi].
  destruct b as [s|s| |s m e Hb]; simpl in Fb; try discriminate.
  - simpl in *. rewrite plus_IZR in Hi. f_equal.
    assert (k <= 0). { apply le_IZR. simpl. lra. } lia.
  - cbn [B2SF f64_trunc]. unfold B2R in Lo, Hi. 
    destruct s.
    + exfalso. assert (F2R (Float radix2 (cond_Zopp true (Z.pos m)) e) < 0)%R.
      { apply F2R_lt_0. simpl. lia. }
      assert (0 <= IZR k)%R by (apply IZR_le; lia). lra.
    + f_equal. unfold F2R in Lo, Hi. cbn [Fnum Fexp cond_Zopp] in Lo, Hi.
      destruct (Z.leb_spec 0 e) as [He|He].
      * rewrite <- IZR_Zpower in Lo, Hi by lia.
        rewrite <- mult_IZR in Lo, Hi.
        apply le_IZR in Lo. apply lt_IZR in Hi. change (radix_val radix2) with 2 in *. lia.
      * assert (P : 0 < 2 ^ (- e)) by (apply Z.pow_pos_nonneg; lia).
        assert (E : (bpow radix2 e * IZR (2 ^ (- e)) = 1)%R).
        { change 2 with (radix_val radix2). rewrite IZR_Zpower by lia.
          rewrite <- bpow_plus. replace (e + - e) with 0 by lia. reflexivity. }
        assert (PR : (0 < IZR (2 ^ (- e)))%R) by (now apply IZR_lt).
        symmetry. apply Z.div_unique_pos with (Z.pos m - 2 ^ (- e) * k); [|lia].
        split.
        -- assert (IZR (2 ^ (-e) * k) <= IZR (Z.pos m))%R.
           { rewrite mult_IZR.
             apply Rle_trans with (IZR (Z.pos m) * bpow radix2 e * IZR (2 ^ (- e)))%R.
             - rewrite (Rmult_comm (IZR (2 ^ (- e)))). apply Rmult_le_compat_r; lra.
             - rewrite Rmult_assoc, E. lra. }
           apply le_IZR in H. lia.
        -- assert (IZR (Z.pos m) < IZR (2 ^ (- e) * (k + 1)))%R.
           { rewrite mult_IZR.
             apply Rle_lt_trans with (IZR (Z.pos m) * bpow radix2 e * IZR (2 ^ (- e)))%R.
             - rewrite Rmult_assoc, E. lra.
             - rewrite (Rmult_comm (IZR (2 ^ (- e)))). apply Rmult_lt_compat_r; lra. }
           apply lt_IZR in H. lia.
Qed.

Lemma cexp_in y e : -1000 <= e -> (bpow radix2 e <= y < bpow radix2 (e + 1))%R -> cexp radix2 fexp y = e - 52.
Proof.
  intros He H. unfold cexp.
  assert (M : mag radix2 y = e + 1 :> Z).
  { apply mag_unique. replace (e + 1 - 1) with e by lia.
    rewrite Rabs_pos_eq; [exact H|]. pose proof (bpow_gt_0 radix2 e). lra. }
  rewrite M. unfold FLT_exp, emax, prec. lia.
Qed.

Lemma Znearest_half K : Z.even K = true -> ZnearestE (IZR K - / 2) = K.
Proof.
  intros HK.
  assert (F : Zfloor (IZR K - / 2) = K - 1).
  { apply Zfloor_imp. rewrite minus_IZR, plus_IZR, minus_IZR. lra. }
  unfold Znearest. rewrite F, minus_IZR.
  replace (IZR K - / 2 - (IZR K - 1))%R with (/ 2)%R by lra.
  rewrite Rcompare_Eq by reflexivity.
  replace (Z.even (K - 1)) with false.
  - simpl. apply Zceil_imp. rewrite minus_IZR. lra.
  - symmetry. rewrite <- Z.negb_odd, Z.odd_sub, <- Z.negb_even, HK. reflexivity.
Qed.

Lemma rnd_near_int k : 1 <= k <= 2 ^ 52 -> rnd (IZR k - IZR k * bpow radix2 (-54)) = IZR k.
Proof.
  intros [K1 K2].
  destruct (mag radix2 (IZR k)) as [e' He].
  assert (NZ : IZR k <> 0%R) by (apply not_0_IZR; lia).
  specialize (He NZ). rewrite Rabs_pos_eq in He by (apply IZR_le; lia).
  set (e := e' - 1) in *. replace e' with (e + 1) in He by (unfold e; lia).
  assert (E0 : 0 <= e).
  { assert (bpow radix2 0 < bpow radix2 (e + 1))%R.
    { eapply Rle_lt_trans; [|apply He]. simpl. apply IZR_le. lia. }
    apply lt_bpow in H. lia. }
  assert (E52 : e <= 52).
  { assert (bpow radix2 e <= bpow radix2 52)%R.
    { eapply Rle_trans; [apply He|]. rewrite bpow2 by lia. now apply IZR_le. }
    apply le_bpow in H. lia. }
  rewrite !bpow2 in He by lia. destruct He as [L U].
  apply le_IZR in L. apply lt_IZR in U.
  set (d := bpow radix2 (-54)).
  assert (Dpos : (0 < d)%R) by apply bpow_gt_0.
  assert (D54 : (d * IZR (2 ^ 54) = 1)%R).
  { unfold d. rewrite <- bpow2 by lia. rewrite <- bpow_plus. reflexivity. }
  assert (P : 0 < 2 ^ (52 - e)) by (apply Z.pow_pos_nonneg; lia).
  destruct (Z.eq_dec k (2 ^ e)) as [Ek|Nk].
  - (* power of two: a tie *)
    assert (Hy : (bpow radix2 (e - 1) <= IZR k - IZR k * d < bpow radix2 (e - 1 + 1))%R).
    { rewrite Ek. replace (e - 1 + 1) with e by lia. rewrite <- bpow2 by lia.
      pose proof (bpow_gt_0 radix2 e) as B.
      assert (d <= / 2)%R.
      { change (/2)%R with (bpow radix2 (-1)). apply bpow_le. lia. }
      replace e with (e - 1 + 1) at 2 3 by lia. rewrite !bpow_plus. change (bpow radix2 1) with 2%R.
      pose proof (bpow_gt_0 radix2 (e-1)). split; nra. }
    unfold round, F2R, scaled_mantissa. cbn [Fnum Fexp].
    rewrite (cexp_in _ (e - 1)) by (auto; lia).
    replace ((IZR k - IZR k * d) * bpow radix2 (- (e - 1 - 52)))%R with (IZR (2 ^ 53) - / 2)%R.
    2:{ rewrite Ek. rewrite <- !bpow2 by lia. unfold d.
        rewrite Rmult_minus_distr_r. rewrite <- !bpow_plus.
        replace (e + - (e - 1 - 52)) with 53 by lia.
        replace (e + -54 + - (e - 1 - 52)) with (-1) by lia. reflexivity. }
    rewrite Znearest_half by reflexivity.
    rewrite Ek, <- !bpow2 by lia. rewrite <- bpow_plus. f_equal. lia.
  - assert (Hk : 2 ^ e + 1 <= k) by lia.
    assert (KB : k <= 2 ^ 53) by lia.
    assert (IK : (IZR k * d <= / 2)%R).
    { apply Rle_trans with (IZR (2 ^ 53) * d)%R.
      - apply Rmult_le_compat_r; [lra|]. now apply IZR_le.
      - rewrite <- bpow2 by lia. unfold d. rewrite <- bpow_plus. apply Rle_refl. }
    assert (Hy : (bpow radix2 e <= IZR k - IZR k * d < bpow radix2 (e + 1))%R).
    { rewrite !bpow2 by lia. apply IZR_le in Hk. rewrite plus_IZR in Hk. apply IZR_lt in U.
      assert (0 < IZR k)%R by (apply IZR_lt; lia). split; nra. }
    unfold round, F2R, scaled_mantissa. cbn [Fnum Fexp].
    rewrite (cexp_in _ e) by (auto; lia).
    rewrite (Znearest_imp _ _ (k * 2 ^ (52 - e))).
    + rewrite mult_IZR, <- bpow2 by lia. rewrite Rmult_assoc, <- bpow_plus.
      replace (52 - e + (e - 52)) with 0 by lia. simpl. ring.
    + replace (- (e - 52)) with (52 - e) by lia. rewrite bpow2 by lia.
      rewrite mult_IZR.
      replace ((IZR k - IZR k * d) * IZR (2 ^ (52 - e)) - IZR k * IZR (2 ^ (52 - e)))%R
        with (- (IZR k * IZR (2 ^ (52 - e)) * d))%R by ring.
      rewrite Rabs_Ropp, Rabs_pos_eq.
      2:{ apply Rmult_le_pos; [|lra]. rewrite <- mult_IZR. apply IZR_le. lia. }
      rewrite <- mult_IZR.
      assert (IZR (k * 2 ^ (52 - e)) < IZR (2 ^ 53))%R.
      { apply IZR_lt. replace (2 ^ 53) with (2 ^ (e + 1) * 2 ^ (52 - e)).
        - apply Z.mul_lt_mono_pos_r; lia.
        - rewrite <- Z.pow_add_r by lia. f_equal. lia. }
      apply Rlt_le_trans with (IZR (2 ^ 53) * d)%R.
      * apply Rmult_lt_compat_r; lra.
      * rewrite <- bpow2 by lia. unfold d. rewrite <- bpow_plus. apply Rle_refl.
Qed.

(** the half-integer k + 1/2 is a float for k < 2^52 *)
Lemma format_half k : 0 <= k < 2 ^ 52 -> generic_format radix2 fexp (IZR k + / 2).
Proof.
  intros H.
  apply generic_format_FLT. exists (Float radix2 (2 * k + 1) (-1)).
  - unfold F2R. cbn [Fnum Fexp]. rewrite plus_IZR, mult_IZR. simpl bpow. lra.
  - cbn [Fnum]. change (radix2 ^ prec) with (2 * 2 ^ 52). lia.
  - cbn [Fexp]. unfold emax, prec. lia.
Qed.

(** [recip_ok n]: n * fl(1/n) >= 1 - 2^-54, decided with integers *)
Definition recip_ok (n : Z) : bool :=
  match f64_recip n with
  | S754_finite false m e => (2 ^ 54 - 1) * 2 ^ (- e) <=? n * Zpos m * 2 ^ 54
  | _ => false
  end.

Lemma pow54 : (bpow radix2 (-54) * IZR (2 ^ 54) = 1)%R.
Proof. rewrite <- bpow2 by lia. rewrite <- bpow_plus. reflexivity. Qed.

Lemma bpow_opp_l e : (bpow radix2 e * bpow radix2 (- e) = 1)%R.
Proof. rewrite <- bpow_plus. replace (e + - e) with 0 by lia. reflexivity. Qed.

Lemma recip_bounds n : 1 <= n <= 2 ^ 53 -> 
  (0 < rnd (1 / IZR n) /\ IZR n * rnd (1 / IZR n) <= 1 + bpow radix2 (-53) /\ rnd (1 / IZR n) <= 1)%R.
Proof.
  intros [N1 N2].
  assert (Np : (1 <= IZR n)%R) by (now apply IZR_le).
  assert (Nq : (IZR n <= bpow radix2 53)%R) by (rewrite bpow2 by lia; now apply IZR_le).
  assert (I1 : (bpow radix2 (-53) <= 1 / IZR n)%R).
  { unfold Rdiv. rewrite Rmult_1_l. change (-53) with (Z.opp 53). rewrite (bpow_opp radix2 53).
    apply Rinv_le; lra. }
  assert (I2 : (1 / IZR n <= 1)%R).
  { unfold Rdiv. rewrite Rmult_1_l. rewrite <- Rinv_1. apply Rinv_le; lra. }
  pose proof (relative_error_N_FLT radix2 (3 - emax - prec) prec Hprec (fun x => negb (Z.even x)) (1 / IZR n)) as RE.
  assert (A : Rabs (1 / IZR n) = (1 / IZR n)%R) by (apply Rabs_pos_eq; pose proof (bpow_gt_0 radix2 (-53)); lra).
  rewrite A in RE.
  specialize (RE ltac:(eapply Rle_trans; [|exact I1]; apply bpow_le; unfold emax, prec; lia)).
  change (-prec + 1) with (-52) in RE.
  assert (B : (/ 2 * bpow radix2 (-52) = bpow radix2 (-53))%R).
  { change (/2)%R with (bpow radix2 (-1)). rewrite <- bpow_plus. reflexivity. }
  rewrite B in RE.
  apply Rabs_le_inv in RE.
  assert (N : (IZR n * (1 / IZR n) = 1)%R) by (field; lra).
  pose proof (bpow_gt_0 radix2 (-53)).
  repeat split.
  - assert (bpow radix2 (-53) < 1)%R by (change 1%R with (bpow radix2 0); apply bpow_lt; lia).
    nra.
  - destruct RE as [_ RE]. nra.
  - apply Rle_trans with (rnd 1).
    + apply round_le; [now apply FLT_exp_valid|now apply valid_rnd_N|exact I2].
    + rewrite round_generic; [lra|now apply valid_rnd_N|].
      change 1%R with (IZR 1). apply format_Z. unfold prec. lia.
Qed.

Lemma recip_repr n : 1 <= n <= 2 ^ 53 -> repr (f64_recip n) (rnd (1 / IZR n)).
Proof.
  intros H. apply (div_repr _ _ 1 (IZR n)).
  - apply (of_Z_repr 1). unfold prec. lia.
  - apply of_Z_repr. unfold prec. lia.
  - apply not_0_IZR. lia.
  - destruct (recip_bounds n H) as (P & _ & Q). rewrite Rabs_pos_eq by lra.
    apply Rle_lt_trans with 1%R; [exact Q|]. change 1%R with (bpow radix2 0). apply bpow_lt. reflexivity.
Qed.

Lemma recip_ok_real n : 1 <= n <= 2 ^ 53 ->
  recip_ok n = true <-> (1 - bpow radix2 (-54) <= IZR n * rnd (1 / IZR n))%R.
Proof.
  intros H. destruct (recip_repr n H) as (b & E & R & F).
  destruct (recip_bounds n H) as (P & _ & Q).
  unfold recip_ok. rewrite E. rewrite <- R in *.
  destruct b as [s|s| |s m e Hb]; simpl in F; try discriminate.
  - simpl in P. lra.
  - destruct s.
    + assert (F2R (Float radix2 (cond_Zopp true (Z.pos m)) e) < 0)%R by (apply F2R_lt_0; simpl; lia).
      unfold B2R in P. lra.
    + cbn [B2SF]. unfold B2R. unfold B2R in P, Q. unfold F2R in *. cbn [Fnum Fexp cond_Zopp] in *.
      assert (E0 : e <= 0).
      { apply le_bpow with radix2. simpl bpow at 2.
        assert (1 <= IZR (Z.pos m))%R by (apply IZR_le; lia).
        pose proof (bpow_gt_0 radix2 e). nra. }
      rewrite Z.leb_le.
      pose proof pow54 as P54. pose proof (bpow_opp_l e) as PE.
      rewrite (bpow2 (- e)) in PE by lia.
      assert (X : forall a b, a <= b <-> (IZR a <= IZR b)%R) by (split; [apply IZR_le|apply le_IZR]).
      rewrite X, !mult_IZR, minus_IZR.
      set (t := bpow radix2 e) in *. set (T := IZR (2 ^ (- e))) in *.
      set (d := bpow radix2 (-54)) in *. set (D := IZR (2 ^ 54)) in *.
      assert (0 < t)%R by apply bpow_gt_0. assert (0 < d)%R by apply bpow_gt_0.
      assert (0 < T)%R by nra. assert (0 < D)%R by nra.
      split; intros G.
      * apply Rmult_le_reg_r with (T * D)%R; [nra|].
        replace ((1 - d) * (T * D))%R with ((D - d * D) * T)%R by ring.
        replace (IZR n * (IZR (Z.pos m) * t) * (T * D))%R with (IZR n * IZR (Z.pos m) * D * (t * T))%R by ring.
        rewrite PE, P54. lra.
      * apply Rmult_le_compat_r with (r := (T * D)%R) in G; [|nra].
        replace ((1 - d) * (T * D))%R with ((D - d * D) * T)%R in G by ring.
        replace (IZR n * (IZR (Z.pos m) * t) * (T * D))%R with (IZR n * IZR (Z.pos m) * D * (t * T))%R in G by ring.
        rewrite PE, P54 in G. lra.
Qed.

Lemma rnd_le x y : (x <= y)%R -> (rnd x <= rnd y)%R.
Proof. intros. apply round_le; [now apply FLT_exp_valid|now apply valid_rnd_N|assumption]. Qed.

Lemma rnd_Z k : Z.abs k <= 2 ^ 53 -> rnd (IZR k) = IZR k.
Proof. intros. apply round_generic; [now apply valid_rnd_N|now apply format_Z]. Qed.

Lemma mul_exact n k : 1 <= n -> 0 <= k -> k * n <= 2 ^ 52 -> recip_ok n = true \/ k = 0 ->
  n <= 2 ^ 53 ->
  exists x, repr (f64_mul (f64_of_Z (k * n)) (f64_recip n)) x /\
    generic_format radix2 fexp x /\
    (x = IZR k \/ (k < 2 ^ 52 - 1 /\ (IZR k <= x <= IZR k + / 2)%R)).
Proof.
  intros Hn Hk Hkn OK Hn'.
  assert (RB := recip_bounds n ltac:(lia)). destruct RB as (P & U & _).
  assert (Rr := recip_repr n ltac:(lia)).
  assert (Zr := of_Z_repr (k * n) ltac:(unfold prec; lia)).
  set (f := rnd (1 / IZR n)) in *.
  assert (Hf : (IZR k <= rnd (IZR (k * n) * f) /\
    (rnd (IZR (k * n) * f) = IZR k \/ ((k < 2 ^ 52 - 1)%Z /\ rnd (IZR (k * n) * f) <= IZR k + / 2)))%R).
  { destruct (Z.eq_dec k 0) as [->|Nk].
    { rewrite Z.mul_0_l, Rmult_0_l. rewrite (rnd_Z 0) by lia. split; [lra|left; reflexivity]. }
    destruct OK as [OK|]; [|lia].
    apply recip_ok_real in OK; [|lia]. fold f in OK.
    destruct (Z.eq_dec n 1) as [->|Nn].
    { assert (F1 : f = 1%R). { unfold f. replace (1 / 1)%R with (IZR 1) by (simpl; field). apply rnd_Z. lia. }
      rewrite F1, Z.mul_1_r, Rmult_1_r. rewrite rnd_Z by lia. split; [lra|now left]. }
    assert (K51 : k <= 2 ^ 51). { change (2 ^ 52) with (2 * 2 ^ 51) in Hkn. nia. }
    assert (KR : (0 <= IZR k)%R) by (now apply IZR_le).
    rewrite mult_IZR. split.
    - rewrite <- (rnd_near_int k) at 1 by lia.
      apply rnd_le. nra.
    - right. split; [lia|].
      rewrite <- (round_generic radix2 fexp ZnearestE (IZR k + / 2)) by (apply format_half; lia).
      apply rnd_le.
      assert (IZR k * bpow radix2 (-53) <= / 2)%R.
      { apply Rle_trans with (bpow radix2 52 * bpow radix2 (-53))%R.
        - apply Rmult_le_compat_r; [apply bpow_ge_0|]. rewrite bpow2 by lia. apply IZR_le. lia.
        - rewrite <- bpow_plus. apply Rle_refl. }
      nra. }
  exists (rnd (IZR (k * n) * f)). split; [|split].
  - apply mul_repr; auto.
    assert (IZR k <= IZR (2 ^ 52))%R by (apply IZR_le; nia).
    assert (0 <= IZR k)%R by (now apply IZR_le).
    rewrite Rabs_pos_eq by lra.
    apply Rle_lt_trans with (IZR (2 ^ 53)).
    + change (2 ^ 53) with (2 ^ 52 + 2 ^ 52). rewrite plus_IZR.
      assert (1 <= IZR (2 ^ 52))%R by (apply IZR_le; lia).
      destruct Hf as [_ [->|[_ Hf]]]; lra.
    + rewrite <- bpow2 by lia. apply bpow_lt. reflexivity.
  - apply generic_format_round; [now apply FLT_exp_valid|now apply valid_rnd_N].
  - destruct Hf as [A [B|[B C]]]; [now left|right; auto].
Qed.

(** The float computation is exact: cell-centred ([add] = 0) and interface ([add] = -1). *)
Lemma float_extent_exact dim n k : 1 <= n <= 2 ^ 53 -> 0 <= k -> k * n <= 2 ^ 52 ->
  recip_ok n = true \/ k = 0 ->
  float_extent dim (k * n - add_extent dim) (f64_recip n) = Ok (k - add_extent dim).
Proof.
  intros Hn Hk Hkn OK.
  destruct (mul_exact n k) as (x & Rx & Gx & Hx); try lia; try tauto.
  unfold float_extent. replace (k * n - add_extent dim + add_extent dim) with (k * n) by lia.
  assert (K52 : k <= 2 ^ 52) by nia.
  assert (B0 : (0 <= IZR k)%R) by (now apply IZR_le).
  assert (B1 : (IZR k <= IZR (2 ^ 52))%R) by (now apply IZR_le).
  assert (B2 : (2 <= IZR (2 ^ 52))%R) by (apply IZR_le; lia).
  assert (BE : (IZR (2 ^ 53) < bpow radix2 emax)%R) by (rewrite <- bpow2 by lia; apply bpow_lt; reflexivity).
  change (2 ^ 53) with (2 ^ 52 + 2 ^ 52) in BE. rewrite plus_IZR in BE.
  unfold add_extent. destruct (sin dim INTERFACE_DIMS).
  - replace (k - -1) with (k + 1) by lia.
    assert (L : (IZR (k + 1) <= rnd (x - IZR (-1)) < IZR (k + 1 + 1))%R).
    { destruct Hx as [->|[Hk2 Hx]].
      - replace (IZR k - IZR (-1))%R with (IZR (k + 1)) by (rewrite plus_IZR; lra).
        rewrite rnd_Z by lia. split; [lra|]. apply IZR_lt. lia.
      - split.
        + rewrite <- (rnd_Z (k + 1)) at 1 by lia. apply rnd_le. rewrite plus_IZR. lra.
        + apply Rle_lt_trans with (rnd (IZR (k + 1) + / 2)).
          * apply rnd_le. rewrite plus_IZR. lra.
          * rewrite round_generic; [|now apply valid_rnd_N|apply format_half; lia].
            rewrite (plus_IZR (k + 1)). lra. }
    apply (trunc_repr _ (rnd (x - IZR (-1)))); [|lia|exact L].
    apply sub_repr; [exact Rx|apply of_Z_repr; unfold prec; lia|].
    rewrite !plus_IZR in L. rewrite Rabs_pos_eq by lra. lra.
  - replace (k - 0) with k by lia.
    assert (E : rnd (x - IZR 0) = x) by (rewrite Rminus_0_r; apply round_generic; [now apply valid_rnd_N|exact Gx]).
    apply (trunc_repr _ x); [|lia|].
    + rewrite <- E. apply sub_repr; [exact Rx|apply of_Z_repr; unfold prec; lia|].
      rewrite E. destruct Hx as [->|[_ Hx]]; rewrite Rabs_pos_eq by lra; lra.
    + rewrite plus_IZR. destruct Hx as [->|[_ Hx]]; lra.
Qed.

(** Conversely, if n * fl(1/n) < 1 - 2^-54 then n cells on n ranks are computed as 0 cells each. *)
Lemma float_extent_fails dim n : 1 <= n <= 2 ^ 52 -> sin dim INTERFACE_DIMS = false ->
  recip_ok n = false -> float_extent dim n (f64_recip n) = Ok 0.
Proof.
  intros Hn Hd OK.
  assert (RB := recip_bounds n ltac:(lia)). destruct RB as (P & U & _).
  assert (Rr := recip_repr n ltac:(lia)).
  assert (Zr := of_Z_repr n ltac:(unfold prec; lia)).
  assert (NR : (1 <= IZR n)%R) by (apply IZR_le; lia).
  assert (H : (IZR n * rnd (1 / IZR n) < 1 - bpow radix2 (-54))%R).
  { apply Rnot_le_lt. intros C. apply recip_ok_real in C; [congruence|lia]. }
  set (f := rnd (1 / IZR n)) in *.
  set (d := bpow radix2 (-53)).
  assert (D2 : (bpow radix2 (-54) * 2 = d)%R).
  { unfold d. change 2%R with (bpow radix2 1). rewrite <- bpow_plus. reflexivity. }
  assert (Dp : (0 < d)%R) by apply bpow_gt_0.
  assert (Dl : (d < 1)%R) by (change 1%R with (bpow radix2 0); apply bpow_lt; lia).
  assert (Gd : generic_format radix2 fexp (1 - d)).
  { apply generic_format_FLT. exists (Float radix2 (2 ^ 53 - 1) (-53)).
    - unfold F2R. cbn [Fnum Fexp]. rewrite minus_IZR. fold d.
      assert (IZR (2 ^ 53) * d = 1)%R.
      { unfold d. rewrite <- bpow2 by lia. rewrite <- bpow_plus. reflexivity. }
      lra.
    - cbn [Fnum]. change (radix2 ^ prec) with (2 ^ 53). lia.
    - cbn [Fexp]. unfold emax, prec. lia. }
  assert (L : (rnd (IZR n * f) <= 1 - d)%R).
  { (* scaled by 2^53 the argument is below 2^53 - 1/2 *)
    destruct (Rlt_or_le (IZR n * f) (/ 2)) as [S|S].
    - assert (rnd (IZR n * f) <= rnd (/ 2))%R by (apply rnd_le; lra).
      rewrite (round_generic radix2 fexp ZnearestE (/2)) in H0.
      + assert (d <= / 2)%R by (change (/2)%R with (bpow radix2 (-1)); apply bpow_le; lia). lra.
      + change (/2)%R with (bpow radix2 (-1)). apply generic_format_bpow. unfold FLT_exp, emax, prec. lia.
    - unfold round, F2R, scaled_mantissa. cbn [Fnum Fexp].
      rewrite (cexp_in _ (-1)); [|lia|].
      2:{ simpl bpow. pose proof (bpow_gt_0 radix2 (-54)). lra. }
      replace (- (-1 - 52)) with 53 by lia. replace (-1 - 52) with (-53) by lia. fold d.
      assert (Zl : ZnearestE (IZR n * f * bpow radix2 53) <= 2 ^ 53 - 1).
      { apply Z.le_trans with (ZnearestE (IZR (2 ^ 53 - 1))).
        2:{ rewrite Znearest_imp with (n := 2 ^ 53 - 1); [lia|].
            rewrite Rminus_eq_0, Rabs_R0. lra. }
        assert (T : (IZR n * f * bpow radix2 53 < IZR (2 ^ 53) - / 2)%R).
        { apply Rlt_le_trans with ((1 - bpow radix2 (-54)) * bpow radix2 53)%R.
          - apply Rmult_lt_compat_r; [apply bpow_gt_0|exact H].
          - rewrite Rmult_minus_distr_r, <- bpow_plus, Rmult_1_l, bpow2 by lia. simpl (-54 + 53).
            change (bpow radix2 (-1)) with (/2)%R. lra. }
        destruct (Rle_or_lt (IZR n * f * bpow radix2 53) (IZR (2 ^ 53 - 1))) as [Q|Q].
        - apply Zrnd_le; [apply valid_rnd_N|exact Q].
        - rewrite (Znearest_imp _ (IZR n * f * bpow radix2 53) (2 ^ 53 - 1)).
          + rewrite (Znearest_imp _ _ (2 ^ 53 - 1)); [lia|]. rewrite Rminus_eq_0, Rabs_R0. lra.
          + rewrite minus_IZR in *. rewrite Rabs_pos_eq by lra. lra. }
      apply IZR_le in Zl. rewrite minus_IZR in Zl.
      assert (IZR (2 ^ 53) * d = 1)%R.
      { unfold d. rewrite <- bpow2 by lia. rewrite <- bpow_plus. reflexivity. }
      nra. }
  assert (L0 : (0 <= rnd (IZR n * f))%R).
  { assert (E := rnd_Z 0 ltac:(lia)). rewrite <- E. apply rnd_le. nra. }
  assert (BE : (1 < bpow radix2 emax)%R) by (change 1%R with (bpow radix2 0); apply bpow_lt; reflexivity).
  unfold float_extent, add_extent. rewrite Hd. rewrite Z.add_0_r.
  assert (E : rnd (rnd (IZR n * f) - IZR 0) = rnd (IZR n * f)).
  { rewrite Rminus_0_r. apply round_generic; [now apply valid_rnd_N|].
    apply generic_format_round; [now apply FLT_exp_valid|now apply valid_rnd_N]. }
  apply (trunc_repr _ (rnd (IZR n * f))); [|lia|change (0 + 1) with 1; lra].
  rewrite <- E. apply sub_repr.
  - apply mul_repr; auto. rewrite Rabs_pos_eq; lra.
  - apply of_Z_repr. unfold prec. lia.
  - rewrite E. rewrite Rabs_pos_eq; lra.
Qed.

(** [c - 2^-q] is a float when [c * 2^q <= 2^53] *)
Lemma format_below c q : 0 <= q <= 53 -> 1 <= c -> c * 2 ^ q <= 2 ^ 53 ->
  generic_format radix2 fexp (IZR c - bpow radix2 (- q)).
Proof.
  intros Hq Hc H.
  apply generic_format_FLT. exists (Float radix2 (c * 2 ^ q - 1) (- q)).
  - unfold F2R. cbn [Fnum Fexp]. rewrite minus_IZR, mult_IZR, <- bpow2 by lia.
    rewrite Rmult_minus_distr_r, Rmult_assoc, <- bpow_plus.
    replace (q + - q) with 0 by lia. simpl. lra.
  - cbn [Fnum]. change (radix2 ^ prec) with (2 ^ 53).
    assert (1 <= 2 ^ q) by (apply Z.lt_pred_le; simpl; apply Z.pow_pos_nonneg; lia). nia.
  - cbn [Fexp]. unfold emax, prec. lia.
Qed.

Lemma recip_lower n : 1 <= n <= 2 ^ 53 ->
  (1 - bpow radix2 (-53) <= IZR n * rnd (1 / IZR n))%R.
Proof.
  intros [N1 N2].
  assert (Np : (1 <= IZR n)%R) by (now apply IZR_le).
  assert (Nq : (IZR n <= bpow radix2 53)%R) by (rewrite bpow2 by lia; now apply IZR_le).
  assert (I1 : (bpow radix2 (-53) <= 1 / IZR n)%R).
  { unfold Rdiv. rewrite Rmult_1_l. change (-53) with (Z.opp 53). rewrite (bpow_opp radix2 53).
    apply Rinv_le; lra. }
  pose proof (relative_error_N_FLT radix2 (3 - emax - prec) prec Hprec (fun x => negb (Z.even x)) (1 / IZR n)) as RE.
  assert (A : Rabs (1 / IZR n) = (1 / IZR n)%R) by (apply Rabs_pos_eq; pose proof (bpow_gt_0 radix2 (-53)); lra).
  rewrite A in RE.
  specialize (RE ltac:(eapply Rle_trans; [|exact I1]; apply bpow_le; unfold emax, prec; lia)).
  change (-prec + 1) with (-52) in RE.
  assert (B : (/ 2 * bpow radix2 (-52) = bpow radix2 (-53))%R).
  { change (/2)%R with (bpow radix2 (-1)). rewrite <- bpow_plus. reflexivity. }
  rewrite B in RE.
  apply Rabs_le_inv in RE.
  assert (N : (IZR n * (1 / IZR n) = 1)%R) by (field; lra).
  destruct RE as [RE _].
  apply (Rmult_le_compat_l (IZR n)) in RE; [|lra].
  rewrite Rmult_minus_distr_l, N in RE.
  replace (IZR n * - (bpow radix2 (-53) * (1 / IZR n)))%R with (- bpow radix2 (-53))%R in RE by (field; lra).
  lra.
Qed.

Lemma pow2_between n : 1 <= n <= 2 ^ 50 -> exists q, 0 <= q <= 52 /\ 2 * n <= 2 ^ q < 4 * n.
Proof.
  intros H. exists (Z.log2 (2 * n - 1) + 1).
  destruct (Z.eq_dec n 1) as [->|N]. { simpl. lia. }
  pose proof (Z.log2_spec (2 * n - 1) ltac:(lia)) as [L U].
  assert (0 <= Z.log2 (2 * n - 1)) by apply Z.log2_nonneg.
  assert (Z.log2 (2 * n - 1) <= 51).
  { change 51 with (Z.log2 (2 ^ 51)). apply Z.log2_le_mono. lia. }
  unfold Z.succ in U. split; [lia|]. split; [lia|].
  rewrite Z.pow_add_r by lia. lia.
Qed.

(** For an extent that is not a multiple of the layout the float computation is floor division. *)
Lemma float_extent_nondiv dim n e : 1 <= n -> 0 <= e -> e + 2 * n <= 2 ^ 51 -> e mod n <> 0 ->
  float_extent dim (e - add_extent dim) (f64_recip n) = Ok (e / n - add_extent dim).
Proof.
  intros Hn He Hen Hmod.
  pose proof (Z.div_mod e n ltac:(lia)) as DM. pose proof (Z.mod_pos_bound e n ltac:(lia)) as MB.
  set (k := e / n) in *. set (r := e mod n) in *.
  assert (Hk : 0 <= k) by (apply Z.div_pos; lia).
  assert (RB := recip_bounds n ltac:(lia)). destruct RB as (P & U & _).
  assert (Lo := recip_lower n ltac:(lia)).
  assert (Rr := recip_repr n ltac:(lia)).
  assert (Zr := of_Z_repr e ltac:(unfold prec; lia)).
  destruct (pow2_between n ltac:(lia)) as (q & Hq & Q1 & Q2).
  set (f := rnd (1 / IZR n)) in *.
  set (d := bpow radix2 (-53)) in *.
  assert (Dp : (0 < d)%R) by apply bpow_gt_0.
  assert (E1 : (IZR e * d <= / 4)%R).
  { apply Rle_trans with (bpow radix2 51 * d)%R.
    - apply Rmult_le_compat_r; [lra|]. rewrite bpow2 by lia. apply IZR_le. lia.
    - unfold d. rewrite <- bpow_plus. apply Rle_refl. }
  assert (NR : (1 <= IZR n)%R) by (apply IZR_le; lia).
  assert (ER : (0 <= IZR e)%R) by (apply IZR_le; lia).
  assert (EE : (IZR e = IZR n * IZR k + IZR r)%R) by (rewrite <- mult_IZR, <- plus_IZR; f_equal; exact DM).
  assert (R1 : (1 <= IZR r)%R) by (apply IZR_le; lia).
  assert (R2 : (IZR r <= IZR n - 1)%R) by (rewrite <- minus_IZR; apply IZR_le; lia).
  set (g := bpow radix2 (- q)).
  assert (Gp : (0 < g)%R) by apply bpow_gt_0.
  assert (G2 : (g * (2 * IZR n) <= 1)%R).
  { apply Rle_trans with (g * bpow radix2 q)%R.
    - apply Rmult_le_compat_l; [lra|]. rewrite bpow2 by lia. rewrite <- (mult_IZR 2). now apply IZR_le.
    - unfold g. rewrite <- bpow_plus. replace (- q + q) with 0 by lia. apply Rle_refl. }
  (* IZR n * (e * f) is within e*d of e *)
  assert (A1 : (IZR n * (IZR e * f) <= IZR e + / 4)%R) by nra.
  assert (A2 : (IZR e - / 4 <= IZR n * (IZR e * f))%R) by nra.
  assert (X1 : (IZR k <= IZR e * f)%R).
  { apply Rmult_le_reg_l with (IZR n); [lra|]. nra. }
  assert (X2 : (IZR e * f <= IZR (k + 1) - g)%R).
  { apply Rmult_le_reg_l with (IZR n); [lra|]. rewrite plus_IZR. nra. }
  assert (K2 : (k + 2) * 2 ^ q <= 2 ^ 53) by nia.
  assert (F1 := format_below (k + 1) q ltac:(lia) ltac:(lia) ltac:(nia)). fold g in F1.
  assert (F2 := format_below (k + 2) q ltac:(lia) ltac:(lia) K2). fold g in F2.
  assert (Kb : k <= 2 ^ 51) by nia.
  assert (Kr : (0 <= IZR k <= IZR (2 ^ 51))%R) by (split; apply IZR_le; lia).
  assert (Y1 : (IZR k <= rnd (IZR e * f))%R) by (rewrite <- (rnd_Z k) at 1 by lia; now apply rnd_le).
  assert (Y2 : (rnd (IZR e * f) <= IZR (k + 1) - g)%R).
  { rewrite <- (round_generic radix2 fexp ZnearestE _ F1). apply rnd_le. exact X2. }
  assert (BE : (IZR (2 ^ 53) < bpow radix2 emax)%R) by (rewrite <- bpow2 by lia; apply bpow_lt; reflexivity).
  change (2 ^ 53) with (2 ^ 51 + 2 ^ 51 * 3) in BE. rewrite plus_IZR in BE.
  assert (BB : (2 <= IZR (2 ^ 51 * 3))%R) by (apply IZR_le; lia).
  rewrite plus_IZR in Y2.
  assert (Mr : repr (f64_mul (f64_of_Z e) (f64_recip n)) (rnd (IZR e * f))).
  { apply mul_repr; auto. rewrite Rabs_pos_eq by lra. lra. }
  unfold float_extent. replace (e - add_extent dim + add_extent dim) with e by lia.
  unfold add_extent. destruct (sin dim INTERFACE_DIMS).
  - replace (k - -1) with (k + 1) by lia.
    assert (L : (IZR (k + 1) <= rnd (rnd (IZR e * f) - IZR (-1)) < IZR (k + 1 + 1))%R).
    { split.
      - rewrite <- (rnd_Z (k + 1)) at 1 by lia. apply rnd_le. rewrite plus_IZR. lra.
      - apply Rle_lt_trans with (IZR (k + 2) - g)%R.
        + rewrite <- (round_generic radix2 fexp ZnearestE _ F2). apply rnd_le. rewrite plus_IZR. lra.
        + replace (k + 1 + 1) with (k + 2) by lia. lra. }
    apply (trunc_repr _ (rnd (rnd (IZR e * f) - IZR (-1)))); [|lia|exact L].
    apply sub_repr; [exact Mr|apply of_Z_repr; unfold prec; lia|].
    rewrite !plus_IZR in L. rewrite Rabs_pos_eq by lra. lra.
  - replace (k - 0) with k by lia.
    assert (E : rnd (rnd (IZR e * f) - IZR 0) = rnd (IZR e * f)).
    { rewrite Rminus_0_r. apply round_generic; [now apply valid_rnd_N|].
      apply generic_format_round; [now apply FLT_exp_valid|now apply valid_rnd_N]. }
    apply (trunc_repr _ (rnd (IZR e * f))); [|lia|].
    + rewrite <- E. apply sub_repr; [exact Mr|apply of_Z_repr; unfold prec; lia|].
      rewrite E. rewrite Rabs_pos_eq by lra. lra.
    + rewrite plus_IZR. lra.
Qed.

(** All extents at once: floor division of the number of grid cells. *)
Lemma float_extent_div dim n c : 1 <= n -> 0 <= c -> c + 2 * n <= 2 ^ 51 ->
  recip_ok n = true \/ c mod n <> 0 \/ c = 0 ->
  float_extent dim (c - add_extent dim) (f64_recip n) = Ok (c / n - add_extent dim).
Proof.
  intros Hn Hc Hcn OK.
  destruct (Z.eq_dec (c mod n) 0) as [E|E].
  - assert (D : c = c / n * n) by (pose proof (Z.div_mod c n ltac:(lia)); lia).
    assert (0 <= c / n) by (apply Z.div_pos; lia).
    rewrite D at 1. apply float_extent_exact; try lia.
  - apply float_extent_nondiv; lia.
Qed.

(** Every layout below 49 is good; 49 is the first bad one. *)
Lemma recip_ok_below_49 n : 1 <= n < 49 -> recip_ok n = true.
Proof.
  intros H.
  assert (C : forallb recip_ok (map (Z.add 1) (zrange 48)) = true) by (vm_compute; reflexivity).
  rewrite forallb_forall in C. apply C.
  apply in_map_iff. exists (n - 1). split; [lia|].
  unfold zrange. apply in_map_iff. exists (Z.to_nat (n - 1)). split; [lia|]. apply in_seq. lia.
Qed.

Lemma recip_ok_49 : recip_ok 49 = false.
Proof. vm_compute. reflexivity. Qed.
