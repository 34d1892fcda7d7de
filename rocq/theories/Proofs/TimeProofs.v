(** Proofs about the conversion of dates (C69). *)
From Coq Require Import Reals Lra Psatz.
From Flocq Require Import Core.Core Relative IEEE754.BinarySingleNaN Calc.Bracket.
From Verif.Base Require Import Base.
From Verif.Model Require Import Consts Partitioner Time.
From Verif.Spec Require Import Dates.
From Coq Require Import SpecFloat.
From Verif.Proofs Require Import FloatExtent.
Open Scope Z_scope.
#[local] Existing Instance Hprec.
#[local] Existing Instance Hmax.

Lemma rnd_err x e : -900 <= e -> (Rabs x < bpow radix2 e)%R -> (Rabs (rnd x - x) <= bpow radix2 (e - 54))%R.
Proof.
  intros He H. destruct (Req_dec x 0) as [->|N].
  - rewrite round_0 by apply valid_rnd_N. rewrite Rminus_0_r, Rabs_R0. apply bpow_ge_0.
  - eapply Rle_trans; [apply (error_le_half_ulp radix2 fexp (fun x => negb (Z.even x)) x)|].
    rewrite ulp_neq_0 by auto. change (/ 2)%R with (bpow radix2 (-1)). rewrite <- bpow_plus. apply bpow_le.
    pose proof (mag_le_bpow radix2 x e N H). unfold cexp, FLT_exp, emax, prec in *. lia.
Qed.

Lemma rnd_err_le x e : -900 <= e -> (Rabs x <= bpow radix2 e)%R -> (Rabs (rnd x - x) <= bpow radix2 (e - 54))%R.
Proof.
  intros He [H|H]; [now apply rnd_err|].
  assert (G : generic_format radix2 fexp (Rabs x)) by (rewrite H; apply generic_format_bpow'; [apply FLT_exp_valid; exact Hprec|unfold FLT_exp, emax, prec; lia]).
  apply generic_format_abs_inv in G. rewrite round_generic by (auto; apply valid_rnd_N). rewrite Rminus_diag_eq, Rabs_R0 by reflexivity. apply bpow_ge_0.
Qed.

Lemma bounded_facts m e : SpecFloat.bounded prec emax m e = true -> Zpos m < 2 ^ 53 /\ -1074 <= e <= 971.
Proof.
  unfold SpecFloat.bounded, canonical_mantissa. rewrite andb_true_iff. intros [A B]. apply Zeq_bool_eq in A. apply Z.leb_le in B.
  unfold SpecFloat.fexp, SpecFloat.emin, prec, emax in *. rewrite Digits.Zpos_digits2_pos in A.
  split; [|lia]. destruct (Digits.Zdigits_correct radix2 (Zpos m)) as [_ U]. cbn [Z.abs] in U.
  eapply Z.lt_le_trans; [exact U|]. change 2 with (radix_val radix2). apply Z.pow_le_mono_r; [reflexivity|]. lia.
Qed.

Lemma F2R_div m e : e < 0 -> F2R (Float radix2 m e) = (IZR m / IZR (2 ^ (- e)))%R.
Proof.
  intros H. unfold F2R. cbn [Fnum Fexp]. unfold Rdiv. f_equal. rewrite <- bpow2 by lia. rewrite <- bpow_opp. f_equal. lia.
Qed.

Lemma normalize_repr n e s : Z.abs n < 2 ^ 53 -> -1074 <= e <= 0 -> repr (SpecFloat.binary_normalize 53 1024 n e s) (F2R (Float radix2 n e)).
Proof.
  intros Hn He. exists (BinarySingleNaN.binary_normalize prec emax Hprec Hmax mode_NE n e s).
  split; [apply normalize_equiv|].
  generalize (binary_normalize_correct prec emax Hprec Hmax mode_NE n e s). cbv zeta.
  change (SpecFloat.fexp prec emax) with fexp. change (round_mode mode_NE) with ZnearestE.
  assert (G : generic_format radix2 fexp (F2R (Float radix2 n e))).
  { apply generic_format_FLT. exists (Float radix2 n e); [reflexivity|exact Hn|]. cbn [Fexp]. unfold emax, prec. lia. }
  rewrite round_generic; [|now apply valid_rnd_N|exact G].
  rewrite Rlt_bool_true; [intros [E [F _]]; now split|].
  rewrite <- F2R_Zabs. apply Rle_lt_trans with (F2R (Float radix2 (Z.abs n) 0)).
  - unfold F2R. cbn [Fnum Fexp]. apply Rmult_le_compat_l; [apply IZR_le; lia|]. apply bpow_le. lia.
  - unfold F2R. cbn [Fnum Fexp]. change (bpow radix2 0) with 1%R. rewrite Rmult_1_r. apply Rlt_le_trans with (bpow radix2 53).
    + rewrite bpow2 by lia. now apply IZR_lt.
    + apply bpow_le. unfold emax. lia.
Qed.
Lemma zero_repr s : repr (S754_zero s) 0.
Proof. exists (B754_zero s). repeat split. Qed.

Lemma modf_repr f x : repr f x -> exists i p r, f64_modf f = Ok (i, p) /\ repr p r /\ x = (IZR i + r)%R /\ (Rabs r < 1)%R.
Proof.
  intros (b & -> & <- & Fb). destruct b as [s|s| |s m e Hb]; cbn [is_finite] in Fb; try discriminate.
  - exists 0, (S754_zero s), 0%R. split; [reflexivity|]. split; [apply zero_repr|]. cbn [B2R]. rewrite Rabs_R0. split; lra.
  - cbn [B2SF f64_modf B2R]. destruct (bounded_facts m e Hb) as [M E]. destruct (Z.leb_spec 0 e) as [He|He].
    + exists (if s then - (Zpos m * 2 ^ e) else Zpos m * 2 ^ e), (S754_zero s), 0%R. split; [reflexivity|]. split; [apply zero_repr|]. rewrite Rabs_R0. split; [|lra].
      unfold F2R. cbn [Fnum Fexp]. rewrite bpow2 by lia. rewrite <- mult_IZR, Rplus_0_r. f_equal. destruct s; cbn [cond_Zopp]; lia.
    + set (d := 2 ^ (- e)). assert (Dp : 0 < d) by (apply Z.pow_pos_nonneg; lia).
      pose proof (Z.div_mod (Zpos m) d ltac:(lia)) as DM. pose proof (Z.mod_pos_bound (Zpos m) d Dp) as MB.
      assert (Mr : Zpos m mod d <= Zpos m) by (apply Z.mod_le; lia).
      eexists _, _, _. split; [reflexivity|]. split; [apply normalize_repr; [destruct s; lia|lia]|].
      rewrite !F2R_div by lia. fold d.
      assert (DR : (0 < IZR d)%R) by (apply IZR_lt; lia).
      split.
      * apply Rmult_eq_reg_r with (IZR d); [|lra]. unfold Rdiv. rewrite Rmult_plus_distr_r, !Rmult_assoc, Rinv_l by lra. rewrite !Rmult_1_r. rewrite <- mult_IZR, <- plus_IZR. f_equal. destruct s; cbn [cond_Zopp]; lia.
      * apply Rabs_lt. assert (L : (IZR (- d) < IZR (if s then - (Z.pos m mod d) else Z.pos m mod d) < IZR d)%R) by (split; apply IZR_lt; destruct s; lia).
        rewrite opp_IZR in L. destruct L as [L1 L2]. split.
        -- apply Rmult_lt_reg_r with (IZR d); [auto|]. unfold Rdiv. rewrite Rmult_assoc, Rinv_l by lra. lra.
        -- apply Rmult_lt_reg_r with (IZR d); [auto|]. unfold Rdiv. rewrite Rmult_assoc, Rinv_l by lra. lra.
Qed.

Lemma half_even_repr f y : repr f y -> (Rabs (IZR (f64_half_even f) - y) <= / 2)%R.
Proof.
  intros (b & -> & <- & Fb). destruct b as [s|s| |s m e Hb]; cbn [is_finite] in Fb; try discriminate.
  - cbn [B2SF f64_half_even B2R]. rewrite Rminus_0_r, Rabs_R0. lra.
  - cbn [B2SF f64_half_even B2R]. destruct (Z.leb_spec 0 e) as [He|He].
    + unfold F2R. cbn [Fnum Fexp]. rewrite bpow2 by lia. rewrite <- mult_IZR, <- minus_IZR, <- abs_IZR.
      replace (Z.abs _) with 0 by (destruct s; cbn [cond_Zopp]; lia). lra.
    + rewrite F2R_div by lia. set (d := 2 ^ (- e)). assert (Dp : 0 < d) by (apply Z.pow_pos_nonneg; lia).
      pose proof (Z.div_mod (Zpos m) d ltac:(lia)) as DM. pose proof (Z.mod_pos_bound (Zpos m) d Dp) as MB.
      assert (DR : (0 < IZR d)%R) by (apply IZR_lt; lia).
      set (a := match 2 * (Z.pos m mod d) ?= d with Eq => if Z.even (Z.pos m / d) then Z.pos m / d else Z.pos m / d + 1 | Lt => Z.pos m / d | Gt => Z.pos m / d + 1 end).
      assert (A : Z.abs (2 * (a * d - Zpos m)) <= d).
      { unfold a. destruct (Z.compare_spec (2 * (Z.pos m mod d)) d); [destruct (Z.even (Z.pos m / d))| |]; lia. }
      assert (Q : (Rabs (IZR a - IZR (Zpos m) / IZR d) <= / 2)%R).
      { apply Rmult_le_reg_r with (IZR d); [auto|]. rewrite <- (Rabs_pos_eq (IZR d)) at 2 by lra. rewrite <- Rabs_mult.
        replace ((IZR a - IZR (Z.pos m) / IZR d) * IZR d)%R with (IZR a * IZR d - IZR (Zpos m))%R by (field; lra).
        rewrite <- mult_IZR, <- minus_IZR, <- abs_IZR.
        assert (X : (IZR (Z.abs (2 * (a * d - Z.pos m))) <= IZR d)%R) by now apply IZR_le.
        rewrite Z.abs_mul, mult_IZR in X. change (IZR (Z.abs 2)) with 2%R in X. lra. }
      destruct s; cbn [cond_Zopp]; [|exact Q]. rewrite !opp_IZR.
      replace (- IZR a - - IZR (Z.pos m) / IZR d)%R with (- (IZR a - IZR (Zpos m) / IZR d))%R by (field; lra). now rewrite Rabs_Ropp.
Qed.

(** a float timestamp is converted with an error of little more than half a microsecond *)
Lemma utc_repr f x : repr f x -> exists n, (Rabs (IZR n - x * 1000000) <= / 2 + bpow radix2 (-34))%R /\
  utcfromtimestamp f = if (-62135596800 <=? n / 1000000) && (n / 1000000 <=? 253402300799) then Ok n else Err ValueError.
Proof.
  intros H. destruct (modf_repr f x H) as (i & p & r & E & Rp & -> & Hr).
  assert (M : (Rabs (r * 1000000) < bpow radix2 20)%R).
  { rewrite Rabs_mult, (Rabs_pos_eq 1000000) by lra. change (bpow radix2 20) with 1048576%R. lra. }
  pose proof (rnd_err _ 20 ltac:(lia) M) as Er. change (20 - 54) with (-34) in Er.
  assert (Rm : repr (f64_mul p (f64_of_Z 1000000)) (rnd (r * 1000000))).
  { apply mul_repr; [auto|apply (of_Z_repr 1000000); unfold prec; lia|]. apply Rlt_trans with (bpow radix2 22); [|apply bpow_lt; unfold emax; lia].
    replace (rnd (r * 1000000)) with (r * 1000000 + (rnd (r * 1000000) - r * 1000000))%R by ring.
    eapply Rle_lt_trans; [apply Rabs_triang|]. assert (bpow radix2 (-34) <= bpow radix2 20)%R by (apply bpow_le; lia).
    change (bpow radix2 22) with 4194304%R. change (bpow radix2 20) with 1048576%R in *. lra. }
  pose proof (half_even_repr _ _ Rm) as Hh.
  exists (i * 1000000 + f64_half_even (f64_mul p (f64_of_Z 1000000))). split.
  - rewrite plus_IZR, mult_IZR.
    replace (IZR i * 1000000 + IZR (f64_half_even (f64_mul p (f64_of_Z 1000000))) - (IZR i + r) * 1000000)%R with
      ((IZR (f64_half_even (f64_mul p (f64_of_Z 1000000))) - rnd (r * 1000000)) + (rnd (r * 1000000) - r * 1000000))%R by ring.
    eapply Rle_trans; [apply Rabs_triang|]. lra.
  - unfold utcfromtimestamp. rewrite E. reflexivity.
Qed.

Lemma bpow_m34 : bpow radix2 (-34) = (/ 17179869184)%R. Proof. reflexivity. Qed.

Lemma stamp f x (z : R) : repr f x -> (Rabs (x * 1000000 - z) <= 4945 / 10000)%R -> (Rabs z <= 20000000000000000)%R -> exists n, utcfromtimestamp f = Ok n /\ (Rabs (IZR n - z) < 1)%R.
Proof.
  intros Rf Hx Hz. destruct (utc_repr f x Rf) as (n & Hn & ->).
  assert (D : (Rabs (IZR n - z) < 1)%R).
  { replace (IZR n - z)%R with ((IZR n - x * 1000000) + (x * 1000000 - z))%R by ring. eapply Rle_lt_trans; [apply Rabs_triang|].
    rewrite bpow_m34 in Hn. lra. }
  exists n. split; [|exact D].
  assert (B : - 20000000000000001 < n < 20000000000000001).
  { apply Rabs_lt_inv in D. apply Rabs_le_inv in Hz. split; apply lt_IZR; lra. }
  assert (-20000000001 <= n / 1000000) by (apply Z.div_le_lower_bound; lia).
  assert (n / 1000000 < 20000000001) by (apply Z.div_lt_upper_bound; lia).
  replace ((-62135596800 <=? n / 1000000) && (n / 1000000 <=? 253402300799)) with true; [reflexivity|]. symmetry. rewrite andb_true_iff, !Z.leb_le. lia.
Qed.

(** numbers of units below 2^53: one rounding *)
Lemma quotient_repr n d e : Z.abs n <= 2 ^ 53 -> 1 <= d <= 2 ^ 53 -> 0 <= e <= 900 -> (Rabs (IZR n / IZR d) < bpow radix2 e)%R ->
  exists x, repr (f64_div (f64_of_Z n) (f64_of_Z d)) x /\ (Rabs (x - IZR n / IZR d) <= bpow radix2 (e - 54))%R.
Proof.
  intros Hn Hd He H. pose proof (rnd_err (IZR n / IZR d) e ltac:(lia) H) as Er.
  exists (rnd (IZR n / IZR d)). split; [|exact Er]. apply div_repr; [now apply of_Z_repr|apply of_Z_repr; unfold prec; lia|apply not_0_IZR; lia|].
  replace (rnd (IZR n / IZR d)) with (IZR n / IZR d + (rnd (IZR n / IZR d) - IZR n / IZR d))%R by ring.
  eapply Rle_lt_trans; [apply Rabs_triang|]. apply Rlt_le_trans with (bpow radix2 e + bpow radix2 e)%R.
  - assert (bpow radix2 (e - 54) <= bpow radix2 e)%R by (apply bpow_le; lia). lra.
  - replace (bpow radix2 e + bpow radix2 e)%R with (bpow radix2 (e + 1)); [apply bpow_le; unfold emax; lia|].
    rewrite bpow_plus. change (bpow radix2 1) with 2%R. ring.
Qed.

Lemma Rabs_quotient n d e : 0 < d -> 0 <= e -> Z.abs n < 2 ^ e * d -> (Rabs (IZR n / IZR d) < bpow radix2 e)%R.
Proof.
  intros Hd He H. rewrite bpow2 by auto. assert (DR : (0 < IZR d)%R) by (apply IZR_lt; lia).
  unfold Rdiv. rewrite Rabs_mult, Rabs_inv, (Rabs_pos_eq (IZR d)) by lra. apply Rmult_lt_reg_r with (IZR d); [auto|].
  rewrite Rmult_assoc, Rinv_l, Rmult_1_r by lra. rewrite <- mult_IZR, <- abs_IZR. now apply IZR_lt.
Qed.

Theorem exact_times u k : u <> Nanoseconds -> within (2 ^ 33) u k -> exists us, datetime64_to_datetime u k = Ok us /\ same_time us u k.
Proof.
  intros Nu W. unfold within, same_time in *.
  assert (F : exists c d, k * coarse u = c /\ per_second u = d /\ 1 <= d <= 1000000 /\ Z.abs c < 2 ^ 33 * d /\ 1000000 mod d = 0 /\ k * nanoseconds u = c * (1000000 / d) * 1000).
  { exists (k * coarse u), (per_second u). destruct u; try congruence; cbn [nanoseconds coarse per_second] in *; (split; [reflexivity|]); (split; [reflexivity|]); (split; [lia|]); (split; [lia|]); (split; [reflexivity|]);
      match goal with |- context [1000000 / ?d] => let v := eval vm_compute in (1000000 / d) in change (1000000 / d) with v end; lia. }
  destruct F as (c & d & Ec & Ed & Hd & Hc & Hm & Hk).
  assert (NN : k <> NaT).
  { intros ->. unfold NaT in *. destruct u; cbn [coarse per_second] in *; lia. }
  unfold datetime64_to_datetime. apply Z.eqb_neq in NN. rewrite NN, Ec, Ed. rewrite Hk.
  destruct (quotient_repr c d 33) as (x & Rx & Hx); [lia|lia|lia|apply Rabs_quotient; lia|].
  change (33 - 54) with (-21) in Hx. change (bpow radix2 (-21)) with (/ 2097152)%R in Hx.
  set (M := c * (1000000 / d)).
  assert (DR : (0 < IZR d)%R) by (apply IZR_lt; lia).
  assert (EM : (IZR M = IZR c / IZR d * 1000000)%R).
  { unfold M. pose proof (Z.div_mod 1000000 d ltac:(lia)) as X. rewrite Hm, Z.add_0_r in X. rewrite mult_IZR.
    replace 1000000%R with (IZR (d * (1000000 / d))) by (now rewrite <- X). rewrite mult_IZR. field. lra. }
  destruct (stamp _ x (IZR M) Rx) as (n & -> & Hn).
  - rewrite EM. replace (x * 1000000 - IZR c / IZR d * 1000000)%R with ((x - IZR c / IZR d) * 1000000)%R by ring.
    rewrite Rabs_mult, (Rabs_pos_eq 1000000) by lra. lra.
  - rewrite <- abs_IZR. apply IZR_le. unfold M. rewrite Z.abs_mul.
    assert (Z.abs (1000000 / d) = 1000000 / d) by (apply Z.abs_eq; apply Z.div_pos; lia). rewrite H.
    pose proof (Z.div_mod 1000000 d ltac:(lia)) as X. rewrite Hm, Z.add_0_r in X. nia.
  - exists n. split; [reflexivity|]. assert (n = M); [|now subst].
    rewrite <- minus_IZR, <- abs_IZR in Hn. apply lt_IZR in Hn. lia.
Qed.

(** numbers of nanoseconds do not fit 53 bits *)
Theorem nanosecond_times k : within (2 ^ 32) Nanoseconds k -> exists us, datetime64_to_datetime Nanoseconds k = Ok us /\ nearly_same_time us Nanoseconds k /\ (k mod 1000 = 0 -> same_time us Nanoseconds k).
Proof.
  unfold within, nearly_same_time, same_time. cbn [nanoseconds]. rewrite Z.mul_1_r. intros W.
  unfold datetime64_to_datetime. replace (k =? NaT) with false by (unfold NaT; lia). cbn [coarse per_second]. rewrite Z.mul_1_r.
  assert (Kb : (Rabs (IZR k) < bpow radix2 62)%R) by (rewrite <- abs_IZR, bpow2 by lia; apply IZR_lt; lia).
  pose proof (rnd_err (IZR k) 62 ltac:(lia) Kb) as E1. change (62 - 54) with 8 in E1. change (bpow radix2 8) with 256%R in E1.
  assert (Rk : repr (f64_of_Z k) (rnd (IZR k))).
  { exists (BinarySingleNaN.binary_normalize prec emax Hprec Hmax mode_NE k 0 false). split; [apply normalize_equiv|].
    generalize (binary_normalize_correct prec emax Hprec Hmax mode_NE k 0 false). cbv zeta.
    change (SpecFloat.fexp prec emax) with fexp. change (round_mode mode_NE) with ZnearestE.
    replace (F2R (Float radix2 k 0)) with (IZR k) by (unfold F2R; cbn [Fnum Fexp]; change (bpow radix2 0) with 1%R; ring).
    rewrite Rlt_bool_true; [intros [E [F _]]; now split|].
    apply Rlt_trans with (bpow radix2 63); [|apply bpow_lt; unfold emax; lia].
    replace (rnd (IZR k)) with (IZR k + (rnd (IZR k) - IZR k))%R by ring. eapply Rle_lt_trans; [apply Rabs_triang|].
    change (bpow radix2 62) with 4611686018427387904%R in Kb. change (bpow radix2 63) with 9223372036854775808%R. lra. }
  set (y := (rnd (IZR k) / 1000000000)%R).
  assert (Yb : (Rabs y <= bpow radix2 32)%R).
  { assert (G : (Rabs (rnd (IZR k)) <= 4294967296000000000)%R).
    { apply abs_round_le_generic; [apply FLT_exp_valid; exact Hprec|apply valid_rnd_N| |].
      - apply generic_format_FLT. exists (Float radix2 (4294967296000000000 / 2 ^ 9) 9); [|reflexivity|cbn [Fexp]; unfold emax, prec; lia].
        unfold F2R. cbn [Fnum Fexp]. rewrite bpow2 by lia. rewrite <- mult_IZR. reflexivity.
      - rewrite <- abs_IZR. apply IZR_le. lia. }
    unfold y, Rdiv. rewrite Rabs_mult, Rabs_inv, (Rabs_pos_eq 1000000000) by lra. change (bpow radix2 32) with 4294967296%R. lra. }
  pose proof (rnd_err_le y 32 ltac:(lia) Yb) as E2. change (32 - 54) with (-22) in E2. change (bpow radix2 (-22)) with (/ 4194304)%R in E2.
  assert (Rx : repr (f64_div (f64_of_Z k) (f64_of_Z 1000000000)) (rnd y)).
  { apply div_repr; [exact Rk|apply (of_Z_repr 1000000000); unfold prec; lia|lra|]. fold y.
    apply Rlt_trans with (bpow radix2 34); [|apply bpow_lt; unfold emax; lia].
    replace (rnd y) with (y + (rnd y - y))%R by ring. eapply Rle_lt_trans; [apply Rabs_triang|].
    change (bpow radix2 32) with 4294967296%R in Yb. change (bpow radix2 34) with 17179869184%R. lra. }
  destruct (stamp _ (rnd y) (IZR k / 1000) Rx) as (n & -> & Hn).
  - replace (rnd y * 1000000 - IZR k / 1000)%R with ((rnd y - y) * 1000000 + (rnd (IZR k) - IZR k) / 1000)%R by (unfold y; field).
    eapply Rle_trans; [apply Rabs_triang|]. rewrite Rabs_mult, (Rabs_pos_eq 1000000) by lra. unfold Rdiv. rewrite Rabs_mult, (Rabs_pos_eq (/ 1000)) by lra. lra.
  - unfold Rdiv. rewrite Rabs_mult, (Rabs_pos_eq (/ 1000)) by lra. change (bpow radix2 62) with 4611686018427387904%R in Kb. lra.
  - exists n. split; [reflexivity|].
    assert (D : Z.abs (n * 1000 - k) < 1000).
    { apply lt_IZR. rewrite abs_IZR, minus_IZR, mult_IZR. replace (IZR n * 1000 - IZR k)%R with ((IZR n - IZR k / 1000) * 1000)%R by field.
      rewrite Rabs_mult, (Rabs_pos_eq 1000) by lra. lra. }
    split; [exact D|]. intros Hm. pose proof (Z.div_mod k 1000 ltac:(lia)). lia.
Qed.

Theorem whole_second_times u k : whole_seconds u -> Z.abs (k * nanoseconds u) <= 2 ^ 53 * 1000000000 ->
  (in_years u k /\ exists us, datetime64_to_datetime u k = Ok us /\ same_time us u k) \/ (~ in_years u k /\ datetime64_to_datetime u k = Err ValueError).
Proof.
  intros Wu B0. unfold in_years, same_time.
  assert (B : Z.abs (k * coarse u) <= 2 ^ 53) by (destruct Wu as [->|[->|[->| ->]]]; cbn [nanoseconds coarse] in *; lia).
  assert (F : per_second u = 1 /\ k * nanoseconds u = k * coarse u * 1000000000).
  { destruct Wu as [->|[->|[->| ->]]]; cbn [per_second nanoseconds coarse]; (split; [reflexivity|lia]). }
  assert (NN : k <> NaT).
  { intros ->. unfold NaT in B. assert (1 <= coarse u) by (destruct u; cbn; lia). change (2 ^ 63) with 9223372036854775808 in B. change (2 ^ 53) with 9007199254740992 in B. nia. }
  destruct F as [P N]. rewrite N. set (n := k * coarse u) in *.
  unfold datetime64_to_datetime. apply Z.eqb_neq in NN. rewrite NN, P. fold n.
  assert (Rn : repr (f64_div (f64_of_Z n) (f64_of_Z 1)) (IZR n)).
  { replace (IZR n) with (rnd (IZR n / 1)).
    - apply div_repr; [now apply of_Z_repr|apply (of_Z_repr 1); unfold prec; lia|lra|]. unfold Rdiv. rewrite Rinv_1, Rmult_1_r. rewrite round_generic; [|apply valid_rnd_N|now apply format_Z].
      apply big_lt_emax. unfold prec. lia.
    - unfold Rdiv. rewrite Rinv_1, Rmult_1_r. apply round_generic; [apply valid_rnd_N|now apply format_Z]. }
  destruct (utc_repr _ _ Rn) as (m & Hm & ->).
  assert (m = n * 1000000) as ->.
  { rewrite <- mult_IZR, <- minus_IZR, <- abs_IZR, bpow_m34 in Hm. assert (X : (IZR (Z.abs (m - n * 1000000)) < 1)%R) by lra. apply lt_IZR in X. lia. }
  rewrite Z.div_mul by lia. destruct (Z.leb_spec (-62135596800) n), (Z.leb_spec n 253402300799); cbn [andb].
  - left. split; [lia|]. exists (n * 1000000). split; [reflexivity|lia].
  - right. split; [lia|reflexivity].
  - right. split; [lia|reflexivity].
  - right. split; [lia|reflexivity].
Qed.

(** ** order *)
Lemma half_even_tie f y : repr f y -> Rabs (IZR (f64_half_even f) - y) = (/ 2)%R -> Z.even (f64_half_even f) = true.
Proof.
  intros (b & -> & <- & Fb). destruct b as [s|s| |s m e Hb]; cbn [is_finite] in Fb; try discriminate.
  - reflexivity.
  - cbn [B2SF f64_half_even B2R]. destruct (Z.leb_spec 0 e) as [He|He].
    + unfold F2R. cbn [Fnum Fexp]. rewrite bpow2 by lia. rewrite <- mult_IZR, <- minus_IZR, <- abs_IZR.
      replace (Z.abs _) with 0 by (destruct s; cbn [cond_Zopp]; lia). intros H. lra.
    + rewrite F2R_div by lia. set (d := 2 ^ (- e)). assert (Dp : 0 < d) by (apply Z.pow_pos_nonneg; lia).
      pose proof (Z.div_mod (Zpos m) d ltac:(lia)) as DM. pose proof (Z.mod_pos_bound (Zpos m) d Dp) as MB.
      assert (DR : (0 < IZR d)%R) by (apply IZR_lt; lia).
      set (a := match 2 * (Z.pos m mod d) ?= d with Eq => if Z.even (Z.pos m / d) then Z.pos m / d else Z.pos m / d + 1 | Lt => Z.pos m / d | Gt => Z.pos m / d + 1 end).
      intros H.
      assert (Q : Rabs (IZR a - IZR (Zpos m) / IZR d) = (/ 2)%R).
      { destruct s; cbn [cond_Zopp] in H; [|exact H]. rewrite !opp_IZR in H.
        replace (- IZR a - - IZR (Z.pos m) / IZR d)%R with (- (IZR a - IZR (Zpos m) / IZR d))%R in H by (field; lra). now rewrite Rabs_Ropp in H. }
      assert (A : Z.abs (2 * (a * d - Zpos m)) = d).
      { apply eq_IZR. rewrite Z.abs_mul, mult_IZR. change (IZR (Z.abs 2)) with 2%R. rewrite abs_IZR, minus_IZR, mult_IZR.
        replace (IZR a * IZR d - IZR (Z.pos m))%R with ((IZR a - IZR (Z.pos m) / IZR d) * IZR d)%R by (field; lra).
        rewrite Rabs_mult, Q, (Rabs_pos_eq (IZR d)) by lra. lra. }
      assert (Ev : Z.even a = true).
      { unfold a in *. destruct (Z.compare_spec (2 * (Z.pos m mod d)) d) as [C|C|C]; [|exfalso; nia|exfalso; nia].
        destruct (Z.even (Z.pos m / d)) eqn:E; [exact E|]. rewrite Z.even_add, E. reflexivity. }
      destruct s; [now rewrite Z.even_opp|exact Ev].
Qed.
Lemma half_even_mono f g y z : repr f y -> repr g z -> (y <= z)%R -> f64_half_even f <= f64_half_even g.
Proof.
  intros Rf Rg L. pose proof (half_even_repr f y Rf) as A. pose proof (half_even_repr g z Rg) as B.
  pose proof (half_even_tie f y Rf) as A'. pose proof (half_even_tie g z Rg) as B'.
  set (m := f64_half_even f) in *. set (n := f64_half_even g) in *. destruct (Z.le_gt_cases m n) as [|G]; [auto|exfalso].
  apply Rabs_le_inv in A. apply Rabs_le_inv in B.
  assert (X : (IZR n + 1 <= IZR m)%R) by (rewrite <- plus_IZR; apply IZR_le; lia).
  assert (Y : y = (IZR n + / 2)%R /\ z = (IZR n + / 2)%R /\ IZR m = (IZR n + 1)%R) by lra. destruct Y as (-> & -> & Em).
  rewrite <- plus_IZR in Em. apply eq_IZR in Em. rewrite Em, plus_IZR in A'.
  replace (IZR n + 1 - (IZR n + / 2))%R with (/ 2)%R in A' by lra. rewrite Rabs_pos_eq in A' by lra. specialize (A' eq_refl).
  replace (IZR n - (IZR n + / 2))%R with (- / 2)%R in B' by lra. rewrite Rabs_Ropp, Rabs_pos_eq in B' by lra. specialize (B' eq_refl).
  rewrite Z.even_add, B' in A'. discriminate.
Qed.
Lemma ok_pair {A B} (a c : A) (b d : B) : Ok (a, b) = Ok (c, d) -> a = c /\ b = d.
Proof. intros H. inversion H. auto. Qed.
Lemma modf_sign f x : repr f x -> exists i p r, f64_modf f = Ok (i, p) /\ repr p r /\ x = (IZR i + r)%R /\ (Rabs r < 1)%R /\ (0 <= IZR i /\ 0 <= r \/ IZR i <= 0 /\ r <= 0)%R.
Proof.
  intros Rf. destruct (modf_repr f x Rf) as (i & p & r & E & Rp & Ex & Hr). exists i, p, r. repeat (split; [assumption|]).
  destruct Rf as (b & -> & Eb & Fb). destruct b as [s|s| |s m e Hb]; cbn [is_finite] in Fb; try discriminate.
  - cbn [B2SF f64_modf] in E. injection E as <- <-. left. split; [lra|]. cbn [B2R] in Eb. lra.
  - cbn [B2SF f64_modf B2R] in E, Eb. destruct (Z.leb_spec 0 e) as [He|He].
    + apply ok_pair in E. destruct E as [<- <-]. assert (r = 0%R).
      { rewrite <- Eb in Ex. unfold F2R in Ex. cbn [Fnum Fexp] in Ex. rewrite bpow2, <- mult_IZR in Ex by lia. 
        assert (Q : cond_Zopp s (Zpos m) * 2 ^ e = if s then - (Zpos m * 2 ^ e) else Zpos m * 2 ^ e) by (destruct s; cbn [cond_Zopp]; lia). rewrite Q in Ex. lra. }
      destruct s; [right|left]; (split; [apply IZR_le; lia|lra]).
    + set (d := 2 ^ (- e)) in *. assert (Dp : 0 < d) by (apply Z.pow_pos_nonneg; lia). apply ok_pair in E. destruct E as [<- <-].
      pose proof (Z.div_mod (Zpos m) d ltac:(lia)) as DM. pose proof (Z.mod_pos_bound (Zpos m) d Dp) as MB. pose proof (Z.div_pos (Zpos m) d ltac:(lia) Dp) as QP.
      assert (DR : (0 < IZR d)%R) by (apply IZR_lt; lia).
      assert (Er : (r * IZR d = IZR (if s then - (Z.pos m mod d) else Z.pos m mod d))%R).
      { rewrite F2R_div in Eb by lia. fold d in Eb. assert (Ed : (x * IZR d = IZR (cond_Zopp s (Zpos m)))%R) by (rewrite <- Eb; field; lra).
        replace (r * IZR d)%R with (x * IZR d - IZR (if s then - (Z.pos m / d) else Z.pos m / d) * IZR d)%R by (rewrite Ex; ring).
        rewrite Ed, <- mult_IZR, <- minus_IZR. f_equal. destruct s; cbn [cond_Zopp]; lia. }
      destruct s; [right|left]; (split; [apply IZR_le; lia|]).
      * apply Rmult_le_reg_r with (IZR d); [auto|]. rewrite Er, Rmult_0_l. apply IZR_le. lia.
      * apply Rmult_le_reg_r with (IZR d); [auto|]. rewrite Er, Rmult_0_l. apply IZR_le. lia.
Qed.
Lemma part_repr p r : repr p r -> (Rabs r < 1)%R -> repr (f64_mul p (f64_of_Z 1000000)) (rnd (r * 1000000)).
Proof.
  intros Rp Hr. apply mul_repr; [auto|apply (of_Z_repr 1000000); unfold prec; lia|]. apply Rlt_trans with (bpow radix2 22); [|apply bpow_lt; unfold emax; lia].
  assert (M : (Rabs (r * 1000000) < bpow radix2 20)%R).
  { rewrite Rabs_mult, (Rabs_pos_eq 1000000) by lra. change (bpow radix2 20) with 1048576%R. lra. }
  pose proof (rnd_err _ 20 ltac:(lia) M) as Er. change (20 - 54) with (-34) in Er.
  replace (rnd (r * 1000000)) with (r * 1000000 + (rnd (r * 1000000) - r * 1000000))%R by ring.
  eapply Rle_lt_trans; [apply Rabs_triang|]. assert (bpow radix2 (-34) <= bpow radix2 20)%R by (apply bpow_le; lia).
  change (bpow radix2 22) with 4194304%R. change (bpow radix2 20) with 1048576%R in *. lra.
Qed.
Lemma rnd_mono x y : (x <= y)%R -> (rnd x <= rnd y)%R.
Proof. intros H. apply round_le; [apply FLT_exp_valid; exact Hprec|apply valid_rnd_N|exact H]. Qed.
Lemma part_bounds p r : repr p r -> (Rabs r < 1)%R -> -1000000 <= f64_half_even (f64_mul p (f64_of_Z 1000000)) <= 1000000 /\
  ((0 <= r)%R -> 0 <= f64_half_even (f64_mul p (f64_of_Z 1000000))) /\ ((r <= 0)%R -> f64_half_even (f64_mul p (f64_of_Z 1000000)) <= 0).
Proof.
  intros Rp Hr. pose proof (part_repr p r Rp Hr) as Rm. apply Rabs_lt_inv in Hr.
  assert (I : forall z, Z.abs z <= 1000000 -> rnd (IZR z) = IZR z /\ f64_half_even (f64_of_Z z) = z).
  { intros z Hz. assert (Hz' : Z.abs z <= 2 ^ prec) by (unfold prec; lia). split; [apply round_generic; [apply valid_rnd_N|now apply format_Z]|].
    pose proof (half_even_repr _ _ (of_Z_repr z Hz')) as X. rewrite <- minus_IZR, <- abs_IZR in X. assert (Y : (IZR (Z.abs (f64_half_even (f64_of_Z z) - z)) < 1)%R) by lra. apply lt_IZR in Y. lia. }
  assert (Up : forall z, Z.abs z <= 1000000 -> (r * 1000000 <= IZR z)%R -> f64_half_even (f64_mul p (f64_of_Z 1000000)) <= z).
  { intros z Hz L. destruct (I z Hz) as [I1 I2]. rewrite <- I2. eapply half_even_mono; [exact Rm|apply of_Z_repr; unfold prec; lia|]. rewrite <- I1. now apply rnd_mono. }
  assert (Lo : forall z, Z.abs z <= 1000000 -> (IZR z <= r * 1000000)%R -> z <= f64_half_even (f64_mul p (f64_of_Z 1000000))).
  { intros z Hz L. destruct (I z Hz) as [I1 I2]. rewrite <- I2 at 1. eapply half_even_mono; [apply of_Z_repr; unfold prec; lia|exact Rm|]. rewrite <- I1. now apply rnd_mono. }
  split; [split; [apply Lo; [lia|lra]|apply Up; [lia|lra]]|]. split; intros H; [apply Lo; [lia|lra]|apply Up; [lia|lra]].
Qed.

Lemma utc_mono f g x y m n : repr f x -> repr g y -> (x <= y)%R -> utcfromtimestamp f = Ok m -> utcfromtimestamp g = Ok n -> m <= n.
Proof.
  intros Rf Rg L. destruct (modf_sign f x Rf) as (i & p & r & E & Rp & -> & Hr & Sr). destruct (modf_sign g y Rg) as (j & q & t & E' & Rq & -> & Ht & St).
  unfold utcfromtimestamp. rewrite E, E'. cbn [bind].
  destruct (part_bounds p r Rp Hr) as (B1 & B2 & B3). destruct (part_bounds q t Rq Ht) as (C1 & C2 & C3).
  pose proof (part_repr p r Rp Hr) as Pr. pose proof (part_repr q t Rq Ht) as Pt.
  set (a := f64_half_even (f64_mul p (f64_of_Z 1000000))) in *. set (b := f64_half_even (f64_mul q (f64_of_Z 1000000))) in *.
  assert (G : i * 1000000 + a <= j * 1000000 + b).
  { apply Rabs_lt_inv in Hr, Ht. destruct (Z.lt_trichotomy i j) as [C|[->|C]].
    - assert (IZR i + 1 <= IZR j)%R by (rewrite <- plus_IZR; apply IZR_le; lia). destruct St as [[S1 S2]|[S1 S2]].
      + specialize (C2 S2). lia.
      + assert (a <= 0) by (apply B3; destruct Sr as [[S3 S4]|[S3 S4]]; lra). lia.
    - assert (a <= b); [|lia]. unfold a, b. eapply half_even_mono; [exact Pr|exact Pt|]. apply rnd_mono. lra.
    - exfalso. assert (IZR j + 1 <= IZR i)%R by (rewrite <- plus_IZR; apply IZR_le; lia). destruct Sr as [[S1 S2]|[S1 S2]], St as [[S3 S4]|[S3 S4]]; try lra. }
  destruct (_ && _); [|discriminate]. intros X. injection X as <-. destruct (_ && _); [|discriminate]. intros X. injection X as <-. exact G.
Qed.

Lemma of_Z_round k : Z.abs k <= 2 ^ 80 -> repr (f64_of_Z k) (rnd (IZR k)) /\ (Rabs (rnd (IZR k)) <= bpow radix2 82)%R.
Proof.
  intros Hk. assert (B : (Rabs (IZR k) <= bpow radix2 80)%R) by (rewrite <- abs_IZR, bpow2 by lia; now apply IZR_le).
  assert (B' : (Rabs (rnd (IZR k)) <= bpow radix2 82)%R).
  { pose proof (rnd_err_le (IZR k) 80 ltac:(lia) B) as E1. replace (rnd (IZR k)) with (IZR k + (rnd (IZR k) - IZR k))%R by ring. eapply Rle_trans; [apply Rabs_triang|].
    assert (bpow radix2 (80 - 54) <= bpow radix2 80)%R by (apply bpow_le; lia). change (bpow radix2 82) with (bpow radix2 (80 + 2)). rewrite (bpow_plus radix2 80 2). change (bpow radix2 2) with 4%R.
    pose proof (bpow_gt_0 radix2 80). lra. }
  split; [|exact B'].
  exists (BinarySingleNaN.binary_normalize prec emax Hprec Hmax mode_NE k 0 false). split; [apply normalize_equiv|].
  generalize (binary_normalize_correct prec emax Hprec Hmax mode_NE k 0 false). cbv zeta.
  change (SpecFloat.fexp prec emax) with fexp. change (round_mode mode_NE) with ZnearestE.
  replace (F2R (Float radix2 k 0)) with (IZR k) by (unfold F2R; cbn [Fnum Fexp]; change (bpow radix2 0) with 1%R; ring).
  rewrite Rlt_bool_true; [intros [E [F _]]; now split|].
  eapply Rle_lt_trans; [exact B'|]. apply bpow_lt. unfold emax. lia.
Qed.
Lemma stamp_mono u k : Z.abs k <= 2 ^ 63 -> repr (f64_div (f64_of_Z (k * coarse u)) (f64_of_Z (per_second u))) (rnd (rnd (IZR (k * coarse u)) / IZR (per_second u))).
Proof.
  intros Hk. destruct (of_Z_round (k * coarse u)) as [R1 B1]; [destruct u; cbn [coarse]; lia|].
  assert (P : 1 <= per_second u <= 2 ^ prec) by (unfold prec; destruct u; cbn [per_second]; lia).
  assert (PR : (1 <= IZR (per_second u))%R) by (apply IZR_le; lia).
  apply div_repr; [exact R1|apply of_Z_repr; lia|lra|].
  assert (Q : (Rabs (rnd (IZR (k * coarse u)) / IZR (per_second u)) <= bpow radix2 82)%R).
  { unfold Rdiv. rewrite Rabs_mult, Rabs_inv, (Rabs_pos_eq (IZR (per_second u))) by lra. rewrite <- (Rmult_1_r (bpow radix2 82)). apply Rmult_le_compat; [apply Rabs_pos|left; apply Rinv_0_lt_compat; lra|exact B1|].
    rewrite <- Rinv_1. apply Rinv_le; lra. }
  pose proof (rnd_err_le _ 82 ltac:(lia) Q) as E1. match goal with |- (Rabs (rnd ?z) < _)%R => replace (rnd z) with (z + (rnd z - z))%R by ring end.
  eapply Rle_lt_trans; [apply Rabs_triang|]. apply Rle_lt_trans with (bpow radix2 84); [|apply bpow_lt; unfold emax; lia].
  assert (bpow radix2 (82 - 54) <= bpow radix2 82)%R by (apply bpow_le; lia). change (bpow radix2 84) with (bpow radix2 (82 + 2)). rewrite (bpow_plus radix2 82 2). change (bpow radix2 2) with 4%R.
  pose proof (bpow_gt_0 radix2 82). lra.
Qed.

Theorem order_kept u k k' m n : Z.abs k <= 2 ^ 63 -> Z.abs k' <= 2 ^ 63 -> k <= k' -> datetime64_to_datetime u k = Ok m -> datetime64_to_datetime u k' = Ok n -> m <= n.
Proof.
  intros Hk Hk' L. unfold datetime64_to_datetime. destruct (k =? NaT); [discriminate|]. destruct (k' =? NaT); [discriminate|].
  eapply utc_mono; [now apply stamp_mono|now apply stamp_mono|]. apply rnd_mono. unfold Rdiv. apply Rmult_le_compat_r.
  - left. apply Rinv_0_lt_compat, IZR_lt. destruct u; cbn; lia.
  - apply rnd_mono, IZR_le. destruct u; cbn [coarse]; lia.
Qed.

Lemma later_times :
  (datetime64_to_datetime Microseconds (2 ^ 33 * 1000000 + 1) = Ok (2 ^ 33 * 1000000 + 2)) /\
  (datetime64_to_datetime Milliseconds (2 ^ 33 * 1000 + 1) = Ok (2 ^ 33 * 1000000 + 999)) /\
  (datetime64_to_datetime Nanoseconds (2 ^ 32 * 1000000000 + 7000) = Ok (2 ^ 32 * 1000000 + 8)).
Proof. repeat apply conj; vm_compute; reflexivity. Qed.
Lemma not_a_time u : datetime64_to_datetime u (- 2 ^ 63) = Err ValueError.
Proof. destruct u; vm_compute; reflexivity. Qed.
