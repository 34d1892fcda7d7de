(** Rounding errors of nudging (C97). *)
From Coq Require Import Reals Lra Psatz.
From Flocq Require Import Core.Core Relative IEEE754.BinarySingleNaN.
From Verif.Base Require Import Base Lemmas.
From Verif.Model Require Import Consts Numpy Quantity Partitioner Nudging NudgingFloat.
From Verif.Spec Require Import Grid Views Relaxation Repeated Rounded.
From Verif.Proofs Require Import FloatExtent NudgeProofs RepeatedProofs.
From Coq Require Import SpecFloat.
Open Scope R_scope.
#[local] Existing Instance Hprec.
#[local] Existing Instance Hmax.

Notation rnd := (round radix2 (FLT_exp (3 - emax - prec) prec) ZnearestE).
Notation u := (/ 9007199254740992).
Notation eta := (bpow radix2 (-1075)).

Lemma rnd_error x : exists e h, Rabs e <= u /\ Rabs h <= eta /\ rnd x = x * (1 + e) + h.
Proof.
  destruct (error_N_FLT radix2 (3 - emax - prec) prec Hprec (fun t => negb (Z.even t)) x) as (e & h & E & H & _ & R). exists e, h. split; [|split; [|exact R]].
  - eapply Rle_trans; [exact E|]. change (bpow radix2 (- prec + 1)) with (/ 4503599627370496). lra.
  - eapply Rle_trans; [exact H|]. unfold prec, emax. replace (-1075)%Z with (-1 + (3 - 1024 - 53))%Z by reflexivity. rewrite bpow_plus. change (bpow radix2 (-1)) with (/ 2). lra.
Qed.
Lemma rnd_relative x : bpow radix2 (-1000) <= Rabs x -> exists e, Rabs e <= u /\ rnd x = x * (1 + e).
Proof.
  intros H. destruct (relative_error_N_FLT_ex radix2 (3 - emax - prec) prec Hprec (fun t => negb (Z.even t)) x) as (e & E & R).
  - eapply Rle_trans; [|exact H]. apply bpow_le. unfold emax, prec. lia.
  - exists e. split; [|exact R]. eapply Rle_trans; [exact E|]. change (bpow radix2 (- prec + 1)) with (/ 4503599627370496). lra.
Qed.

Lemma add_equiv (x y : binary_float prec emax) : SFadd prec emax (B2SF x) (B2SF y) = B2SF (Bplus mode_NE x y).
Proof.
  case x as [sx|sx| |sx mx ex Bx]; case y as [sy|sy| |sy my ey By]; [now (trivial || simpl; case Bool.eqb).. | ].
  simpl. apply normalize_equiv.
Qed.
Lemma add_repr f g x y : repr f x -> repr g y -> Rabs (rnd (x + y)) < bpow radix2 emax -> repr (f64_add f g) (rnd (x + y)).
Proof.
  intros (b & -> & <- & Fb) (c & -> & <- & Fc) H. exists (Bplus mode_NE b c). split; [apply add_equiv|].
  generalize (Bplus_correct prec emax Hprec Hmax mode_NE b c Fb Fc). change (SpecFloat.fexp prec emax) with (FLT_exp (3 - emax - prec) prec). change (round_mode mode_NE) with ZnearestE.
  rewrite Rlt_bool_true by exact H. intros [E [F _]]. now split.
Qed.

Lemma number_repr f : number f -> repr f (value f).
Proof.
  intros N. assert (V : valid_binary prec emax f = true) by (destruct f; try contradiction; auto). exists (SF2B f V). split; [now rewrite B2SF_SF2B|]. split.
  - rewrite <- SF2R_B2SF, B2SF_SF2B. destruct f; try reflexivity. cbn [SF2R value]. unfold F2R. cbn [Fnum Fexp]. rewrite bpow_powerRZ. destruct s; reflexivity.
  - destruct f; try contradiction; reflexivity.
Qed.
Lemma repr_number f x : repr f x -> number f /\ value f = x.
Proof.
  intros (b & -> & <- & F). destruct b as [s|s| |s m e B]; try discriminate; [split; [exact I|reflexivity]|]. split; [exact B|].
  cbn [B2SF value B2R]. unfold F2R. cbn [Fnum Fexp]. rewrite bpow_powerRZ. destruct s; reflexivity.
Qed.

Lemma eta_small : 0 < eta <= bpow radix2 (-1000).
Proof. split; [apply bpow_gt_0|apply bpow_le; lia]. Qed.
Lemma tiny : 0 < bpow radix2 (-1000) <= / 1000000000000000000000000.
Proof. split; [apply bpow_gt_0|]. apply Rle_trans with (bpow radix2 (-100)); [apply bpow_le; lia|]. change (bpow radix2 (-100)) with (/ 1267650600228229401496703205376). lra. Qed.

(** a product of factors close to one *)
Lemma near_mul a b x y : Rabs (a - 1) <= x -> Rabs (b - 1) <= y -> x <= / 1000 -> Rabs (a * b - 1) <= x + y * (1 + / 1000).
Proof.
  intros A B X. replace (a * b - 1) with ((a - 1) + a * (b - 1)) by ring. eapply Rle_trans; [apply Rabs_triang|]. rewrite Rabs_mult. apply Rplus_le_compat; [exact A|].
  rewrite (Rmult_comm y). apply Rmult_le_compat; try apply Rabs_pos; auto. replace a with (1 + (a - 1)) by ring. eapply Rle_trans; [apply Rabs_triang|]. rewrite Rabs_R1. lra.
Qed.
Lemma near_inv e : Rabs e <= u -> Rabs (/ (1 + e) - 1) <= u * (1 + / 1000) /\ 1 + e <> 0.
Proof.
  intros E. apply Rabs_le_inv in E. assert (P : 0 < 1 + e) by lra. split; [|lra]. replace (/ (1 + e) - 1) with (- e * / (1 + e)) by (field; lra). rewrite Rabs_mult, Rabs_Ropp, (Rabs_pos_eq (/ (1 + e))) by (left; now apply Rinv_0_lt_compat).
  apply Rmult_le_compat; [apply Rabs_pos|left; now apply Rinv_0_lt_compat|apply Rabs_le; lra|]. rewrite <- (Rinv_inv (1 + / 1000)). apply Rinv_le; lra.
Qed.
Lemma near_one e : Rabs e <= u -> Rabs (1 + e - 1) <= u.
Proof. intros E. now replace (1 + e - 1) with e by ring. Qed.
Lemma near_le a x : Rabs (a - 1) <= x -> x <= 1 -> Rabs a <= 2.
Proof. intros A X. replace a with (1 + (a - 1)) by ring. eapply Rle_trans; [apply Rabs_triang|]. rewrite Rabs_R1. lra. Qed.

(** the seconds of a time *)
Lemma seconds_repr us : (0 <= us <= 2 ^ 53)%Z -> exists e, Rabs e <= u /\ repr (total_seconds us) (IZR us / 1000000 * (1 + e)).
Proof.
  intros H. assert (R1 : repr (f64_of_Z us) (IZR us)) by (apply of_Z_repr; unfold prec; lia). assert (R2 : repr (f64_of_Z 1000000) 1000000) by (apply (of_Z_repr 1000000); unfold prec; lia).
  assert (B : 0 <= IZR us <= 9007199254740992) by (split; [apply (IZR_le 0)|apply (IZR_le us (2 ^ 53))]; lia).
  assert (X : exists e, Rabs e <= u /\ rnd (IZR us / 1000000) = IZR us / 1000000 * (1 + e)).
  { destruct (Z.eq_dec us 0) as [->|N]; [exists 0; split; [rewrite Rabs_R0; lra|]; replace (0 / 1000000) with 0 by lra; rewrite round_0 by apply valid_rnd_N; ring|].
    apply rnd_relative. assert (1 <= IZR us) by (apply (IZR_le 1); lia). pose proof tiny. rewrite Rabs_pos_eq by lra. lra. }
  destruct X as (e & E & X). exists e. split; [exact E|]. rewrite <- X. apply div_repr; [exact R1|exact R2|lra|]. rewrite X. apply Rabs_le_inv in E.
  assert (Y : 0 <= IZR us / 1000000 <= 9007199255) by lra. rewrite Rabs_pos_eq by (apply Rmult_le_pos; lra).
  apply Rle_lt_trans with (9007199255 * 2); [apply Rmult_le_compat; lra|]. apply Rlt_le_trans with (bpow radix2 64); [change (bpow radix2 64) with 18446744073709551616; lra|apply bpow_le; unfold emax; lia].
Qed.

Lemma rnd_le k y : (-1000 <= k <= 1000)%Z -> Rabs y <= bpow radix2 k -> Rabs (rnd y) <= bpow radix2 k /\ Rabs (rnd y) < bpow radix2 emax.
Proof.
  intros K H. assert (X : Rabs (rnd y) <= bpow radix2 k).
  { apply abs_round_le_generic; [apply FLT_exp_valid; exact Hprec|apply valid_rnd_N| |exact H]. apply generic_format_bpow. unfold FLT_exp, emax, prec. lia. }
  split; [exact X|]. eapply Rle_lt_trans; [exact X|]. apply bpow_lt. unfold emax. lia.
Qed.
Lemma bpow_mul x y i j : Rabs x <= bpow radix2 i -> Rabs y <= bpow radix2 j -> Rabs (x * y) <= bpow radix2 (i + j).
Proof. intros X Y. rewrite Rabs_mult, bpow_plus. apply Rmult_le_compat; auto; apply Rabs_pos. Qed.

Lemma abs_add a b x y : Rabs a <= x -> Rabs b <= y -> Rabs (a + b) <= x + y.
Proof. intros A B. eapply Rle_trans; [apply Rabs_triang|]. lra. Qed.
Lemma abs_mul a b x y : Rabs a <= x -> Rabs b <= y -> Rabs (a * b) <= x * y.
Proof. intros A B. rewrite Rabs_mult. apply Rmult_le_compat; auto; apply Rabs_pos. Qed.

Theorem relaxed_within M s r tau dt : (0 < tau <= 2 ^ 53)%Z -> (0 <= dt <= tau)%Z -> number s -> number r -> Rabs (value s) <= M -> Rabs (value r) <= M -> M <= powerRZ 2 900 ->
  let x := relaxed f64_sub f64_add over_time times_time s r tau dt in number x /\ nudged_within M (value s) (value r) tau dt (value x).
Proof.
  intros HT HD Ns Nr Bs Br HM x. pose proof (number_repr s Ns) as Rs. pose proof (number_repr r Nr) as Rr. set (S := value s) in *. set (W := value r) in *.
  assert (HM' : M <= bpow radix2 900) by (rewrite bpow_powerRZ; exact HM). clear HM.
  destruct (seconds_repr tau ltac:(lia)) as (e2 & E2 & Rt). destruct (seconds_repr dt ltac:(lia)) as (e4 & E4 & Rd).
  assert (T1 : 1 <= IZR tau <= 9007199254740992) by (split; [apply (IZR_le 1)|apply (IZR_le tau (2 ^ 53))]; lia). assert (D1 : 0 <= IZR dt <= IZR tau) by (split; apply IZR_le; lia).
  set (t := IZR tau / 1000000 * (1 + e2)) in *. set (w := IZR dt / 1000000 * (1 + e4)) in *. pose proof (Rabs_le_inv _ _ E2) as E2'. pose proof (Rabs_le_inv _ _ E4) as E4'.
  assert (Ht : bpow radix2 (-20) <= t).
  { change (bpow radix2 (-20)) with (/ 1048576). unfold t. apply Rle_trans with (/ 1000000 * (1 - u)); [lra|]. apply Rmult_le_compat; lra. }
  assert (Hw : Rabs w <= bpow radix2 34).
  { change (bpow radix2 34) with 17179869184. unfold w. rewrite Rabs_pos_eq by (apply Rmult_le_pos; lra). apply Rle_trans with (9007199255 * (1 + u)); [apply Rmult_le_compat; lra|lra]. }
  assert (t0 : 0 < t) by (pose proof (bpow_gt_0 radix2 (-20)); lra).
  (* the difference *)
  assert (BA : Rabs (W - S) <= 2 * M) by (unfold Rminus; replace (2 * M) with (M + M) by ring; apply abs_add; [exact Br|now rewrite Rabs_Ropp]).
  assert (BA' : Rabs (W - S) <= bpow radix2 901) by (change 901%Z with (1 + 900)%Z; rewrite bpow_plus; change (bpow radix2 1) with 2; lra).
  destruct (rnd_le 901 _ ltac:(lia) BA') as (Bd & Od). pose proof (sub_repr r s W S Rr Rs Od) as Rdif. destruct (rnd_error (W - S)) as (e1 & h1 & E1 & H1 & X1). set (df := rnd (W - S)) in *.
  (* the rate *)
  assert (Bq : Rabs (df / t) <= bpow radix2 921).
  { change 921%Z with (901 + 20)%Z. unfold Rdiv. apply bpow_mul; [exact Bd|]. rewrite Rabs_inv, Rabs_pos_eq by lra. change 20%Z with (- (-20))%Z. rewrite bpow_opp. apply Rinv_le; [apply bpow_gt_0|exact Ht]. }
  destruct (rnd_le 921 _ ltac:(lia) Bq) as (Bq' & Oq). pose proof (div_repr _ _ _ _ Rdif Rt ltac:(lra) Oq) as Rq. destruct (rnd_error (df / t)) as (e3 & h3 & E3 & H3 & X3). set (q := rnd (df / t)) in *.
  (* the change *)
  pose proof (bpow_mul q w 921 34 Bq' Hw) as Bp. destruct (rnd_le (921 + 34) _ ltac:(lia) Bp) as (Bp' & Op). pose proof (mul_repr _ _ _ _ Rq Rd Op) as Rp. destruct (rnd_error (q * w)) as (e5 & h5 & E5 & H5 & X5). set (p := rnd (q * w)) in *.
  (* the sum *)
  assert (Bx : Rabs (S + p) <= bpow radix2 956).
  { change 956%Z with (1 + 955)%Z. rewrite bpow_plus. change (bpow radix2 1) with 2. replace (2 * bpow radix2 955) with (bpow radix2 955 + bpow radix2 955) by ring. apply abs_add; [|exact Bp'].
    eapply Rle_trans; [exact Bs|]. eapply Rle_trans; [exact HM'|]. apply bpow_le. lia. }
  destruct (rnd_le 956 _ ltac:(lia) Bx) as (Bx' & Ox). pose proof (add_repr _ _ _ _ Rs Rp Ox) as Rx. destruct (rnd_error (S + p)) as (e6 & h6 & E6 & H6 & X6).
  change (f64_add s (f64_mul (f64_div (f64_sub r s) (total_seconds tau)) (total_seconds dt))) with x in Rx.
  destruct (repr_number _ _ Rx) as (Nx & Vx). split; [exact Nx|]. unfold nudged_within. rewrite Vx, X6. clear Rx Rp Rq Rdif Rs Rr Rt Rd Vx Bx' Ox Bp' Op Bq' Oq Bd Od Bx Bp Bq BA' Nx x.
  (* errors *)
  set (L := IZR dt / IZR tau). assert (HL : 0 <= L <= 1).
  { unfold L. split; [apply Rmult_le_pos; [lra|left; apply Rinv_0_lt_compat; lra]|]. apply Rmult_le_reg_r with (IZR tau); [lra|]. replace (IZR dt / IZR tau * IZR tau) with (IZR dt) by (field; lra). lra. }
  destruct (near_inv e2 E2) as (I2 & N2). set (B3 := (1 + e4) * (1 + e5)). set (B2 := B3 * (1 + e3) * / (1 + e2)). set (B1 := B2 * (1 + e1)).
  assert (G3 : Rabs (B3 - 1) <= u + u * (1 + / 1000)) by (apply near_mul; [now apply near_one|now apply near_one|lra]).
  assert (G2 : Rabs (B2 - 1) <= u + u * (1 + / 1000) + u * (1 + / 1000) + (u * (1 + / 1000)) * (1 + / 1000)).
  { unfold B2. apply near_mul; [|exact I2|lra]. apply near_mul; [exact G3|now apply near_one|lra]. }
  assert (G1 : Rabs (B1 - 1) <= 6 * u).
  { eapply Rle_trans; [apply (near_mul _ _ _ _ G2 (near_one e1 E1)); lra|lra]. }
  assert (P : p = (W - S) * L * B1 + h1 * L * B2 + h3 * (IZR dt / 1000000) * B3 + h5).
  { rewrite X5, X3, X1. unfold B1, B2, B3, L, w, t. field. split; lra. }
  assert (K2 : Rabs B2 <= 2) by (eapply near_le; [exact G2|lra]). assert (K3 : Rabs B3 <= 2) by (eapply near_le; [exact G3|lra]). assert (HL' : Rabs L <= 1) by (rewrite Rabs_pos_eq; lra).
  assert (Dd : Rabs (IZR dt / 1000000) <= 9007199255) by (rewrite Rabs_pos_eq; lra).
  assert (M0 : 0 <= M) by (pose proof (Rabs_pos S); lra).
  assert (PE : Rabs (p - (W - S) * L) <= 2 * M * 1 * (6 * u) + (eta * 1 * 2 + (eta * 9007199255 * 2 + eta))).
  { replace (p - (W - S) * L) with ((W - S) * L * (B1 - 1) + (h1 * L * B2 + (h3 * (IZR dt / 1000000) * B3 + h5))) by (rewrite P; ring).
    apply abs_add; [repeat apply abs_mul; auto|]. apply abs_add; [repeat apply abs_mul; auto|]. apply abs_add; [repeat apply abs_mul; auto|exact H5]. }
  assert (C : Rabs (S + (W - S) * L) <= M).
  { replace (S + (W - S) * L) with (S * (1 - L) + W * L) by ring. replace M with (M * (1 - L) + M * L) by ring. apply abs_add; apply abs_mul; auto; rewrite Rabs_pos_eq; lra. }
  set (D := 2 * M * 1 * (6 * u) + (eta * 1 * 2 + (eta * 9007199255 * 2 + eta))) in *.
  replace ((S + p) * (1 + e6) + h6 - (S + (W - S) * L)) with ((p - (W - S) * L) + (((S + (W - S) * L) + (p - (W - S) * L)) * e6 + h6)) by ring.
  apply Rle_trans with (D + ((M + D) * u + eta)).
  { apply abs_add; [exact PE|]. apply abs_add; [|exact H6]. apply abs_mul; [|exact E6]. now apply abs_add. }
  unfold D. change (powerRZ 2 (-49)) with (powerRZ (IZR radix2) (-49)). change (powerRZ 2 (-1030)) with (powerRZ (IZR radix2) (-1030)). rewrite <- !bpow_powerRZ. change (bpow radix2 (-49)) with (/ 562949953421312).
  replace (-1030)%Z with (-1075 + 45)%Z by reflexivity. rewrite bpow_plus. change (bpow radix2 45) with 35184372088832. pose proof (bpow_gt_0 radix2 (-1075)). lra.
Qed.

(** a value which is that of the reference *)
Lemma div_zero s f : number f -> f <> S754_zero false -> f <> S754_zero true -> exists s', f64_div (S754_zero s) f = S754_zero s'.
Proof. destruct f as [[|]| | |]; intros N A B; try contradiction; try congruence. cbn. eauto. Qed.
Lemma mul_zero s f : number f -> exists s', f64_mul (S754_zero s) f = S754_zero s'.
Proof. destruct f; intros N; try contradiction; cbn; eauto. Qed.
Lemma sub_same f : number f -> exists s, f64_sub f f = S754_zero s.
Proof.
  destruct f as [s| | |s m e]; intros N; try contradiction.
  - exists (match s with true => false | false => false end). destruct s; reflexivity.
  - exists false. unfold f64_sub, SFsub. rewrite Z.sub_diag. reflexivity.
Qed.
Lemma add_zero f s : number f -> number (f64_add f (S754_zero s)) /\ value (f64_add f (S754_zero s)) = value f.
Proof. destruct f as [s0| | |s0 m e]; intros N; try contradiction; [destruct s0, s; split; reflexivity || exact I|]. split; [exact N|reflexivity]. Qed.
Theorem relaxed_same s tau dt : (0 < tau <= 2 ^ 53)%Z -> (0 <= dt <= 2 ^ 53)%Z -> number s ->
  let x := relaxed f64_sub f64_add over_time times_time s s tau dt in number x /\ value x = value s.
Proof.
  intros HT HD N x. destruct (seconds_repr tau ltac:(lia)) as (e2 & E2 & Rt). destruct (seconds_repr dt ltac:(lia)) as (e4 & E4 & Rd). destruct (repr_number _ _ Rt) as (Nt & Vt). destruct (repr_number _ _ Rd) as (Nd & _).
  assert (T : value (total_seconds tau) <> 0).
  { rewrite Vt. apply Rabs_le_inv in E2. assert (1 <= IZR tau) by (apply (IZR_le 1); lia). apply Rmult_integral_contrapositive. split; lra. }
  unfold x, relaxed, rate, over_time, times_time. destruct (sub_same s N) as (s1 & ->). destruct (div_zero s1 (total_seconds tau) Nt) as (s2 & ->); [intros E; apply T; rewrite E; reflexivity|intros E; apply T; rewrite E; reflexivity|].
  destruct (mul_zero s2 (total_seconds dt) Nd) as (s3 & ->). now apply add_zero.
Qed.
Lemma relaxed_nan s tau dt : relaxed f64_sub f64_add over_time times_time s S754_nan tau dt = S754_nan.
Proof. destruct s; reflexivity. Qed.

Theorem nudged_f64 state reference_state timescales dt : NoDup (dkeys timescales) -> Forall (matched state reference_state) timescales -> Forall (fun nt => 0 < snd nt <= 2 ^ 53)%Z timescales -> (0 <= dt <= 2 ^ 53)%Z ->
  exists state' tendencies, nudge_f64 state reference_state timescales dt = (state', Ok tendencies) /\
    forall name tau q r, In (name, tau) timescales -> dget name state = Some q -> dget name reference_state = Some r -> exists q', dget name state' = Some q' /\
      forall p, in_shape (q_extent q) p ->
        let s := at_ (domain_of q) p in let f := at_ (domain_of r) p in let x := at_ (domain_of q') p in
        ((dt <= tau)%Z -> number s -> number f -> Rabs (value s) <= powerRZ 2 900 -> Rabs (value f) <= powerRZ 2 900 ->
          number x /\ nudged_within (Rmax (Rabs (value s)) (Rabs (value f))) (value s) (value f) tau dt (value x)) /\
        (number s -> f = s -> number x /\ value x = value s) /\
        (f = S754_nan -> x = S754_nan).
Proof.
  intros ND MA TS DT. destruct (nudged f64_sub f64_add over_time times_time state reference_state timescales dt ND MA) as (state' & tendencies & E & _ & _ & H & _). exists state', tendencies. split; [exact E|].
  intros name tau q r I Q1 R1. destruct (H name tau I) as (q0 & r0 & t & q' & Q0 & R0 & _ & _ & Q' & RX). assert (q0 = q) by congruence. assert (r0 = r) by congruence. subst q0 r0. exists q'. split; [exact Q'|].
  intros p P s f x. rewrite Forall_forall in TS. specialize (TS _ I). cbn [snd] in TS. destruct RX as ((SH & AT) & _ & _).
  assert (PX : in_shape (shp (domain_of q')) p) by (rewrite SH; exact P). assert (X : x = relaxed f64_sub f64_add over_time times_time s f tau dt) by (unfold x; rewrite AT by exact PX; reflexivity).
  rewrite X. split; [|split].
  - intros L Ns Nf Bs Bf. apply relaxed_within; auto; [lia|apply Rmax_l|apply Rmax_r|]. now apply Rmax_lub.
  - intros Ns ->. now apply relaxed_same.
  - intros ->. apply relaxed_nan.
Qed.

(** ** many steps *)
Notation steps := (settled f64_sub f64_add over_time times_time).
Lemma settled_near_exact M r tau dt : (0 < tau <= 2 ^ 53)%Z -> (0 <= dt <= tau)%Z -> number r -> Rabs (value r) <= M -> 1 <= M <= powerRZ 2 890 ->
  forall n x y D, number x -> Rabs (value x - y) <= D -> Rabs y <= M -> D + INR n * (M * powerRZ 2 (-47)) <= M ->
  number (steps n r tau dt x) /\ Rabs (value (steps n r tau dt x) - (value r + (y - value r) * (1 - IZR dt / IZR tau) ^ n)) <= D + INR n * (M * powerRZ 2 (-47)).
Proof.
  intros HT HD Nr Br HM. assert (T1 : 1 <= IZR tau) by (apply (IZR_le 1); lia). assert (D1 : 0 <= IZR dt <= IZR tau) by (split; apply IZR_le; lia). set (L := IZR dt / IZR tau). assert (HL : 0 <= L <= 1).
  { unfold L. split; [apply Rmult_le_pos; [lra|left; apply Rinv_0_lt_compat; lra]|]. apply Rmult_le_reg_r with (IZR tau); [lra|]. replace (IZR dt / IZR tau * IZR tau) with (IZR dt) by (field; lra). lra. }
  change (powerRZ 2 (-47)) with (powerRZ (IZR radix2) (-47)). rewrite <- bpow_powerRZ. change (bpow radix2 (-47)) with (/ 140737488355328).
  assert (P : bpow radix2 890 * 2 <= powerRZ 2 900) by (change (powerRZ 2 900) with (powerRZ (IZR radix2) 900); rewrite <- bpow_powerRZ; change 900%Z with (890 + 10)%Z; rewrite bpow_plus; change (bpow radix2 10) with 1024; pose proof (bpow_gt_0 radix2 890); lra).
  destruct HM as (M1 & M2). change (powerRZ 2 890) with (powerRZ (IZR radix2) 890) in M2. rewrite <- bpow_powerRZ in M2.
  induction n as [|n IH]; intros x y D Nx Dx By HD2.
  - cbn [settled INR pow]. split; [exact Nx|]. replace (value r + (y - value r) * 1) with y by ring. rewrite Rmult_0_l. lra.
  - rewrite S_INR in HD2 |- *. pose proof (pos_INR n) as PN. assert (D0 : 0 <= D) by (pose proof (Rabs_pos (value x - y)); lra).
    assert (E0 : 0 <= INR n * (M * / 140737488355328)) by (apply Rmult_le_pos; [exact PN|lra]). assert (Bx : Rabs (value x) <= 2 * M).
    { replace (value x) with (y + (value x - y)) by ring. replace (2 * M) with (M + M) by ring. apply abs_add; [exact By|]. lra. }
    destruct (relaxed_within (2 * M) x r tau dt HT HD Nx Nr Bx ltac:(lra) ltac:(lra)) as (Nx' & W). unfold nudged_within in W. fold L in W. set (x' := relaxed f64_sub f64_add over_time times_time x r tau dt) in *.
    change (powerRZ 2 (-49)) with (powerRZ (IZR radix2) (-49)) in W. change (powerRZ 2 (-1030)) with (powerRZ (IZR radix2) (-1030)) in W. rewrite <- !bpow_powerRZ in W. change (bpow radix2 (-49)) with (/ 562949953421312) in W.
    assert (TY : bpow radix2 (-1030) <= / 1000000000000000000000000) by (eapply Rle_trans; [|apply tiny]; apply bpow_le; lia).
    cbn [settled]. fold x'. set (y' := y + (value r - y) * L).
    assert (By' : Rabs y' <= M).
    { unfold y'. replace (y + (value r - y) * L) with (y * (1 - L) + value r * L) by ring. replace M with (M * (1 - L) + M * L) by ring. apply abs_add; apply abs_mul; auto; rewrite Rabs_pos_eq; lra. }
    assert (Dx' : Rabs (value x' - y') <= D + M * / 140737488355328).
    { unfold y'. replace (value x' - (y + (value r - y) * L)) with ((value x - y) * (1 - L) + (value x' - (value x + (value r - value x) * L))) by ring. apply abs_add.
      - replace D with (D * 1) by ring. apply abs_mul; [exact Dx|]. rewrite Rabs_pos_eq; lra.
      - eapply Rle_trans; [exact W|]. lra. }
    destruct (IH x' y' (D + M * / 140737488355328) Nx' Dx' By') as (N' & B'); [lra|]. split; [exact N'|].
    replace (value r + (y - value r) * (1 - L) ^ S n) with (value r + (y' - value r) * (1 - L) ^ n) by (unfold y'; cbn [pow]; ring). eapply Rle_trans; [exact B'|]. lra.
Qed.
Theorem settled_exact M s r tau dt n : (0 < tau <= 2 ^ 53)%Z -> (0 <= dt <= tau)%Z -> (Z.of_nat n <= 2 ^ 40)%Z -> number s -> number r -> Rabs (value s) <= M -> Rabs (value r) <= M -> 1 <= M <= powerRZ 2 890 ->
  number (steps n r tau dt s) /\ settled_within n M (value s) (value r) tau dt (value (steps n r tau dt s)).
Proof.
  intros HT HD HN Ns Nr Bs Br HM. destruct (settled_near_exact M r tau dt HT HD Nr Br HM n s (value s) 0 Ns) as (N & B).
  - rewrite Rminus_diag_eq by reflexivity. rewrite Rabs_R0. lra.
  - exact Bs.
  - assert (X : INR n <= 1099511627776) by (rewrite INR_IZR_INZ; apply (IZR_le _ (2 ^ 40)); lia). change (powerRZ 2 (-47)) with (powerRZ (IZR radix2) (-47)). rewrite <- bpow_powerRZ. change (bpow radix2 (-47)) with (/ 140737488355328).
    apply Rle_trans with (0 + 1099511627776 * (M * / 140737488355328)); [|lra]. apply Rplus_le_compat_l, Rmult_le_compat_r; lra.
  - split; [exact N|]. unfold settled_within. lra.
Qed.
Theorem nudged_steps_f64 reference_state timescales dt M n state : NoDup (dkeys timescales) -> Forall (matched state reference_state) timescales -> Forall (fun nt => 0 < snd nt <= 2 ^ 53 /\ dt <= snd nt)%Z timescales -> (0 <= dt)%Z ->
  (Z.of_nat n <= 2 ^ 40)%Z -> 1 <= M <= powerRZ 2 890 ->
  exists state', nudge_steps f64_sub f64_add over_time times_time n reference_state timescales dt state = (state', Ok tt) /\
    forall name tau q r, In (name, tau) timescales -> dget name state = Some q -> dget name reference_state = Some r -> exists q', dget name state' = Some q' /\
      forall p, in_shape (q_extent q) p ->
        let s := at_ (domain_of q) p in let f := at_ (domain_of r) p in let x := at_ (domain_of q') p in
        number s -> number f -> Rabs (value s) <= M -> Rabs (value f) <= M -> number x /\ settled_within n M (value s) (value f) tau dt (value x).
Proof.
  intros ND MA TS DT HN HM. destruct (nudged_again f64_sub f64_add over_time times_time reference_state timescales dt ND n state MA) as (state' & E & _ & H & _). exists state'. split; [exact E|].
  intros name tau q r I Q1 R1. destruct (H name tau I) as (q0 & r0 & q' & Q0 & R0 & Q' & RX). assert (q0 = q) by congruence. assert (r0 = r) by congruence. subst q0 r0. exists q'. split; [exact Q'|].
  intros p P s f x Ns Nf Bs Bf. rewrite Forall_forall in TS. specialize (TS _ I). cbn [snd] in TS. destruct RX as ((SH & AT) & _ & _).
  assert (PX : in_shape (shp (domain_of q')) p) by (rewrite SH; exact P). assert (X : x = steps n f tau dt s) by (unfold x; rewrite AT by exact PX; reflexivity).
  rewrite X. apply settled_exact; auto; lia.
Qed.

(** whole numbers *)
Lemma whole_numbers z : (Z.abs z <= 2 ^ 53)%Z -> number (f64_of_Z z) /\ value (f64_of_Z z) = IZR z /\ Rabs (value (f64_of_Z z)) <= powerRZ 2 890 <= powerRZ 2 900.
Proof.
  intros H. destruct (repr_number _ _ (of_Z_repr z H)) as (N & V). split; [exact N|]. split; [exact V|]. rewrite V, <- abs_IZR.
  change (powerRZ 2 890) with (powerRZ (IZR radix2) 890). change (powerRZ 2 900) with (powerRZ (IZR radix2) 900). rewrite <- !bpow_powerRZ. split; [|apply bpow_le; lia].
  apply Rle_trans with (bpow radix2 53); [|apply bpow_le; lia]. rewrite bpow2 by lia. now apply IZR_le.
Qed.
