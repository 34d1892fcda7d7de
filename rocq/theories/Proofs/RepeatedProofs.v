(** Repeated and distributed nudging *)
From Verif.Base Require Import Base Lemmas.
From Verif.Model Require Import Consts Partitioner Numpy Quantity Collective ScatterGather Nudging.
From Verif.Spec Require Import Grid Layouts Views Together Distribute Relaxation Repeated.
From Verif.Proofs Require Import NumpyProofs Regions ViewProofs CornerProofs CollectiveProofs Slices Parts ScatterProofs GatherProofs StateProofs NudgeProofs.
From Coq Require Import ZifyBool.
Ltac Zify.zify_post_hook ::= idtac.

Section R.
Context {V T : Type}.
Variables (sub add : V -> V -> V) (div mul : V -> T -> V).
Notation settled := (settled sub add div mul).
Notation nudge_steps := (nudge_steps sub add div mul).

Lemma written_self (q : quantity V) : written q q (domain_of q).
Proof. split; [split; auto|auto]. Qed.
Lemma written_same (q q' : quantity V) a a' : same a a' -> written q q' a -> written q q' a'.
Proof. intros (S1 & A1) ((S2 & A2) & R). split; auto. split; [congruence|]. intros p P. rewrite A2 by auto. apply A1. now rewrite <- S2. Qed.

Lemma comparable_written (q q' r : quantity V) a : written q q' a -> comparable q r -> comparable q' r.
Proof.
  intros W (A & B & C & D). destruct (written_meta _ _ _ W) as (D1 & D2 & D3 & D4). destruct W as (_ & M & _). split; [now rewrite M|]. split; auto. split; congruence.
Qed.

Theorem nudged_again reference_state timescales dt : NoDup (dkeys timescales) -> forall n state, Forall (matched state reference_state) timescales ->
  exists state', nudge_steps n reference_state timescales dt state = (state', Ok tt) /\ dkeys state' = dkeys state /\
    (forall name tau, In (name, tau) timescales -> exists q r q', dget name state = Some q /\ dget name reference_state = Some r /\ dget name state' = Some q' /\
       written q q' (mkA (q_extent q) (fun p => settled n (at_ (domain_of r) p) tau dt (at_ (domain_of q) p)))) /\
    (forall name, ~ In name (dkeys timescales) -> dget name state' = dget name state).
Proof.
  intros ND. induction n as [|n IH]; intros state M; cbn [Repeated.nudge_steps].
  - exists state. split; auto. split; auto. split; auto. intros name tau I. rewrite Forall_forall in M. destruct (M _ I) as (q & r & E1 & E2 & C). cbn [fst] in *.
    exists q, r, q. split; auto. split; auto. split; auto. eapply written_same; [|apply written_self]. split; [reflexivity|]. auto.
  - destruct (nudged sub add div mul state reference_state timescales dt ND M) as (s1 & t1 & -> & K1 & _ & N1 & O1).
    destruct (IH s1) as (s2 & E2 & K2 & N2 & O2).
    { apply Forall_forall. intros (name & tau) I. destruct (N1 name tau I) as (q & r & t & q' & A & B & _ & _ & D & W). rewrite Forall_forall in M.
      destruct (M _ I) as (q0 & r0 & A0 & B0 & C). cbn [fst] in *. exists q', r. split; auto. split; auto. eapply comparable_written; [exact W|]. congruence. }
    exists s2. rewrite E2. split; auto. split; [congruence|]. split.
    + intros name tau I. destruct (N1 name tau I) as (q & r & t & q' & A & B & _ & _ & D & W). destruct (N2 name tau I) as (q1 & r1 & q2 & A1 & B1 & D1 & W1).
      exists q, r, q2. split; auto. split; auto. split; auto. assert (q1 = q') by congruence. assert (r1 = r) by congruence. subst q1 r1.
      eapply written_trans; [exact W|]. eapply written_same; [|exact W1].
      destruct (written_meta _ _ _ W) as (_ & _ & D3 & D4). destruct W as ((SW & AW) & _). cbn [shp at_] in SW, AW.
      split; cbn [shp at_]; [cbn [domain_of shp] in SW; exact SW|]. intros p P. cbn [Repeated.settled]. rewrite AW; auto.
    + intros name I. rewrite O2 by auto. auto.
Qed.

(** ranks nudging their parts *)
Context {Tm : Type}.
Theorem nudged_apart (p : partitioner) (dims : list string) (rext : list Z) n name tau dt (sends references recv outs : nat -> option (quantity V)) send reference junk junk1 junk2 :
  fits (layout_of p) dims rext -> at_most_one AxX dims -> at_most_one AxY dims ->
  sends 0%nat = Some send -> references 0%nat = Some reference -> global_sized p dims rext send -> global_sized p dims rext reference ->
  (forall r, (r < ranks p)%nat -> given (fun q => rank_sized rext q /\ q_dims q = dims) (recv r)) -> given (global_sized p dims rext) (outs 0%nat) ->
  exists out, always_ends (ranks p) (fun r => nudging_rank (Tm := Tm) sub add div mul p n name tau dt r (junk r) (junk1 r) (junk2 r) (sends r) (references r) (recv r) (outs r))
      (fun r => Ok (match r with O => Some out | _ => None end)) /\ q_dims out = global_dims p dims /\
    same (domain_of out) (mkA (q_extent send) (fun g => settled n (at_ (domain_of reference) g) tau dt (at_ (domain_of send) g))).
Proof.
  intros Fi OX OY S0 R0 GS GR HR HO. pose proof (ranks_pos p dims rext Fi) as RP.
  destruct (scatter_tog p dims rext Fi sends recv send junk S0 GS (T := Tm)) as (qs & T1 & W1).
  { intros r Hr. specialize (HR r Hr). destruct (recv r); cbn in *; tauto. }
  destruct (scatter_tog p dims rext Fi references (fun _ => None) reference junk1 R0 GR (T := Tm)) as (refs & T2 & W2); [intros; exact I|].
  assert (RS : forall r, (r < ranks p)%nat -> rank_sized rext (qs r) /\ q_dims (qs r) = dims).
  { intros r Hr. specialize (HR r Hr). split.
    - eapply rank_sized_written; [now apply W1|]. apply (or_blank_sized p dims rext Fi). destruct (recv r); cbn in *; tauto.
    - destruct (written_meta _ _ _ (W1 r Hr)) as (-> & _). destruct (recv r); cbn in *; tauto. }
  assert (RR : forall r, (r < ranks p)%nat -> rank_sized rext (refs r)).
  { intros r Hr. eapply rank_sized_written; [now apply W2|]. now apply (or_blank_sized p dims rext Fi). }
  set (step r := match nudge_steps n [(name, refs r)] [(name, tau)] dt [(name, qs r)] with
                | (state, Ok _) => match dget name state with Some q => Ok q | None => Err KeyError end
                | (_, Err e) => Err e
                end).
  assert (NS : forall r, (r < ranks p)%nat -> exists q', step r = Ok q' /\ rank_sized rext q' /\ q_dims q' = dims /\
     forall pt, in_shape rext pt -> at_ (domain_of q') pt = settled n (at_ (domain_of reference) (place p r dims rext pt)) tau dt (at_ (domain_of send) (place p r dims rext pt))).
  { intros r Hr. destruct (RS r Hr) as (A & B). pose proof (RR r Hr) as C.
    destruct (nudged_again [(name, refs r)] [(name, tau)] dt) with (n := n) (state := [(name, qs r)]) as (s' & E & _ & N & _).
    { repeat constructor. intros []. }
    { constructor; [|constructor]. exists (qs r), (refs r). cbn [fst dget]. rewrite String.eqb_refl. split; auto. split; auto.
      destruct A as (A1 & A2), C as (C1 & C2). split; auto. split; auto. split; [congruence|]. rewrite B. apply Fi. }
    destruct (N name tau (or_introl eq_refl)) as (q & rf & q' & E1 & E2 & E3 & W). cbn [dget] in E1, E2. rewrite String.eqb_refl in E1, E2. injection E1 as <-. injection E2 as <-.
    exists q'. unfold step. rewrite E, E3. split; auto. split; [eapply rank_sized_written; eauto|]. split; [destruct (written_meta _ _ _ W) as (-> & _); auto|].
    intros pt P. destruct W as ((SW & AW) & _). cbn [shp at_] in SW, AW. destruct A as (_ & A2). rewrite AW by (rewrite SW, A2; auto).
    destruct (W1 r Hr) as ((SW1 & AW1) & _). destruct (W2 r Hr) as ((SW2 & AW2) & _). cbn [part_of shp at_] in SW1, AW1, SW2, AW2.
    now rewrite AW1, AW2 by (rewrite ?SW1, ?SW2; auto). }
  set (ends r := match step r with Ok q => q | Err _ => send end).
  assert (NE : forall r, (r < ranks p)%nat -> step r = Ok (ends r) /\ rank_sized rext (ends r) /\ q_dims (ends r) = dims /\
     forall pt, in_shape rext pt -> at_ (domain_of (ends r)) pt = settled n (at_ (domain_of reference) (place p r dims rext pt)) tau dt (at_ (domain_of send) (place p r dims rext pt))).
  { intros r Hr. destruct (NS r Hr) as (q' & E & X). unfold ends. rewrite E. auto. }
  destruct (gather_tog p dims rext Fi ends outs junk2 (T := Tm)) as (out & T3 & a & W3 & G).
  { intros r Hr. now apply NE. }
  { destruct (outs 0%nat); auto. now apply NE. }
  exists out. split; [|split].
  - apply together_always. unfold nudging_rank.
    refine (together_bind (ranks p) _ qs (fun r q => pbind (scatter V Tm p (Z.of_nat r) (junk1 r) (references r) None) (fun ref => pbind (plift (match nudge_steps n [(name, ref)] [(name, tau)] dt [(name, q)] with
                | (state, Ok _) => match dget name state with Some q => Ok q | None => Err KeyError end
                | (_, Err e) => Err e
                end)) (fun q => gather V Tm p (Z.of_nat r) (junk2 r) q (outs r)))) _ T1 _).
    refine (together_bind (ranks p) _ refs (fun r ref => pbind (plift (match nudge_steps n [(name, ref)] [(name, tau)] dt [(name, qs r)] with
                | (state, Ok _) => match dget name state with Some q => Ok q | None => Err KeyError end
                | (_, Err e) => Err e
                end)) (fun q => gather V Tm p (Z.of_nat r) (junk2 r) q (outs r))) _ T2 _).
    eapply together_ext; [|exact T3]. intros r Hr. cbv beta. fold (step r). destruct (NE r Hr) as (-> & _). reflexivity.
  - destruct (written_meta _ _ _ W3) as (-> & _). destruct (outs 0%nat) as [q|]; [apply HO|reflexivity].
  - destruct (gathered_full p dims rext Fi _ _ _ OX OY G) as (S1 & GF). destruct W3 as ((SW & AW) & _). destruct GS as (_ & _ & ES).
    split; [cbn [domain_of shp] in *; congruence|]. intros g I0. cbn [at_]. rewrite AW by auto. rewrite SW in I0.
    destruct (GF g I0) as (r & pt & Hr & P & E & -> & _). destruct (NE r Hr) as (_ & _ & _ & X). rewrite X by auto. now rewrite E.
Qed.
End R.

(** exact arithmetic *)
From Coq Require Import QArith Qabs Qpower.
Local Open Scope Q_scope.
Notation settledQ := (settled Qminus Qplus Qdiv Qmult).

Theorem settled_distance n r tau dt : ~ tau == 0 -> forall s, settledQ n r tau dt s - r == (s - r) * qpow (1 - dt / tau) n.
Proof.
  intros N. induction n as [|n IH]; intros s; cbn [settled qpow]; [ring|]. rewrite IH. rewrite relaxed_distance by auto. ring.
Qed.

Lemma qpow_eq h k n : h == k -> qpow h n == qpow k n.
Proof. intros E. induction n as [|n IH]; cbn [qpow]; [reflexivity|]. now apply Qmult_comp. Qed.
Lemma qpow_abs h n : Qabs (qpow h n) == qpow (Qabs h) n.
Proof. induction n as [|n IH]; cbn [qpow]; [reflexivity|]. rewrite Qabs_Qmult, IH. reflexivity. Qed.
Lemma qpow_nonneg h n : 0 <= h -> 0 <= qpow h n.
Proof. intros H. induction n as [|n IH]; cbn [qpow]; [discriminate|]. now apply Qmult_le_0_compat. Qed.
Lemma qn_S n : qn (S n) == qn n + 1.
Proof. unfold qn. rewrite Nat2Z.inj_succ, <- Z.add_1_r, inject_Z_plus. reflexivity. Qed.
Lemma qn_nonneg n : 0 <= qn n.
Proof. unfold qn. change 0 with (inject_Z 0). rewrite <- Zle_Qle. apply Nat2Z.is_nonneg. Qed.

From Coq Require Import Lqa.
Lemma shrink h n : 0 <= h -> h <= 1 -> qpow (1 - h) n * (1 + qn n * h) <= 1.
Proof.
  intros A B. induction n as [|n IH]; cbn [qpow]; [change (qn 0) with 0; lra|]. rewrite qn_S.
  assert (P : 0 <= qpow (1 - h) n) by (apply qpow_nonneg; lra). pose proof (qn_nonneg n) as N.
  apply (Qle_trans _ (qpow (1 - h) n * (1 + qn n * h))); auto.
  setoid_replace ((1 - h) * qpow (1 - h) n * (1 + (qn n + 1) * h)) with (qpow (1 - h) n * (1 + qn n * h) - qpow (1 - h) n * ((qn n + 1) * (h * h))) by ring.
  assert (X : 0 <= qpow (1 - h) n * ((qn n + 1) * (h * h))); [|lra].
  apply Qmult_le_0_compat; auto. apply Qmult_le_0_compat; [lra|]. now apply Qmult_le_0_compat.
Qed.
Lemma grow k n : 0 <= k -> 1 + qn n * k <= qpow (1 + k) n.
Proof.
  intros A. induction n as [|n IH]; cbn [qpow]; [change (qn 0) with 0; lra|]. rewrite qn_S. pose proof (qn_nonneg n) as N.
  apply (Qle_trans _ ((1 + k) * (1 + qn n * k))).
  - assert (X : 0 <= qn n * (k * k)) by (apply Qmult_le_0_compat; auto; now apply Qmult_le_0_compat). 
    setoid_replace ((1 + k) * (1 + qn n * k)) with (1 + (qn n + 1) * k + qn n * (k * k)) by ring. lra.
  - rewrite !(Qmult_comm (1 + k)). apply Qmult_le_compat_r; auto. lra.
Qed.

Lemma abs_distance n r tau dt s : ~ tau == 0 -> Qabs (settledQ n r tau dt s - r) == Qabs (s - r) * qpow (Qabs (1 - dt / tau)) n.
Proof. intros N. rewrite settled_distance by auto. rewrite Qabs_Qmult, qpow_abs. reflexivity. Qed.

(** steps up to the timescale: the distance goes to zero *)
Theorem settled_near n r tau dt s : 0 < tau -> 0 <= dt -> dt <= tau -> Qabs (settledQ n r tau dt s - r) * (1 + qn n * (dt / tau)) <= Qabs (s - r).
Proof.
  intros P A B. assert (N : ~ tau == 0) by lra. rewrite abs_distance by auto.
  assert (H0 : 0 <= dt / tau) by (apply Qle_shift_div_l; lra). assert (H1 : dt / tau <= 1) by (apply Qle_shift_div_r; lra).
  rewrite (qpow_eq _ (1 - dt / tau)) by (apply Qabs_pos; lra). rewrite <- Qmult_assoc. rewrite <- (Qmult_1_r (Qabs (s - r))) at 2. rewrite !(Qmult_comm (Qabs (s - r))).
  apply Qmult_le_compat_r; [|apply Qabs_nonneg]. now apply shrink.
Qed.
(** steps longer than twice the timescale: the distance grows without bound *)
Theorem settled_far n r tau dt s : 0 < tau -> 2 * tau <= dt -> Qabs (s - r) * (1 + qn n * (dt / tau - 2)) <= Qabs (settledQ n r tau dt s - r).
Proof.
  intros P A. assert (N : ~ tau == 0) by lra. rewrite abs_distance by auto.
  assert (H : 2 <= dt / tau) by (apply Qle_shift_div_l; lra).
  rewrite (qpow_eq _ (1 + (dt / tau - 2))) by (rewrite Qabs_neg; [ring|lra]). rewrite !(Qmult_comm (Qabs (s - r))). apply Qmult_le_compat_r; [|apply Qabs_nonneg].
  apply grow. lra.
Qed.
