From Verif.Base Require Import Base Lemmas.
From Verif.Model Require Import Timer.
From Verif.Spec Require Import Intervals.

Section TimerProofs.
Variable R : Type.
Variable sub add : R -> R -> R.
Notation step := (tstep R sub add). Notation run := (trun R sub add).
Notation account_of := (account_of R sub). Notation total := (total R add). Notation count := (count R). Notation expected := (expected R sub add).

Definition inv (t : timer R) (past : list (tcall R)) : Prop :=
  t_null t = false /\ NoDup (dkeys (t_starts t)) /\
  (running t = true -> t_on t = true) /\
  forall name, let a := account_of name past in
    on a = t_on t /\ since a = dget name (t_starts t) /\ total (durations a) = dget name (t_acc t) /\ count (durations a) = dget name (t_hits t).

Lemma total_snoc l x : total (l ++ [x]) = Some (match total l with None => x | Some a => add a x end).
Proof. destruct l as [|y l]; cbn; [reflexivity|]. now rewrite fold_left_app. Qed.
Lemma count_snoc l (x : R) : count (l ++ [x]) = Some (match count l with None => 1 | Some h => h + 1 end).
Proof. destruct l as [|y l]; cbn [count app]; [reflexivity|]. f_equal. cbn [length]. rewrite app_length. cbn [length]. lia. Qed.

Lemma account_snoc name past c : account_of name (past ++ [c]) = credit R sub name (account_of name past) c.
Proof. unfold Intervals.account_of. now rewrite fold_left_app. Qed.

Lemma running_iff t past : inv t past -> running t = true <-> exists name, since (account_of name past) <> None.
Proof.
  intros (_ & _ & _ & A). unfold running. split.
  - destruct (t_starts t) as [|[n s] d] eqn:E; [discriminate|]. intros _. exists n. destruct (A n) as (_ & B & _). rewrite B. cbn. now rewrite String.eqb_refl.
  - intros (n & N). destruct (A n) as (_ & B & _). rewrite B in N. now destruct (t_starts t).
Qed.

Lemma step_ok t past c : inv t past -> let '(t', r) := step c t in
  expected past c r /\ match r with Ok _ => inv t' (past ++ [c]) | Err _ => t' = t end.
Proof.
  intros I. pose proof (running_iff t past I) as RI. destruct I as (N & ND & RO & A).
  destruct c as [n now|n now| | | | | |]; cbn [tstep].
  - unfold t_start, dmem. cbn [Intervals.expected]. destruct (A n) as (A1 & A2 & A3 & A4). rewrite A1, A2.
    remember (t_on t) as b eqn:On; destruct b; symmetry in On.
    + destruct (dget n (t_starts t)) eqn:G; [now split|]. split; [reflexivity|].
      split; [auto|]. split; [now apply NoDup_dset|]. split; [auto|].
      intros name. rewrite account_snoc. specialize (A name). cbn zeta in *. destruct A as (B1 & B2 & B3 & B4). cbn [credit]. rewrite B1.
      cbn [t_on t_starts t_acc t_hits]. rewrite dget_dset, ?On. cbn [andb]. rewrite (String.eqb_sym n name). destruct (name =? n)%string; cbn [on since durations]; auto.
    + split; [reflexivity|]. split; [auto|]. split; [auto|]. split; [intros X; specialize (RO X); congruence|]. intros name. rewrite account_snoc. specialize (A name). cbn zeta in *. destruct A as (B1 & B2 & B3 & B4). cbn [credit].
      rewrite B1, ?On. cbn [andb]. repeat split; auto; congruence.
  - unfold t_stop. cbn [Intervals.expected]. destruct (A n) as (A1 & A2 & A3 & A4). rewrite A1, A2.
    remember (t_on t) as b eqn:On; destruct b; symmetry in On.
    + destruct (dget n (t_starts t)) as [s|] eqn:G; [|now split]. split; [reflexivity|].
      split; [auto|]. split; [now apply NoDup_dpop|]. split; [auto|].
      intros name. rewrite account_snoc. specialize (A name). cbn zeta in *. destruct A as (B1 & B2 & B3 & B4). cbn [credit]. rewrite B1.
      cbn [t_on t_starts t_acc t_hits]. rewrite !dget_dset, dget_dpop, ?On by auto. cbn [andb]. rewrite (String.eqb_sym n name).
      destruct (String.eqb_spec name n) as [->|]; cbn [on since durations]; auto.
      rewrite B2, G. cbn [on since durations]. rewrite total_snoc, count_snoc, B3, B4. auto.
    + split; [reflexivity|]. split; [auto|]. split; [auto|]. split; [intros X; specialize (RO X); congruence|]. intros name. rewrite account_snoc. specialize (A name). cbn zeta in *. destruct A as (B1 & B2 & B3 & B4). cbn [credit].
      rewrite B1, ?On. cbn [andb]. repeat split; auto; congruence.
  - split; [reflexivity|]. split; [auto|]. split; [auto|]. split; [auto|]. intros name. rewrite account_snoc. destruct (A name) as (B1 & B2 & B3 & B4). cbn [credit on since durations t_on t_starts t_acc t_hits]. auto.
  - rewrite N. split; [reflexivity|]. split; [auto|]. split; [auto|]. split; [auto|]. intros name. rewrite account_snoc. destruct (A name) as (B1 & B2 & B3 & B4). cbn [credit on since durations t_on t_starts t_acc t_hits]. auto.
  - destruct (running t) eqn:Ru.
    + split; [|reflexivity]. left. split; auto. now apply RI.
    + split. { right. split; auto. intros C. apply RI in C. congruence. }
      split; [auto|]. split; [auto|]. split. { unfold running in *. cbn [t_starts]. rewrite Ru. discriminate. }
      intros name. rewrite account_snoc. destruct (A name) as (B1 & B2 & B3 & B4). cbn [credit on since durations t_on t_starts t_acc t_hits]. auto.
  - split. { exists (t_acc t), (running t). split; [reflexivity|]. split; [exact RI|]. intros name. destruct (A name) as (_ & _ & B & _). now rewrite <- B. }
    split; [auto|]. split; [auto|]. split; [auto|]. intros name. rewrite account_snoc. cbn [credit]. auto.
  - split. { exists (t_hits t), (running t). split; [reflexivity|]. split; [exact RI|]. intros name. destruct (A name) as (_ & _ & _ & B). now rewrite <- B. }
    split; [auto|]. split; [auto|]. split; [auto|]. intros name. rewrite account_snoc. cbn [credit]. auto.
  - rewrite N. split. { exists (t_on t). split; [reflexivity|]. intros name. destruct (A name) as (B & _). now rewrite <- B. }
    split; [auto|]. split; [auto|]. split; [auto|]. intros name. rewrite account_snoc. cbn [credit]. auto.
Qed.

Lemma run_inv cs : forall t past, inv t past -> let '(t', rs) := run cs t in inv t' (past ++ returned cs rs).
Proof.
  induction cs as [|c cs IH]; intros t past I; cbn [trun].
  - now rewrite app_nil_r.
  - pose proof (step_ok t past c I) as S. destruct (step c t) as [t1 r]. destruct S as (_ & S).
    destruct r as [v|e].
    + specialize (IH t1 _ S). destruct (run cs t1) as [t2 rs]. cbn [returned]. now rewrite <- app_assoc in IH.
    + subst t1. specialize (IH t _ I). destruct (run cs t) as [t2 rs]. exact IH.
Qed.

Lemma inv_new : inv new_timer [].
Proof. split; [reflexivity|]. split; [constructor|]. split; [discriminate|]. intros name. cbn. auto. Qed.

(** C38 *)
Theorem timer_accounts cs c : let '(t, rs) := run cs new_timer in let '(t', r) := step c t in
  expected (returned cs rs) c r /\ (forall e, r = Err e -> t' = t).
Proof.
  pose proof (run_inv cs new_timer [] inv_new) as I. destruct (run cs new_timer) as [t rs]. cbn [app] in I.
  pose proof (step_ok t _ c I) as S. destruct (step c t) as [t' r]. destruct S as (E & S). split; auto. intros e ->. auto.
Qed.

Theorem running_enabled cs : let '(t, rs) := run cs new_timer in running t = true -> step Enabled t = (t, Ok (VBool true)).
Proof.
  pose proof (run_inv cs new_timer [] inv_new) as I. destruct (run cs new_timer) as [t rs]. destruct I as (N & _ & RO & _). intros H. cbn. now rewrite N, (RO H).
Qed.

(** C39 *)
Theorem null_inert cs : let '(t, rs) := run cs null_timer in t = null_timer /\
  Forall2 (fun c r => match c with
                      | Enable => r = Err NotImplementedError
                      | Times => r = Ok (VTimes [] false)
                      | Hits => r = Ok (VHits [] false)
                      | Enabled => r = Ok (VBool false)
                      | _ => r = Ok VNone
                      end) cs rs.
Proof.
  induction cs as [|c cs IH]; cbn [trun]; [now split; [|constructor]|].
  assert (S : exists r, step c null_timer = (null_timer, r) /\ match c with
                      | Enable => r = Err NotImplementedError
                      | Times => r = Ok (VTimes [] false)
                      | Hits => r = Ok (VHits [] false)
                      | Enabled => r = Ok (VBool false)
                      | _ => r = Ok VNone
                      end) by (destruct c; eexists; (split; [reflexivity|reflexivity])).
  destruct S as (r & -> & Hr). destruct (run cs null_timer) as [t' rs]. destruct IH as (-> & F). split; [reflexivity|]. now constructor.
Qed.

(** C40 *)
Definition holds (t : timer R) (name : string) : Prop := dget name (t_starts t) <> None.

Theorem clock_raises {A} name now later (body : timer R -> timer R * res A) t t2 e : t_on t = true -> dget name (t_starts t) = None ->
  body (fst (step (Start name now) t)) = (t2, Err e) -> t_on t2 = true -> holds t2 name ->
  with_clock R sub add name now body later t = (t2, Err e) /\
  (forall r, step (Start name r) t2 = (t2, Err ValueError)) /\
  step Disable t2 = (t2, Err RuntimeError) /\
  (forall r, NoDup (dkeys (t_starts t2)) -> let '(t3, o) := step (Stop name r) t2 in o = Ok VNone /\ forall r', snd (step (Start name r') t3) = Ok VNone).
Proof.
  intros On G B On2 H2. unfold holds in H2. unfold with_clock, tstep at 1, t_start, dmem. unfold tstep at 1, t_start, dmem in B. rewrite On, G in *. cbn [fst] in B. rewrite B. split; [reflexivity|].
  split. { intros r. unfold tstep, t_start, dmem. rewrite On2. destruct (dget name (t_starts t2)); [reflexivity|congruence]. }
  split. { unfold tstep, running. destruct (t_starts t2); [now destruct H2|reflexivity]. }
  intros r ND. unfold tstep at 1, t_stop. rewrite On2. destruct (dget name (t_starts t2)) as [s|] eqn:E; [|congruence]. split; [reflexivity|].
  intros r'. unfold tstep, t_start, dmem. cbn [t_on t_starts]. rewrite ?On2, dget_dpop, String.eqb_refl by auto. reflexivity.
Qed.

Theorem clock_returns {A} name now later (body : timer R -> timer R * res A) t t2 a : t_on t = true -> dget name (t_starts t) = None ->
  body (fst (step (Start name now) t)) = (t2, Ok a) -> t_on t2 = true -> NoDup (dkeys (t_starts t2)) -> dget name (t_starts t2) = Some now ->
  exists t3, with_clock R sub add name now body later t = (t3, Ok a) /\ dget name (t_starts t3) = None /\ t_on t3 = true /\
    dget name (t_acc t3) = Some (match dget name (t_acc t2) with None => sub later now | Some b => add b (sub later now) end) /\
    dget name (t_hits t3) = Some (match dget name (t_hits t2) with None => 1 | Some h => h + 1 end) /\
    forall n, n <> name -> dget n (t_starts t3) = dget n (t_starts t2) /\ dget n (t_acc t3) = dget n (t_acc t2) /\ dget n (t_hits t3) = dget n (t_hits t2).
Proof.
  intros On G B On2 ND H2. unfold with_clock, tstep at 1, t_start, dmem. unfold tstep at 1, t_start, dmem in B. rewrite On, G in *. cbn [fst] in B. rewrite B.
  unfold tstep, t_stop. rewrite On2, H2. eexists. split; [reflexivity|]. cbn [t_starts t_on t_acc t_hits].
  rewrite dget_dpop, !dget_dset, String.eqb_refl by auto. split; auto. split; auto. split; auto. split; auto.
  intros n Hn. rewrite dget_dpop, !dget_dset by auto. destruct (String.eqb_spec n name); [congruence|auto].
Qed.
End TimerProofs.
