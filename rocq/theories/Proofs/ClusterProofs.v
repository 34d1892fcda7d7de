(** Confluence of programs which use messages and collective operations. *)
From Verif.Base Require Import Base Lemmas.
From Verif.Model Require Import Network Collective Cluster.
From Verif.Proofs Require Import NetworkProofs CollectiveProofs.
From Coq Require Import ZifyBool.

Lemma ctx_eqb_spec a b : reflect (a = b) (ctx_eqb a b).
Proof.
  revert b. induction a as [|[n c] a IH]; intros [|[m d] b]; cbn; try (constructor; congruence).
  destruct (Nat.eqb_spec n m), (Z.eqb_spec c d); cbn; try (constructor; congruence). destruct (IH b); constructor; congruence.
Qed.

Section Confluence.
Context {Ob V A : Type}.
Notation cluster := (cluster Ob V A).
Notation rank := (rank Ob V A).

(** ** messages *)
Definition enabled (r : nat) (e : effect V) (sent : list (list (msg V))) : Prop :=
  match e with
  | ENone => True
  | ESent _ => exists l, nth_error sent r = Some l
  | ETaken src tag => exists l b l', nth_error sent (Z.to_nat src) = Some l /\ take (Z.of_nat r) tag l = Some (b, l')
  end.

Lemma take_persists r1 r2 e2 (sent : list (list (msg V))) i t l b l' : r1 <> r2 -> enabled r2 e2 sent ->
  nth_error sent i = Some l -> take (Z.of_nat r1) t l = Some (b, l') ->
  exists l2 l2', nth_error (affect r2 e2 sent) i = Some l2 /\ take (Z.of_nat r1) t l2 = Some (b, l2').
Proof.
  intros NE E N T. assert (NZ : Z.of_nat r1 <> Z.of_nat r2) by lia. destruct e2 as [|m|src tag]; cbn [affect enabled] in *.
  - eauto.
  - destruct E as (l0 & E). rewrite E. destruct (Nat.eq_dec i r2) as [->|NI].
    + rewrite (nth_error_upd_eq _ _ _ _ E). rewrite E in N. injection N as ->. eexists _, _. split; [reflexivity|]. eapply take_app; exact T.
    + rewrite nth_error_upd_neq by auto. eauto.
  - destruct E as (l0 & b0 & l0' & E & T0). rewrite E, T0. destruct (Nat.eq_dec i (Z.to_nat src)) as [->|NI].
    + rewrite (nth_error_upd_eq _ _ _ _ E). rewrite E in N. injection N as ->.
      destruct (take_comm _ _ _ _ _ _ _ _ _ NZ T T0) as (l3 & _ & T3). eexists _, _. split; [reflexivity|exact T3].
    + rewrite nth_error_upd_neq by auto. eauto.
Qed.

Lemma length_persists r e (sent : list (list (msg V))) i l : nth_error sent i = Some l -> exists l', nth_error (affect r e sent) i = Some l'.
Proof.
  intros N. destruct e as [|m|src tag]; cbn [affect]; eauto.
  - destruct (nth_error sent r) as [l0|] eqn:E; eauto. destruct (Nat.eq_dec i r) as [->|NI]; [rewrite (nth_error_upd_eq _ _ _ _ E); eauto|rewrite nth_error_upd_neq by auto; eauto].
  - destruct (nth_error sent (Z.to_nat src)) as [l0|] eqn:E; eauto. destruct (take _ _ l0) as [[b l0']|]; eauto.
    destruct (Nat.eq_dec i (Z.to_nat src)) as [->|NI]; [rewrite (nth_error_upd_eq _ _ _ _ E); eauto|rewrite nth_error_upd_neq by auto; eauto].
Qed.

Lemma enabled_persists r1 r2 e1 e2 (sent : list (list (msg V))) : r1 <> r2 -> enabled r1 e1 sent -> enabled r2 e2 sent -> enabled r1 e1 (affect r2 e2 sent).
Proof.
  intros NE E1 E2. destruct e1 as [|m|src tag]; cbn [enabled] in *; auto.
  - destruct E1 as (l & E1). eapply length_persists; eauto.
  - destruct E1 as (l & b & l' & N & T). destruct (take_persists _ _ _ _ _ _ _ _ _ NE E2 N T) as (l2 & l2' & N2 & T2). eauto 6.
Qed.

Lemma affect_comm r1 r2 e1 e2 (sent : list (list (msg V))) : r1 <> r2 -> enabled r1 e1 sent -> enabled r2 e2 sent ->
  affect r1 e1 (affect r2 e2 sent) = affect r2 e2 (affect r1 e1 sent).
Proof.
  assert (ST : forall r1 r2 m src tag, r1 <> r2 -> enabled r1 (ESent m) sent -> enabled r2 (ETaken src tag) sent ->
     affect r1 (ESent m) (affect r2 (ETaken src tag) sent) = affect r2 (ETaken src tag) (affect r1 (ESent m) sent)).
  { clear r1 r2 e1 e2. intros r1 r2 m src tag NE (l1 & E1) (l & b & l' & N & T). cbn [affect]. rewrite N, T, E1.
    destruct (Nat.eq_dec r1 (Z.to_nat src)) as [->|NI].
    - rewrite (nth_error_upd_eq _ _ _ _ N), (nth_error_upd_eq _ _ _ _ E1). rewrite E1 in N. injection N as ->.
      rewrite (take_app _ _ _ _ _ _ T). now rewrite !upd_upd.
    - rewrite !nth_error_upd_neq by auto. rewrite E1, N, T. apply upd_comm; auto. }
  intros NE E1 E2. destruct e1 as [|m1|src1 tag1], e2 as [|m2|src2 tag2]; try reflexivity.
  - destruct E1 as (l1 & E1), E2 as (l2 & E2). cbn [affect]. rewrite E1, E2, !nth_error_upd_neq by auto. rewrite E1, E2. apply upd_comm; auto.
  - now apply ST.
  - symmetry. apply ST; auto.
  - destruct E1 as (l1 & b1 & l1' & N1 & T1), E2 as (l2 & b2 & l2' & N2 & T2). cbn [affect]. rewrite N1, N2, T1, T2.
    assert (NZ : Z.of_nat r1 <> Z.of_nat r2) by lia. destruct (Nat.eq_dec (Z.to_nat src1) (Z.to_nat src2)) as [E|NI].
    + rewrite E in *. rewrite (nth_error_upd_eq _ _ _ _ N2), (nth_error_upd_eq _ _ _ _ N1). assert (l1 = l2) by congruence. subst l2.
      destruct (take_comm _ _ _ _ _ _ _ _ _ NZ T1 T2) as (l3 & A1 & A2). rewrite A1, A2. now rewrite !upd_upd.
    + rewrite !nth_error_upd_neq by auto. rewrite N1, N2, T1, T2. apply upd_comm. auto.
Qed.

Lemma taken_persists r2 e2 (sent : list (list (msg V))) r l j m : r <> r2 -> nth_error sent r = Some l -> nth_error l j = Some m ->
  exists l' m', nth_error (affect r2 e2 sent) r = Some l' /\ nth_error l' j = Some m' /\ (ms_taken m = true -> ms_taken m' = true).
Proof.
  intros NE N J. destruct e2 as [|m2|src tag]; cbn [affect]; eauto.
  - destruct (nth_error sent r2) eqn:E; eauto. rewrite nth_error_upd_neq by auto. eauto.
  - destruct (nth_error sent (Z.to_nat src)) as [l0|] eqn:E; eauto. destruct (take _ _ l0) as [[b l0']|] eqn:T; eauto.
    destruct (Nat.eq_dec r (Z.to_nat src)) as [->|NI].
    + rewrite (nth_error_upd_eq _ _ _ _ E). rewrite E in N. injection N as ->. destruct (take_nth _ _ _ _ _ _ _ T J) as (m' & J' & K & _). eauto.
    + rewrite nth_error_upd_neq by auto. eauto.
Qed.

(** ** collective calls *)
Definition further (ks ks' : list rank) : Prop :=
  forall r k, nth_error ks r = Some k -> exists k' l, nth_error ks' r = Some k' /\ k_posted k' = (k_posted k ++ l)%list.

Lemma posted_persists (ks ks' : list rank) g n i c : further ks ks' -> posted_by ks g n i = Some c -> posted_by ks' g n i = Some c.
Proof.
  intros F. unfold posted_by. destruct (nth_error (g_members g) i) as [r|]; [|discriminate]. destruct (nth_error ks r) as [k|] eqn:E; [|discriminate].
  destruct (F r k E) as (k' & l & -> & ->). intros N. unfold calls_on. rewrite filter_app, map_app. rewrite nth_error_app1; auto. apply nth_error_Some. unfold calls_on in N. congruence.
Qed.

Lemma same_colour_persists (f f' : nat -> option (gcall Ob V)) color : (forall i c, f i = Some c -> f' i = Some c) -> forall ms i l,
  same_colour f color ms i = Some l -> same_colour f' color ms i = Some l.
Proof.
  intros M. induction ms as [|r ms IH]; intros i l; cbn; auto. destruct (f i) as [[c|c key]|] eqn:E; try discriminate. rewrite (M _ _ E).
  destruct (same_colour f color ms (S i)) as [l'|] eqn:S'; [|discriminate]. now rewrite (IH _ _ S').
Qed.

Lemma answer_persists (ks ks' : list rank) g n r c a : further ks ks' -> ganswered ks g n r c = Some a -> ganswered ks' g n r c = Some a.
Proof.
  intros F. pose proof (fun i c => posted_persists ks ks' g n i c F) as P. destruct c as [c|color key]; cbn [ganswered].
  - destruct (rank_in r (g_members g)) as [i|]; [|discriminate].
    destruct (respond (length (g_members g)) (fun i => as_call (posted_by ks g n i)) i) as [x|] eqn:E; [|discriminate].
    assert (M : forall j y, as_call (posted_by ks g n j) = Some y -> as_call (posted_by ks' g n j) = Some y).
    { intros j y. unfold as_call. destruct (posted_by ks g n j) as [z|] eqn:Q; [|discriminate]. now rewrite (P _ _ Q). }
    now rewrite (respond_mono _ _ _ _ _ M E).
  - destruct (same_colour (posted_by ks g n) color (g_members g) 0) as [l|] eqn:E; [|discriminate]. now rewrite (same_colour_persists _ _ _ P _ _ _ E).
Qed.

Lemma everyone_persists (ks ks' : list rank) g n : further ks ks' -> everyone_posted ks g n = true -> everyone_posted ks' g n = true.
Proof.
  intros F. unfold everyone_posted. rewrite !forallb_forall. intros H i I. specialize (H i I). destruct (posted_by ks g n i) as [c|] eqn:E; [|discriminate].
  now rewrite (posted_persists _ _ _ _ _ _ F E).
Qed.

Section Step.
Variable bf : nat -> nat -> bool.
Variable dl : nat -> ctx -> nat -> bool.

Lemma react_enabled r (s : cluster) k e : react bf dl r s = Some (k, e) -> enabled r e (cl_sent s).
Proof.
  unfold react. destruct (nth_error (cl_ranks s) r) as [k0|]; [|discriminate]. destruct (k_proc k0) as [| |dst tag body p|src tag p|j p|g c p]; try discriminate.
  - destruct (nth_error (cl_sent s) r) as [l|] eqn:E; [|discriminate]. intros [= <- <-]. cbn. eauto.
  - destruct (src <? 0); [discriminate|]. destruct (nth_error (cl_sent s) (Z.to_nat src)) as [l|] eqn:E; [|discriminate].
    destruct (take (Z.of_nat r) tag l) as [[b l']|] eqn:T; [|discriminate]. intros [= <- <-]. cbn. eauto 6.
  - destruct (nth_error (cl_sent s) r) as [l|]; [|discriminate]. destruct (nth_error l j) as [m|]; [|discriminate].
    destruct (ms_taken m || bf r j); [|discriminate]. intros [= <- <-]. exact I.
  - destruct (k_pending k0).
    + cbv zeta. destruct (_ && _); [discriminate|]. destruct (ganswered _ _ _ _ _); [|discriminate]. intros [= <- <-]. exact I.
    + intros [= <- <-]. exact I.
Qed.

Lemma react_posts r (s : cluster) k e : react bf dl r s = Some (k, e) -> exists k0 l, nth_error (cl_ranks s) r = Some k0 /\ k_posted k = (k_posted k0 ++ l)%list.
Proof.
  unfold react. destruct (nth_error (cl_ranks s) r) as [k0|]; [|discriminate]. destruct (k_proc k0) as [| |dst tag body p|src tag p|j p|g c p]; try discriminate.
  - destruct (nth_error (cl_sent s) r); [|discriminate]. intros [= <- <-]. exists k0, []. cbn. now rewrite app_nil_r.
  - destruct (src <? 0); [discriminate|]. destruct (nth_error (cl_sent s) (Z.to_nat src)) as [l|]; [|discriminate].
    destruct (take (Z.of_nat r) tag l) as [[b l']|]; [|discriminate]. intros [= <- <-]. exists k0, []. cbn. now rewrite app_nil_r.
  - destruct (nth_error (cl_sent s) r) as [l|]; [|discriminate]. destruct (nth_error l j) as [m|]; [|discriminate].
    destruct (ms_taken m || bf r j); [|discriminate]. intros [= <- <-]. exists k0, []. cbn. now rewrite app_nil_r.
  - destruct (k_pending k0).
    + cbv zeta. destruct (_ && _); [discriminate|]. destruct (ganswered _ _ _ _ _); [|discriminate]. intros [= <- <-]. exists k0, []. cbn. now rewrite app_nil_r.
    + intros [= <- <-]. exists k0, [(g_ctx g, c)]. auto.
Qed.

Lemma step_further r (s s' : cluster) : cl_step bf dl r s = Some s' -> further (cl_ranks s) (cl_ranks s').
Proof.
  unfold cl_step. destruct (react bf dl r s) as [[k e]|] eqn:E; [|discriminate]. intros [= <-]. cbn [cl_ranks].
  destruct (react_posts _ _ _ _ E) as (k0 & l & N & P). intros i ki Ni. destruct (Nat.eq_dec i r) as [->|NE].
  - rewrite (nth_error_upd_eq _ _ _ _ N). assert (ki = k0) by congruence. subst. eauto.
  - rewrite nth_error_upd_neq by auto. exists ki, []. now rewrite app_nil_r.
Qed.

Lemma react_persists r1 r2 (s s2 : cluster) k1 e1 : r1 <> r2 -> react bf dl r1 s = Some (k1, e1) -> cl_step bf dl r2 s = Some s2 -> react bf dl r1 s2 = Some (k1, e1).
Proof.
  intros NE R S. pose proof (step_further _ _ _ S) as F. unfold cl_step in S. destruct (react bf dl r2 s) as [[k2 e2]|] eqn:R2; [|discriminate]. injection S as <-.
  pose proof (react_enabled _ _ _ _ R2) as EN. cbn [cl_ranks] in F. unfold react in *. cbn [cl_ranks cl_sent]. rewrite nth_error_upd_neq by auto.
  destruct (nth_error (cl_ranks s) r1) as [k0|]; [|discriminate]. destruct (k_proc k0) as [| |dst tag body p|src tag p|j p|g c p]; try discriminate.
  - destruct (nth_error (cl_sent s) r1) as [l|] eqn:N; [|discriminate]. destruct (length_persists r2 e2 _ _ _ N) as (l' & ->). exact R.
  - destruct (src <? 0); [discriminate|]. destruct (nth_error (cl_sent s) (Z.to_nat src)) as [l|] eqn:N; [|discriminate].
    destruct (take (Z.of_nat r1) tag l) as [[b l']|] eqn:T; [|discriminate].
    destruct (take_persists _ _ _ _ _ _ _ _ _ NE EN N T) as (l2 & l2' & -> & ->). exact R.
  - destruct (nth_error (cl_sent s) r1) as [l|] eqn:N; [|discriminate]. destruct (nth_error l j) as [m|] eqn:J; [|discriminate].
    destruct (taken_persists r2 e2 _ _ _ _ _ NE N J) as (l' & m' & -> & -> & M).
    destruct (ms_taken m); [rewrite M by auto; exact R|]. cbn [orb] in R. destruct (bf r1 j); [rewrite orb_true_r; exact R|discriminate].
  - destruct (k_pending k0); [|exact R]. cbv zeta in *. set (i := pred _) in *.
    assert (D : dl r1 (g_ctx g) i && negb (everyone_posted (upd (cl_ranks s) r2 k2) g i) = false).
    { destruct (dl r1 (g_ctx g) i); auto. cbn [andb] in *. destruct (everyone_posted (cl_ranks s) g i) eqn:EP; [|discriminate]. now rewrite (everyone_persists _ _ _ _ F EP). }
    rewrite D. destruct (_ && _); [discriminate|]. destruct (ganswered (cl_ranks s) g i r1 c) as [a|] eqn:AN; [|discriminate].
    now rewrite (answer_persists _ _ _ _ _ _ _ F AN).
Qed.

(** two ranks able to move can move in either order with the same outcome *)
Lemma cl_diamond r1 r2 (s s1 s2 : cluster) : r1 <> r2 -> cl_step bf dl r1 s = Some s1 -> cl_step bf dl r2 s = Some s2 ->
  exists s3, cl_step bf dl r2 s1 = Some s3 /\ cl_step bf dl r1 s2 = Some s3.
Proof.
  intros NE S1 S2. pose proof S1 as S1'. pose proof S2 as S2'. unfold cl_step in S1', S2'.
  destruct (react bf dl r1 s) as [[k1 e1]|] eqn:R1; [|discriminate]. destruct (react bf dl r2 s) as [[k2 e2]|] eqn:R2; [|discriminate].
  injection S1' as E1. injection S2' as E2.
  unfold cl_step. rewrite (react_persists _ _ _ _ _ _ (not_eq_sym NE) R2 S1), (react_persists _ _ _ _ _ _ NE R1 S2).
  subst s1 s2. cbn [cl_ranks cl_sent]. eexists. split; [reflexivity|]. f_equal. f_equal.
  - apply upd_comm. auto.
  - apply affect_comm; auto; eapply react_enabled; eauto.
Qed.

(** a state in which every rank has ended *)
Definition ended (s : cluster) : Prop := Forall (fun k => rank_outcome k <> None) (cl_ranks s).

Lemma ended_stuck r (s : cluster) : ended s -> cl_step bf dl r s = None.
Proof.
  intros F. unfold cl_step, react. destruct (nth_error (cl_ranks s) r) as [k|] eqn:E; auto. apply nth_error_In in E.
  unfold ended in F. rewrite Forall_forall in F. specialize (F k E). unfold rank_outcome in F. destruct (k_proc k); auto; congruence.
Qed.

Lemma cl_complete_step sched (s F : cluster) r s1 : cl_run bf dl sched s = Some F -> (forall r, cl_step bf dl r F = None) -> cl_step bf dl r s = Some s1 ->
  exists sched', cl_run bf dl sched' s1 = Some F /\ S (length sched') = length sched.
Proof.
  revert s s1; induction sched as [|r0 sched IH]; cbn; intros s s1 R FF S1.
  - injection R as ->. now rewrite FF in S1.
  - destruct (cl_step bf dl r0 s) as [s0|] eqn:S0; [|discriminate]. destruct (Nat.eq_dec r r0) as [->|NE].
    + assert (s1 = s0) by congruence. subst. eauto.
    + destruct (cl_diamond _ _ _ _ _ NE S1 S0) as (s3 & A3 & B3). destruct (IH _ _ R FF B3) as (sched' & R' & LE).
      exists (r0 :: sched'). cbn. rewrite A3. auto.
Qed.

Lemma cl_complete_run sched1 : forall sched (s F s1 : cluster), cl_run bf dl sched s = Some F -> (forall r, cl_step bf dl r F = None) -> cl_run bf dl sched1 s = Some s1 ->
  exists sched', cl_run bf dl sched' s1 = Some F /\ (length sched1 + length sched' = length sched)%nat.
Proof.
  induction sched1 as [|r sched1 IH]; cbn; intros sched s F s1 R FF R1.
  - injection R1 as ->. eauto.
  - destruct (cl_step bf dl r s) as [s0|] eqn:S0; [|discriminate].
    destruct (cl_complete_step _ _ _ _ _ R FF S0) as (sched' & R' & LE). destruct (IH _ _ _ _ R' FF R1) as (sched'' & R'' & LE').
    exists sched''. split; auto. lia.
Qed.

Lemma outcome_persists sched : forall (s F : cluster) r k x, cl_run bf dl sched s = Some F -> nth_error (cl_ranks s) r = Some k -> rank_outcome k = Some x ->
  nth_error (cl_ranks F) r = Some k.
Proof.
  induction sched as [|r0 sched IH]; cbn; intros s F r k x R N O; [congruence|].
  destruct (cl_step bf dl r0 s) as [s0|] eqn:S0; [|discriminate]. eapply IH; eauto.
  unfold cl_step in S0. destruct (react bf dl r0 s) as [[k0 e]|] eqn:E; [|discriminate]. injection S0 as <-. cbn [cl_ranks].
  destruct (Nat.eq_dec r r0) as [->|NE]; [|now rewrite nth_error_upd_neq].
  exfalso. unfold react in E. rewrite N in E. unfold rank_outcome in O. destruct (k_proc k); discriminate.
Qed.

Lemma cl_run_app a b : forall (s s' : cluster), cl_run bf dl a s = Some s' -> cl_run bf dl (a ++ b) s = cl_run bf dl b s'.
Proof. induction a as [|r a IH]; cbn; intros s s' R; [congruence|]. destruct (cl_step bf dl r s); [auto|discriminate]. Qed.
End Step.
End Confluence.
