(** Confluence of the message passing semantics. *)
From Verif.Base Require Import Base Lemmas.
From Verif.Model Require Import Network.

Lemma nth_error_upd_eq {A} (l : list A) i a b : nth_error l i = Some b -> nth_error (upd l i a) i = Some a.
Proof. revert i; induction l; destruct i; simpl; intros; try discriminate; auto. Qed.

Lemma nth_error_upd_neq {A} (l : list A) i j a : i <> j -> nth_error (upd l j a) i = nth_error l i.
Proof. revert i j; induction l; destruct i, j; simpl; intros; try lia; auto. Qed.

Lemma upd_same {A} (l : list A) i a : nth_error l i = Some a -> upd l i a = l.
Proof. revert i; induction l; destruct i; simpl; intros; try discriminate; auto; f_equal; auto. congruence. Qed.

Section Net.
Context {L V : Type}.
Implicit Types s : @net L V.

Lemma take_app dst tag (l l2 : list (msg V)) b l' : take dst tag l = Some (b, l') -> take dst tag (l ++ l2) = Some (b, l' ++ l2)%list.
Proof.
  revert b l'; induction l as [|m l IH]; simpl; intros b l'; [discriminate|].
  destruct (matches dst tag m). { now intros [= <- <-]. }
  destruct (take dst tag l) as [[b0 l0]|]; [|discriminate]. intros [= <- <-].
  now rewrite (IH _ _ eq_refl).
Qed.

(** receiving for different ranks commutes *)
Lemma take_comm d1 t1 d2 t2 (l : list (msg V)) b1 l1 b2 l2 : d1 <> d2 ->
  take d1 t1 l = Some (b1, l1) -> take d2 t2 l = Some (b2, l2) ->
  exists l3, take d2 t2 l1 = Some (b2, l3) /\ take d1 t1 l2 = Some (b1, l3).
Proof.
  intros Hd. revert b1 l1 b2 l2; induction l as [|m l IH]; simpl; intros b1 l1 b2 l2; [discriminate|].
  destruct (matches d1 t1 m) eqn:M1; destruct (matches d2 t2 m) eqn:M2.
  - unfold matches in *. destruct (Z.eqb_spec (ms_dst m) d1); destruct (Z.eqb_spec (ms_dst m) d2);
     rewrite ?andb_false_r in *; simpl in *; try discriminate; congruence.
  - intros [= <- <-]. destruct (take d2 t2 l) as [[b0 l0]|] eqn:T; [|discriminate]. intros [= <- <-].
    simpl. rewrite T, M1. eexists. split; reflexivity.
  - destruct (take d1 t1 l) as [[b0 l0]|] eqn:T; [|discriminate]. intros [= <- <-]. intros [= <- <-].
    simpl. rewrite T, M2. eexists. split; reflexivity.
  - destruct (take d1 t1 l) as [[b0 l0]|] eqn:T; [|discriminate]. intros [= <- <-].
    destruct (take d2 t2 l) as [[b0' l0']|] eqn:T'; [|discriminate]. intros [= <- <-].
    destruct (IH _ _ _ _ eq_refl eq_refl) as (l3 & E1 & E2). simpl. rewrite M1, M2, E1, E2. eauto.
Qed.

(** received messages stay received; the number of messages sent does not change *)
Lemma take_nth dst tag (l : list (msg V)) b l' j m : take dst tag l = Some (b, l') -> nth_error l j = Some m ->
  exists m', nth_error l' j = Some m' /\ (ms_taken m = true -> ms_taken m' = true) /\
    ms_dst m' = ms_dst m /\ ms_tag m' = ms_tag m /\ ms_body m' = ms_body m.
Proof.
  revert b l' j; induction l as [|m0 l IH]; simpl; intros b l' j; [discriminate|].
  destruct (matches dst tag m0) eqn:M.
  - intros [= <- <-]. destruct j; simpl.
    + intros [= <-]. eexists. repeat split; auto.
    + intros E. exists m. auto.
  - destruct (take dst tag l) as [[b0 l0]|]; [|discriminate]. intros [= <- <-]. destruct j; simpl.
    + intros [= <-]. exists m0. auto.
    + intros E. eapply IH; eauto.
Qed.

(** Unfolding of one step into its components. *)
Inductive stepped (bf : nat -> nat -> bool) (r : nat) s : @net L V -> Prop :=
| SSend d t f ps m sent : nth_error (n_prog s) r = Some (OSend d t f :: ps) -> nth_error (n_mem s) r = Some m ->
    nth_error (n_sent s) r = Some sent ->
    stepped bf r s (mkN (upd (n_prog s) r ps) (n_mem s) (upd (n_sent s) r (sent ++ [mkM d t (f m) false])))
| SRecv src t g ps m sent0 sent body sent' m' : nth_error (n_prog s) r = Some (ORecv src t g :: ps) ->
    nth_error (n_mem s) r = Some m -> nth_error (n_sent s) r = Some sent0 -> 0 <= src ->
    nth_error (n_sent s) (Z.to_nat src) = Some sent -> take (Z.of_nat r) t sent = Some (body, sent') ->
    g body m = Some m' ->
    stepped bf r s (mkN (upd (n_prog s) r ps) (upd (n_mem s) r m') (upd (n_sent s) (Z.to_nat src) sent'))
| SWait j ps m sent mg : nth_error (n_prog s) r = Some (OWait j :: ps) -> nth_error (n_mem s) r = Some m ->
    nth_error (n_sent s) r = Some sent -> nth_error sent j = Some mg -> ms_taken mg || bf r j = true ->
    stepped bf r s (mkN (upd (n_prog s) r ps) (n_mem s) (n_sent s))
| SLocal f ps m sent : nth_error (n_prog s) r = Some (OLocal f :: ps) -> nth_error (n_mem s) r = Some m ->
    nth_error (n_sent s) r = Some sent ->
    stepped bf r s (mkN (upd (n_prog s) r ps) (upd (n_mem s) r (f m)) (n_sent s)).

Lemma step_stepped bf r s s' : step bf r s = Some s' <-> stepped bf r s s'.
Proof.
  split.
  - unfold step. destruct (nth_error (n_prog s) r) as [[|[d t f|src t g|j|f] ps]|] eqn:EP; try discriminate;
    destruct (nth_error (n_mem s) r) as [m|] eqn:EM; try discriminate;
    destruct (nth_error (n_sent s) r) as [sent|] eqn:ES; try discriminate.
    + intros [= <-]. eapply SSend; eauto.
    + destruct (Z.ltb_spec src 0); [discriminate|].
      destruct (nth_error (n_sent s) (Z.to_nat src)) as [sent'|] eqn:ES'; [|discriminate].
      destruct (take (Z.of_nat r) t sent') as [[body sent'']|] eqn:ET; [|discriminate].
      destruct (g body m) as [m'|] eqn:EG; [|discriminate]. intros [= <-]. eapply SRecv; eauto.
    + destruct (nth_error sent j) as [mg|] eqn:EJ; [|discriminate].
      destruct (ms_taken mg || bf r j) eqn:EB; [|discriminate]. intros [= <-]. eapply SWait; eauto.
    + intros [= <-]. eapply SLocal; eauto.
  - intros H. unfold step. destruct H; rewrite ?H, ?H0, ?H1; auto.
    + destruct (Z.ltb_spec src 0); [lia|]. now rewrite H3, H4, H5.
    + now rewrite H2, H3.
Qed.

Ltac once_nth := repeat (rewrite nth_error_upd_neq by congruence); eauto.
Ltac solve_nth := once_nth; once_nth; once_nth.

Lemma sent_upd_at (l : list (list (msg V))) i j x y : nth_error l i = Some x ->
  exists z, nth_error (upd l j y) i = Some z /\ (i = j -> z = y) /\ (i <> j -> z = x).
Proof.
  intros E. destruct (Nat.eq_dec i j).
  - subst. exists y. split; [eapply nth_error_upd_eq; eauto|]. split; congruence.
  - exists x. rewrite nth_error_upd_neq by auto. split; auto. split; congruence.
Qed.

(** Two ranks able to move can move in either order with the same outcome. *)
Lemma diamond bf r1 r2 s s1 s2 : r1 <> r2 -> stepped bf r1 s s1 -> stepped bf r2 s s2 ->
  exists s3, stepped bf r2 s1 s3 /\ stepped bf r1 s2 s3.
Proof.
  intros NE H1 H2.
  assert (NZ : Z.of_nat r1 <> Z.of_nat r2) by lia.
  destruct H1 as [d1 t1 f1 ps1 m1 sent1 P1 M1 S1
                 |src1 t1 g1 ps1 m1 sent01 sent1 body1 sent1' m1' P1 M1 S01 R1 S1 T1 G1
                 |j1 ps1 m1 sent1 mg1 P1 M1 S1 J1 B1
                 |f1 ps1 m1 sent1 P1 M1 S1];
  destruct H2 as [d2 t2 f2 ps2 m2 sent2 P2 M2 S2
                 |src2 t2 g2 ps2 m2 sent02 sent2 body2 sent2' m2' P2 M2 S02 R2 S2 T2 G2
                 |j2 ps2 m2 sent2 mg2 P2 M2 S2 J2 B2
                 |f2 ps2 m2 sent2 P2 M2 S2].
  - (* send send *)
    eexists. split; [eapply SSend; cbn [n_prog n_mem n_sent]; solve_nth|].
    cbn [n_prog n_mem n_sent]. rewrite (upd_comm (n_prog s)), (upd_comm (n_sent s)) by auto.
    eapply (SSend bf r1 (mkN _ _ _)); cbn [n_prog n_mem n_sent]; solve_nth.
  - (* send recv *)
    destruct (Nat.eq_dec r1 (Z.to_nat src2)) as [E|E].
    + subst r1. assert (sent2 = sent1) by congruence. subst sent2.
      eexists. split.
      * eapply SRecv with (sent := (sent1 ++ [mkM d1 t1 (f1 m1) false])%list); cbn [n_prog n_mem n_sent]; solve_nth.
        all: first [eapply nth_error_upd_eq; eassumption | eapply take_app; eassumption].
      * cbn [n_prog n_mem n_sent]. rewrite (upd_comm (n_prog s)), upd_upd by auto.
        match goal with |- stepped _ _ ?s' ?g => 
          replace g with (mkN (upd (upd (n_prog s) r2 ps2) (Z.to_nat src2) ps1) (upd (n_mem s) r2 m2') 
             (upd (upd (n_sent s) (Z.to_nat src2) sent2') (Z.to_nat src2) (sent2' ++ [mkM d1 t1 (f1 m1) false]))) end.
        2: { now rewrite upd_upd. }
        eapply (SSend bf _ (mkN _ _ _)) with (sent := sent2'); cbn [n_prog n_mem n_sent]; solve_nth. eapply nth_error_upd_eq; eassumption.
    + eexists. split.
      * eapply SRecv; cbn [n_prog n_mem n_sent]; solve_nth.
      * cbn [n_prog n_mem n_sent]. rewrite (upd_comm (n_prog s)), (upd_comm (n_sent s)) by auto.
        eapply (SSend bf _ (mkN _ _ _)); cbn [n_prog n_mem n_sent]; solve_nth.
  - (* send wait *)
    eexists. split.
    + eapply SWait; cbn [n_prog n_mem n_sent]; solve_nth.
    + cbn [n_prog n_mem n_sent]. rewrite (upd_comm (n_prog s)) by auto.
      eapply (SSend bf _ (mkN _ _ _)); cbn [n_prog n_mem n_sent]; solve_nth.
  - (* send local *)
    eexists. split.
    + eapply SLocal; cbn [n_prog n_mem n_sent]; solve_nth.
    + cbn [n_prog n_mem n_sent]. rewrite (upd_comm (n_prog s)) by auto.
      eapply (SSend bf _ (mkN _ _ _)); cbn [n_prog n_mem n_sent]; solve_nth.
  - (* recv send *)
    destruct (Nat.eq_dec r2 (Z.to_nat src1)) as [E|E].
    + subst r2. assert (sent2 = sent1) by congruence. subst sent2.
      eexists. split.
      * eapply SSend with (sent := sent1'); cbn [n_prog n_mem n_sent]; solve_nth. eapply nth_error_upd_eq; eassumption.
      * cbn [n_prog n_mem n_sent]. rewrite (upd_comm (n_prog s)), upd_upd by auto.
        match goal with |- stepped _ _ ?s' ?g => 
          replace g with (mkN (upd (upd (n_prog s) (Z.to_nat src1) ps2) r1 ps1) (upd (n_mem s) r1 m1') 
             (upd (upd (n_sent s) (Z.to_nat src1) (sent1 ++ [mkM d2 t2 (f2 m2) false])) (Z.to_nat src1) (sent1' ++ [mkM d2 t2 (f2 m2) false]))) end.
        2: { now rewrite upd_upd. }
        eapply (SRecv bf _ (mkN _ _ _)) with (sent := (sent1 ++ [mkM d2 t2 (f2 m2) false])%list); cbn [n_prog n_mem n_sent]; solve_nth.
        all: first [eapply nth_error_upd_eq; eassumption | eapply take_app; eassumption].
    + eexists. split.
      * eapply SSend; cbn [n_prog n_mem n_sent]; solve_nth.
      * cbn [n_prog n_mem n_sent]. rewrite (upd_comm (n_prog s)), (upd_comm (n_sent s)) by auto.
        eapply (SRecv bf _ (mkN _ _ _)); cbn [n_prog n_mem n_sent]; solve_nth.
  - (* recv recv *)
    destruct (Nat.eq_dec (Z.to_nat src1) (Z.to_nat src2)) as [E|E].
    + assert (src1 = src2) by lia. subst src1. assert (sent2 = sent1) by congruence. subst sent2.
      destruct (take_comm _ _ _ _ _ _ _ _ _ NZ T1 T2) as (sent3 & T12 & T21).
      destruct (sent_upd_at _ _ (Z.to_nat src2) _ sent1' S02) as (z2 & Z2 & _).
      destruct (sent_upd_at _ _ (Z.to_nat src2) _ sent2' S01) as (z1 & Z1 & _).
      eexists. split.
      * eapply SRecv with (sent := sent1'); cbn [n_prog n_mem n_sent]; solve_nth. eapply nth_error_upd_eq; eassumption.
      * cbn [n_prog n_mem n_sent]. rewrite (upd_comm (n_prog s)), (upd_comm (n_mem s)) by auto.
        rewrite upd_upd. rewrite <- (upd_upd (n_sent s) (Z.to_nat src2) sent2' sent3).
        eapply (SRecv bf _ (mkN _ _ _)) with (sent := sent2'); cbn [n_prog n_mem n_sent]; solve_nth. eapply nth_error_upd_eq; eassumption.
    + destruct (sent_upd_at _ _ (Z.to_nat src1) _ sent1' S02) as (z2 & Z2 & _).
      destruct (sent_upd_at _ _ (Z.to_nat src2) _ sent2' S01) as (z1 & Z1 & _).
      eexists. split.
      * eapply SRecv; cbn [n_prog n_mem n_sent]; solve_nth.
      * cbn [n_prog n_mem n_sent]. rewrite (upd_comm (n_prog s)), (upd_comm (n_mem s)), (upd_comm (n_sent s)) by auto.
        eapply (SRecv bf _ (mkN _ _ _)); cbn [n_prog n_mem n_sent]; solve_nth.
  - (* recv wait *)
    destruct (sent_upd_at _ _ (Z.to_nat src1) _ sent1' S2) as (z2 & Z2 & ZE & ZN).
    assert (exists mg', nth_error z2 j2 = Some mg' /\ ms_taken mg' || bf r2 j2 = true) as (mg' & J2' & B2').
    { destruct (Nat.eq_dec r2 (Z.to_nat src1)) as [E|E].
      - rewrite (ZE E). rewrite E in S2. assert (sent2 = sent1) by congruence. subst sent2.
        destruct (take_nth _ _ _ _ _ _ _ T1 J2) as (mg' & N & K & _). exists mg'. split; auto.
        destruct (ms_taken mg2); [now rewrite K|]. simpl in B2. rewrite B2. apply orb_true_r.
      - rewrite (ZN E). eauto. }
    eexists. split.
    + eapply SWait; cbn [n_prog n_mem n_sent]; solve_nth.
    + cbn [n_prog n_mem n_sent]. rewrite (upd_comm (n_prog s)) by auto.
      eapply (SRecv bf _ (mkN _ _ _)); cbn [n_prog n_mem n_sent]; solve_nth.
  - (* recv local *)
    destruct (sent_upd_at _ _ (Z.to_nat src1) _ sent1' S2) as (z2 & Z2 & _).
    eexists. split.
    + eapply SLocal; cbn [n_prog n_mem n_sent]; solve_nth.
    + cbn [n_prog n_mem n_sent]. rewrite (upd_comm (n_prog s)), (upd_comm (n_mem s)) by auto.
      eapply (SRecv bf _ (mkN _ _ _)); cbn [n_prog n_mem n_sent]; solve_nth.
  - (* wait send *)
    eexists. split.
    + eapply SSend; cbn [n_prog n_mem n_sent]; solve_nth.
    + cbn [n_prog n_mem n_sent]. rewrite (upd_comm (n_prog s)) by auto.
      eapply (SWait bf _ (mkN _ _ _)); cbn [n_prog n_mem n_sent]; solve_nth.
  - (* wait recv *)
    destruct (sent_upd_at _ _ (Z.to_nat src2) _ sent2' S1) as (z1 & Z1 & ZE & ZN).
    assert (exists mg', nth_error z1 j1 = Some mg' /\ ms_taken mg' || bf r1 j1 = true) as (mg' & J1' & B1').
    { destruct (Nat.eq_dec r1 (Z.to_nat src2)) as [E|E].
      - rewrite (ZE E). rewrite E in S1. assert (sent1 = sent2) by congruence. subst sent1.
        destruct (take_nth _ _ _ _ _ _ _ T2 J1) as (mg' & N & K & _). exists mg'. split; auto.
        destruct (ms_taken mg1); [now rewrite K|]. simpl in B1. rewrite B1. apply orb_true_r.
      - rewrite (ZN E). eauto. }
    eexists. split.
    + eapply SRecv; cbn [n_prog n_mem n_sent]; solve_nth.
    + cbn [n_prog n_mem n_sent]. rewrite (upd_comm (n_prog s)) by auto.
      eapply (SWait bf _ (mkN _ _ _)); cbn [n_prog n_mem n_sent]; solve_nth.
  - (* wait wait *)
    eexists. split.
    + eapply SWait; cbn [n_prog n_mem n_sent]; solve_nth.
    + cbn [n_prog n_mem n_sent]. rewrite (upd_comm (n_prog s)) by auto.
      eapply (SWait bf _ (mkN _ _ _)); cbn [n_prog n_mem n_sent]; solve_nth.
  - (* wait local *)
    eexists. split.
    + eapply SLocal; cbn [n_prog n_mem n_sent]; solve_nth.
    + cbn [n_prog n_mem n_sent]. rewrite (upd_comm (n_prog s)) by auto.
      eapply (SWait bf _ (mkN _ _ _)); cbn [n_prog n_mem n_sent]; solve_nth.
  - (* local send *)
    eexists. split.
    + eapply SSend; cbn [n_prog n_mem n_sent]; solve_nth.
    + cbn [n_prog n_mem n_sent]. rewrite (upd_comm (n_prog s)) by auto.
      eapply (SLocal bf _ (mkN _ _ _)); cbn [n_prog n_mem n_sent]; solve_nth.
  - (* local recv *)
    destruct (sent_upd_at _ _ (Z.to_nat src2) _ sent2' S1) as (z1 & Z1 & _).
    eexists. split.
    + eapply SRecv; cbn [n_prog n_mem n_sent]; solve_nth.
    + cbn [n_prog n_mem n_sent]. rewrite (upd_comm (n_prog s)), (upd_comm (n_mem s)) by auto.
      eapply (SLocal bf _ (mkN _ _ _)); cbn [n_prog n_mem n_sent]; solve_nth.
  - (* local wait *)
    eexists. split.
    + eapply SWait; cbn [n_prog n_mem n_sent]; solve_nth.
    + cbn [n_prog n_mem n_sent]. rewrite (upd_comm (n_prog s)) by auto.
      eapply (SLocal bf _ (mkN _ _ _)); cbn [n_prog n_mem n_sent]; solve_nth.
  - (* local local *)
    eexists. split.
    + eapply SLocal; cbn [n_prog n_mem n_sent]; solve_nth.
    + cbn [n_prog n_mem n_sent]. rewrite (upd_comm (n_prog s)), (upd_comm (n_mem s)) by auto.
      eapply (SLocal bf _ (mkN _ _ _)); cbn [n_prog n_mem n_sent]; solve_nth.
Qed.

Lemma finished_stuck bf r s : finished s -> step bf r s = None.
Proof.
  intros F. unfold step. destruct (nth_error (n_prog s) r) as [p|] eqn:E; auto.
  apply nth_error_In in E. unfold finished in F. rewrite Forall_forall in F. now rewrite (F _ E).
Qed.

(** If one schedule runs to completion, a first step by any rank can be completed to the same end, in one step less. *)
Lemma complete_after_step bf sched s F r s1 : run bf sched s = Some F -> finished F -> step bf r s = Some s1 ->
  exists sched', run bf sched' s1 = Some F /\ S (length sched') = length sched.
Proof.
  revert s s1; induction sched as [|r0 sched IH]; simpl; intros s s1 R FF S1.
  - injection R as ->. now rewrite finished_stuck in S1.
  - destruct (step bf r0 s) as [s0|] eqn:S0; [|discriminate].
    destruct (Nat.eq_dec r r0) as [->|NE].
    + assert (s1 = s0) by congruence. subst. exists sched. auto.
    + apply step_stepped in S0, S1. destruct (diamond _ _ _ _ _ _ NE S1 S0) as (s3 & A & B).
      apply step_stepped in A, B. destruct (IH _ _ R FF B) as (sched' & R' & LE).
      exists (r0 :: sched'). simpl. rewrite A. split; auto.
Qed.

Lemma complete_after_run bf sched s F sched1 s1 : run bf sched s = Some F -> finished F -> run bf sched1 s = Some s1 ->
  exists sched', run bf sched' s1 = Some F /\ (length sched1 + length sched' = length sched)%nat.
Proof.
  revert sched s; induction sched1 as [|r sched1 IH]; simpl; intros sched s R FF R1.
  - injection R1 as ->. eauto.
  - destruct (step bf r s) as [s0|] eqn:S0; [|discriminate].
    destruct (complete_after_step _ _ _ _ _ _ R FF S0) as (sched' & R' & LE).
    destruct (IH _ _ R' FF R1) as (sched'' & R'' & LE'). exists sched''. split; auto. lia.
Qed.

(** more buffering only makes more runs possible *)
Lemma step_buffered bf bf' r s s' : (forall i j, bf i j = true -> bf' i j = true) -> step bf r s = Some s' -> step bf' r s = Some s'.
Proof.
  intros H S. apply step_stepped in S. apply step_stepped. destruct S.
  - eapply SSend; eauto.
  - eapply SRecv; eauto.
  - eapply SWait; eauto. destruct (ms_taken mg); auto. simpl in *. auto.
  - eapply SLocal; eauto.
Qed.

Lemma run_buffered bf bf' sched s s' : (forall i j, bf i j = true -> bf' i j = true) -> run bf sched s = Some s' -> run bf' sched s = Some s'.
Proof.
  intros H. revert s; induction sched; simpl; intros s R; auto.
  destruct (step bf a s) as [s0|] eqn:S0; [|discriminate]. rewrite (step_buffered _ _ _ _ _ H S0). auto.
Qed.

Lemma run_app bf sched1 sched2 s s' : run bf sched1 s = Some s' -> run bf (sched1 ++ sched2) s = run bf sched2 s'.
Proof.
  revert s; induction sched1; simpl; intros s R. { now injection R as ->. }
  destruct (step bf a s); [auto|discriminate].
Qed.

(** a finished run is the only way to get stuck *)
Lemma stuck_is_final bf sched s F sched1 s1 : run bf sched s = Some F -> finished F -> run bf sched1 s = Some s1 ->
  (forall r, step bf r s1 = None) -> s1 = F.
Proof.
  intros R FF R1 ST. destruct (complete_after_run _ _ _ _ _ _ R FF R1) as (sched' & R' & _).
  destruct sched' as [|r l]; simpl in R'; [congruence|]. now rewrite ST in R'.
Qed.
End Net.
