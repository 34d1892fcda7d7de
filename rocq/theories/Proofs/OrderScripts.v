(** Scripts of ranks which start the same exchanges in the same order and finish them in orders of their own, all sends being buffered. *)
From Verif.Base Require Import Base Lemmas.
From Verif.Model Require Import Network.
From Verif.Spec Require Import Lockstep Orders.
From Verif.Proofs Require Import NetworkProofs Phases Scripts.
From Coq Require Import ZifyBool.

Section OrderScripts.
Context {L V : Type}.
Variable n : nat.

Notation exch_snap := (@exchange L V * (nat -> L))%type.

Fixpoint rank_lock (r : nat) (evs : list (@event L V)) (ahead : list (nat -> L)) (started : list exch_snap) (m m' : L) : Prop :=
  match evs with
  | [] => ahead = [] /\ m' = m
  | EvStart e :: evs' => exists snap ahead', ahead = snap :: ahead' /\ snap r = m /\ rank_lock r evs' ahead' (started ++ [(e, snap)]) m m'
  | EvFinish i :: evs' => exists e snap m1, nth_error started i = Some (e, snap) /\ deliver e snap r m = Some m1 /\ rank_lock r evs' ahead started m1 m'
  | EvLocal f :: evs' => rank_lock r evs' ahead started (f r m) m'
  end.

(** exchanges started *)
Fixpoint start_list (evs : list (@event L V)) : list (@exchange L V) :=
  match evs with [] => [] | EvStart e :: evs' => e :: start_list evs' | _ :: evs' => start_list evs' end.
(** each exchange is finished at most once, after it was started *)
Fixpoint fin_ok (evs : list (@event L V)) (k : nat) (done : list nat) : Prop :=
  match evs with
  | [] => True
  | EvStart _ :: evs' => fin_ok evs' (S k) done
  | EvFinish i :: evs' => ~ In i done /\ (i < k)%nat /\ fin_ok evs' k (i :: done)
  | EvLocal _ :: evs' => fin_ok evs' k done
  end.
(** what remains at the next start *)
Fixpoint rest (evs : list (@event L V)) : list (@event L V) :=
  match evs with [] => [] | EvStart _ :: _ => evs | _ :: evs' => rest evs' end.

Lemma rest_starts evs : start_list (rest evs) = start_list evs.
Proof. induction evs as [|[] evs IH]; simpl; auto. Qed.

Lemma rest_cases evs : match start_list evs with [] => rest evs = [] | e :: l => exists evs', rest evs = EvStart e :: evs' /\ start_list evs' = l end.
Proof. induction evs as [|[] evs IH]; simpl; eauto. Qed.

(** [done r]: exchanges finished by rank [r] *)
Record oinv (st : list (@startd L V)) (done : nat -> list nat) (q : nat -> list (msg V)) : Prop := {
  o_matched : forall i s, nth_error st i = Some s -> matched n (st_x s);
  o_disj : forall i j s s' t, nth_error st i = Some s -> nth_error st j = Some s' -> i <> j ->
     uses_tag n (st_x s) t -> uses_tag n (st_x s') t -> False;
  o_heads : forall i s r j, nth_error st i = Some s -> (r < n)%nat -> (j < length (x_sends (st_x s) r))%nat ->
     nth_error (heads (q r)) (st_off s r + j) = nth_error (map fst (x_sends (st_x s) r)) j;
  o_pend : forall i s src r t, nth_error st i = Some s -> (src < n)%nat -> (r < n)%nat -> ~ In i (done r) -> uses_tag n (st_x s) t ->
     pend (q src) (Z.of_nat r) t = pending_of (x_sends (st_x s) src) (st_snap s src) (Z.of_nat r) t;
  o_fresh : forall src r t, (src < n)%nat -> (r < n)%nat -> (forall i s, nth_error st i = Some s -> ~ uses_tag n (st_x s) t) ->
     pend (q src) (Z.of_nat r) t = []
}.

Lemma oinv_start st done q e m : oinv st done q -> matched n e ->
  (forall s t, In s st -> uses_tag n e t -> uses_tag n (st_x s) t -> False) ->
  oinv (st ++ [mkSt e (fun r => length (q r)) m]) done (fun r => q r ++ sent_msgs (x_sends e r) (m r))%list.
Proof.
  intros II ME DJ. constructor.
  - intros i s N. apply nth_error_snoc in N. destruct N as [[N _]|[_ ->]]; [eapply o_matched; eauto|auto].
  - intros i j s s' t N N' NE U U'. apply nth_error_snoc in N, N'.
    destruct N as [[N Li]|[-> ->]], N' as [[N' Lj]|[-> ->]].
    + eapply (o_disj _ _ _ II i j); eauto.
    + apply nth_error_In in N. eapply DJ; eauto.
    + apply nth_error_In in N'. eapply DJ; eauto.
    + lia.
  - intros i s r j N Hr Hj. rewrite heads_app. apply nth_error_snoc in N. destruct N as [[N _]|[-> ->]].
    + pose proof (o_heads _ _ _ II i s r j N Hr Hj) as E. rewrite nth_error_app1; auto.
      apply nth_error_Some. rewrite E. apply nth_error_Some. now rewrite map_length.
    + simpl in *. rewrite nth_error_app2 by (unfold heads; rewrite map_length; lia).
      rewrite heads_sent. f_equal. unfold heads. rewrite map_length. lia.
  - intros i s src r t N Hs Hr ND U. rewrite pend_app, pend_sent. apply nth_error_snoc in N. destruct N as [[N _]|[-> ->]].
    + rewrite (o_pend _ _ _ II i s) by auto. rewrite (pending_of_none (x_sends e src)); [apply app_nil_r|].
      intros x Ix Ex. apply nth_error_In in N. eapply DJ; eauto. exists src, x. auto.
    + simpl in *. rewrite (o_fresh _ _ _ II) by (auto; intros i s N U2; apply nth_error_In in N; eapply DJ; eauto). reflexivity.
  - intros src r t Hs Hr F. rewrite pend_app, pend_sent. rewrite (o_fresh _ _ _ II); auto.
    + simpl. apply pending_of_none. intros x Ix Ex. apply (F (length st) (mkSt e (fun r => length (q r)) m)).
      * rewrite nth_error_app2, Nat.sub_diag; auto.
      * exists src, x. auto.
    + intros i s N. apply (F i). rewrite nth_error_app1; auto. apply nth_error_Some. congruence.
Qed.

Definition offs (r : nat) (st : list (@startd L V)) : list (@exchange L V * nat) := map (fun s => (st_x s, st_off s r)) st.
Definition snaps_of (st : list (@startd L V)) : list exch_snap := map (fun s => (st_x s, st_snap s)) st.
Notation go := (reaches all_buffered).

Lemma go_same (p p' : nat -> list (op L V)) (m m' : nat -> L) (q q' : nat -> list (msg V)) : (forall r, (r < n)%nat -> p r = p' r) -> (forall r, (r < n)%nat -> m r = m' r) -> (forall r, (r < n)%nat -> q r = q' r) ->
  go (net_of n p m q) (net_of n p' m' q').
Proof. intros A B C. exists []. simpl. f_equal. now apply net_of_ext. Qed.

(** a rank on its own, up to its next start *)
Lemma segment r st c ahead mm : (r < n)%nat -> forall evs p m q done,
  p r = script_ops r evs (offs r st) c -> fin_ok evs (length st) (done r) -> rank_lock r evs ahead (snaps_of st) (m r) mm -> oinv st done q ->
  exists m1 q1 done1, go (net_of n p m q) (net_of n (fupd p r (script_ops r (rest evs) (offs r st) c)) (fupd m r m1) q1) /\
    oinv st done1 q1 /\ (forall i, heads (q1 i) = heads (q i)) /\ fin_ok (rest evs) (length st) (done1 r) /\
    rank_lock r (rest evs) ahead (snaps_of st) m1 mm /\ forall i, i <> r -> done1 i = done i.
Proof.
  intros Hr. induction evs as [|[e|i|f] evs IH]; intros p m q done E FO RL II; cbn [rest].
  - exists (m r), q, done. split; [|auto]. apply go_same; intros i Hi; unfold fupd; destruct (Nat.eqb_spec i r); subst; auto.
  - exists (m r), q, done. split; [|auto]. apply go_same; intros i Hi; unfold fupd; destruct (Nat.eqb_spec i r); subst; auto.
  - cbn [fin_ok rank_lock script_ops] in *. destruct FO as (ND & Hi & FO). destruct RL as (e & snap & m1 & N & DL & RL).
    unfold snaps_of in N. rewrite nth_error_map in N. destruct (nth_error st i) as [s|] eqn:NS; [|discriminate]. cbn in N. injection N as <- <-.
    unfold offs in E. rewrite nth_error_map, NS in E. cbn [option_map] in E.
    assert (M := o_matched _ _ _ II i s NS).
    destruct (rank_recvs all_buffered n (x_recvs (st_x s) r) p m q r _
        (fun src t => payload_for (x_sends (st_x s) (Z.to_nat src)) (Z.of_nat r) t (st_snap s (Z.to_nat src))) m1 Hr E) as (q1 & R1 & QH & QP).
    { eapply mt_once; eauto. }
    { intros src t g I. destruct (mt_recv _ _ _ _ M _ _ _ _ Hr I) as (Hs & f & F). split; auto.
      rewrite (o_pend _ _ _ II i s) by (auto; try lia; eapply recv_uses_tag; eauto).
      unfold pending_of, payload_for. rewrite F. simpl. eauto. }
    { rewrite <- deliver_store_all. auto. }
    set (done1 := fun j => if Nat.eqb j r then i :: done j else done j).
    assert (DR : done1 r = i :: done r) by (unfold done1; now rewrite Nat.eqb_refl).
    assert (DN : forall j, j <> r -> done1 j = done j) by (intros j Hj; unfold done1; now destruct (Nat.eqb_spec j r)).
    set (K := script_ops r evs (offs r st) c).
    destruct (IH (fupd (fupd p r (map OWait (seq (st_off s r) (length (x_sends (st_x s) r))) ++ K)%list) r K) (fupd m r m1) q1 done1) as (m2 & q2 & done2 & R2 & I2 & H2 & F2 & L2 & D2).
    { apply fupd_eq. } { now rewrite DR. } { now rewrite fupd_eq. }
    { constructor.
      - apply II.
      - apply II.
      - intros. rewrite QH. eapply o_heads; eauto.
      - intros j s' src r' t Nj Hs Hr' NDj U. rewrite QP by auto.
        assert (NDo : ~ In j (done r')). { intros X. apply NDj. destruct (Nat.eq_dec r' r) as [->|NE]; [rewrite DR; now right|now rewrite DN]. }
        rewrite <- (o_pend _ _ _ II j s' src r' t) by auto.
        destruct ((Z.of_nat r' =? Z.of_nat r) && key_in _ _ _) eqn:K2; auto. exfalso. apply andb_true_iff in K2. destruct K2 as (ER & K2).
        assert (r' = r) by lia. subst r'. apply key_in_spec in K2. apply in_map_iff in K2.
        destruct K2 as ([[a b] g] & E2 & I). simpl in E2. injection E2 as -> ->.
        eapply (o_disj _ _ _ II i j); eauto. { intros ->. apply NDj. rewrite DR. now left. } eapply recv_uses_tag; eauto.
      - intros src r' t Hs Hr' F. rewrite QP by auto. rewrite (o_fresh _ _ _ II); auto. now destruct (_ && _). }
    exists m2, q2, done2. split; [|split; [auto|split; [|split; [auto|split; [auto|]]]]].
    + eapply reaches_trans; [exact R1|]. eapply reaches_trans.
      { apply (rank_waits all_buffered n (seq (st_off s r) (length (x_sends (st_x s) r))) _ _ _ r K); auto; [apply fupd_eq|].
        intros j Ij. apply in_seq in Ij.
        assert (HN := o_heads _ _ _ II i s r (j - st_off s r) NS Hr ltac:(lia)).
        replace (st_off s r + (j - st_off s r))%nat with j in HN by lia.
        assert (LN : (j < length (heads (q1 r)))%nat).
        { rewrite QH. apply nth_error_Some. rewrite HN. apply nth_error_Some. rewrite map_length. lia. }
        unfold heads in LN. rewrite map_length in LN.
        destruct (nth_error (q1 r) j) as [mg|] eqn:Q; [|apply nth_error_None in Q; lia].
        exists mg. split; auto. unfold all_buffered. apply orb_true_r. }
      eapply reaches_trans; [exact R2|]. apply go_same; intros j Hj; unfold fupd; destruct (Nat.eqb_spec j r); subst; auto.
    + intros j. now rewrite H2.
    + intros j Hj. rewrite D2 by auto. now apply DN.
  - cbn [fin_ok rank_lock script_ops] in *.
    destruct (IH (fupd p r (script_ops r evs (offs r st) c)) (fupd m r (f r (m r))) q done) as (m2 & q2 & done2 & R2 & REST); auto.
    { apply fupd_eq. } { now rewrite fupd_eq. }
    exists m2, q2, done2. split; [|exact REST].
    eapply reaches_trans; [eapply step_local; eauto|]. eapply reaches_trans; [exact R2|].
    apply go_same; intros j Hj; unfold fupd; destruct (Nat.eqb_spec j r); subst; auto.
Qed.

(** all ranks up to their next start *)
Lemma segments st ahead mm : forall (evs : nat -> list (@event L V)) m q done,
  (forall r, (r < n)%nat -> fin_ok (evs r) (length st) (done r)) ->
  (forall r, (r < n)%nat -> rank_lock r (evs r) ahead (snaps_of st) (m r) (mm r)) -> oinv st done q ->
  exists m1 q1 done1, go (net_of n (fun r => script_ops r (evs r) (offs r st) (length (q r))) m q)
      (net_of n (fun r => script_ops r (rest (evs r)) (offs r st) (length (q1 r))) m1 q1) /\
    oinv st done1 q1 /\ (forall r, (r < n)%nat -> fin_ok (rest (evs r)) (length st) (done1 r)) /\
    (forall r, (r < n)%nat -> rank_lock r (rest (evs r)) ahead (snaps_of st) (m1 r) (mm r)).
Proof.
  intros evs m q done FO RL II.
  destruct (ranks_induction all_buffered n (fun k s => exists m1 q1 done1,
      s = net_of n (fun r => if (r <? k)%nat then script_ops r (rest (evs r)) (offs r st) (length (q r)) else script_ops r (evs r) (offs r st) (length (q r))) m1 q1 /\
      oinv st done1 q1 /\ (forall i, heads (q1 i) = heads (q i)) /\
      (forall r, (r < n)%nat -> if (r <? k)%nat then fin_ok (rest (evs r)) (length st) (done1 r) /\ rank_lock r (rest (evs r)) ahead (snaps_of st) (m1 r) (mm r)
         else done1 r = done r /\ m1 r = m r))
      (net_of n (fun r => script_ops r (evs r) (offs r st) (length (q r))) m q)) as (s' & R & m1 & q1 & done1 & -> & I1 & H1 & A1).
  - exists m, q, done. split; [reflexivity|]. split; auto. split; auto. intros r Hr. cbn. auto.
  - intros k s Hk (m1 & q1 & done1 & -> & I1 & H1 & A1).
    pose proof (A1 k Hk) as Ak. rewrite Nat.ltb_irrefl in Ak. destruct Ak as (DK & MK).
    destruct (segment k st (length (q k)) ahead (mm k) Hk (evs k)
        (fun r => if (r <? k)%nat then script_ops r (rest (evs r)) (offs r st) (length (q r)) else script_ops r (evs r) (offs r st) (length (q r))) m1 q1 done1)
      as (m2 & q2 & done2 & R2 & I2 & H2 & F2 & L2 & D2); auto.
    { now rewrite Nat.ltb_irrefl. } { rewrite DK. auto. } { rewrite MK. auto. }
    eexists. split; [exact R2|]. exists (fupd m1 k m2), q2, done2. split; [|split; [auto|split; [intros i; now rewrite H2|]]].
    + apply net_of_ext; auto. intros r Hr. unfold fupd. destruct (Nat.eqb_spec r k) as [->|NE].
      * now destruct (Nat.ltb_spec k (S k)); [|lia].
      * destruct (Nat.ltb_spec r k), (Nat.ltb_spec r (S k)); auto; lia.
    + intros r Hr. specialize (A1 r Hr). destruct (Nat.eq_dec r k) as [->|NE].
      * destruct (Nat.ltb_spec k (S k)); [|lia]. rewrite fupd_eq. auto.
      * rewrite fupd_neq, D2 by auto. destruct (Nat.ltb_spec r k), (Nat.ltb_spec r (S k)); auto; lia.
  - exists m1, q1, done1. split; [|split; [auto|split]].
    + eapply reaches_trans; [exact R|]. apply go_same; auto. intros r Hr. destruct (Nat.ltb_spec r n); [|lia]. f_equal.
      rewrite <- (map_length (fun m => (ms_dst m, ms_tag m)) (q1 r)), <- (map_length (fun m => (ms_dst m, ms_tag m)) (q r)).
      apply f_equal. symmetry. apply H1.
    + intros r Hr. specialize (A1 r Hr). destruct (Nat.ltb_spec r n); [|lia]. tauto.
    + intros r Hr. specialize (A1 r Hr). destruct (Nat.ltb_spec r n); [|lia]. tauto.
Qed.

Fixpoint starts_ok (order : list (@exchange L V)) (started : list (@exchange L V)) : Prop :=
  match order with
  | [] => True
  | e :: order' => matched n e /\ (forall e' t, In e' started -> uses_tag n e t -> uses_tag n e' t -> False) /\ starts_ok order' (started ++ [e])
  end.

Lemma orders_reach : forall order st evs m q done ahead mm, (0 < n)%nat ->
  (forall r, (r < n)%nat -> start_list (evs r) = order) -> starts_ok order (map st_x st) ->
  (forall r, (r < n)%nat -> fin_ok (evs r) (length st) (done r)) ->
  (forall r, (r < n)%nat -> rank_lock r (evs r) ahead (snaps_of st) (m r) (mm r)) -> oinv st done q ->
  exists q', go (net_of n (fun r => script_ops r (evs r) (offs r st) (length (q r))) m q) (net_of n (fun _ => []) mm q').
Proof.
  induction order as [|e order IH]; intros st evs m q done ahead mm Hn SL SO FO RL II;
    destruct (segments st ahead mm evs m q done FO RL II) as (m1 & q1 & done1 & R1 & I1 & F1 & L1).
  - exists q1. eapply reaches_trans; [exact R1|]. apply go_same; auto; intros r Hr; pose proof (rest_cases (evs r)) as RC; rewrite SL in RC by auto.
    + now rewrite RC.
    + specialize (L1 r Hr). rewrite RC in L1. symmetry. apply L1.
  - destruct SO as (ME & DJ & SO).
    set (tail := fun r => match rest (evs r) with _ :: evs' => evs' | [] => [] end).
    assert (RC : forall r, (r < n)%nat -> rest (evs r) = EvStart e :: tail r /\ start_list (tail r) = order).
    { intros r Hr. pose proof (rest_cases (evs r)) as RC. rewrite SL in RC by auto. destruct RC as (evs' & E & E2). unfold tail. rewrite E. auto. }
    destruct ahead as [|snap ahead].
    { exfalso. specialize (L1 O Hn). rewrite (proj1 (RC O Hn)) in L1. destruct L1 as (? & ? & E & _). discriminate. }
    assert (L2 : forall r, (r < n)%nat -> snap r = m1 r /\ rank_lock r (tail r) ahead (snaps_of st ++ [(e, snap)])%list (m1 r) (mm r)).
    { intros r Hr. specialize (L1 r Hr). rewrite (proj1 (RC r Hr)) in L1. cbn [rank_lock] in L1. destruct L1 as (s & a & E & E2 & L2).
      injection E as <- <-. auto. }
    destruct (IH (st ++ [mkSt e (fun r => length (q1 r)) snap])%list tail m1 (fun r => q1 r ++ sent_msgs (x_sends e r) (snap r))%list done1 ahead mm Hn) as (q' & R').
    + intros r Hr. now apply RC.
    + now rewrite map_app.
    + intros r Hr. specialize (F1 r Hr). rewrite (proj1 (RC r Hr)) in F1. cbn [fin_ok] in F1.
      rewrite app_length. cbn [length]. now replace (length st + 1)%nat with (S (length st)) by lia.
    + intros r Hr. unfold snaps_of. rewrite map_app. now apply L2.
    + apply oinv_start; auto. intros s t Hs U U'. eapply (DJ (st_x s)); eauto. now apply in_map.
    + exists q'. eapply reaches_trans; [exact R1|].
      eapply reaches_trans; [|eapply reaches_trans; [apply (send_phase all_buffered n (x_sends e) (fun r => script_ops r (tail r) (offs r st ++ [(e, length (q1 r))]) (length (q1 r) + length (x_sends e r))) m1 q1)|]].
      * apply go_same; auto. intros r Hr. now rewrite (proj1 (RC r Hr)).
      * eapply reaches_trans; [|exact R']. apply go_same; auto; intros r Hr.
        -- unfold offs. rewrite map_app, app_length. unfold sent_msgs. rewrite map_length. reflexivity.
        -- now rewrite (proj1 (L2 r Hr)).
Qed.

Lemma finished_net m q : finished (net_of n (fun _ : nat => @nil (op L V)) m q).
Proof.
  unfold finished, net_of, tab. cbn [n_prog]. apply Forall_forall. intros p Hp. apply in_map_iff in Hp. destruct Hp as (? & <- & _). auto.
Qed.

Theorem orders_complete order evs m snaps mm : (0 < n)%nat ->
  (forall r, (r < n)%nat -> start_list (evs r) = order) -> starts_ok order [] ->
  (forall r, (r < n)%nat -> fin_ok (evs r) 0 []) ->
  (forall r, (r < n)%nat -> rank_lock r (evs r) snaps [] (m r) (mm r)) ->
  completes_with all_buffered (start_state n (fun r => script_ops r (evs r) [] O) m) (tab n mm).
Proof.
  intros Hn SL SO FO RL.
  destruct (orders_reach order [] evs m (fun _ => []) (fun _ => []) snaps mm Hn SL SO FO RL) as (q' & sched & R).
  { constructor; try (intros [|i]; intros; discriminate). intros. reflexivity. }
  exists (length sched). intros sched1 s1 R1. pose proof (finished_net mm q') as FF. split.
  - destruct (complete_after_run _ _ _ _ _ _ R FF R1) as (l & _ & E). lia.
  - intros ST. rewrite (stuck_is_final _ _ _ _ _ _ R FF R1 ST). auto.
Qed.
End OrderScripts.

(** ** executions that get stuck *)
Section Stuck.
Context {L V : Type}.

Lemma stuck_after_step bf sched (s F : @net L V) r s1 : run bf sched s = Some F -> (forall i, step bf i F = None) -> step bf r s = Some s1 ->
  exists sched', run bf sched' s1 = Some F /\ S (length sched') = length sched.
Proof.
  revert s s1; induction sched as [|r0 sched IH]; simpl; intros s s1 R FF S1.
  - injection R as ->. now rewrite FF in S1.
  - destruct (step bf r0 s) as [s0|] eqn:S0; [|discriminate].
    destruct (Nat.eq_dec r r0) as [->|NE].
    + assert (s1 = s0) by congruence. subst. exists sched. auto.
    + apply step_stepped in S0, S1. destruct (diamond bf r0 r s s0 s1 (not_eq_sym NE) S0 S1) as (s3 & D1 & D2). apply step_stepped in D1, D2.
      destruct (IH s0 s3 R FF D1) as (l & E & Len). exists (r0 :: l). simpl. rewrite D2. split; auto.
Qed.

Lemma stuck_after_run bf sched (s F : @net L V) sched1 s1 : run bf sched s = Some F -> (forall i, step bf i F = None) -> run bf sched1 s = Some s1 ->
  exists sched', run bf sched' s1 = Some F /\ (length sched1 + length sched' = length sched)%nat.
Proof.
  revert sched s; induction sched1 as [|r sched1 IH]; simpl; intros sched s R FF R1.
  - injection R1 as ->. eauto.
  - destruct (step bf r s) as [s0|] eqn:S0; [|discriminate].
    destruct (stuck_after_step _ _ _ _ _ _ R FF S0) as (l & E & Len).
    destruct (IH _ _ E FF R1) as (l' & E' & Len'). exists l'. split; auto. lia.
Qed.

Theorem stuck_never bf sched (s F : @net L V) : run bf sched s = Some F -> (forall i, step bf i F = None) -> ~ finished F -> never_completes bf s.
Proof.
  intros R FF NF. exists (length sched). intros sched1 s1 R1. destruct (stuck_after_run _ _ _ _ _ _ R FF R1) as (l & E & Len).
  split; [lia|]. intros F1. destruct l as [|r l]; simpl in E; [congruence|]. now rewrite finished_stuck in E.
Qed.
End Stuck.
