(** A well-formed script executed over messages always completes with its lock-step meaning. *)
From Verif.Base Require Import Base Lemmas.
From Verif.Model Require Import Network.
From Verif.Spec Require Import Lockstep.
From Verif.Proofs Require Import NetworkProofs Phases.
From Coq Require Import ZifyBool.

Section Scripts.
Context {L V : Type}.
Variable n : nat.

(** a started exchange, the number of its first send on each rank, memories at its start *)
Record startd := mkSt { st_x : @exchange L V; st_off : nat -> nat; st_snap : nat -> L }.

Definition pending_of (S : list (Z * Z * (L -> list V))) (m : L) (d t : Z) : list (list V) :=
  map (fun x => snd x m) (filter (has_key d t) S).

Lemma pend_app (a b : list (msg V)) d t : pend (a ++ b) d t = (pend a d t ++ pend b d t)%list.
Proof. unfold pend. now rewrite filter_app, map_app. Qed.

Lemma pend_sent S (m : L) d t : pend (sent_msgs (V:=V) S m) d t = pending_of S m d t.
Proof.
  unfold pend, pending_of, sent_msgs. induction S as [|[[a b] f] S IH]; simpl; auto.
  unfold matches at 1, has_key at 1. simpl. destruct ((a =? d) && (b =? t)); simpl; now rewrite IH.
Qed.

Lemma heads_app (a b : list (msg V)) : heads (a ++ b) = (heads a ++ heads b)%list.
Proof. apply map_app. Qed.

Lemma heads_sent S (m : L) : heads (sent_msgs (V:=V) S m) = map fst S.
Proof. unfold heads, sent_msgs. rewrite map_map. apply map_ext. now intros [[]]. Qed.

Lemma pending_of_none S (m : L) d t : (forall x : Z * Z * (L -> list V), In x S -> snd (fst x) = t -> False) -> pending_of S m d t = [].
Proof.
  intros H. unfold pending_of. induction S as [|x S IH]; simpl; auto.
  assert (has_key d t x = false) as ->. { unfold has_key. specialize (H x (or_introl eq_refl)). lia. }
  apply IH. intros y Hy. apply H. now right.
Qed.

Record inv (st : list startd) (done : list nat) (q : nat -> list (msg V)) : Prop := {
  i_matched : forall i s, nth_error st i = Some s -> matched n (st_x s);
  i_disj : forall i j s s' t, nth_error st i = Some s -> nth_error st j = Some s' -> i <> j ->
     uses_tag n (st_x s) t -> uses_tag n (st_x s') t -> False;
  i_heads : forall i s r j, nth_error st i = Some s -> (r < n)%nat -> (j < length (x_sends (st_x s) r))%nat ->
     nth_error (heads (q r)) (st_off s r + j) = nth_error (map fst (x_sends (st_x s) r)) j;
  i_pend : forall i s src r t, nth_error st i = Some s -> ~ In i done -> (src < n)%nat -> (r < n)%nat -> uses_tag n (st_x s) t ->
     pend (q src) (Z.of_nat r) t = pending_of (x_sends (st_x s) src) (st_snap s src) (Z.of_nat r) t;
  i_fresh : forall src r t, (src < n)%nat -> (r < n)%nat -> (forall i s, nth_error st i = Some s -> ~ uses_tag n (st_x s) t) ->
     pend (q src) (Z.of_nat r) t = []
}.

Lemma nth_error_snoc {A} (l : list A) a i s : nth_error (l ++ [a]) i = Some s ->
  (nth_error l i = Some s /\ (i < length l)%nat) \/ (i = length l /\ s = a).
Proof.
  intros H. destruct (Nat.lt_ge_cases i (length l)).
  - left. rewrite nth_error_app1 in H; auto.
  - right. rewrite nth_error_app2 in H by auto. destruct (i - length l)%nat eqn:E; simpl in H.
    + split; [lia|congruence].
    + destruct n0; discriminate.
Qed.

Lemma inv_start st done q e m : inv st done q -> matched n e ->
  (forall i, In i done -> (i < length st)%nat) ->
  (forall s t, In s st -> uses_tag n e t -> uses_tag n (st_x s) t -> False) ->
  inv (st ++ [mkSt e (fun r => length (q r)) m]) done (fun r => q r ++ sent_msgs (x_sends e r) (m r))%list.
Proof.
  intros II ME HD DJ. constructor.
  - intros i s N. apply nth_error_snoc in N. destruct N as [[N _]|[_ ->]]; [eapply i_matched; eauto|auto].
  - intros i j s s' t N N' NE U U'. apply nth_error_snoc in N, N'.
    destruct N as [[N Li]|[-> ->]], N' as [[N' Lj]|[-> ->]].
    + eapply (i_disj _ _ _ II i j); eauto.
    + apply nth_error_In in N. eapply DJ; eauto.
    + apply nth_error_In in N'. eapply DJ; eauto.
    + lia.
  - intros i s r j N Hr Hj. rewrite heads_app. apply nth_error_snoc in N. destruct N as [[N _]|[-> ->]].
    + pose proof (i_heads _ _ _ II i s r j N Hr Hj) as E. rewrite nth_error_app1; auto.
      apply nth_error_Some. rewrite E. apply nth_error_Some. now rewrite map_length.
    + simpl in *. rewrite nth_error_app2 by (unfold heads; rewrite map_length; lia).
      rewrite heads_sent. f_equal. unfold heads. rewrite map_length. lia.
  - intros i s src r t N ND Hs Hr U. rewrite pend_app, pend_sent. apply nth_error_snoc in N. destruct N as [[N _]|[-> ->]].
    + rewrite (i_pend _ _ _ II i s) by auto. rewrite (pending_of_none (x_sends e src)); [apply app_nil_r|].
      intros x Ix Ex. apply nth_error_In in N. eapply DJ; eauto. exists src, x. auto.
    + simpl in *. rewrite (i_fresh _ _ _ II) by (auto; intros i s N U2; apply nth_error_In in N; eapply DJ; eauto). reflexivity.
  - intros src r t Hs Hr F. rewrite pend_app, pend_sent. rewrite (i_fresh _ _ _ II); auto.
    + simpl. apply pending_of_none. intros x Ix Ex. apply (F (length st) (mkSt e (fun r => length (q r)) m)).
      * rewrite nth_error_app2, Nat.sub_diag; auto.
      * exists src, x. auto.
    + intros i s N. apply (F i). rewrite nth_error_app1; auto. apply nth_error_Some. congruence.
Qed.

Lemma key_in_spec (R : list (Z * Z * (list V -> L -> option L))) src t : key_in R src t = true <-> In (src, t) (map fst R).
Proof.
  unfold key_in. rewrite existsb_exists, in_map_iff. split.
  - intros ([[a b] g] & I & H). exists (a, b, g). split; auto. unfold has_key in H. simpl in *. f_equal; lia.
  - intros ([[a b] g] & E & I). exists (a, b, g). split; auto. simpl in E. injection E as -> ->. unfold has_key. simpl. lia.
Qed.

Lemma recv_uses_tag (e : @exchange L V) r src t g : matched n e -> (r < n)%nat -> In (src, t, g) (x_recvs e r) -> uses_tag n e t.
Proof.
  intros M Hr I. destruct (mt_recv _ _ _ _ M _ _ _ _ Hr I) as (Hs & f & F).
  exists (Z.to_nat src), (Z.of_nat r, t, f). split; [lia|]. split; auto.
  assert (In (Z.of_nat r, t, f) (filter (has_key (Z.of_nat r) t) (x_sends e (Z.to_nat src)))) as H by (rewrite F; now left).
  now apply filter_In in H.
Qed.

(** finishing a started exchange *)
Lemma finish_phase bf st done m m1 q i s K : inv st done q -> ~ In i done -> nth_error st i = Some s ->
  (forall r, (r < n)%nat -> deliver (st_x s) (st_snap s) r (m r) = Some (m1 r)) ->
  exists q1, reaches bf (net_of n (fun r => recv_ops (x_recvs (st_x s) r) ++ map OWait (seq (st_off s r) (length (x_sends (st_x s) r))) ++ K r)%list m q) (net_of n K m1 q1) /\
    inv st (i :: done) q1 /\ forall r, length (q1 r) = length (q r).
Proof.
  intros II NI NS DL. assert (M := i_matched _ _ _ II i s NS).
  destruct (recv_phase bf n (x_recvs (st_x s)) (fun r => map OWait (seq (st_off s r) (length (x_sends (st_x s) r))) ++ K r)%list m q
       (fun r src t => payload_for (x_sends (st_x s) (Z.to_nat src)) (Z.of_nat r) t (st_snap s (Z.to_nat src))) m1) as (q1 & R1 & QH & QP).
  - intros r Hr. eapply mt_once; eauto.
  - intros r src t g Hr I. destruct (mt_recv _ _ _ _ M _ _ _ _ Hr I) as (Hs & f & F). split; auto.
    rewrite (i_pend _ _ _ II i s) by (auto; try lia; eapply recv_uses_tag; eauto).
    unfold pending_of, payload_for. rewrite F. simpl. eauto.
  - intros r Hr. rewrite <- deliver_store_all. auto.
  - assert (LQ : forall r, length (q1 r) = length (q r)).
    { intros r. rewrite <- (map_length (fun m => (ms_dst m, ms_tag m)) (q1 r)), <- (map_length (fun m => (ms_dst m, ms_tag m)) (q r)).
      apply f_equal. apply QH. }
    exists q1. split; [|split; auto].
    + eapply reaches_trans; [exact R1|]. apply wait_phase.
      intros r j Hr Ij. apply in_seq in Ij.
      assert (HN := i_heads _ _ _ II i s r (j - st_off s r) NS Hr ltac:(lia)).
      replace (st_off s r + (j - st_off s r))%nat with j in HN by lia.
      destruct (nth_error (x_sends (st_x s) r) (j - st_off s r)) as [[[d t] f]|] eqn:NX.
      2:{ apply nth_error_None in NX. lia. }
      rewrite nth_error_map, NX in HN. simpl in HN.
      apply nth_error_In in NX. destruct (mt_send _ _ _ _ M _ _ _ _ Hr NX) as (Hd & IR).
      destruct (pend_nil_taken (q1 r) d t j) as (mg & A & B).
      * replace d with (Z.of_nat (Z.to_nat d)) by lia. rewrite QP by lia.
        assert (IR' := IR). apply key_in_spec in IR. rewrite IR.
        apply in_map_iff in IR'. destruct IR' as ([[a b] g] & E & I). simpl in E. injection E as -> ->.
        assert (U := recv_uses_tag _ (Z.to_nat d) _ _ _ M ltac:(lia) I).
        rewrite (i_pend _ _ _ II i s) by (auto; lia).
        destruct (mt_recv _ _ _ _ M (Z.to_nat d) _ _ _ ltac:(lia) I) as (_ & f2 & F).
        rewrite Nat2Z.id in F. unfold pending_of. rewrite F. reflexivity.
      * rewrite QH. exact HN.
      * exists mg. split; auto. now rewrite B.
    + constructor.
      * apply II.
      * apply II.
      * intros. rewrite QH. eapply i_heads; eauto.
      * intros j s' src r t Nj ND Hs Hr U. rewrite QP by auto.
        rewrite <- (i_pend _ _ _ II j s' src r t) by (auto; intros X; apply ND; now right).
        destruct (key_in _ _ _) eqn:K1; auto. exfalso. apply key_in_spec in K1. apply in_map_iff in K1.
        destruct K1 as ([[a b] g] & E & I). simpl in E. injection E as -> ->.
        eapply (i_disj _ _ _ II i j); eauto. { intros ->. apply ND. now left. } eapply recv_uses_tag; eauto.
      * intros src r t Hs Hr F. rewrite QP by auto. rewrite (i_fresh _ _ _ II); auto. now destruct (key_in _ _ _).
Qed.

Lemma inv_nil : inv [] [] (fun _ => []).
Proof. constructor; try (intros [|i]; intros; discriminate). intros. reflexivity. Qed.

Lemma script_reaches bf evs : forall st done m m' q,
  (forall i, In i done -> (i < length st)%nat) ->
  well_formed n evs (map st_x st) done -> lockstep n evs (map (fun s => (st_x s, st_snap s)) st) m m' -> inv st done q ->
  exists q', reaches bf (net_of n (fun r => script_ops r evs (map (fun s => (st_x s, st_off s r)) st) (length (q r))) m q)
               (net_of n (fun _ => []) m' q').
Proof.
  induction evs as [|ev evs IH]; intros st done m m' q HD WF LS II; simpl in *.
  - exists q. exists []. simpl. f_equal. apply net_of_ext; auto. intros. symmetry. auto.
  - destruct ev as [e|i|f].
    + destruct WF as (ME & DJ & WF).
      assert (II' := inv_start st done q e m II ME HD).
      destruct (IH (st ++ [mkSt e (fun r => length (q r)) m])%list done m m' (fun r => q r ++ sent_msgs (x_sends e r) (m r))%list) as (q' & R).
      * intros i Hi. rewrite app_length. apply HD in Hi. lia.
      * now rewrite map_app.
      * now rewrite map_app.
      * apply II'. intros s t Hs U U'. eapply (DJ (st_x s)); eauto. now apply in_map.
      * exists q'. eapply reaches_trans; [apply (send_phase bf n (x_sends e))|].
        match goal with |- reaches _ (net_of _ ?a _ _) _ => match type of R with reaches _ (net_of _ ?b _ _) _ =>
          rewrite (net_of_ext n a b m m _ (fun r => q r ++ sent_msgs (x_sends e r) (m r))%list) end end; auto.
        intros r Hr. rewrite map_app, app_length. simpl. unfold sent_msgs. rewrite map_length. reflexivity.
    + destruct WF as (NI & Hi & WF). destruct LS as (e & snap & m1 & N & DL & LS).
      rewrite map_length in Hi.
      rewrite nth_error_map in N. destruct (nth_error st i) as [s|] eqn:NS; [|discriminate]. simpl in N. injection N as <- <-.
      destruct (finish_phase bf st done m m1 q i s (fun r => script_ops r evs (map (fun s => (st_x s, st_off s r)) st) (length (q r))) II NI NS DL) as (q1 & R1 & II1 & LQ).
      destruct (IH st (i :: done) m1 m' q1) as (q' & R2); auto.
      * intros j [<-|Hj]; auto.
      * exists q'. eapply reaches_trans.
        { match goal with |- reaches _ (net_of _ ?a _ _) _ => match type of R1 with reaches _ (net_of _ ?b _ _) _ =>
            rewrite (net_of_ext n a b m m q q) end end; [exact R1| |auto|auto].
          intros r Hr. rewrite nth_error_map, NS. reflexivity. }
        match goal with |- reaches _ (net_of _ ?a _ _) _ => match type of R2 with reaches _ (net_of _ ?b _ _) _ =>
            rewrite (net_of_ext n a b m1 m1 q1 q1) end end; [exact R2| |auto|auto].
        intros r Hr. now rewrite LQ.
    + destruct (IH st done (fun r => f r (m r)) m' q) as (q' & R); auto.
      exists q'. eapply reaches_trans; [apply local_phase|exact R].
Qed.

(** the main statement, from an initial state *)
Theorem script_completes (evs : list (@event L V)) m m' : well_formed n evs [] [] -> lockstep n evs [] m m' ->
  always_completes (start_state n (fun r => script_ops r evs [] O) m) (tab n m').
Proof.
  intros WF LS.
  destruct (script_reaches (fun _ _ => false) evs [] [] m m' (fun _ => [])) as (q' & sched & R); auto.
  - intros i [].
  - exact inv_nil.
  - simpl in R. exists (length sched). intros bf sched1 s1 R1.
    assert (R' := run_buffered _ bf _ _ _ (fun _ _ X => match Bool.diff_false_true X with end) R).
    assert (FF : finished (net_of n (fun _ => []) m' q')).
    { unfold finished, net_of, tab. cbn [n_prog]. apply Forall_forall. intros p Hp. apply in_map_iff in Hp. destruct Hp as (? & <- & _). auto. }
    split.
    + destruct (complete_after_run _ _ _ _ _ _ R' FF R1) as (l & _ & E). lia.
    + intros ST. rewrite (stuck_is_final _ _ _ _ _ _ R' FF R1 ST). auto.
Qed.
End Scripts.
