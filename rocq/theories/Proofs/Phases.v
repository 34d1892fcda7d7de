(** Scripts executed over messages have their lock-step meaning under every schedule. *)
From Verif.Base Require Import Base Lemmas.
From Verif.Model Require Import Network.
From Verif.Spec Require Import Lockstep.
From Verif.Proofs Require Import NetworkProofs.
From Coq Require Import ZifyBool.

(** tabulated lists *)
Lemma nth_error_tab {A} n (f : nat -> A) r : (r < n)%nat -> nth_error (tab n f) r = Some (f r).
Proof. intros H. unfold tab. rewrite nth_error_map, nth_error_nth' with (d := O) by (rewrite seq_length; lia). now rewrite seq_nth. Qed.

Lemma tab_ext {A} n (f g : nat -> A) : (forall r, (r < n)%nat -> f r = g r) -> tab n f = tab n g.
Proof. intros H. unfold tab. apply map_ext_in. intros r I. apply in_seq in I. apply H. lia. Qed.

Lemma upd_tab {A} n (f : nat -> A) r a : upd (tab n f) r a = tab n (fun i => if Nat.eqb i r then a else f i).
Proof.
  unfold tab. assert (G : forall k, upd (map f (seq k n)) r a = map (fun i => if Nat.eqb i (k + r) then a else f i) (seq k n)).
  { revert r. induction n; intros r k; simpl; auto. destruct r; simpl.
    - rewrite Nat.add_0_r, Nat.eqb_refl. f_equal. apply map_ext_in. intros i I. apply in_seq in I.
      destruct (Nat.eqb_spec i k); [lia|auto].
    - destruct (Nat.eqb_spec k (k + S r)); [lia|]. f_equal. rewrite IHn. apply map_ext. intros i.
      replace (S k + r)%nat with (k + S r)%nat by lia. auto. }
  apply (G O).
Qed.

Section Phases.
Context {L V : Type}.
Variable bf : nat -> nat -> bool.
Variable n : nat.

Definition net_of (p : nat -> list (op L V)) (m : nat -> L) (q : nat -> list (msg V)) : @net L V :=
  mkN (tab n p) (tab n m) (tab n q).

Lemma net_of_ext p p' m m' q q' :
  (forall r, (r < n)%nat -> p r = p' r) -> (forall r, (r < n)%nat -> m r = m' r) -> (forall r, (r < n)%nat -> q r = q' r) ->
  net_of p m q = net_of p' m' q'.
Proof. intros A B C. unfold net_of. now rewrite (tab_ext n p p' A), (tab_ext n m m' B), (tab_ext n q q' C). Qed.

Definition reaches (s s' : @net L V) : Prop := exists sched, run bf sched s = Some s'.

Lemma reaches_refl s : reaches s s.
Proof. exists []. reflexivity. Qed.

Lemma reaches_trans s1 s2 s3 : reaches s1 s2 -> reaches s2 s3 -> reaches s1 s3.
Proof. intros [a A] [b B]. exists (a ++ b)%list. now rewrite (run_app _ _ _ _ _ A). Qed.

Lemma reaches_step s s' r : step bf r s = Some s' -> reaches s s'.
Proof. intros E. exists [r]. simpl. now rewrite E. Qed.

Definition fupd {A} (f : nat -> A) r a := fun i => if Nat.eqb i r then a else f i.

Lemma step_send p m q r d t f ps : (r < n)%nat -> p r = OSend d t f :: ps ->
  reaches (net_of p m q) (net_of (fupd p r ps) m (fupd q r (q r ++ [mkM d t (f (m r)) false])%list)).
Proof.
  intros Hr E. apply reaches_step with r. unfold step. cbn [n_prog n_mem n_sent net_of].
  rewrite !nth_error_tab, E by auto. rewrite !upd_tab. reflexivity.
Qed.

Lemma step_local p m q r f ps : (r < n)%nat -> p r = OLocal f :: ps ->
  reaches (net_of p m q) (net_of (fupd p r ps) (fupd m r (f (m r))) q).
Proof.
  intros Hr E. apply reaches_step with r. unfold step. cbn [n_prog n_mem n_sent net_of].
  rewrite !nth_error_tab, E by auto. rewrite !upd_tab. reflexivity.
Qed.

Lemma step_wait p m q r j mg ps : (r < n)%nat -> p r = OWait j :: ps -> nth_error (q r) j = Some mg -> ms_taken mg || bf r j = true ->
  reaches (net_of p m q) (net_of (fupd p r ps) m q).
Proof.
  intros Hr E N T. apply reaches_step with r. unfold step. cbn [n_prog n_mem n_sent net_of].
  rewrite !nth_error_tab, E by auto. rewrite N, T. rewrite !upd_tab. reflexivity.
Qed.

Lemma step_recv p m q r src t g ps body q' m' : (r < n)%nat -> p r = ORecv src t g :: ps -> 0 <= src < Z.of_nat n ->
  take (Z.of_nat r) t (q (Z.to_nat src)) = Some (body, q') -> g body (m r) = Some m' ->
  reaches (net_of p m q) (net_of (fupd p r ps) (fupd m r m') (fupd q (Z.to_nat src) q')).
Proof.
  intros Hr E Hs T G. apply reaches_step with r. unfold step. cbn [n_prog n_mem n_sent net_of].
  rewrite !nth_error_tab, E by lia. rewrite ?nth_error_tab by lia. destruct (Z.ltb_spec src 0); [lia|]. rewrite ?nth_error_tab by lia. rewrite T, G. rewrite !upd_tab. reflexivity.
Qed.

Lemma fupd_eq {A} (f : nat -> A) r a : fupd f r a r = a.
Proof. unfold fupd. now rewrite Nat.eqb_refl. Qed.
Lemma fupd_neq {A} (f : nat -> A) r a i : i <> r -> fupd f r a i = f i.
Proof. unfold fupd. intros H. destruct (Nat.eqb_spec i r); [contradiction|auto]. Qed.

(** messages waiting for [dst] with [tag] *)
Definition pend (l : list (msg V)) (dst tag : Z) : list (list V) := map ms_body (filter (matches dst tag) l).
(** who and which tag each message is for *)
Definition heads (l : list (msg V)) : list (Z * Z) := map (fun m => (ms_dst m, ms_tag m)) l.

Lemma take_pend dst tag (l : list (msg V)) b rest : pend l dst tag = b :: rest ->
  exists l', take dst tag l = Some (b, l') /\ pend l' dst tag = rest /\ heads l' = heads l /\
   (forall d t, d <> dst \/ t <> tag -> pend l' d t = pend l d t).
Proof.
  unfold pend. induction l as [|m l IH]; simpl; [discriminate|].
  destruct (matches dst tag m) eqn:M.
  - simpl. intros [= <- <-]. eexists. split; [reflexivity|]. simpl. split; auto. split; auto.
    intros d t H. unfold matches in M. assert (matches d t m = false) as ->; [|reflexivity].
    unfold matches. destruct (ms_taken m); [discriminate|]. simpl in *. lia.
  - intros E. destruct (IH E) as (l' & T & P & HH & O). rewrite T. eexists. split; [reflexivity|].
    simpl. rewrite M, P, HH. split; auto. split; auto. intros d t H. destruct (matches d t m); simpl; rewrite O; auto.
Qed.

(** everything for dst and tag received implies such a message is marked *)
Lemma pend_nil_taken (l : list (msg V)) d t j : pend l d t = [] -> nth_error (heads l) j = Some (d, t) ->
  exists mg, nth_error l j = Some mg /\ ms_taken mg = true.
Proof.
  unfold pend, heads. revert j; induction l as [|m l IH]; simpl; intros j P N. { destruct j; discriminate. }
  destruct (matches d t m) eqn:M; [discriminate|]. destruct j; simpl in *.
  - injection N as A B. exists m. split; auto. unfold matches in M. rewrite A, B, !Z.eqb_refl in M. now destruct (ms_taken m).
  - auto.
Qed.

(** all sends of one rank *)
Definition send_ops (l : list (Z * Z * (L -> list V))) : list (op L V) :=
  map (fun x => OSend (fst (fst x)) (snd (fst x)) (snd x)) l.
Definition recv_ops (l : list (Z * Z * (list V -> L -> option L))) : list (op L V) :=
  map (fun x => ORecv (fst (fst x)) (snd (fst x)) (snd x)) l.
Definition sent_msgs (l : list (Z * Z * (L -> list V))) (m : L) : list (msg V) :=
  map (fun x => mkM (fst (fst x)) (snd (fst x)) (snd x m) false) l.

Lemma rank_sends S : forall p m q r K, (r < n)%nat -> p r = (send_ops S ++ K)%list ->
  reaches (net_of p m q) (net_of (fupd p r K) m (fupd q r (q r ++ sent_msgs S (m r)))%list).
Proof.
  induction S as [|[[d t] f] S IH]; intros p m q r K Hr E; simpl in *.
  - exists []. simpl. f_equal. apply net_of_ext; auto; intros i Hi; unfold fupd; destruct (Nat.eqb_spec i r); subst; auto.
    now rewrite app_nil_r.
  - eapply reaches_trans; [eapply step_send; eauto|].
    eapply reaches_trans; [eapply (IH _ _ _ r K Hr); rewrite fupd_eq; reflexivity|].
    exists []. simpl. f_equal. apply net_of_ext; auto; intros i Hi; unfold fupd; destruct (Nat.eqb_spec i r); subst; auto.
    rewrite Nat.eqb_refl, <- app_assoc. reflexivity.
Qed.

(** ranks 0, 1, ... one after the other *)
Lemma ranks_induction (P : nat -> @net L V -> Prop) s : P O s ->
  (forall k s1, (k < n)%nat -> P k s1 -> exists s2, reaches s1 s2 /\ P (S k) s2) -> exists s', reaches s s' /\ P n s'.
Proof.
  intros H0 HS. assert (G : forall k, (k <= n)%nat -> exists s', reaches s s' /\ P k s').
  { induction k; intros Hk. { exists s. split; auto using reaches_refl. }
    destruct IHk as (s1 & R1 & P1); [lia|]. destruct (HS k s1) as (s2 & R2 & P2); auto.
    exists s2. split; auto. eapply reaches_trans; eauto. }
  now apply G.
Qed.

Lemma send_phase (S : nat -> list (Z * Z * (L -> list V))) K m q :
  reaches (net_of (fun r => send_ops (S r) ++ K r)%list m q) (net_of K m (fun r => q r ++ sent_msgs (S r) (m r))%list).
Proof.
  destruct (ranks_induction (fun k s => s = net_of (fun r => if (r <? k)%nat then K r else send_ops (S r) ++ K r)%list m
       (fun r => if (r <? k)%nat then (q r ++ sent_msgs (S r) (m r))%list else q r)) 
       (net_of (fun r => send_ops (S r) ++ K r)%list m q)) as (s' & R & ->).
  - reflexivity.
  - intros k s1 Hk ->. eexists. split.
    + apply (rank_sends (S k) _ _ _ k (K k) Hk). cbv beta. destruct (Nat.ltb_spec k k); [lia|reflexivity].
    + apply net_of_ext; auto; intros r Hr; unfold fupd; destruct (Nat.eqb_spec r k); subst;
      repeat match goal with |- context [(?a <? ?b)%nat] => destruct (Nat.ltb_spec a b); try lia end; auto.
  - replace (net_of K m (fun r => q r ++ sent_msgs (S r) (m r))%list) with
     (net_of (fun r => if (r <? n)%nat then K r else send_ops (S r) ++ K r)%list m
       (fun r => if (r <? n)%nat then (q r ++ sent_msgs (S r) (m r))%list else q r)); auto.
    apply net_of_ext; auto; intros r Hr; destruct (Nat.ltb_spec r n); auto; lia.
Qed.

(** receives of one rank *)
Definition key_in (R : list (Z * Z * (list V -> L -> option L))) (src t : Z) : bool :=
  existsb (has_key src t) R.

Fixpoint store_all (R : list (Z * Z * (list V -> L -> option L))) (body : Z -> Z -> list V) (m : L) : option L :=
  match R with
  | [] => Some m
  | x :: R' => match snd x (body (fst (fst x)) (snd (fst x))) m with
               | Some m' => store_all R' body m'
               | None => None
               end
  end.

Lemma rank_recvs R : forall p m q r K body m', (r < n)%nat -> p r = (recv_ops R ++ K)%list ->
  NoDup (map fst R) -> (forall src t g, In (src, t, g) R -> 0 <= src < Z.of_nat n /\ exists rest, pend (q (Z.to_nat src)) (Z.of_nat r) t = body src t :: rest) ->
  store_all R body (m r) = Some m' ->
  exists q', reaches (net_of p m q) (net_of (fupd p r K) (fupd m r m') q') /\
    (forall i, heads (q' i) = heads (q i)) /\
    (forall i d t, pend (q' i) d t = if (d =? Z.of_nat r) && key_in R (Z.of_nat i) t then tl (pend (q i) d t) else pend (q i) d t).
Proof.
  induction R as [|[[src t] g] R IH]; intros p m q r K body m' Hr E ND HP HS; simpl in *.
  - injection HS as <-. exists q. split; [|split; auto].
    + exists []. simpl. f_equal. apply net_of_ext; auto; intros i Hi; unfold fupd; destruct (Nat.eqb_spec i r); subst; auto.
    + intros. now rewrite andb_false_r.
  - destruct (g (body src t) (m r)) as [m1|] eqn:G; [|discriminate].
    destruct (HP src t g (or_introl eq_refl)) as (Hs & rest & P).
    destruct (take_pend _ _ _ _ _ P) as (l' & T & P' & HH & O).
    inversion ND as [|? ? NI ND']; subst.
    destruct (IH (fupd p r (recv_ops R ++ K)%list) (fupd m r m1) (fupd q (Z.to_nat src) l') r K body m') as (q' & RR & QH & QP); auto.
    + now rewrite fupd_eq.
    + intros src2 t2 g2 I. destruct (HP src2 t2 g2 (or_intror I)) as (Hs2 & rest2 & P2). split; auto. exists rest2.
      destruct (Nat.eq_dec (Z.to_nat src2) (Z.to_nat src)) as [EQ|NE].
      * assert (src2 = src) by lia. subst src2. rewrite fupd_eq. rewrite O; auto. right. intros ->.
        apply NI. apply in_map_iff. exists (src, t, g2). auto.
      * now rewrite fupd_neq.
    + rewrite fupd_eq. exact HS.
    + exists q'. split; [|split].
      * eapply reaches_trans; [eapply step_recv; eauto|]. 
        eapply reaches_trans; [exact RR|]. exists []. simpl. f_equal. apply net_of_ext; auto; intros i Hi; unfold fupd; destruct (Nat.eqb_spec i r); subst; auto.
      * intros i. rewrite QH. destruct (Nat.eq_dec i (Z.to_nat src)) as [->|NE]; [now rewrite fupd_eq|now rewrite fupd_neq].
      * intros i d t2. rewrite QP. unfold has_key. cbn [fst snd].
        destruct (Nat.eq_dec i (Z.to_nat src)) as [->|NE].
        -- rewrite fupd_eq. rewrite Z2Nat.id by lia. rewrite Z.eqb_refl. cbn [andb].
           destruct (Z.eqb_spec d (Z.of_nat r)) as [->|ND2]; cbn [andb].
           ++ destruct (Z.eqb_spec t t2) as [->|NT]; cbn [orb].
              ** rewrite P. cbn [tl]. destruct (key_in R src t2) eqn:KI; auto.
                 exfalso. apply NI. apply existsb_exists in KI. destruct KI as ([[a b] g2] & I & K2). unfold has_key in K2. cbn [fst snd] in K2.
                 apply in_map_iff. exists (a, b, g2). split; auto. cbn [fst]. f_equal; lia.
              ** rewrite O by (right; congruence). reflexivity.
           ++ rewrite O by (left; congruence). reflexivity.
        -- rewrite fupd_neq by auto. destruct (Z.eqb_spec src (Z.of_nat i)); [lia|]. cbn [andb orb]. reflexivity.
Qed.

Lemma recv_phase (R : nat -> list (Z * Z * (list V -> L -> option L))) K m q body m' :
  (forall r, (r < n)%nat -> NoDup (map fst (R r))) ->
  (forall r src t g, (r < n)%nat -> In (src, t, g) (R r) -> 0 <= src < Z.of_nat n /\
      exists rest, pend (q (Z.to_nat src)) (Z.of_nat r) t = body r src t :: rest) ->
  (forall r, (r < n)%nat -> store_all (R r) (body r) (m r) = Some (m' r)) ->
  exists q', reaches (net_of (fun r => recv_ops (R r) ++ K r)%list m q) (net_of K m' q') /\
    (forall i, heads (q' i) = heads (q i)) /\
    (forall i r t, (r < n)%nat -> pend (q' i) (Z.of_nat r) t = if key_in (R r) (Z.of_nat i) t then tl (pend (q i) (Z.of_nat r) t) else pend (q i) (Z.of_nat r) t).
Proof.
  intros HN HP HS.
  destruct (ranks_induction (fun k s => exists q', s = net_of (fun r => if (r <? k)%nat then K r else recv_ops (R r) ++ K r)%list
       (fun r => if (r <? k)%nat then m' r else m r) q' /\ (forall i, heads (q' i) = heads (q i)) /\
    (forall i r t, pend (q' i) (Z.of_nat r) t = if (r <? k)%nat && key_in (R r) (Z.of_nat i) t then tl (pend (q i) (Z.of_nat r) t) else pend (q i) (Z.of_nat r) t))
       (net_of (fun r => recv_ops (R r) ++ K r)%list m q)) as (s' & RR & q' & -> & QH & QP).
  - exists q. auto.
  - intros k s1 Hk (q1 & -> & QH & QP).
    destruct (rank_recvs (R k) (fun r => if (r <? k)%nat then K r else recv_ops (R r) ++ K r)%list
       (fun r => if (r <? k)%nat then m' r else m r) q1 k (K k) (body k) (m' k)) as (q2 & R2 & QH2 & QP2); auto.
    + destruct (Nat.ltb_spec k k); [lia|reflexivity].
    + intros src t g I. destruct (HP k src t g Hk I) as (Hs & rest & P). split; auto. exists rest. rewrite QP.
      destruct (Nat.ltb_spec k k); [lia|exact P].
    + destruct (Nat.ltb_spec k k); [lia|auto].
    + eexists. split; [exact R2|]. exists q2. split; [|split].
      * apply net_of_ext; auto; intros r Hr; unfold fupd; destruct (Nat.eqb_spec r k); subst;
        repeat match goal with |- context [(?a <? ?b)%nat] => destruct (Nat.ltb_spec a b); try lia end; auto.
      * intros i. now rewrite QH2, QH.
      * intros i r t. rewrite QP2, QP. destruct (Z.eqb_spec (Z.of_nat r) (Z.of_nat k)) as [E|NE].
        -- assert (r = k) by lia. subst r. cbn [andb]. destruct (Nat.ltb_spec k k); [lia|]. destruct (Nat.ltb_spec k (S k)); [|lia]. reflexivity.
        -- cbn [andb]. destruct (Nat.ltb_spec r k); destruct (Nat.ltb_spec r (S k)); try lia; auto.
  - exists q'. split; [|split; auto].
    + replace (net_of K m' q') with (net_of (fun r => if (r <? n)%nat then K r else recv_ops (R r) ++ K r)%list
       (fun r => if (r <? n)%nat then m' r else m r) q'); auto.
      apply net_of_ext; auto; intros r Hr; destruct (Nat.ltb_spec r n); auto; lia.
    + intros i r t Hr. rewrite QP. destruct (Nat.ltb_spec r n); [reflexivity|lia].
Qed.

(** waits *)
Lemma rank_waits js : forall p m q r K, (r < n)%nat -> p r = (map OWait js ++ K)%list ->
  (forall j, In j js -> exists mg, nth_error (q r) j = Some mg /\ ms_taken mg || bf r j = true) ->
  reaches (net_of p m q) (net_of (fupd p r K) m q).
Proof.
  induction js as [|j js IH]; intros p m q r K Hr E H; simpl in *.
  - exists []. simpl. f_equal. apply net_of_ext; auto; intros i Hi; unfold fupd; destruct (Nat.eqb_spec i r); subst; auto.
  - destruct (H j (or_introl eq_refl)) as (mg & N & T).
    eapply reaches_trans; [eapply step_wait; eauto|].
    eapply reaches_trans; [apply (IH _ m q r K Hr); [rewrite fupd_eq; reflexivity|auto]|].
    exists []. simpl. f_equal. apply net_of_ext; auto; intros i Hi; unfold fupd; destruct (Nat.eqb_spec i r); subst; auto.
Qed.

Lemma wait_phase (js : nat -> list nat) K m q :
  (forall r j, (r < n)%nat -> In j (js r) -> exists mg, nth_error (q r) j = Some mg /\ ms_taken mg || bf r j = true) ->
  reaches (net_of (fun r => map OWait (js r) ++ K r)%list m q) (net_of K m q).
Proof.
  intros H.
  destruct (ranks_induction (fun k s => s = net_of (fun r => if (r <? k)%nat then K r else map OWait (js r) ++ K r)%list m q)
       (net_of (fun r => map OWait (js r) ++ K r)%list m q)) as (s' & R & ->).
  - reflexivity.
  - intros k s1 Hk ->. eexists. split.
    + apply (rank_waits (js k) _ _ _ k (K k) Hk); [cbv beta; destruct (Nat.ltb_spec k k); [lia|reflexivity]|]. intros j I. apply H; auto.
    + apply net_of_ext; auto; intros r Hr; unfold fupd; destruct (Nat.eqb_spec r k); subst;
      repeat match goal with |- context [(?a <? ?b)%nat] => destruct (Nat.ltb_spec a b); try lia end; auto.
  - replace (net_of K m q) with (net_of (fun r => if (r <? n)%nat then K r else map OWait (js r) ++ K r)%list m q); auto.
    apply net_of_ext; auto; intros r Hr; destruct (Nat.ltb_spec r n); auto; lia.
Qed.

Lemma local_phase (f : nat -> L -> L) K m q :
  reaches (net_of (fun r => OLocal (f r) :: K r) m q) (net_of K (fun r => f r (m r)) q).
Proof.
  destruct (ranks_induction (fun k s => s = net_of (fun r => if (r <? k)%nat then K r else OLocal (f r) :: K r)
      (fun r => if (r <? k)%nat then f r (m r) else m r) q)
       (net_of (fun r => OLocal (f r) :: K r) m q)) as (s' & R & ->).
  - reflexivity.
  - intros k s1 Hk ->. eexists. split.
    + apply (step_local _ _ _ k (f k) (K k) Hk); cbv beta; destruct (Nat.ltb_spec k k); [lia|reflexivity].
    + apply net_of_ext; auto; intros r Hr; unfold fupd; destruct (Nat.eqb_spec r k); subst;
      repeat match goal with |- context [(?a <? ?b)%nat] => destruct (Nat.ltb_spec a b); try lia end; auto.
  - replace (net_of K (fun r => f r (m r)) q) with (net_of (fun r => if (r <? n)%nat then K r else OLocal (f r) :: K r)
      (fun r => if (r <? n)%nat then f r (m r) else m r) q); auto.
    apply net_of_ext; auto; intros r Hr; destruct (Nat.ltb_spec r n); auto; lia.
Qed.

Lemma deliver_store_all e snap r m : deliver e snap r m =
  store_all (x_recvs e r) (fun src t => payload_for (x_sends e (Z.to_nat src)) (Z.of_nat r) t (snap (Z.to_nat src))) m.
Proof.
  unfold deliver. generalize (x_recvs e r) as R. intros R. revert m. induction R as [|x R IH]; intros m; simpl; auto.
  destruct (snd x _ m) as [m'|]; [apply IH|]. clear. induction R; simpl; auto.
Qed.
End Phases.
