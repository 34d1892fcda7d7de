(** Scripts run by one thread on DummyComm have their lock-step meaning, if exchanges are finished in the order they were started. *)
From Verif.Base Require Import Base Lemmas.
From Verif.Model Require Import Network DummyComm DummyNet.
From Verif.Spec Require Import Lockstep.
From Verif.Proofs Require Import Phases DummyProofs.
From Coq Require Import ZifyBool Permutation.

Lemma nth_error_upd_self {A} (l : list A) i a : (i < length l)%nat -> nth_error (upd l i a) i = Some a.
Proof. revert i; induction l; destruct i; cbn; intros; try lia; auto. apply IHl. lia. Qed.

Section DummyNet.
Context {L V : Type}.
Variable n : nat.

Definition who {A} (z : Z) (x : Z * Z * A) : bool := fst (fst x) =? z.
Definition tag_of {A} (x : Z * Z * A) : Z := snd (fst x).
(** messages between two ranks are received in the order sent *)
Definition in_sequence (e : @exchange L V) : Prop := forall s r, (s < n)%nat -> (r < n)%nat ->
  map tag_of (filter (who (Z.of_nat r)) (x_sends e s)) = map tag_of (filter (who (Z.of_nat s)) (x_recvs e r)).

Definition queue (q : queues (list V)) (s d : Z) : list (list V) := match queue_of (list V) q s d with Some l => l | None => [] end.

Lemma queue_put' me to v q s d : queue (put_send_recv (list V) me to v q) s d = if pair_eqb (s, d) (me, to) then (queue q s d ++ [v])%list else queue q s d.
Proof. unfold queue. rewrite queue_put. destruct (pair_eqb _ _); [|reflexivity]. now destruct (queue_of _ q s d). Qed.

Lemma queue_get me from q v l : queue q from me = v :: l -> exists q', get_send_recv (list V) me from q = (q', Ok v) /\
  forall s d, queue q' s d = if pair_eqb (s, d) (from, me) then l else queue q s d.
Proof.
  unfold queue, queue_of, get_send_recv. destruct q as [m|]; [|discriminate]. destruct (qget (list V) (from, me) m) as [[|x l']|] eqn:E; try discriminate.
  intros Q. injection Q as -> ->. exists (Some (qset (list V) (from, me) l m)). split; auto. intros s d. rewrite qget_qset. now destruct (pair_eqb _ _).
Qed.

Lemma drun_app (a b : list (nat * op L V)) w w' : drun a w = Ok w' -> drun (a ++ b) w = drun b w'.
Proof.
  revert w. induction a as [|[r o] a IH]; intros w; cbn; [congruence|]. destruct (dstep r o w) as [w1|]; cbn; [apply IH|discriminate].
Qed.

(** sending *)
Lemma run_sends r (m : L) mem : (r < n)%nat -> nth_error mem r = Some m -> forall (sends : list (Z * Z * (L -> list V))) q, exists q',
  drun (map (pair r) (send_ops sends)) (mkDW mem q) = Ok (mkDW mem q') /\
  forall s d, queue q' s d = (queue q s d ++ if s =? Z.of_nat r then map (fun x => snd x m) (filter (who d) sends) else [])%list.
Proof.
  intros Hr M. induction sends as [|[[dst t] f] sends IH]; intros q.
  - exists q. split; auto. intros s d. destruct (_ =? _); now rewrite app_nil_r.
  - cbn [send_ops map drun fst snd]. unfold dstep. cbn [dw_mem dw_queues]. rewrite M. cbn [bind].
    destruct (IH (put_send_recv (list V) (Z.of_nat r) dst (f m) q)) as (q' & E & Q). exists q'. split; [exact E|].
    intros s d. rewrite Q, queue_put'. unfold pair_eqb. cbn [fst snd filter who]. unfold who at 2. cbn [fst snd].
    destruct (Z.eqb_spec s (Z.of_nat r)) as [->|]; cbn [andb]; [|reflexivity].
    destruct (Z.eqb_spec d dst) as [->|N].
    + rewrite Z.eqb_refl. cbn [map snd]. now rewrite <- app_assoc.
    + destruct (Z.eqb_spec dst d); [congruence|]. reflexivity.
Qed.

(** receiving *)
Lemma run_recvs r (pay : Z -> Z -> list V) (rest : Z -> list (list V)) : (r < n)%nat -> forall (recvs : list (Z * Z * (list V -> L -> option L))) mem q m m', length mem = n -> nth_error mem r = Some m ->
  (forall src, queue q src (Z.of_nat r) = (map (fun x => pay src (tag_of x)) (filter (who src) recvs) ++ rest src)%list) ->
  fold_left (fun acc x => match acc with Some m => snd x (pay (fst (fst x)) (snd (fst x))) m | None => None end) recvs (Some m) = Some m' ->
  exists q', drun (map (pair r) (recv_ops recvs)) (mkDW mem q) = Ok (mkDW (upd mem r m') q') /\
    forall s d, queue q' s d = if d =? Z.of_nat r then rest s else queue q s d.
Proof.
  intros Hr. induction recvs as [|[[src t] g] recvs IH]; intros mem q m m' LM M Q F.
  - cbn in F. injection F as <-. exists q. split.
    + cbn. f_equal. f_equal. symmetry. clear -M. revert r M. induction mem as [|x mem IH]; intros [|r] M; cbn in *; try discriminate; [congruence|f_equal; auto].
    + intros s d. destruct (Z.eqb_spec d (Z.of_nat r)) as [->|]; auto. now rewrite Q.
  - cbn [fold_left fst snd] in F. destruct (g (pay src t) m) as [m1|] eqn:G.
    2:{ exfalso. clear -F. induction recvs; cbn in F; [discriminate|auto]. }
    assert (Qs := Q src). cbn [filter who fst snd] in Qs. unfold who at 1 in Qs. cbn [fst snd] in Qs. rewrite Z.eqb_refl in Qs. cbn [map app tag_of fst snd] in Qs.
    destruct (queue_get _ _ _ _ _ Qs) as (q1 & E1 & Q1).
    assert (N1 : nth_error (upd mem r m1) r = Some m1) by (apply nth_error_upd_self; lia).
    destruct (IH (upd mem r m1) q1 m1 m') as (q' & E' & Q'); auto.
    { now rewrite length_upd. }
    { intros s. rewrite Q1. unfold pair_eqb. cbn [fst snd]. rewrite Z.eqb_refl, andb_true_r. destruct (Z.eqb_spec s src) as [->|NE]; [reflexivity|].
      rewrite Q. cbn [filter]. unfold who at 1. cbn [fst snd]. destruct (Z.eqb_spec src s); [congruence|reflexivity]. }
    exists q'. split.
    + cbn [recv_ops map drun fst snd]. unfold dstep at 1. cbn [dw_mem dw_queues]. rewrite M, E1. unfold tag_of in G. cbn [fst snd] in G. rewrite G. cbn [bind].
      fold (map (pair r) (recv_ops recvs)). unfold recv_ops in E'. rewrite E'. f_equal. f_equal. apply upd_upd.
    + intros s d. rewrite Q', Q1. destruct (Z.eqb_spec d (Z.of_nat r)) as [->|NE]; auto. unfold pair_eqb. cbn [fst snd].
      destruct (Z.eqb_spec d (Z.of_nat r)); [congruence|]. now rewrite andb_false_r.
Qed.

Definition payloads (e : @exchange L V) (snap : nat -> L) (s d : nat) : list (list V) := map (fun x => snd x (snap s)) (filter (who (Z.of_nat d)) (x_sends e s)).

Lemma payloads_received e snap s r : matched n e -> in_sequence e -> (s < n)%nat -> (r < n)%nat ->
  payloads e snap s r = map (fun x => payload_for (x_sends e s) (Z.of_nat r) (tag_of x) (snap s)) (filter (who (Z.of_nat s)) (x_recvs e r)).
Proof.
  intros M S Hs Hr. rewrite <- (map_map tag_of (fun t => payload_for (x_sends e s) (Z.of_nat r) t (snap s))). rewrite <- (S s r Hs Hr). rewrite map_map.
  unfold payloads. apply map_ext_in. intros [[d t] f] I. apply filter_In in I. destruct I as (I & W). unfold who in W. cbn [fst snd] in W. apply Z.eqb_eq in W. subst d.
  cbn [snd tag_of fst]. unfold tag_of. cbn [fst snd].
  destruct (mt_send _ _ _ _ M s (Z.of_nat r) t f Hs I) as (_ & J). rewrite Nat2Z.id in J. apply in_map_iff in J. destruct J as ([[a b] g] & E & J). cbn [fst] in E. injection E as -> ->.
  destruct (mt_recv _ _ _ _ M r _ _ _ Hr J) as (_ & f' & E). rewrite Nat2Z.id in E. unfold payload_for. rewrite E.
  assert (K : In (Z.of_nat r, t, f) (filter (has_key (Z.of_nat r) t) (x_sends e s))).
  { apply filter_In. split; auto. unfold has_key. cbn [fst snd]. now rewrite !Z.eqb_refl. }
  rewrite E in K. destruct K as [K|[]]. congruence.
Qed.

Definition inside (r : nat) (l : list nat) : bool := existsb (Nat.eqb r) l.
Lemma inside_spec r l : reflect (In r l) (inside r l).
Proof.
  unfold inside. destruct (existsb (Nat.eqb r) l) eqn:E; constructor.
  - apply existsb_exists in E. destruct E as (x & I & Q). apply Nat.eqb_eq in Q. now subst.
  - intros I. assert (existsb (Nat.eqb r) l = true); [|congruence]. apply existsb_exists. exists r. split; auto. apply Nat.eqb_refl.
Qed.

Lemma start_all e m : forall order q, NoDup order -> Forall (fun r => (r < n)%nat) order -> exists q',
  drun (flat_map (fun r => map (pair r) (send_ops (x_sends e r))) order) (mkDW (tab n m) q) = Ok (mkDW (tab n m) q') /\
  forall s d, queue q' (Z.of_nat s) (Z.of_nat d) = (queue q (Z.of_nat s) (Z.of_nat d) ++ if inside s order then payloads e m s d else [])%list.
Proof.
  induction order as [|r order IH]; intros q ND F.
  - exists q. split; auto. intros s d. cbn. now rewrite app_nil_r.
  - inversion ND as [|? ? NI ND']; subst. inversion F as [|? ? Hr F']; subst.
    destruct (run_sends r (m r) (tab n m) Hr (nth_error_tab n m r Hr) (x_sends e r) q) as (q1 & E1 & Q1).
    destruct (IH q1 ND' F') as (q' & E' & Q'). exists q'. split.
    + cbn [flat_map]. rewrite (drun_app _ _ _ _ E1). exact E'.
    + intros s d. rewrite Q', Q1. cbn [inside existsb]. destruct (Nat.eqb_spec s r) as [->|NE].
      * rewrite Z.eqb_refl. cbn [orb]. destruct (inside_spec r order) as [I|_]; [contradiction|]. now rewrite app_nil_r.
      * destruct (Z.eqb_spec (Z.of_nat s) (Z.of_nat r)); [lia|]. cbn [orb]. now rewrite app_nil_r.
Qed.

Lemma run_waits r l : forall w, (r < n)%nat -> length (dw_mem w) = n -> drun (map (pair r) (map OWait l)) w = Ok (w : world L V).
Proof.
  induction l as [|j l IH]; intros w Hr H; [reflexivity|]. cbn [map drun]. unfold dstep at 1.
  destruct (nth_error (dw_mem w) r) eqn:E; [|apply nth_error_None in E; lia]. cbn [bind]. now apply IH.
Qed.

Lemma finish_all e snap (rest : nat -> nat -> list (list V)) (waits : nat -> list nat) m1 : matched n e -> in_sequence e -> forall order m q,
  NoDup order -> Forall (fun r => (r < n)%nat) order ->
  (forall s r, (s < n)%nat -> In r order -> queue q (Z.of_nat s) (Z.of_nat r) = (payloads e snap s r ++ rest s r)%list) ->
  (forall r, In r order -> deliver e snap r (m r) = Some (m1 r)) ->
  exists q', drun (flat_map (fun r => map (pair r) (recv_ops (x_recvs e r) ++ map OWait (waits r))%list) order) (mkDW (tab n m) q) =
    Ok (mkDW (tab n (fun r => if inside r order then m1 r else m r)) q') /\
  forall s r, (s < n)%nat -> queue q' (Z.of_nat s) (Z.of_nat r) = if inside r order then rest s r else queue q (Z.of_nat s) (Z.of_nat r).
Proof.
  intros M SQ. induction order as [|r order IH]; intros m q ND F Q D.
  - exists q. split; auto.
  - inversion ND as [|? ? NI ND']; subst. inversion F as [|? ? Hr F']; subst.
    set (rest' := fun src : Z => if (0 <=? src) && (src <? Z.of_nat n) then rest (Z.to_nat src) r else queue q src (Z.of_nat r)).
    destruct (run_recvs r (fun src t => payload_for (x_sends e (Z.to_nat src)) (Z.of_nat r) t (snap (Z.to_nat src))) rest' Hr (x_recvs e r) (tab n m) q (m r) (m1 r)) as (q1 & E1 & Q1).
    { unfold tab. now rewrite map_length, seq_length. } { now apply nth_error_tab. }
    { intros src. unfold rest'. destruct ((0 <=? src) && (src <? Z.of_nat n)) eqn:R.
      - replace src with (Z.of_nat (Z.to_nat src)) at 1 by lia. rewrite Q by (try (now left); lia). rewrite payloads_received by (auto; lia).
        replace (Z.of_nat (Z.to_nat src)) with src by lia. reflexivity.
      - assert (filter (who src) (x_recvs e r) = []) as ->; [|reflexivity].
        destruct (filter (who src) (x_recvs e r)) as [|[[a t] g] l] eqn:E; auto. exfalso.
        assert (I : In (a, t, g) (filter (who src) (x_recvs e r))) by (rewrite E; now left). apply filter_In in I. destruct I as (I & W). unfold who in W. cbn [fst] in W.
        apply Z.eqb_eq in W. subst a. destruct (mt_recv _ _ _ _ M r _ _ _ Hr I) as (B & _). lia. }
    { exact (D r (or_introl eq_refl)). }
    rewrite upd_tab in E1.
    destruct (IH (fun i => if Nat.eqb i r then m1 r else m i) q1 ND' F') as (q' & E' & Q').
    { intros s r' Hs I. rewrite Q1. destruct (Z.eqb_spec (Z.of_nat r') (Z.of_nat r)) as [E|_]; [apply Nat2Z.inj in E; subst; contradiction|]. apply Q; auto. now right. }
    { intros r' I. destruct (Nat.eqb_spec r' r) as [->|_]; [contradiction|]. apply D. now right. }
    exists q'. split.
    + cbn [flat_map]. rewrite map_app. rewrite <- app_assoc. rewrite (drun_app _ _ _ _ E1).
      erewrite drun_app by (apply run_waits; [auto|cbn [dw_mem]; unfold tab; now rewrite map_length, seq_length]). rewrite E'. f_equal. f_equal.
      apply tab_ext. intros i Hi. cbn [inside existsb]. fold (inside i order). destruct (Nat.eqb_spec i r) as [->|]; cbn [orb]; [|reflexivity].
      now destruct (inside r order).
    + intros s r' Hs. rewrite Q' by auto. rewrite Q1. cbn [inside existsb]. fold (inside r' order). destruct (inside r' order); [now rewrite orb_true_r|]. rewrite orb_false_r.
      destruct (Nat.eqb_spec r' r) as [->|NE].
      * rewrite Z.eqb_refl. unfold rest'. replace ((0 <=? Z.of_nat s) && (Z.of_nat s <? Z.of_nat n)) with true by lia. now rewrite Nat2Z.id.
      * destruct (Z.eqb_spec (Z.of_nat r') (Z.of_nat r)); [lia|reflexivity].
Qed.

(** local computation *)
Lemma local_all (f : nat -> L -> L) : forall order m q, NoDup order -> Forall (fun r => (r < n)%nat) order ->
  drun (flat_map (fun r => map (pair r) [OLocal (f r)]) order) (mkDW (tab n m) q) = Ok (mkDW (tab n (fun r => if inside r order then f r (m r) else m r)) q : world L V).
Proof.
  induction order as [|r order IH]; intros m q ND F; [reflexivity|]. inversion ND as [|? ? NI ND']; subst. inversion F as [|? ? Hr F']; subst.
  cbn [flat_map map app drun]. unfold dstep at 1. cbn [dw_mem dw_queues]. rewrite nth_error_tab by auto. cbn [bind]. rewrite upd_tab.
  cbn [map] in IH. rewrite IH by auto. f_equal. f_equal. apply tab_ext. intros i Hi. cbn [inside existsb]. fold (inside i order).
  destruct (Nat.eqb_spec i r) as [->|]; cbn [orb]; [|reflexivity]. destruct (inside_spec r order); [contradiction|reflexivity].
Qed.

(** what each rank has done so far: exchanges started with the numbers of their first sends, number of sends *)
Definition progress := (list (@exchange L V * nat) * nat)%type.
Definition adv (r : nat) (ev : event L V) (p : progress) : progress :=
  match ev with EvStart e => ((fst p ++ [(e, snd p)])%list, (snd p + length (x_sends e r))%nat) | _ => p end.
Definition ev_ops (r : nat) (ev : event L V) (p : progress) : list (op L V) := script_ops r [ev] (fst p) (snd p).
Fixpoint phases (order : nat -> list nat) (j : nat) (evs : list (event L V)) (p : nat -> progress) : list (nat * op L V) :=
  match evs with
  | [] => []
  | ev :: evs' => (flat_map (fun r => map (pair r) (ev_ops r ev (p r))) (order j) ++ phases order (S j) evs' (fun r => adv r ev (p r)))%list
  end.

Definition finishes (evs : list (event L V)) : list nat := flat_map (fun ev => match ev with EvFinish i => [i] | _ => [] end) evs.
Definition sequenced (evs : list (event L V)) : Prop := Forall (fun ev => match ev with EvStart e => in_sequence e | _ => True end) evs.

Lemma flat_map_ext_in {A B} (f g : A -> list B) l : (forall a, In a l -> f a = g a) -> flat_map f l = flat_map g l.
Proof. induction l; cbn; intros H; auto. rewrite H by now left. f_equal. auto. Qed.

Theorem phases_correct order : (forall i, Permutation (order i) (seq 0 n)) -> forall evs j p started k done m m' q,
  well_formed n evs (map fst started) done -> sequenced evs -> finishes evs = seq k (length (finishes evs)) ->
  (k <= length started)%nat -> Forall (fun es => matched n (fst es) /\ in_sequence (fst es)) started ->
  (forall r, (r < n)%nat -> map fst (fst (p r)) = map fst started) ->
  (forall s d, (s < n)%nat -> (d < n)%nat -> queue q (Z.of_nat s) (Z.of_nat d) = flat_map (fun es => payloads (fst es) (snd es) s d) (skipn k started)) ->
  lockstep n evs started m m' ->
  exists q', drun (phases order j evs p) (mkDW (tab n m) q) = Ok (mkDW (tab n m') q').
Proof.
  intros PO. assert (ND : forall j, NoDup (order j)) by (intros j; apply (Permutation_NoDup (Permutation_sym (PO j))), seq_NoDup).
  assert (IO : forall j r, In r (order j) <-> (r < n)%nat).
  { intros j r. rewrite (Permutation_in' eq_refl (PO j)), in_seq. lia. }
  assert (FO : forall j, Forall (fun r => (r < n)%nat) (order j)) by (intros j; apply Forall_forall; intros r; apply IO).
  assert (IN : forall j r, (r < n)%nat -> inside r (order j) = true) by (intros j r Hr; destruct (inside_spec r (order j)) as [|X]; auto; exfalso; apply X, IO, Hr).
  induction evs as [|ev evs IH]; intros j p started k done m m' q W SQ FI KL ST P Q LS.
  - exists q. cbn. f_equal. f_equal. apply tab_ext. intros r Hr. symmetry. now apply LS.
  - inversion SQ as [|? ? S1 S2]; subst. cbn [phases]. destruct ev as [e|i|f]; cbn [well_formed lockstep] in W, LS.
    + destruct W as (M & _ & W). cbn [finishes flat_map app] in FI. fold (finishes evs) in FI.
      destruct (start_all e m (order j) q (ND j) (FO j)) as (q1 & E1 & Q1).
      destruct (IH (S j) (fun r => adv r (EvStart e) (p r)) (started ++ [(e, m)])%list k done m m' q1) as (q' & E'); auto.
      { rewrite map_app. exact W. } { rewrite app_length. cbn. lia. }
      { apply Forall_app. split; auto. }
      { intros r Hr. cbn [adv fst]. rewrite !map_app. rewrite P by auto. reflexivity. }
      { intros s d Hs Hd. rewrite Q1, IN, Q by auto.
        rewrite skipn_app. replace (k - length started)%nat with O by lia. rewrite flat_map_app. cbn. now rewrite app_nil_r. }
      exists q'. rewrite <- E'. apply drun_app. rewrite <- E1. f_equal. apply flat_map_ext_in. intros r _. unfold ev_ops. cbn [script_ops]. now rewrite app_nil_r.
    + destruct W as (NI & Hi & W). destruct LS as (e & snap & m1 & E & D & LS).
      cbn [finishes flat_map app length seq] in FI. fold (finishes evs) in FI. injection FI as -> FI.
      assert (SK : skipn k started = (e, snap) :: skipn (S k) started) by (pose proof (skipn_nth k started) as X; now rewrite E in X).
      assert (ME := nth_error_In _ _ E). rewrite Forall_forall in ST. destruct (ST _ ME) as (M & SE). cbn [fst] in *.
      destruct (finish_all e snap (fun s d => flat_map (fun es => payloads (fst es) (snd es) s d) (skipn (S k) started))
        (fun r => match nth_error (fst (p r)) k with Some (e', o) => seq o (length (x_sends e' r)) | None => [] end) m1 M SE (order j) m q (ND j) (FO j)) as (q1 & E1 & Q1).
      { intros s r Hs I. apply IO in I. rewrite Q by auto. now rewrite SK. }
      { intros r I. apply D. now apply IO in I. }
      destruct (IH (S j) (fun r => adv r (EvFinish k) (p r)) started (S k) (k :: done) m1 m' q1) as (q' & E'); auto.
      { rewrite map_length in Hi. lia. } { now apply Forall_forall. }
      { intros s r Hs Hr. rewrite Q1, IN by auto. reflexivity. }
      exists q'. rewrite <- E'. apply drun_app.
      replace (tab n m1) with (tab n (fun r => if inside r (order j) then m1 r else m r)) by (apply tab_ext; intros r Hr; now rewrite IN).
      rewrite <- E1. f_equal. apply flat_map_ext_in. intros r I. apply IO in I. unfold ev_ops. cbn [script_ops].
      assert (NF : nth_error (map fst (fst (p r))) k = Some e) by (rewrite P by auto; now rewrite nth_error_map, E).
      rewrite nth_error_map in NF. destruct (nth_error (fst (p r)) k) as [[e' o]|]; [|discriminate]. cbn in NF. injection NF as ->. now rewrite app_nil_r.
    + cbn [finishes flat_map app] in FI. fold (finishes evs) in FI.
      destruct (IH (S j) (fun r => adv r (EvLocal f) (p r)) started k done (fun r => f r (m r)) m' q) as (q' & E'); auto.
      exists q'. rewrite <- E'. apply drun_app.
      replace (tab n (fun r => f r (m r))) with (tab n (fun r => if inside r (order j) then f r (m r) else m r)) by (apply tab_ext; intros r Hr; now rewrite IN).
      rewrite <- local_all by auto. f_equal.
Qed.
End DummyNet.
