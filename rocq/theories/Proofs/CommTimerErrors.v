(** The timer of a communicator: disabled timers, clocks left running, clocks of the same names (C85). *)
From Verif.Base Require Import Base Lemmas.
From Verif.Model Require Import Consts Numpy Quantity Partitioner Rotate Network Communicator Timer CommTimer.
From Verif.Spec Require Import Grid Cube Halo Lockstep Sync Client CommTimes Errors Unmatched.
From Verif.Proofs Require Import Phases Scripts HaloOps HaloEffect SyncEffect ClientProofs HaloErrors CommTimerProofs.
From Coq Require Import ZifyBool.

Section Errors.
Variable V : Type.
Variable neg : V -> V.
Variable R : Type.
Variable sub add : R -> R -> R.
Variable clk : nat -> R.
Variable contig : handle -> Z -> btype -> bool.
Notation teff := (teff V R).
Notation same_comm := (same_comm R).
Notation start_call := (start_call V neg R sub add clk contig).
Notation start_plain := (start_plain V neg).

(** ** with a timer which is not enabled *)
Section Off.
Variable layout : layout_t.
Variable rank : Z.
Variable t : timer R.
Hypothesis off : t_on t = false.
Definition rel_off (c : comm) (s : cts R) : Prop := same_comm c s /\ ct_timer s = t /\ c_running c = [].
Definition one_clock (c : comm) : Prop := c_running c = [] \/ exists name, In name comm_names /\ c_running c = [name].
Definition rerr_off (c : comm) (s : cts R) : Prop := same_comm c s /\ ct_timer s = t /\ one_clock c.
Definition adv_any (_ : list string) (_ _ : timer R) : Prop := True.
Definition any_bounds (_ : list boundary) : Prop := True.
Notation sim := (sim V R rel_off rerr_off adv_any).
Lemma off_rerr c s : rel_off c s -> rerr_off c s.
Proof using. intros (A & B & C). split; auto. split; auto. now left. Qed.
Lemma off_step call s : ct_timer s = t -> (forall now, exists name, call now = Start name now \/ call now = Stop name now) -> on_timer V R sub add clk call s = ([], mkCT (ct_comm s) t (S (ct_reads s)), Ok tt).
Proof using off. intros E C. unfold on_timer. destruct (C (clk (ct_reads s))) as (name & [-> | ->]); cbn [tstep]; unfold t_start, t_stop; rewrite E, off; reflexivity. Qed.
Lemma off_tclock {A} name (m : teff A) s : ct_timer s = t -> (forall s1, ct_timer s1 = t -> ct_timer (snd (fst (m s1))) = t) ->
  exists k, tclock V R sub add clk name m s = let '(l, s', x) := m (mkCT (ct_comm s) t k) in match x with Ok a => (l, mkCT (ct_comm s') t (S (ct_reads s')), Ok a) | Err e => (l, s', Err e) end.
Proof using off.
  intros E K. exists (S (ct_reads s)). unfold tclock, tbind at 1. rewrite off_step by eauto. unfold tbind at 1. pose proof (K (mkCT (ct_comm s) t (S (ct_reads s))) eq_refl) as K1. destruct (m _) as [[l s'] [a|e]]; [|reflexivity].
  unfold tbind, tret. rewrite off_step by eauto. now rewrite !app_nil_r.
Qed.
Lemma off_tag : sim (fun a a' ns => a' = a /\ ns = []) (get_halo_tag V) (untimed V R (get_halo_tag V)).
Proof using. intros c s ((E1 & E2 & E3) & T & Ru). cbn. split; auto. split; [repeat split; cbn; auto; congruence|]. exists []. split; [|exact I]. split; auto. congruence. Qed.
Lemma off_boundaries : sim (fun a a' ns => a' = a /\ ns = [] /\ any_bounds a) (boundaries V layout rank) (untimed V R (boundaries V layout rank)).
Proof using.
  intros c s ((E1 & E2 & E3) & T & Ru). unfold untimed, boundaries. rewrite E2. destruct (c_bounds c) eqn:Cb.
  - split; auto. split; [repeat split; cbn; auto; congruence|]. exists []. repeat split.
  - destruct (fill_boundaries layout rank BOUNDARY_TYPES []) as [l0 [u|e]]; split; auto.
    + split; [repeat split; cbn; auto; congruence|]. exists []. repeat split.
    + split; [|split; auto; exists []; exact I]. split; [repeat split; cbn; auto; congruence|]. split; auto. now left.
Qed.
Lemma off_clock (A : Type) name (x : res A) : In name comm_names -> sim (fun a a' ns => a' = a /\ ns = [name]) (clock V name (elift V x)) (tclock V R sub add clk name (tlift V R x)).
Proof using off.
  intros In c s ((E1 & E2 & E3) & T & Ru). destruct (off_tclock name (tlift V R x) s T) as (k & ->); [auto|]. unfold clock, elift, tlift. rewrite Ru. cbn [sin existsb]. destruct x.
  - split; auto. split; [repeat split; cbn; auto; try congruence; now destruct (string_dec name name)|]. exists [name]. repeat split.
  - split; auto. split; [|split; auto; exists []; exact I]. split; [repeat split; cbn; auto; congruence|]. split; auto. right. exists name. auto.
Qed.
Lemma off_post dst tag p : sim (fun a a' ns => a' = a /\ ns = ["Isend"%string]) (clock V "Isend"%string (post_send V dst tag p)) (tclock V R sub add clk "Isend"%string (untimed V R (post_send V dst tag p))).
Proof using off.
  intros c s ((E1 & E2 & E3) & T & Ru). destruct (off_tclock "Isend"%string (untimed V R (post_send V dst tag p)) s T) as (k & ->); [auto|]. unfold clock, untimed, post_send. rewrite Ru. cbn.
  split; auto. split; [repeat split; cbn; auto; congruence|]. exists ["Isend"%string]. split; [|exact I]. split; auto.
Qed.
Lemma off_recv p : sim (fun _ _ ns => ns = ["Recv"%string]) (clock V "Recv"%string (fun c => ([p], c, Ok tt))) (tclock V R sub add clk "Recv"%string (fun s => ([p], s, Ok tt))).
Proof using off.
  intros c s ((E1 & E2 & E3) & T & Ru). destruct (off_tclock "Recv"%string (fun s => ([p], s, Ok tt)) s T) as (k & ->); [auto|]. unfold clock. rewrite Ru. cbn.
  split; auto. split; [repeat split; cbn; auto; congruence|]. exists ["Recv"%string]. split; [|exact I]. split; auto.
Qed.
Definition off_start_halo := sim_start_halo V neg R sub add clk contig layout rank rel_off rerr_off adv_any any_bounds (fun _ => I) (fun _ _ _ _ _ _ _ => I) off_rerr off_tag off_boundaries off_clock off_post.
Definition off_start_vector := sim_start_vector V neg R sub add clk contig layout rank rel_off rerr_off adv_any any_bounds (fun _ => I) (fun _ _ _ _ _ _ _ => I) off_rerr off_tag off_boundaries off_clock off_post.
Definition off_start_sync := sim_start_sync V neg R sub add clk contig layout rank rel_off rerr_off adv_any any_bounds (fun _ => I) (fun _ _ _ _ _ _ _ => I) off_rerr off_tag off_boundaries off_clock off_post.
Definition off_wait := sim_wait V R sub add clk rel_off rerr_off adv_any (fun _ => I) (fun _ _ _ _ _ _ _ => I) off_clock off_recv.
End Off.

(** ** any call from any state *)
Definition some_bounds (_ : option (list boundary)) : Prop := True.
Lemma related_of c s : same_comm c s -> same_clocks R c (ct_timer s) -> related R some_bounds c s.
Proof. intros (A & B & C) (D & E & F). now constructor. Qed.
Lemma of_related okb c s : related R okb c s -> same_comm c s /\ same_clocks R c (ct_timer s).
Proof. intros [A B C D E F G]. split; [split|split]; auto. Qed.
Lemma any_next layout rank (c : comm) ops c' x : some_bounds (c_bounds c) -> boundaries V layout rank c = (ops, c', x) -> some_bounds (c_bounds c') /\ forall bs, x = Ok bs -> any_bounds bs.
Proof. split; [exact I|intros; exact I]. Qed.
Theorem enabled_agrees layout r call c s : same_comm c s -> same_clocks R c (ct_timer s) ->
  let '(ops, c', x) := start_plain layout r call c in let '(ops', s', x') := start_call layout r call s in
  ops' = ops /\ same_result V x x' /\ same_comm c' s' /\ same_clocks R c' (ct_timer s').
Proof.
  intros SC SL. pose proof (related_of c s SC SL) as Re. destruct call as [q h|x y h|x y|i|g]; cbn [CommTimes.start_plain CommTimes.start_call].
  - pose proof (on_start_halo V neg R sub add clk contig layout (Z.of_nat r) some_bounds any_bounds (any_next _ _) (q r) h c s Re) as S. destruct (start_halo_update _ _ _ _ _ _ c) as [[l c'] [a|e]], (t_start_halo_update _ _ _ _ _ _ _ _ _ _ _ s) as [[l' s'] [a'|e']]; destruct S as (-> & S); try (destruct S; fail).
    + destruct S as (Re' & ns & (P & _) & _). apply of_related in Re'. cbn [same_result]. tauto. + destruct S as (Re' & -> & _). apply of_related in Re'. cbn [same_result]. tauto.
  - pose proof (on_start_vector V neg R sub add clk contig layout (Z.of_nat r) some_bounds any_bounds (any_next _ _) (x r) (y r) h c s Re) as S. destruct (start_vector_halo_update _ _ _ _ _ _ _ c) as [[l c'] [a|e]], (t_start_vector_halo_update _ _ _ _ _ _ _ _ _ _ _ _ s) as [[l' s'] [a'|e']]; destruct S as (-> & S); try (destruct S; fail).
    + destruct S as (Re' & ns & (P & _) & _). apply of_related in Re'. cbn [same_result]. tauto. + destruct S as (Re' & -> & _). apply of_related in Re'. cbn [same_result]. tauto.
  - pose proof (on_start_sync V neg R sub add clk contig layout (Z.of_nat r) some_bounds any_bounds (any_next _ _) (x r) (y r) c s Re) as S. destruct (start_synchronize_vector_interfaces _ _ _ _ _ _ c) as [[l c'] [a|e]], (t_start_synchronize _ _ _ _ _ _ _ _ _ _ _ s) as [[l' s'] [a'|e']]; destruct S as (-> & S); try (destruct S; fail).
    + destruct S as (Re' & ns & (P & _) & _). apply of_related in Re'. cbn [same_result]. tauto. + destruct S as (Re' & -> & _). apply of_related in Re'. cbn [same_result]. tauto.
  - split; auto. split; [reflexivity|auto]. - split; auto. split; [reflexivity|auto].
Qed.
Lemma off_agrees layout r call c s : t_on (ct_timer s) = false -> same_comm c s -> c_running c = [] ->
  let '(ops, c', x) := start_plain layout r call c in let '(ops', s', x') := start_call layout r call s in
  ops' = ops /\ same_result V x x' /\ same_comm c' s' /\ ct_timer s' = ct_timer s /\ match x with Ok _ => c_running c' = [] | Err _ => one_clock c' end.
Proof.
  intros Off SC Ru. assert (Re : rel_off (ct_timer s) c s) by (split; auto). destruct call as [q h|x y h|x y|i|g]; cbn [CommTimes.start_plain CommTimes.start_call].
  - pose proof (off_start_halo layout (Z.of_nat r) _ Off (q r) h c s Re) as S. destruct (start_halo_update _ _ _ _ _ _ c) as [[l c'] [a|e]], (t_start_halo_update _ _ _ _ _ _ _ _ _ _ _ s) as [[l' s'] [a'|e']]; destruct S as (-> & S); try (destruct S; fail); unfold rel_off, rerr_off in S; cbn [same_result].
    + destruct S as (Re' & ns & (P & _) & _). tauto. + destruct S as (Re' & -> & _). tauto.
  - pose proof (off_start_vector layout (Z.of_nat r) _ Off (x r) (y r) h c s Re) as S. destruct (start_vector_halo_update _ _ _ _ _ _ _ c) as [[l c'] [a|e]], (t_start_vector_halo_update _ _ _ _ _ _ _ _ _ _ _ _ s) as [[l' s'] [a'|e']]; destruct S as (-> & S); try (destruct S; fail); unfold rel_off, rerr_off in S; cbn [same_result].
    + destruct S as (Re' & ns & (P & _) & _). tauto. + destruct S as (Re' & -> & _). tauto.
  - pose proof (off_start_sync layout (Z.of_nat r) _ Off (x r) (y r) c s Re) as S. destruct (start_synchronize_vector_interfaces _ _ _ _ _ _ c) as [[l c'] [a|e]], (t_start_synchronize _ _ _ _ _ _ _ _ _ _ _ s) as [[l' s'] [a'|e']]; destruct S as (-> & S); try (destruct S; fail); unfold rel_off, rerr_off in S; cbn [same_result].
    + destruct S as (Re' & ns & (P & _) & _). tauto. + destruct S as (Re' & -> & _). tauto.
  - split; auto. split; [reflexivity|]. split; auto. split; auto. now left. - split; auto. split; [reflexivity|]. split; auto. split; auto. now left.
Qed.
Theorem disabled_agrees layout r call c s : t_on (ct_timer s) = false -> same_comm c s -> c_running c = [] ->
  let '(ops, c', x) := start_plain layout r call c in let '(ops', s', x') := start_call layout r call s in
  ops' = ops /\ same_result V x x' /\ same_comm c' s' /\ ct_timer s' = ct_timer s.
Proof. intros A B C. pose proof (off_agrees layout r call c s A B C) as H. destruct (start_plain layout r call c) as [[l c'] x], (start_call layout r call s) as [[l' s'] x']. tauto. Qed.
Theorem disabled_wait trq s : t_on (ct_timer s) = false ->
  exists s', t_wait V R sub add clk trq s = (map fst (tr_recvs trq) ++ map OWait (tr_sends trq), s', Ok tt) /\ ct_comm s' = ct_comm s /\ ct_timer s' = ct_timer s.
Proof.
  intros Off. unfold t_wait, tbind at 1. assert (G : forall l s1, ct_timer s1 = ct_timer s -> exists s', tmapM V R (t_recv V R sub add clk) l s1 = (map fst l, s', Ok (map (fun _ => tt) l)) /\ ct_comm s' = ct_comm s1 /\ ct_timer s' = ct_timer s).
  { induction l as [|p l IH]; intros s1 T; [exists s1; auto|]. cbn [tmapM map]. assert (Q : exists s2, t_recv V R sub add clk p s1 = ([fst p], s2, Ok tt) /\ ct_comm s2 = ct_comm s1 /\ ct_timer s2 = ct_timer s).
    { assert (C : forall name l s1, ct_timer s1 = ct_timer s -> exists s2, tclock V R sub add clk name (fun s => (l, s, Ok tt)) s1 = (l, s2, Ok tt) /\ ct_comm s2 = ct_comm s1 /\ ct_timer s2 = ct_timer s).
      { intros name l1 s2 T2. destruct (off_tclock _ Off name (fun s => (l1, s, Ok tt)) s2 T2) as (k & ->); [auto|]. eauto. }
      unfold t_recv. destruct (snd p); [apply C; auto|]. unfold tbind at 1. rewrite (off_step _ Off) by eauto. unfold tbind at 1. rewrite (off_step _ Off) by eauto. unfold tbind at 1. cbn [ct_comm ct_timer ct_reads].
      destruct (C "Recv"%string [fst p] (mkCT (ct_comm s1) (ct_timer s) (S (S (ct_reads s1)))) eq_refl) as (s2 & -> & E2 & T2). destruct (C "unpack"%string [] s2 T2) as (s3 & E3 & E3' & T3). unfold tret. rewrite E3. exists s3. cbn in E2. rewrite E3', E2. auto. }
    destruct Q as (s2 & E2 & C2 & T2). destruct (IH s2 T2) as (s3 & E3 & C3 & T3). exists s3. unfold tbind at 1. rewrite E2. unfold tbind. rewrite E3. unfold tret. rewrite app_nil_r. cbn [app]. rewrite C3, C2. auto. }
  destruct (G (tr_recvs trq) s eq_refl) as (s' & -> & C & T). exists s'. auto.
Qed.

(** ** going on after an exception *)
Section Attempts.
Variable n : Z.
Variable r : nat.
Hypothesis Hn : 1 <= n.
Hypothesis Hr : (r < ranks n)%nat.
Notation attempt_plain := (start_attempt V neg (n, n) (Z.of_nat r)).
Notation attempt_timed := (t_attempt V neg R sub add clk contig (n, n) (Z.of_nat r)).
Definition as_call (a : attempt) : call V := match a with AHalo q h => CHalo V (fun _ => q) h | AVector x y h => CVector V (fun _ => x) (fun _ => y) h end.
Lemma plain_as_call a : attempt_plain a = start_plain (n, n) r (as_call a).
Proof using. destruct a; reflexivity. Qed.
Lemma timed_as_call a : attempt_timed a = start_call (n, n) r (as_call a).
Proof using. destruct a; reflexivity. Qed.
Let okb (o : option (list boundary)) : Prop := o = None \/ o = Some (blist n r).
Let B (bs : list boundary) : Prop := bs = blist n r.
Lemma attempt_facts a c ops c' x : idle n r c -> attempt_plain a c = (ops, c', x) -> okb (c_bounds c') /\ match x with Ok _ => c_running c' = [] | Err _ => one_clock c' end.
Proof using Hn Hr sub clk contig add.
  intros (Ru & Ob) E. split.
  - assert (Re : related R okb c (mkCT c (mkTimer false [] [] [] true) 0)).
    { constructor; auto; [constructor|]. intros name _. unfold runs. cbn. rewrite Ru. split; [intros []|congruence]. }
    pose proof (fun c ops c' x => okb_next V n r Hr c ops c' x Hn) as N. destruct a as [q h|q y h]; cbn [start_attempt] in E.
    + pose proof (on_start_halo V neg R sub add clk contig (n, n) (Z.of_nat r) okb B N q h c _ Re) as S. rewrite E in S. destruct (t_start_halo_update _ _ _ _ _ _ _ _ _ _ _ _) as [[l' s'] [a'|e']], x; destruct S as (_ & S); try (destruct S; fail); destruct S as (Re' & _); apply Re'.
    + pose proof (on_start_vector V neg R sub add clk contig (n, n) (Z.of_nat r) okb B N q y h c _ Re) as S. rewrite E in S. destruct (t_start_vector_halo_update _ _ _ _ _ _ _ _ _ _ _ _ _) as [[l' s'] [a'|e']], x; destruct S as (_ & S); try (destruct S; fail); destruct S as (Re' & _); apply Re'.
  - pose proof (off_agrees (n, n) r (as_call a) c (mkCT c null_timer 0) eq_refl ltac:(repeat split) Ru) as H. rewrite <- plain_as_call, E in H. destruct (start_call _ _ _ _) as [[l' s'] x']. tauto.
Qed.
Lemma can_facts a c : can a -> idle n r c -> exists ops c' rq, attempt_plain a c = (ops, c', Ok rq) /\ idle n r c'.
Proof using Hn Hr.
  intros (N & len & ix & iy & sy & sx & ext & HN & Hp & P) ID. destruct a as [q h|x y h]; cbn [start_attempt points] in *.
  - destruct P as (F & RM). exact (room_scalar V neg n Hn N h len ix iy sy sx ext q r HN Hp F Hr c ID RM). - destruct P as (FX & FY & RX & RY). exact (room_vector V neg n Hn N h len ix iy sy sx ext x y r HN Hp FX FY Hr c ID RX RY).
Qed.
Lemma cannot_facts a c : cannot a -> idle n r c -> exists ops c', attempt_plain a c = (ops, c', Err OutOfBoundsError) /\ stuck c'.
Proof using Hn Hr.
  intros (N & len & ix & iy & sy & sx & ext & HN & Hp & P) ID. destruct a as [q h|x y h]; cbn [start_attempt points] in *.
  - destruct P as (F & RM). exact (no_room_scalar V neg n Hn N h len ix iy sy sx ext q r HN Hp F Hr c ID RM). - destruct P as (FX & FY & RX). exact (no_room_vector V neg n Hn N h len ix iy sy sx ext x y r HN Hp FX FY Hr c ID RX).
Qed.
Definition inv (tidy : bool) (c : comm) (s : cts R) : Prop := idle n r c /\ same_comm c s /\ (if tidy then same_clocks R c (ct_timer s) else t_on (ct_timer s) = false).
Lemma stopped c s : one_clock c -> In "pack"%string (c_running c) \/ In "unpack"%string (c_running c) -> same_comm c s -> same_clocks R c (ct_timer s) ->
  same_comm (mkC (c_tag c) (c_bounds c) (c_nsent c) []) (stop_clocks V R sub add clk s) /\ same_clocks R (mkC (c_tag c) (c_bounds c) (c_nsent c) []) (ct_timer (stop_clocks V R sub add clk s)).
Proof using r.
  intros O P SC (On & ND & Ru). assert (Q : c_running c = ["pack"%string] \/ c_running c = ["unpack"%string]).
  { destruct O as [O|(name & _ & O)]; rewrite O in *; cbn in P; [tauto|]. destruct P as [[->|[]]|[->|[]]]; auto. }
  assert (RN : forall name, In name comm_names -> (runs name (ct_timer s) <-> c_running c = [name])).
  { intros name I. rewrite <- (Ru name I). destruct Q as [-> | ->]; cbn; (split; [intros [->|[]]; auto|intros [= ->]; auto]). }
  assert (Rp := RN "pack"%string ltac:(apply four)). assert (Ru' := RN "unpack"%string ltac:(apply four)). unfold runs in Rp, Ru'.
  unfold stop_clocks, on_timer. cbn [tstep]. unfold t_stop. rewrite On. destruct Q as [Q|Q]; rewrite Q in *.
  - destruct (dget "pack" (t_starts (ct_timer s))) as [r0|] eqn:G; [|destruct Rp as (_ & Rp); destruct (Rp eq_refl eq_refl)]. cbn [ct_timer t_on ct_comm ct_reads t_starts]. rewrite dget_dpop by auto. change (String.eqb "unpack" "pack") with false. cbn iota.
    destruct (dget "unpack" (t_starts (ct_timer s))) eqn:G2; [destruct Ru' as (Ru' & _); specialize (Ru' ltac:(congruence)); discriminate|]. split; [exact SC|]. cbn [ct_timer]. split; auto. cbn [t_starts]. split; [now apply NoDup_dpop|].
    intros name I. unfold runs. cbn [t_starts c_running]. rewrite dget_dpop by auto. split; [intros []|]. destruct (String.eqb_spec name "pack"); [congruence|]. intros X. apply (RN name I) in X. congruence.
  - destruct (dget "pack" (t_starts (ct_timer s))) eqn:G2; [destruct Rp as (Rp & _); specialize (Rp ltac:(congruence)); discriminate|]. cbn [ct_timer t_on ct_comm ct_reads t_starts]. rewrite On.
    destruct (dget "unpack" (t_starts (ct_timer s))) as [r0|] eqn:G; [|destruct Ru' as (_ & Ru'); destruct (Ru' eq_refl eq_refl)]. split; [exact SC|]. cbn [ct_timer]. split; auto. cbn [t_starts]. split; [now apply NoDup_dpop|].
    intros name I. unfold runs. cbn [t_starts c_running]. rewrite dget_dpop by auto. split; [intros []|]. destruct (String.eqb_spec name "unpack"); [congruence|]. intros X. apply (RN name I) in X. congruence.
Qed.
Lemma attempts_go_on tidy l : Forall (fun a => can a \/ cannot a) l -> forall c s, inv tidy c s ->
  let '(xs, s') := t_attempts V neg R sub add clk contig tidy (n, n) (Z.of_nat r) l s in
  (exists c', inv tidy c' s') /\ Forall2 (fun a x => (can a -> returned x) /\ (cannot a -> x = Err OutOfBoundsError)) l xs.
Proof using Hn Hr.
  induction l as [|a l IH]; intros F c s (ID & SC & M); cbn [t_attempts].
  - split; [exists c; split; auto|constructor].
  - inversion F as [|? ? Fa Fl]; subst. destruct (attempt_plain a c) as [[ops c1] x] eqn:Ep. destruct (attempt_facts a c ops c1 x ID Ep) as (O1 & R1).
    assert (AG : exists s1 x', attempt_timed a s = (ops, s1, x') /\ same_result V x x' /\ same_comm c1 s1 /\ (if tidy then same_clocks R c1 (ct_timer s1) else t_on (ct_timer s1) = false)).
    { rewrite plain_as_call in Ep. rewrite timed_as_call. destruct tidy.
      - pose proof (enabled_agrees (n, n) r (as_call a) c s SC M) as H. rewrite Ep in H. destruct (start_call _ _ _ s) as [[l' s1] x']. destruct H as (-> & H). eauto.
      - pose proof (disabled_agrees (n, n) r (as_call a) c s M SC (proj1 ID)) as H. rewrite Ep in H. destruct (start_call _ _ _ s) as [[l' s1] x']. destruct H as (-> & H1 & H2 & H3). exists s1, x'. rewrite H3. auto. }
    destruct AG as (s1 & x' & Et & SR & SC1 & M1). rewrite Et.
    assert (INV : exists c2, inv tidy c2 (match x' with Ok _ => s1 | Err _ => if tidy then stop_clocks V R sub add clk s1 else s1 end)).
    { destruct x as [rq|e], x' as [trq|e']; try (destruct SR; fail).
      - exists c1. split; [split; auto|auto].
      - assert (St : stuck c1). { destruct Fa as [Fa|Fa]; [destruct (can_facts a c Fa ID) as (? & ? & ? & Q & _)|destruct (cannot_facts a c Fa ID) as (? & ? & Q & ?)]; congruence. }
        destruct tidy.
        + exists (mkC (c_tag c1) (c_bounds c1) (c_nsent c1) []). destruct (stopped c1 s1 R1 (proj1 St) SC1 M1) as (A1 & A2). split; [split; auto|auto].
        + exists (mkC (c_tag c1) (c_bounds c1) (c_nsent c1) []). split; [split; auto|auto]. }
    destruct INV as (c2 & INV). specialize (IH Fl c2 _ INV). destruct (t_attempts _ _ _ _ _ _ _ _ _ _ l _) as [xs s3]. destruct IH as (E & FF). split; auto. constructor; auto. split.
    + intros Ca. destruct (can_facts a c Ca ID) as (? & ? & ? & Q & _). rewrite Q in Ep. injection Ep as <- <- <-. destruct x'; [exact I|destruct SR].
    + intros Ca. destruct (cannot_facts a c Ca ID) as (? & ? & Q & _). rewrite Q in Ep. injection Ep as <- <- <-. destruct x'; [destruct SR|]. cbn in SR. now subst.
Qed.
End Attempts.

(** ** clocks of the user with the names of the communicator's *)
Section Clash.
Variable n : Z.
Variable r : nat.
Hypothesis Hn : 1 <= n.
Hypothesis Hr : (r < ranks n)%nat.
Variable name : string.
Definition plus (c : comm) : comm := mkC (c_tag c) (c_bounds c) (c_nsent c) [name].
(** what succeeds otherwise is not affected *)
Definition fr {A} (P : A -> Prop) (m : eff V A) : Prop := forall c l c' a, idle n r c -> m c = (l, c', Ok a) -> idle n r c' /\ P a /\ m (plus c) = (l, plus c', Ok a).
(** what succeeds otherwise raises, after all its messages or before *)
Definition hit {A} (full : bool) (m : eff V A) : Prop := forall c l c' a, idle n r c -> m c = (l, c', Ok a) -> exists c1, m (plus c) = (if full then l else [], c1, Err ValueError).
Definition silent {A} (m : eff V A) : Prop := forall c l c' a, m c = (l, c', a) -> l = [].
Lemma fr_weaken {A} (P Q : A -> Prop) m : (forall a, P a -> Q a) -> fr P m -> fr Q m.
Proof using. intros W F c l c' a ID E. destruct (F c l c' a ID E) as (A1 & A2 & A3). auto. Qed.
Lemma fr_ret {A} (P : A -> Prop) a : P a -> fr P (eret V a).
Proof using. intros Pa c l c' a' ID [= <- <- <-]. auto. Qed.
Lemma fr_lift {A} (x : res A) : fr (fun a => x = Ok a) (elift V x).
Proof using. intros c l c' a' ID. unfold elift. intros [= <- <- ->]. auto. Qed.
Lemma fr_bind {A C} (P : A -> Prop) (Q : C -> Prop) m f : fr P m -> (forall a, P a -> fr Q (f a)) -> fr Q (ebind V m f).
Proof using.
  intros Fm Ff c l c' a ID E. unfold ebind in *. destruct (m c) as [[l1 c1] [b|e]] eqn:M; [|discriminate]. destruct (Fm _ _ _ _ ID M) as (ID1 & Pb & ->). destruct (f b c1) as [[l2 c2] x] eqn:M2. injection E as <- <- ->.
  destruct (Ff b Pb _ _ _ _ ID1 M2) as (ID2 & Qa & ->). auto.
Qed.
Lemma fr_map {A C} (f : A -> eff V C) l : (forall a, In a l -> fr (fun _ => True) (f a)) -> fr (fun _ => True) (emapM V f l).
Proof using. induction l as [|a l IH]; intros F; cbn [emapM]; [now apply fr_ret|]. eapply fr_bind; [apply F; now left|]. intros b _. eapply fr_bind; [apply IH; intros; apply F; now right|]. intros. now apply fr_ret. Qed.
Lemma fr_tag : fr (fun _ => True) (get_halo_tag V).
Proof using. intros c l c' a ID [= <- <- <-]. repeat split; auto; apply ID. Qed.
Lemma fr_boundaries : fr (fun bs => bs = blist n r) (boundaries V (n, n) (Z.of_nat r)).
Proof using Hn Hr.
  intros c l c' a ID E. rewrite boundaries_idle in E by auto. injection E as <- <- <-. split; [split; cbn; auto|]. split; auto. unfold boundaries, plus. cbn [c_bounds]. destruct ID as (_ & [-> | ->]).
  - now rewrite (fill_boundaries_ok n Hn r _ _ Hr). - reflexivity.
Qed.
Lemma fr_clock {A} nm (m : eff V A) : nm <> name -> (forall c l c' a, m c = (l, c', Ok a) -> c_running c' = c_running c /\ (idle n r (mkC (c_tag c) (c_bounds c) (c_nsent c) []) -> idle n r (mkC (c_tag c') (c_bounds c') (c_nsent c') [])) /\
    forall ru, m (mkC (c_tag c) (c_bounds c) (c_nsent c) ru) = (l, mkC (c_tag c') (c_bounds c') (c_nsent c') ru, Ok a)) -> fr (fun _ => True) (clock V nm m).
Proof using.
  intros Ne K c l c' a ID E. unfold clock in *. rewrite (proj1 ID) in E. cbn [sin existsb] in E. destruct (m (mkC (c_tag c) (c_bounds c) (c_nsent c) [nm])) as [[l1 c1] [b|e]] eqn:M; [|discriminate]. injection E as <- <- <-.
  destruct (K _ _ _ _ M) as (Ru & IDk & Kr). cbn [c_tag c_bounds c_nsent c_running] in *. rewrite Ru. cbn [remove]. destruct (string_dec nm nm) as [_|]; [|congruence]. split; [apply IDk; split; [reflexivity|apply ID]|]. split; auto.
  unfold plus. cbn [c_running c_tag c_bounds c_nsent sin existsb]. destruct (String.eqb_spec nm name); [contradiction|]. cbn [orb]. rewrite Kr. cbn [c_running c_tag c_bounds c_nsent remove]. destruct (string_dec nm nm) as [_|]; [|congruence]. destruct (string_dec nm name); [contradiction|reflexivity].
Qed.
Lemma fr_clock_lift {A} nm (x : res A) : nm <> name -> fr (fun a => x = Ok a) (clock V nm (elift V x)).
Proof using.
  intros Ne c l c' a ID E. assert (Q : x = Ok a). { unfold clock, elift in E. destruct (sin nm (c_running c)); [discriminate|]. destruct x; [|discriminate]. congruence. } subst x.
  edestruct (fr_clock nm (elift V (Ok a)) Ne) as (A1 & A2 & A3); [|exact ID|exact E|auto]. intros c0 l0 c0' a0 [= <- <- <-]. destruct c0; cbn. auto.
Qed.
Lemma fr_clock_post dst tag p : "Isend"%string <> name -> fr (fun _ => True) (clock V "Isend"%string (post_send V dst tag p)).
Proof using. intros Ne. apply fr_clock; auto. intros c l c' a [= <- <- <-]. cbn. auto. Qed.
Lemma hit_clock {A} full (m : eff V A) : (full = true -> silent (clock V name m)) -> hit full (clock V name m).
Proof using.
  intros S c l c' a ID E. exists (plus c). unfold clock at 1. cbn [plus c_running sin existsb]. rewrite String.eqb_refl. cbn [orb]. destruct full; auto. now rewrite (S eq_refl _ _ _ _ E).
Qed.
Lemma hit_left {A C} (m : eff V A) (f : A -> eff V C) full : hit full m -> (full = true -> forall a, silent (f a)) -> hit full (ebind V m f).
Proof using.
  intros H S c l c' a ID E. unfold ebind in *. destruct (m c) as [[l1 c1] [b|e]] eqn:M; [|discriminate]. destruct (H _ _ _ _ ID M) as (c2 & ->). destruct (f b c1) as [[l2 c3] x] eqn:M2. injection E as <- <- ->. exists c2.
  destruct full; auto. now rewrite (S eq_refl b _ _ _ _ M2), app_nil_r.
Qed.
Lemma hit_right {A C} (P : A -> Prop) (m : eff V A) (f : A -> eff V C) full : fr P m -> (full = false -> silent m) -> (forall a, P a -> hit full (f a)) -> hit full (ebind V m f).
Proof using.
  intros F S H c l c' a ID E. unfold ebind in *. destruct (m c) as [[l1 c1] [b|e]] eqn:M; [|discriminate]. destruct (F _ _ _ _ ID M) as (ID1 & Pb & ->). destruct (f b c1) as [[l2 c3] x] eqn:M2. injection E as <- <- ->. destruct (H b Pb _ _ _ _ ID1 M2) as (c4 & ->). exists c4.
  destruct full; auto. now rewrite (S eq_refl _ _ _ _ M).
Qed.
Lemma silent_lift {A} (x : res A) : silent (elift V x).
Proof using. now intros c l c' a [= <- <- <-]. Qed.
Lemma silent_ret {A} (x : A) : silent (eret V x).
Proof using. now intros c l c' a [= <- <- <-]. Qed.
Lemma silent_tag : silent (get_halo_tag V).
Proof using. now intros c l c' a [= <- <- <-]. Qed.
Lemma silent_bind {A C} (m : eff V A) (f : A -> eff V C) : silent m -> (forall a, silent (f a)) -> silent (ebind V m f).
Proof using. intros S F c l c' a E. unfold ebind in E. destruct (m c) as [[l1 c1] [b|e]] eqn:M. - destruct (f b c1) as [[l2 c2] x] eqn:M2. injection E as <- <- <-. now rewrite (S _ _ _ _ M), (F _ _ _ _ _ M2). - injection E as <- <- <-. now rewrite (S _ _ _ _ M). Qed.
Lemma silent_map {A C} (f : A -> eff V C) l : (forall a, silent (f a)) -> silent (emapM V f l).
Proof using. intros S. induction l; cbn [emapM]; [apply silent_ret|]. apply silent_bind; auto. intros b. apply silent_bind; auto. intros. apply silent_ret. Qed.
Lemma silent_clock {A} nm (m : eff V A) : silent m -> silent (clock V nm m).
Proof using. intros S c l c' a E. unfold clock in E. destruct (sin nm (c_running c)); [now injection E as <- <- <-|]. destruct (m _) as [[l1 c1] [b|e]] eqn:M; injection E as <- <- <-; now rewrite (S _ _ _ _ M). Qed.
Lemma silent_boundaries : silent (boundaries V (n, n) (Z.of_nat r)).
Proof using. intros c l c' a E. unfold boundaries in E. destruct (c_bounds c); [now injection E as <- <- <-|]. destruct (fill_boundaries _ _ _ _) as [l0 [u|e]]; now injection E as <- <- <-. Qed.
Ltac silent_tac := repeat first [apply silent_ret | apply silent_lift | apply silent_bind | apply silent_map | apply silent_clock | apply silent_tag | apply silent_boundaries | progress intros | match goal with |- silent (match ?p with pair _ _ => _ end) => destruct p end].
Lemma hit_boundaries {A} full (f : boundary -> eff V A) : (forall b, hit full (f b)) -> (full = true -> forall b, silent (f b)) -> hit full (ebind V (boundaries V (n, n) (Z.of_nat r)) (emapM V f)).
Proof using Hn Hr.
  intros H S. eapply hit_right; [apply fr_boundaries|intros; apply silent_boundaries|]. intros bs ->. destruct (blist_cons n Hn r Hr) as (B0 & l & ->). cbn [emapM].
  apply hit_left; [apply H|]. intros T b. silent_tac. now apply S.
Qed.
Lemma lifts2 {A C} (x : res A) (f : A -> res C) c : ebind V (elift V x) (fun a => elift V (f a)) c = elift V (bind x f) c.
Proof using. unfold ebind, elift. destruct x; reflexivity. Qed.
Lemma fr_ext {A} (P : A -> Prop) m m' : (forall c, m' c = m c) -> fr P m -> fr P m'.
Proof using. intros E F c l c' a ID M. rewrite E in M |- *. now apply F. Qed.
Lemma fr_isend p dst tag : "pack"%string <> name -> "Isend"%string <> name -> fr (fun _ => True) (isend V p dst tag).
Proof using. intros N1 N2. eapply fr_bind; [apply (fr_clock_lift "pack"%string (Ok tt)); auto|]. intros _ _. now apply fr_clock_post. Qed.
Lemma fr_pack q h b : "pack"%string <> name -> fr (fun _ => True) (clock V "pack"%string (ebind V (elift V (send_view b (h_meta q) h)) (fun v => elift V (rotate_scalar_data v (m_dims (h_meta q)) (- b_rot b))))).
Proof using. intros N1. eapply fr_ext; [intros c; apply clock_same; intros c'; apply lifts2|]. eapply fr_weaken; [|apply fr_clock_lift; auto]. auto. Qed.
Lemma fr_pack2 x y h b : "pack"%string <> name -> fr (fun _ => True) (clock V "pack"%string (ebind V (elift V (send_view b (h_meta x) h)) (fun xv => ebind V (elift V (send_view b (h_meta y) h)) (fun yv => elift V (rotate_vector_data xv yv (- b_rot b) (m_dims (h_meta x))))))).
Proof using.
  intros N1. eapply fr_ext with (m := clock V "pack"%string (elift V (bind (send_view b (h_meta x) h) (fun xv => bind (send_view b (h_meta y) h) (fun yv => rotate_vector_data xv yv (- b_rot b) (m_dims (h_meta x))))))).
  - intros c. apply clock_same. intros c'. unfold ebind, elift. destruct (send_view b (h_meta x) h), (send_view b (h_meta y) h); reflexivity.
  - eapply fr_weaken; [|apply fr_clock_lift; auto]. auto.
Qed.
Lemma fr_isend_halo q h tag b : "pack"%string <> name -> "Isend"%string <> name -> fr (fun _ => True) (isend_halo V neg q h tag b).
Proof using. intros N1 N2. eapply fr_bind; [apply fr_pack; auto|]. intros. now apply fr_isend. Qed.
Lemma fr_isend_vector_halo x y h t1 t2 b : "pack"%string <> name -> "Isend"%string <> name -> fr (fun _ => True) (isend_vector_halo V neg x y h t1 t2 b).
Proof using. intros N1 N2. eapply fr_bind; [apply fr_pack2; auto|]. intros [xd yd] _. eapply fr_bind; [now apply fr_isend|]. intros. eapply fr_bind; [now apply fr_isend|]. intros. now apply fr_ret. Qed.
Lemma fr_irecv_halo q h tag b : "unpack"%string <> name -> fr (fun _ => True) (irecv_halo V q h tag b).
Proof using. intros N1. eapply fr_bind; [apply fr_clock_lift; auto|]. intros. now apply fr_ret. Qed.
Lemma silent_irecv q h tag b : silent (irecv_halo V q h tag b).
Proof using. unfold irecv_halo. silent_tac. Qed.
Lemma hit_isend p dst tag : name = "pack"%string \/ name = "Isend"%string -> hit false (isend V p dst tag).
Proof using.
  intros [E|E].
  - apply hit_left; [|discriminate]. rewrite <- E. now apply hit_clock.
  - eapply hit_right; [apply (fr_clock_lift "pack"%string (Ok tt)); rewrite E; discriminate|intros; silent_tac|]. intros _ _. rewrite <- E. now apply hit_clock.
Qed.
Lemma hit_isend_halo q h tag b : name = "pack"%string \/ name = "Isend"%string -> hit false (isend_halo V neg q h tag b).
Proof using.
  intros [E|E].
  - apply hit_left; [|discriminate]. rewrite <- E. now apply hit_clock.
  - eapply hit_right; [apply fr_pack; rewrite E; discriminate|intros; silent_tac|]. intros. apply hit_isend. auto.
Qed.
Lemma hit_isend_vector_halo x y h t1 t2 b : name = "pack"%string \/ name = "Isend"%string -> hit false (isend_vector_halo V neg x y h t1 t2 b).
Proof using.
  intros [E|E].
  - apply hit_left; [|discriminate]. rewrite <- E. now apply hit_clock.
  - eapply hit_right; [apply fr_pack2; rewrite E; discriminate|intros; silent_tac|]. intros [xd yd] _. apply hit_left; [apply hit_isend; auto|discriminate].
Qed.
Lemma hit_irecv_halo q h tag b : name = "unpack"%string -> hit true (irecv_halo V q h tag b).
Proof using. intros E. apply hit_left; [|intros; silent_tac]. rewrite <- E. apply hit_clock. intros. silent_tac. Qed.

Notation start := (start_plain (n, n) r).
Lemma start_hit_early c : starts V c = true -> name = "pack"%string \/ name = "Isend"%string -> hit false (start c).
Proof using Hn Hr.
  intros ST E. destruct c; try discriminate; cbn [CommTimes.start_plain].
  - unfold start_halo_update. destruct (h =? 0); [intros c l c' a _ Q; discriminate Q|]. eapply hit_right; [apply fr_tag|intros; apply silent_tag|]. intros t _. apply hit_left; [|discriminate]. apply hit_boundaries; [|discriminate]. intros. now apply hit_isend_halo.
  - unfold start_vector_halo_update. destruct (h =? 0); [intros c l c' a _ Q; discriminate Q|]. do 2 (eapply hit_right; [apply fr_tag|intros; apply silent_tag|]; intros ? _).
    eapply hit_right; [apply fr_boundaries|intros; apply silent_boundaries|]. intros bs ->. destruct (blist_cons n Hn r Hr) as (B0 & l & ->). cbn [emapM]. apply hit_left; [|discriminate]. apply hit_left; [|discriminate]. now apply hit_isend_vector_halo.
  - unfold start_synchronize_vector_interfaces. destruct (negb _); [intros c l c' a _ Q; discriminate Q|]. eapply hit_right; [apply fr_tag|intros; apply silent_tag|]. intros t _. apply hit_left; [|discriminate].
    unfold isend_vector_shared_boundary. eapply hit_right; [apply fr_boundaries|intros; apply silent_boundaries|]. intros bs _. do 6 (eapply hit_right; [apply fr_lift|intros; apply silent_lift|]; intros ? _).
    apply hit_left; [|discriminate]. now apply hit_isend.
Qed.
Lemma start_hit_late c : match c with CHalo _ _ _ | CVector _ _ _ _ => True | _ => False end -> name = "unpack"%string -> hit true (start c).
Proof using Hn Hr.
  intros ST E. assert (N1 : "pack"%string <> name) by (rewrite E; discriminate). assert (N2 : "Isend"%string <> name) by (rewrite E; discriminate). destruct c; try (destruct ST; fail); cbn [CommTimes.start_plain].
  - unfold start_halo_update. destruct (h =? 0); [intros c l c' a _ Q; discriminate Q|]. eapply hit_right; [apply fr_tag|discriminate|]. intros t _. eapply hit_right; [|discriminate|].
    + eapply fr_bind; [apply fr_boundaries|]. intros bs _. apply fr_map. intros. now apply fr_isend_halo.
    + intros sr _. apply hit_left; [|intros; silent_tac]. apply hit_boundaries; [intros; now apply hit_irecv_halo|]. intros. apply silent_irecv.
  - unfold start_vector_halo_update. destruct (h =? 0); [intros c l c' a _ Q; discriminate Q|]. do 2 (eapply hit_right; [apply fr_tag|discriminate|]; intros ? _). eapply hit_right; [apply fr_boundaries|discriminate|]. intros bs _.
    eapply hit_right; [apply fr_map; intros; now apply fr_isend_vector_halo|discriminate|]. intros sr _. apply hit_left; [|].
    + apply hit_boundaries; [intros; now apply hit_irecv_halo|]. intros. apply silent_irecv.
    + intros _ rr. unfold irecv_halos. silent_tac.
Qed.
Lemma start_fr_recv c : name = "Recv"%string -> fr (fun _ => True) (start c).
Proof using Hn Hr.
  intros E. assert (N1 : "pack"%string <> name) by (rewrite E; discriminate). assert (N2 : "Isend"%string <> name) by (rewrite E; discriminate). assert (N3 : "unpack"%string <> name) by (rewrite E; discriminate).
  assert (FI : forall q h t, fr (fun _ => True) (irecv_halos V (n, n) (Z.of_nat r) q h t)) by (intros; eapply fr_bind; [apply fr_boundaries|]; intros bs _; apply fr_map; intros; now apply fr_irecv_halo).
  destruct c; cbn [CommTimes.start_plain]; try (intros c l c' a _ Q; discriminate Q).
  - unfold start_halo_update. destruct (h =? 0); [intros c l c' a _ Q; discriminate Q|]. eapply fr_bind; [apply fr_tag|]. intros t _. eapply fr_bind.
    + eapply fr_bind; [apply fr_boundaries|]. intros bs _. apply fr_map. intros. now apply fr_isend_halo.
    + intros sr _. eapply fr_bind; [apply FI|]. intros. now apply fr_ret.
  - unfold start_vector_halo_update. destruct (h =? 0); [intros c l c' a _ Q; discriminate Q|]. do 2 (eapply fr_bind; [apply fr_tag|]; intros ? _). eapply fr_bind; [apply fr_boundaries|]. intros bs _.
    eapply fr_bind; [apply fr_map; intros; now apply fr_isend_vector_halo|]. intros sr _. do 2 (eapply fr_bind; [apply FI|]; intros ? _). now apply fr_ret.
  - unfold start_synchronize_vector_interfaces. destruct (negb _); [intros c l c' a _ Q; discriminate Q|]. eapply fr_bind; [apply fr_tag|]. intros t _. eapply fr_bind.
    + unfold isend_vector_shared_boundary. eapply fr_bind; [apply fr_boundaries|]. intros bs _. do 6 (eapply fr_bind; [apply fr_lift|]; intros ? _). do 2 (eapply fr_bind; [now apply fr_isend|]; intros ? _). now apply (fr_ret (fun _ => True)).
    + intros sr _. eapply fr_bind; [unfold irecv_vector_shared_boundary; eapply fr_bind; [apply fr_boundaries|]; intros bs _; do 4 (eapply fr_bind; [apply fr_lift|]; intros ? _); now apply (fr_ret (fun _ => True))|]. intros. now apply fr_ret.
Qed.
End Clash.

(** ** the theorems of Props/CommTimes.v *)
Section Final.
Variable d : V.
Notation timed_client := (timed_client V neg R sub add clk contig).
Lemma new_related n r : related R (fun o => o = None \/ o = Some (blist n r)) new_comm new_cts.
Proof. constructor; cbn; auto; [constructor|]. intros name _. unfold runs. cbn. split; [intros []|congruence]. Qed.
Theorem counts n k r l : (r < ranks n)%nat -> Forall (call_ok V n k) (comm_calls l) -> waits_in V (comm_calls l) 0 -> Forall harmless (timer_calls l) ->
  exists s, timed_client (n, n) r l [] new_cts = (client_ops V neg n (comm_calls l) r, s, Ok tt) /\
    (forall name, In name comm_names -> hits_of name (ct_timer s) = Z.of_nat (timed V contig n r (comm_calls l) [] name) /\ ~ runs name (ct_timer s)) /\
    let t := fst (trun R sub add (timer_calls l) new_timer) in
    forall name, ~ In name comm_names -> dget name (t_starts (ct_timer s)) = dget name (t_starts t) /\ dget name (t_acc (ct_timer s)) = dget name (t_acc t) /\ dget name (t_hits (ct_timer s)) = dget name (t_hits t).
Proof.
  intros Hr OK W Hm. destruct (run_timed V neg R sub add clk contig d n k r Hr l new_comm new_cts new_timer [] [] [] OK W Hm) as (ops & cm' & s & Ep & Et & ID & Re & O & H); auto.
  - split; auto. - apply new_related. - constructor. - intros name _. auto.
  - exists s. unfold client_ops. rewrite Ep. split; auto. split; [|exact O]. intros name I. rewrite H by auto. split; [cbn; lia|]. intros Ru. apply (r_run _ _ _ _ Re name I) in Ru. rewrite (proj1 ID) in Ru. destruct Ru.
Qed.

Theorem clash n k r l c name now : (r < ranks n)%nat -> Forall (call_ok V n k) (comm_calls l) -> waits_in V (comm_calls l) 0 -> Forall harmless (timer_calls l) -> call_ok V n k c -> starts V c = true ->
  let s := snd (fst (timed_client (n, n) r l [] new_cts)) in
  let s1 := mkCT (ct_comm s) (fst (tstep R sub add (Start name now) (ct_timer s))) (ct_reads s) in
  let messages := fst (fst (start_call (n, n) r c s)) in
  (name = "pack"%string \/ name = "Isend"%string -> exists s2, start_call (n, n) r c s1 = ([], s2, Err ValueError)) /\
  (name = "unpack"%string -> match c with CSync _ _ _ => False | _ => True end -> exists s2, start_call (n, n) r c s1 = (messages, s2, Err ValueError)) /\
  (name = "Recv"%string -> exists s2 trq s3, start_call (n, n) r c s1 = (messages, s2, Ok trq) /\ t_wait V R sub add clk trq s2 = ([], s3, Err ValueError)).
Proof.
  intros Hr OK W Hm OKc ST s s1 messages. pose proof (ok_layout V n k c OKc ST) as Hn.
  destruct (run_timed V neg R sub add clk contig d n k r Hr l new_comm new_cts new_timer [] [] [] OK W Hm) as (ops & cm & s' & Ep & Et & ID & Re & O & H); auto.
  { split; auto. } { apply new_related. } { constructor. } { intros nm _. auto. }
  assert (Es : s = s') by (unfold s; now rewrite Et). clearbody s. subst s'. clear Ep Et O H OK W Hm.
  destruct (start_timed V neg R sub add clk contig d n k r Hr c cm s OKc ST ID Re) as (opsc & cm1 & rq & sc & trq & Epc & Etc & IDc & Rec & SR & TG & _).
  assert (Em : messages = opsc) by (unfold messages; now rewrite Etc). rewrite Em.
  assert (Re1 : In name comm_names -> same_comm (plus name cm) s1 /\ same_clocks R (plus name cm) (ct_timer s1)).
  { intros I. assert (Gn : dget name (t_starts (ct_timer s)) = None). { destruct (dget name (t_starts (ct_timer s))) eqn:G; auto. exfalso. assert (Ru : runs name (ct_timer s)) by (unfold runs; congruence). apply (r_run _ _ _ _ Re name I) in Ru. rewrite (proj1 ID) in Ru. destruct Ru. }
    split; [split; [apply Re|split; apply Re]|]. unfold s1. cbn [ct_timer tstep]. unfold t_start, dmem. rewrite (r_on _ _ _ _ Re), Gn. cbn [fst]. split; [reflexivity|]. cbn [t_starts]. split; [apply NoDup_dset; apply Re|].
    intros m Im. unfold runs. cbn [t_starts plus c_running]. rewrite dget_dset. destruct (String.eqb_spec m name) as [->|ne]; [split; [discriminate|cbn; auto]|]. split; [intros [->|[]]; congruence|]. intros Ru. apply (r_run _ _ _ _ Re m Im) in Ru. rewrite (proj1 ID) in Ru. destruct Ru. }
  assert (AG : In name comm_names -> let '(ops, c', x) := start_plain (n, n) r c (plus name cm) in let '(ops', s', x') := start_call (n, n) r c s1 in ops' = ops /\ same_result V x x' /\ same_comm c' s' /\ same_clocks R c' (ct_timer s')).
  { intros I. destruct (Re1 I). now apply enabled_agrees. }
  split; [|split].
  - intros E. assert (I : In name comm_names) by (destruct E as [-> | ->]; apply four). specialize (AG I). destruct (start_hit_early n r Hn Hr name c ST E _ _ _ _ ID Epc) as (c1 & Q). rewrite Q in AG. destruct (start_call _ _ _ s1) as [[l' s2] [x|e]]; destruct AG as (-> & AG & _); [destruct AG|]. cbn in AG. subst e. eauto.
  - intros E NS. assert (I : In name comm_names) by (rewrite E; apply four). specialize (AG I). assert (NS' : match c with CHalo _ _ _ | CVector _ _ _ _ => True | _ => False end) by (destruct c; auto; discriminate).
    destruct (start_hit_late n r Hn Hr name c NS' E _ _ _ _ ID Epc) as (c1 & Q). rewrite Q in AG. destruct (start_call _ _ _ s1) as [[l' s2] [x|e]]; destruct AG as (-> & AG & _); [destruct AG|]. cbn in AG. subst e. eauto.
  - intros E. assert (I : In name comm_names) by (rewrite E; apply four). specialize (AG I). destruct (start_fr_recv n r Hn Hr name c E _ _ _ _ ID Epc) as (_ & _ & Q). rewrite Q in AG. destruct (start_call _ _ _ s1) as [[l' s2] [trq2|e]]; destruct AG as (-> & SR2 & SC2 & SL2); [|destruct SR2].
    pose proof (on_wait V R sub add clk some_bounds trq2 (plus name cm1) s2 (related_of _ _ SC2 SL2)) as Sw.
    assert (Ne : exists p ps, tr_recvs trq2 = p :: ps).
    { assert (L : length (tr_recvs trq2) = length (targets V contig n r c)). { rewrite <- TG, !map_length. destruct SR as (_ & S1), SR2 as (_ & S2). rewrite <- (map_length fst (tr_recvs trq2)), <- (map_length fst (tr_recvs trq)). now rewrite S1, S2. }
      destruct (tr_recvs trq2); [exfalso|eauto]. assert (LN : neighbours n r <> []). { rewrite <- (types_neighbours n r Hr Hn). destruct (blist_cons n Hn r Hr) as (b0 & l0 & ->). discriminate. }
      destruct c; try discriminate; cbn [targets] in L; rewrite ?app_length, ?map_length in L; destruct (neighbours n r); try congruence; cbn in L; lia. }
    destruct Ne as (p & ps & Ne). unfold ebind in Sw. rewrite Ne in Sw. cbn [emapM] in Sw. unfold ebind in Sw.
    assert (Qp : exists c3, plain_recv V p (plus name cm1) = ([], c3, Err ValueError)).
    { unfold plain_recv. rewrite E. destruct (snd p); [exists (plus "Recv" cm1); reflexivity|]. eexists. reflexivity. }
    destruct Qp as (c3 & Qp). rewrite Qp in Sw. destruct (t_wait V R sub add clk trq2 s2) as [[l3 s3] [u|e]] eqn:Ew; destruct Sw as (-> & Sw); [destruct Sw|]. destruct Sw as (_ & -> & _). exists s2, trq2, s3. auto.
Qed.
Theorem go_on n r (tidy : bool) (t : timer R) l : 1 <= n -> (r < ranks n)%nat -> (if tidy then t = new_timer else t_on t = false) -> Forall (fun a => can a \/ cannot a) l ->
  Forall2 (fun a x => (can a -> returned x) /\ (cannot a -> x = Err OutOfBoundsError)) l (fst (t_attempts V neg R sub add clk contig tidy (n, n) (Z.of_nat r) l (mkCT new_comm t 0))).
Proof.
  intros Hn Hr T F. pose proof (attempts_go_on n r Hn Hr tidy l F new_comm (mkCT new_comm t 0)) as H. assert (I : inv n r tidy new_comm (mkCT new_comm t 0)).
  { split; [split; auto|]. split; [repeat split|]. destruct tidy; [subst t; split; [reflexivity|]|exact T]. split; [constructor|]. intros name _. unfold runs. cbn. split; [intros []|congruence]. }
  specialize (H I). destruct (t_attempts _ _ _ _ _ _ _ _ _ _ _ _) as [xs s']. apply H.
Qed.
End Final.
End Errors.
