(** The timer of a communicator (C85). *)
From Verif.Base Require Import Base Lemmas.
From Verif.Model Require Import Consts Numpy Quantity Partitioner Rotate Network Communicator Timer CommTimer.
From Verif.Spec Require Import Grid Cube Halo Lockstep Sync Client CommTimes Errors Unmatched.
From Verif.Proofs Require Import Phases Scripts HaloOps HaloEffect SyncEffect ClientProofs HaloErrors Neighbors Boundaries UnmatchedProofs.
From Coq Require Import ZifyBool.

Section Sim.
Variable V : Type.
Variable neg : V -> V.
Variable R : Type.
Variable sub add : R -> R -> R.
Variable clk : nat -> R.
Variable contig : handle -> Z -> btype -> bool.
Notation teff := (teff V R).
Notation step := (tstep R sub add).

(** intervals completed between two states of the timer; other names are untouched *)
Definition adv (names : list string) (t t' : timer R) : Prop :=
  (forall name, In name comm_names -> hits_of name t' = hits_of name t + Z.of_nat (count_occ string_dec names name)) /\
  forall name, ~ In name comm_names -> dget name (t_starts t') = dget name (t_starts t) /\ dget name (t_acc t') = dget name (t_acc t) /\ dget name (t_hits t') = dget name (t_hits t).
Lemma adv_nil t : adv [] t t.
Proof. split; auto. intros. cbn. lia. Qed.
Lemma adv_app a b t t1 t2 : adv a t t1 -> adv b t1 t2 -> adv (a ++ b) t t2.
Proof.
  intros (A & A') (B & B'). split.
  - intros name I. rewrite B, A, count_occ_app by auto. lia.
  - intros name I. destruct (A' name I) as (<- & <- & <-). now apply B'.
Qed.

(** ** following the calls of a communicator: a relation kept by successful calls, one which holds after an exception, intervals timed *)
Section Chain.
Variable layout : layout_t.
Variable rank : Z.
Variable rel rerr : comm -> cts R -> Prop.
Variable advp : list string -> timer R -> timer R -> Prop.
Variable B : list boundary -> Prop.
Hypothesis adv_nil : forall t, advp [] t t.
Hypothesis adv_app : forall a b t t1 t2, advp a t t1 -> advp b t1 t2 -> advp (a ++ b) t t2.
Hypothesis rel_rerr : forall c s, rel c s -> rerr c s.

Definition sim {A A'} (P : A -> A' -> list string -> Prop) (m : eff V A) (m' : teff A') : Prop := forall c s, rel c s ->
  let '(l, c', x) := m c in let '(l', s', x') := m' s in
  l' = l /\
  match x, x' with
  | Ok a, Ok a' => rel c' s' /\ exists names, P a a' names /\ advp names (ct_timer s) (ct_timer s')
  | Err e, Err e' => rerr c' s' /\ e = e' /\ exists names, advp names (ct_timer s) (ct_timer s')
  | _, _ => False
  end.


Lemma sim_weaken {A A'} (P Q : A -> A' -> list string -> Prop) m m' : (forall a a' ns, P a a' ns -> Q a a' ns) -> sim P m m' -> sim Q m m'.
Proof using.
  intros W S c s Re. specialize (S c s Re). destruct (m c) as [[l c'] x], (m' s) as [[l' s'] x']. destruct S as (E & S). split; auto.
  destruct x, x'; auto. destruct S as (Re' & ns & Pn & Ad). eauto.
Qed.
Lemma sim_ret {A A'} (P : A -> A' -> list string -> Prop) a a' : P a a' [] -> sim P (eret V a) (tret V R a').
Proof using adv_nil. intros H c s Re. cbn. split; auto. split; auto. exists []. auto. Qed.
Lemma sim_lift {A} (x : res A) : sim (fun a a' ns => a' = a /\ ns = []) (elift V x) (tlift V R x).
Proof using adv_nil rel_rerr. intros c s Re. cbn. split; auto. destruct x; (split; [auto|]); eauto. Qed.
Lemma sim_bind {A A' C C'} (P : A -> A' -> list string -> Prop) (Q : C -> C' -> list string -> Prop) m m' f f' :
  sim P m m' -> (forall a a' n1, P a a' n1 -> sim (fun b b' n2 => Q b b' (n1 ++ n2)) (f a) (f' a')) -> sim Q (ebind V m f) (tbind V R m' f').
Proof using adv_app.
  intros S F c s Re. specialize (S c s Re). unfold ebind, tbind. destruct (m c) as [[l c'] x], (m' s) as [[l' s'] x']. destruct S as (-> & S). destruct x as [a|e], x' as [a'|e']; try (destruct S; fail).
  - destruct S as (Re' & ns & Pn & Ad). specialize (F _ _ _ Pn c' s' Re'). destruct (f a c') as [[l2 c2] x2], (f' a' s') as [[l2' s2] x2']. destruct F as (-> & F). split; auto.
    destruct x2, x2'; auto.
    + destruct F as (Re2 & ns2 & Q2 & Ad2). split; auto. exists (ns ++ ns2). split; auto. eapply adv_app; eauto.
    + destruct F as (Re2 & -> & ns2 & Ad2). split; auto. split; auto. exists (ns ++ ns2). eapply adv_app; eauto.
  - auto.
Qed.
Lemma sim_ext {A A'} (P : A -> A' -> list string -> Prop) m m0 m1 m2 : (forall c, m0 c = m c) -> (forall s, m2 s = m1 s) -> sim P m m1 -> sim P m0 m2.
Proof using. intros E0 E S c s Re. rewrite E, E0. now apply S. Qed.
Lemma clock_same {A} name (m m' : eff V A) c : (forall c, m c = m' c) -> clock V name m c = clock V name m' c.
Proof using. intros E. unfold clock. now rewrite E. Qed.
Lemma tclock_same {A} name (m m' : teff A) s : (forall s, m s = m' s) -> tclock V R sub add clk name m s = tclock V R sub add clk name m' s.
Proof using. intros E. unfold tclock, tbind. destruct (on_timer _ _ _ _ _ _ s) as [[l1 s1] [u|e]]; auto. now rewrite E. Qed.
Lemma sim_map {A X Y W} (f : A -> eff V X) (f' : A -> teff Y) (p : Y -> X) (w : Y -> W) (g : A -> W) (ks : list string) l :
  (forall a, In a l -> sim (fun b b' ns => p b' = b /\ w b' = g a /\ ns = ks) (f a) (f' a)) ->
  sim (fun bs bs' ns => map p bs' = bs /\ map w bs' = map g l /\ ns = flat_map (fun _ => ks) l) (emapM V f l) (tmapM V R f' l).
Proof using adv_nil adv_app.
  induction l as [|a l IH]; intros F; cbn [emapM tmapM].
  - apply sim_ret. auto.
  - eapply sim_bind; [apply F; now left|]. intros b b' n1 (P1 & W1 & ->). eapply sim_bind; [apply IH; intros; apply F; now right|]. intros bs bs' n2 (P2 & W2 & ->). apply sim_ret. cbn [map flat_map]. rewrite app_nil_r. repeat split; auto; f_equal; auto.
Qed.


Hypothesis H_tag : sim (fun a a' ns => a' = a /\ ns = []) (get_halo_tag V) (untimed V R (get_halo_tag V)).
Hypothesis H_boundaries : sim (fun a a' ns => a' = a /\ ns = [] /\ B a) (boundaries V layout rank) (untimed V R (boundaries V layout rank)).
Hypothesis H_clock : forall (A : Type) name (x : res A), In name comm_names -> sim (fun a a' ns => a' = a /\ ns = [name]) (clock V name (elift V x)) (tclock V R sub add clk name (tlift V R x)).
Hypothesis H_post : forall dst tag p, sim (fun a a' ns => a' = a /\ ns = ["Isend"%string]) (clock V "Isend"%string (post_send V dst tag p)) (tclock V R sub add clk "Isend"%string (untimed V R (post_send V dst tag p))).
Hypothesis H_recv : forall p, sim (fun _ _ ns => ns = ["Recv"%string]) (clock V "Recv"%string (fun c => ([p], c, Ok tt))) (tclock V R sub add clk "Recv"%string (fun s => ([p], s, Ok tt))).

Lemma four : In "pack"%string comm_names /\ In "Isend"%string comm_names /\ In "unpack"%string comm_names /\ In "Recv"%string comm_names.
Proof. cbn. tauto. Qed.
Notation "'pack'" := "pack"%string. Notation "'send'" := "Isend"%string. Notation "'unpack'" := "unpack"%string.
Lemma sim_isend p dst tag : sim (fun a a' ns => a' = a /\ ns = [pack; send]) (isend V p dst tag) (t_isend V R sub add clk p dst tag).
Proof.
  eapply sim_bind; [apply (H_clock unit pack (Ok tt)), four|]. intros a a' n1 (-> & ->). eapply sim_weaken; [|apply H_post]. intros b b' n2 (-> & ->). auto.
Qed.
Lemma sim_isend_halo q h tag b : sim (fun a a' ns => a' = a /\ tt = tt /\ ns = [pack; pack; send]) (isend_halo V neg q h tag b) (t_isend_halo V neg R sub add clk q h tag b).
Proof.
  eapply sim_bind.
  - eapply sim_ext; [| |apply (H_clock _ pack (bind (send_view b (h_meta q) h) (fun v => rotate_scalar_data v (m_dims (h_meta q)) (- b_rot b)))), four].
    + intros c. apply clock_same. intros c'. unfold ebind, elift. destruct (send_view b (h_meta q) h); reflexivity.
    + intros s. apply tclock_same. intros s'. unfold tbind, tlift. destruct (send_view b (h_meta q) h); reflexivity.
  - intros a a' n1 (-> & ->). eapply sim_weaken; [|apply sim_isend]. intros b1 b' n2 (-> & ->). auto.
Qed.
Lemma sim_isend_halos q h tag : sim (fun a a' ns => a' = a /\ exists bs, B bs /\ ns = flat_map (fun _ => [pack; pack; send]) bs) (isend_halos V neg layout rank q h tag) (t_isend_halos V neg R sub add clk layout rank q h tag).
Proof.
  eapply sim_bind; [apply H_boundaries|]. intros bs bs' n1 (-> & -> & Bb). eapply sim_weaken; [|apply (sim_map _ _ (fun x => x) (fun _ => tt) (fun _ => tt)); intros; apply sim_isend_halo].
  cbn beta. intros a a' ns (E & _ & ->). rewrite map_id in E. split; auto. exists bs. auto.
Qed.
Lemma sim_irecv_halo q h tag b : sim (fun a a' ns => fst a' = a /\ snd a' = contig q h (b_type b) /\ ns = [unpack]) (irecv_halo V q h tag b) (t_irecv_halo V R sub add clk contig q h tag b).
Proof.
  eapply sim_bind; [apply H_clock, four|]. intros a a' n1 (-> & ->). apply sim_ret. auto.
Qed.
Lemma sim_irecv_halos q h tag : sim (fun a a' ns => map fst a' = a /\ exists bs, B bs /\ map snd a' = map (fun b => contig q h (b_type b)) bs /\ ns = flat_map (fun _ => [unpack]) bs)
  (irecv_halos V layout rank q h tag) (t_irecv_halos V R sub add clk contig layout rank q h tag).
Proof.
  eapply sim_bind; [apply H_boundaries|]. intros bs bs' n1 (-> & -> & Bb). eapply sim_weaken; [|apply (sim_map _ _ fst snd (fun b => contig q h (b_type b))); intros; apply sim_irecv_halo].
  cbn beta. intros a a' ns (E & E' & ->). split; auto. exists bs. auto.
Qed.
Notation same_request := (same_request V).
Lemma sim_start_halo q h : sim (fun a a' ns => same_request a a' /\ exists bs bs', B bs /\ B bs' /\ map snd (tr_recvs a') = map (fun b => contig q h (b_type b)) bs' /\ ns = flat_map (fun _ => [pack; pack; send]) bs ++ flat_map (fun _ => [unpack]) bs')
  (start_halo_update V neg layout rank q h) (t_start_halo_update V neg R sub add clk contig layout rank q h).
Proof.
  unfold start_halo_update, t_start_halo_update. destruct (h =? 0).
  - intros c s Re. cbn. split; auto. split; auto. split; eauto.
  - eapply sim_bind; [apply H_tag|]. intros t t' n1 (-> & ->). eapply sim_bind; [apply sim_isend_halos|]. intros a a' n2 (-> & bs & Bb & ->). eapply sim_bind; [apply sim_irecv_halos|]. intros r r' n3 (Er & bs' & Bb' & Es & ->). apply sim_ret.
    split; [split; auto|]. exists bs, bs'. cbn [app]. rewrite app_nil_r. auto.
Qed.
Lemma sim_isend_vector_halo x y h t1 t2 b : sim (fun a a' ns => a' = a /\ tt = tt /\ ns = [pack; pack; send; pack; send]) (isend_vector_halo V neg x y h t1 t2 b) (t_isend_vector_halo V neg R sub add clk x y h t1 t2 b).
Proof.
  eapply sim_bind.
  - eapply sim_ext; [| |apply (H_clock _ pack (bind (send_view b (h_meta x) h) (fun xv => bind (send_view b (h_meta y) h) (fun yv => rotate_vector_data xv yv (- b_rot b) (m_dims (h_meta x)))))), four].
    + intros c. apply clock_same. intros c'. unfold ebind, elift. destruct (send_view b (h_meta x) h), (send_view b (h_meta y) h); reflexivity.
    + intros s. apply tclock_same. intros s'. unfold tbind, tlift. destruct (send_view b (h_meta x) h), (send_view b (h_meta y) h); reflexivity.
  - intros [xd yd] a' n1 (-> & ->). eapply sim_bind; [apply sim_isend|]. intros r1 r1' n2 (-> & ->). eapply sim_bind; [apply sim_isend|]. intros r2 r2' n3 (-> & ->). apply sim_ret. auto.
Qed.
Lemma sim_start_vector x y h : sim (fun a a' ns => same_request a a' /\ exists bs bs1 bs2, B bs /\ B bs1 /\ B bs2 /\
    map snd (tr_recvs a') = map (fun b => contig x h (b_type b)) bs1 ++ map (fun b => contig y h (b_type b)) bs2 /\
    ns = flat_map (fun _ => [pack; pack; send; pack; send]) bs ++ flat_map (fun _ => [unpack]) bs1 ++ flat_map (fun _ => [unpack]) bs2)
  (start_vector_halo_update V neg layout rank x y h) (t_start_vector_halo_update V neg R sub add clk contig layout rank x y h).
Proof.
  unfold start_vector_halo_update, t_start_vector_halo_update. destruct (h =? 0).
  - intros c s Re. cbn. split; auto. split; auto. split; eauto.
  - eapply sim_bind; [apply H_tag|]. intros t t' n1 (-> & ->). eapply sim_bind; [apply H_tag|]. intros t2 t2' n2 (-> & ->). eapply sim_bind; [apply H_boundaries|]. intros bs bs' n3 (-> & -> & Bb).
    eapply sim_bind; [apply (sim_map _ _ (fun x => x) (fun _ => tt) (fun _ => tt)); intros; apply sim_isend_vector_halo|]. cbn beta. intros a a' n4 (Ea & _ & ->). rewrite map_id in Ea. subst a'.
    eapply sim_bind; [apply sim_irecv_halos|]. intros r r' n5 (Er & bs1 & Bb1 & Es & ->). eapply sim_bind; [apply sim_irecv_halos|]. intros r2 r2' n6 (Er2 & bs2 & Bb2 & Es2 & ->). apply sim_ret.
    split; [split; auto; cbn [tr_recvs rq_recvs]; rewrite map_app; now f_equal|]. exists bs, bs1, bs2. cbn [app tr_recvs]. rewrite app_nil_r, map_app. repeat split; auto. now f_equal.
Qed.
Lemma sim_start_sync x y : sim (fun a a' ns => same_request a a' /\ map snd (tr_recvs a') = [contig x 0 NORTH; contig y 0 EAST] /\ ns = [pack; send; pack; send])
  (start_synchronize_vector_interfaces V neg layout rank x y) (t_start_synchronize V neg R sub add clk contig layout rank x y).
Proof.
  unfold start_synchronize_vector_interfaces, t_start_synchronize. destruct (negb _).
  - intros c s Re. cbn. split; auto. split; auto. split; eauto.
  - eapply sim_bind; [apply H_tag|]. intros t t' n1 (-> & ->). eapply (sim_bind (fun a a' ns => a' = a /\ ns = [pack; send; pack; send])).
    + unfold isend_vector_shared_boundary, t_isend_vector_shared_boundary. eapply sim_bind; [apply H_boundaries|]. intros bs bs' n2 (-> & -> & _).
      do 6 (eapply sim_bind; [apply sim_lift|]; intros ? ? ? (-> & ->)).
      eapply sim_bind; [apply sim_isend|]. intros r1 r1' n3 (-> & ->). eapply sim_bind; [apply sim_isend|]. intros r2 r2' n4 (-> & ->). apply sim_ret. auto.
    + intros a a' n2 (-> & ->). eapply (sim_bind (fun a a' ns => map fst a' = a /\ map snd a' = [contig x 0 NORTH; contig y 0 EAST] /\ ns = [])).
      * unfold irecv_vector_shared_boundary, t_irecv_vector_shared_boundary. eapply sim_bind; [apply H_boundaries|]. intros bs bs' n3 (-> & -> & _).
        do 4 (eapply sim_bind; [apply sim_lift|]; intros ? ? ? (-> & ->)). apply sim_ret. auto.
      * intros r r' n3 (Er & Es & ->). apply sim_ret. split; [split; auto|auto].
Qed.

(** ** waiting *)
Definition recv_names (b : bool) : list string := if b then ["Recv"%string] else [unpack; "Recv"%string; unpack].
Lemma tclock_split {A} name (m : teff A) s : tbind V R (tclock V R sub add clk name (tret V R tt)) (fun _ => m) s =
  tbind V R (on_timer V R sub add clk (Start name)) (fun _ => tbind V R (on_timer V R sub add clk (Stop name)) (fun _ => m)) s.
Proof.
  unfold tclock, tbind, tret. destruct (on_timer V R sub add clk (Start name) s) as [[l1 s1] [u|e]]; auto. destruct (on_timer V R sub add clk (Stop name) s1) as [[l2 s2] [u2|e]]; cbn [app]; auto.
  rewrite app_nil_r. destruct (m s2) as [[l3 s3] x3]. now rewrite app_assoc.
Qed.
Definition plain_recv (p : pop V * bool) : eff V unit :=
  let recv := clock V "Recv"%string (fun c => ([fst p], c, Ok tt)) in
  if snd p then recv else ebind V (clock V unpack (eret V tt)) (fun _ => ebind V recv (fun _ => clock V unpack (eret V tt))).
Lemma sim_recv p : sim (fun _ _ ns => ns = recv_names (snd p)) (plain_recv p) (t_recv V R sub add clk p).
Proof.
  pose proof (H_recv (fst p)) as S1.
  assert (S2 : sim (fun _ _ ns => ns = [unpack]) (clock V unpack (eret V tt)) (tclock V R sub add clk unpack (tret V R tt))).
  { eapply sim_weaken; [|apply (H_clock unit unpack (Ok tt)), four]. now intros a a' ns (_ & ->). }
  unfold plain_recv, t_recv, recv_names. destruct (snd p); [exact S1|].
  eapply sim_ext with (m := ebind V (clock V unpack (eret V tt)) (fun _ => ebind V (clock V "Recv"%string (fun c => ([fst p], c, Ok tt))) (fun _ => clock V unpack (eret V tt)))) (m1 := tbind V R (tclock V R sub add clk unpack (tret V R tt)) (fun _ => tbind V R (tclock V R sub add clk "Recv"%string (fun s => ([fst p], s, Ok tt))) (fun _ => tclock V R sub add clk unpack (tret V R tt)))).
  - reflexivity.
  - intros s. symmetry. apply tclock_split.
  - eapply sim_bind; [apply S2|]. intros _ _ n1 ->. eapply sim_bind; [apply S1|]. intros _ _ n2 ->. eapply sim_weaken; [|apply S2]. intros _ _ n3 ->. reflexivity.
Qed.
Lemma plain_recv_idle p c : c_running c = [] -> plain_recv p c = ([fst p], c, Ok tt).
Proof. destruct c as [t b k ru]. cbn. intros ->. unfold plain_recv. destruct (snd p); reflexivity. Qed.
Lemma plain_recvs_idle l c : c_running c = [] -> emapM V plain_recv l c = (map fst l, c, Ok (map (fun _ => tt) l)).
Proof. intros Q. induction l as [|p l IH]; [reflexivity|]. cbn [emapM map]. unfold ebind. rewrite plain_recv_idle by auto. rewrite IH. unfold eret. now rewrite app_nil_r. Qed.
Lemma sim_recvs l : sim (fun _ _ ns => ns = flat_map recv_names (map snd l)) (emapM V plain_recv l) (tmapM V R (t_recv V R sub add clk) l).
Proof.
  induction l as [|p l IH]; cbn [emapM tmapM map flat_map]; [apply sim_ret; auto|]. eapply sim_bind; [apply sim_recv|]. intros ? ? n1 ->. eapply sim_bind; [apply IH|]. intros ? ? n2 ->. apply sim_ret. now rewrite app_nil_r.
Qed.
Lemma sim_wait trq : sim (fun _ _ ns => ns = flat_map recv_names (map snd (tr_recvs trq)))
  (ebind V (emapM V plain_recv (tr_recvs trq)) (fun _ c => (map OWait (tr_sends trq), c, Ok tt))) (t_wait V R sub add clk trq).
Proof.
  eapply sim_bind; [apply sim_recvs|]. intros ? ? n1 ->. intros c s Re. split; auto. split; auto. exists []. rewrite app_nil_r. auto.
Qed.
End Chain.

(** ** with an enabled timer *)
Section On.
Variable layout : layout_t.
Variable rank : Z.
Variable okb : option (list boundary) -> Prop.
Variable B : list boundary -> Prop.
Hypothesis okb_next : forall c ops c' x, okb (c_bounds c) -> boundaries V layout rank c = (ops, c', x) -> okb (c_bounds c') /\ forall bs, x = Ok bs -> B bs.

Record related (c : comm) (s : cts R) : Prop := {
  r_tag : c_tag (ct_comm s) = c_tag c;
  r_bounds : c_bounds (ct_comm s) = c_bounds c;
  r_nsent : c_nsent (ct_comm s) = c_nsent c;
  r_okb : okb (c_bounds c);
  r_on : t_on (ct_timer s) = true;
  r_nodup : NoDup (dkeys (t_starts (ct_timer s)));
  r_run : forall name, In name comm_names -> (In name (c_running c) <-> runs name (ct_timer s)) }.
Notation sim := (sim related related adv).
Lemma sim_untimed {A} (m : eff V A) (P : A -> A -> list string -> Prop) : (forall c d, c_tag d = c_tag c -> c_bounds d = c_bounds c -> c_nsent d = c_nsent c -> okb (c_bounds c) ->
    let '(l, c', x) := m c in let '(l', d', x') := m d in l' = l /\ c_tag d' = c_tag c' /\ c_bounds d' = c_bounds c' /\ c_nsent d' = c_nsent c' /\ okb (c_bounds c') /\ c_running c' = c_running c /\ x' = x /\ forall a, x = Ok a -> P a a []) ->
  sim P m (untimed V R m).
Proof.
  intros H c s Re. specialize (H c (ct_comm s) (r_tag _ _ Re) (r_bounds _ _ Re) (r_nsent _ _ Re) (r_okb _ _ Re)). unfold untimed. destruct (m c) as [[l c'] x], (m (ct_comm s)) as [[l' d'] x']. destruct H as (-> & T & Bn & N & O & Ru & -> & Px).
  split; auto. assert (Re' : related c' (mkCT d' (ct_timer s) (ct_reads s))).
  { constructor; cbn [ct_comm ct_timer]; auto; try apply Re. rewrite Ru. apply Re. }
  destruct x; (split; [auto|]); [|split; auto]; exists []; try split; auto; apply adv_nil.
Qed.
Lemma related_reads c s k : related c s -> related c (mkCT (ct_comm s) (ct_timer s) k).
Proof. intros [? ? ? ? ? ? ?]. constructor; auto. Qed.
Lemma sim_clock {A A'} name (P : A -> A' -> list string -> Prop) m m' : In name comm_names -> keeps V m -> sim P m m' ->
  sim (fun a a' ns => exists n0, P a a' n0 /\ ns = n0 ++ [name]) (clock V name m) (tclock V R sub add clk name m').
Proof.
  intros Nm K S c s Re. unfold clock, tclock, tbind, on_timer, tret. cbn [tstep]. unfold t_start. rewrite (r_on _ _ Re). unfold dmem.
  destruct (sin name (c_running c)) eqn:Sn.
  - apply sin_In in Sn. apply (r_run _ _ Re name Nm) in Sn. unfold runs in Sn. destruct (dget name (t_starts (ct_timer s))) eqn:G; [|congruence]. split; auto. split; [now apply related_reads|]. split; auto. exists []. apply adv_nil.
  - assert (Gn : dget name (t_starts (ct_timer s)) = None).
    { destruct (dget name (t_starts (ct_timer s))) eqn:G; auto. exfalso. apply sin_false in Sn. apply Sn. apply (r_run _ _ Re name Nm). unfold runs. congruence. }
    rewrite Gn. set (c1 := mkC _ _ _ (name :: _)). set (s1 := mkCT _ (mkTimer _ _ _ _ _) _).
    assert (Re1 : related c1 s1).
    { constructor; cbn [ct_comm ct_timer t_on t_starts s1 c1 c_tag c_bounds c_nsent c_running]; try apply Re; auto.
      - apply NoDup_dset, Re.
      - intros n I. unfold runs. cbn [t_starts]. rewrite dget_dset. cbn [In]. destruct (String.eqb_spec n name) as [->|ne].
        + split; [discriminate|auto].
        + rewrite (r_run _ _ Re n I). unfold runs. split; [intros [X|X]; auto; congruence|auto]. }
    specialize (S c1 s1 Re1). destruct (m c1) as [[l c'] x] eqn:Em, (m' s1) as [[l' s'] x'] eqn:Em'. destruct S as (-> & S).
    assert (Ad0 : adv [] (ct_timer s) (ct_timer s1)).
    { split; [intros n I; cbn; unfold hits_of; cbn; lia|]. intros n I. cbn [ct_timer s1 t_starts t_acc t_hits]. split; auto. rewrite dget_dset. destruct (String.eqb_spec n name) as [->|ne]; auto. contradiction. }
    destruct x as [a|e], x' as [a'|e']; try (destruct S; fail).
    + destruct S as (Re' & ns & Pn & Ad). destruct (K _ _ _ _ Em) as (Kr & _). assert (In name (c_running c')) as Ir by (apply Kr; now left). pose proof (proj1 (r_run _ _ Re' name Nm) Ir) as Rn. unfold runs in Rn.
      cbn [tstep]. unfold t_stop. rewrite (r_on _ _ Re'). destruct (dget name (t_starts (ct_timer s'))) as [r0|] eqn:G; [|congruence]. rewrite !app_nil_r. split; auto. split.
      * constructor; cbn [ct_comm ct_timer t_on t_starts c_tag c_bounds c_nsent c_running]; try apply Re'; auto.
        -- apply NoDup_dpop, Re'.
        -- intros n I. unfold runs. cbn [t_starts]. rewrite dget_dpop by apply Re'. destruct (String.eqb_spec n name) as [->|ne].
           ++ split; [|congruence]. intros X. exfalso. now apply remove_In in X.
           ++ rewrite <- (r_run _ _ Re' n I). split; [intros X; now apply in_remove in X|]. intros X. now apply in_in_remove.
      * exists (ns ++ [name]). split; [eauto|]. replace (ns ++ [name]) with ([] ++ ns ++ [name]) by reflexivity. eapply adv_app; eauto. eapply adv_app; eauto. split.
        -- intros n I. unfold hits_of. cbn [ct_timer t_hits]. rewrite dget_dset. cbn [count_occ]. destruct (String.eqb_spec n name) as [->|ne].
           ++ destruct (string_dec name name) as [_|]; [|congruence]. destruct (dget name (t_hits (ct_timer s'))); lia.
           ++ destruct (string_dec name n) as [->|_]; [congruence|]. cbn. lia.
        -- intros n I. cbn [ct_timer t_starts t_acc t_hits]. rewrite !dget_dset, dget_dpop by apply Re'. destruct (String.eqb_spec n name) as [->|ne]; [contradiction|auto].
    + destruct S as (Re' & -> & ns & Ad). split; auto. split; auto. split; auto. exists ns. replace ns with ([] ++ ns) by reflexivity. eapply adv_app; eauto.
Qed.

Lemma sim_tag : sim (fun a a' ns => a' = a /\ ns = []) (get_halo_tag V) (untimed V R (get_halo_tag V)).
Proof. apply sim_untimed. intros c d E1 E2 E3 O. unfold get_halo_tag. cbn. rewrite E1, E2, E3. repeat split; auto. Qed.
Lemma sim_boundaries : sim (fun a a' ns => a' = a /\ ns = [] /\ B a) (boundaries V layout rank) (untimed V R (boundaries V layout rank)).
Proof.
  apply sim_untimed. intros c d E1 E2 E3 O. pose proof (okb_next c) as N. destruct (boundaries V layout rank c) as [[l c'] x] eqn:Eb. destruct (N _ _ _ O eq_refl) as (O' & Bx). revert Eb. unfold boundaries. rewrite E2. destruct (c_bounds c) eqn:Cb.
  - intros [= <- <- <-]. repeat split; auto; congruence.
  - destruct (fill_boundaries layout rank BOUNDARY_TYPES []) as [l0 [u|e]]; intros [= <- <- <-]; repeat split; auto; intros a Q; try discriminate; auto.
Qed.
Lemma sim_post dst tag p : sim (fun a a' ns => a' = a /\ ns = []) (post_send V dst tag p) (untimed V R (post_send V dst tag p)).
Proof. apply sim_untimed. intros c d E1 E2 E3 O. unfold post_send. cbn. rewrite E1, E2, E3. repeat split; auto. Qed.
Lemma on_clock (A : Type) name (x : res A) : In name comm_names -> sim (fun a a' ns => a' = a /\ ns = [name]) (clock V name (elift V x)) (tclock V R sub add clk name (tlift V R x)).
Proof.
  intros I. eapply sim_weaken; [|apply sim_clock; [exact I|apply keeps_lift|apply (sim_lift related related adv adv_nil); auto]]. now intros a a' ns (n0 & (-> & ->) & ->).
Qed.
Lemma on_post dst tag p : sim (fun a a' ns => a' = a /\ ns = ["Isend"%string]) (clock V "Isend"%string (post_send V dst tag p)) (tclock V R sub add clk "Isend"%string (untimed V R (post_send V dst tag p))).
Proof. eapply sim_weaken; [|apply sim_clock; [apply four|apply keeps_post|apply sim_post]]. now intros a a' ns (n0 & (-> & ->) & ->). Qed.
Lemma on_recv p : sim (fun _ _ ns => ns = ["Recv"%string]) (clock V "Recv"%string (fun c => ([p], c, Ok tt))) (tclock V R sub add clk "Recv"%string (fun s => ([p], s, Ok tt))).
Proof.
  eapply sim_weaken; [|apply (sim_clock _ (fun _ _ ns => ns = [])); [apply four| |]].
  - intros a a' ns (n0 & -> & ->). reflexivity.
  - intros c l c' x [= <- <- <-]. split; auto.
  - intros c s Re. split; auto. split; auto. exists []. split; auto using adv_nil.
Qed.
Definition on_start_halo := sim_start_halo layout rank related related adv B adv_nil adv_app (fun _ _ H => H) sim_tag sim_boundaries on_clock on_post.
Definition on_start_vector := sim_start_vector layout rank related related adv B adv_nil adv_app (fun _ _ H => H) sim_tag sim_boundaries on_clock on_post.
Definition on_start_sync := sim_start_sync layout rank related related adv B adv_nil adv_app (fun _ _ H => H) sim_tag sim_boundaries on_clock on_post.
Definition on_wait := sim_wait related related adv adv_nil adv_app on_clock on_recv.
Lemma wait_timed c s rq trq : related c s -> c_running c = [] -> CommTimes.same_request V rq trq ->
  exists s', t_wait V R sub add clk trq s = (rq_recvs V rq ++ map OWait (rq_sends V rq), s', Ok tt) /\ related c s' /\ adv (flat_map recv_names (map snd (tr_recvs trq))) (ct_timer s) (ct_timer s').
Proof.
  intros Re Ru (Es & Er). pose proof (on_wait trq c s Re) as S. unfold ebind in S. rewrite plain_recvs_idle in S by auto.
  destruct (t_wait V R sub add clk trq s) as [[l s1] [x|e]]; destruct S as (-> & S); [|destruct S]. destruct S as (Re1 & ns & -> & Ad). exists s1. rewrite Es, Er. destruct x. auto.
Qed.
End On.

(** ** the whole program on a square layout *)
Section Square.
Variable d : V.
Variable n : Z.
Variable k : nat.
Variable r : nat.
Hypothesis Hr : (r < ranks n)%nat.
Let okb (o : option (list boundary)) : Prop := o = None \/ o = Some (blist n r).
Let B (bs : list boundary) : Prop := bs = blist n r.
Lemma okb_next c ops c' x : 1 <= n -> okb (c_bounds c) -> boundaries V (n, n) (Z.of_nat r) c = (ops, c', x) -> okb (c_bounds c') /\ forall bs, x = Ok bs -> B bs.
Proof using Hr.
  intros Hn O E. unfold boundaries in E. destruct O as [O|O]; rewrite O in E.
  - rewrite (fill_boundaries_ok n Hn r _ _ Hr) in E. injection E as <- <- <-. split; [right; reflexivity|]. now intros bs [= <-].
  - injection E as <- <- <-. split; [now right|]. now intros bs [= <-].
Qed.
Lemma types_neighbours : 1 <= n -> map b_type (blist n r) = neighbours n r.
Proof using Hr.
  intros Hn. assert (Hr' : 0 <= Z.of_nat r < 6 * (n * n)) by now apply rank_range. unfold blist, neighbours.
  destruct (place n (Z.of_nat r)) as [[t j] i] eqn:P. assert (TS : tile_subtile_index (n, n) (Z.of_nat r) = (j, i)).
  { destruct (rank_split n Hn _ Hr') as (t0 & J & I & Ht & HJ & HI & E). rewrite E in P |- *. rewrite sub_index by auto. rewrite place_rank_of in P by auto.    now injection P as _ <- <-. }
  assert (G : forall l, map b_type (flat_map (fun b => match cs_boundary (n, n) b (Z.of_nat r) with Ok (Some B) => [B] | _ => [] end) l) =
    filter (fun b => negb (negb (fst (heading b) =? 0) && negb (snd (heading b) =? 0) && (j =? (if 0 <? fst (heading b) then n - 1 else 0)) && (i =? (if 0 <? snd (heading b) then n - 1 else 0)))) l).
  { induction l as [|b l IH]; [reflexivity|]. cbn [flat_map filter]. rewrite map_app, IH. destruct (boundary_none n Hn (Z.of_nat r) b Hr') as ((o & E) & NN). rewrite E in *. rewrite TS in NN.
    destruct o as [b0|].
    - destruct (boundary_reciprocal n Hn _ _ _ Hr' E) as (<- & _). match goal with |- context[negb ?x] => destruct x eqn:Q end; [|reflexivity].
      exfalso. rewrite !andb_true_iff, !negb_true_iff in Q. destruct NN as (_ & NN). discriminate NN. repeat split; try lia. f_equal; lia.
    - match goal with |- context[negb ?x] => destruct x eqn:Q end; [reflexivity|]. exfalso. destruct NN as (NN & _). destruct (NN eq_refl) as (A & A' & [= C D]). revert Q. rewrite C, D. rewrite !Z.eqb_refl, !andb_true_r. lia. }
  apply G.
Qed.
Lemma count_flat (ks : list string) name : forall l : list boundary, count_occ string_dec (flat_map (fun _ => ks) l) name = (length l * count_occ string_dec ks name)%nat.
Proof using. clear Hr. induction l as [|x l IH]; [reflexivity|]. cbn [flat_map length]. rewrite count_occ_app, IH. lia. Qed.
Notation related := (related okb).
Definition advf (f : string -> nat) (t t' : timer R) : Prop :=
  (forall name, In name comm_names -> hits_of name t' = hits_of name t + Z.of_nat (f name)) /\
  forall name, ~ In name comm_names -> dget name (t_starts t') = dget name (t_starts t) /\ dget name (t_acc t') = dget name (t_acc t) /\ dget name (t_hits t') = dget name (t_hits t).
Lemma adv_advf ns f t t' : (forall name, In name comm_names -> count_occ string_dec ns name = f name) -> adv ns t t' -> advf f t t'.
Proof using. clear Hr. intros E (A & A'). split; auto. intros name I. rewrite A, E; auto. Qed.
Lemma each_name (P : string -> Prop) : P "pack"%string -> P "Isend"%string -> P "unpack"%string -> P "Recv"%string -> forall name, In name comm_names -> P name.
Proof using. clear Hr. intros ? ? ? ? name [<-|[<-|[<-|[<-|[]]]]]; auto. Qed.
Notation start_plain := (start_plain V neg (n, n) r).
Lemma start_timed c cm s : call_ok V n k c -> starts V c = true -> idle n r cm -> related cm s ->
  exists ops cm' rq s' trq, start_plain c cm = (ops, cm', Ok rq) /\ start_call V neg R sub add clk contig (n, n) r c s = (ops, s', Ok trq) /\ idle n r cm' /\ related cm' s' /\
    CommTimes.same_request V rq trq /\ map snd (tr_recvs trq) = targets V contig n r c /\ advf (when_started V n r c) (ct_timer s) (ct_timer s').
Proof using d Hr.
  intros OK ST ID Re. pose proof (ok_layout V n k c OK ST) as Hn. pose proof (fun c ops c' x => okb_next c ops c' x Hn) as N. pose proof (types_neighbours Hn) as TN.
  assert (LN : length (neighbours n r) = length (blist n r)) by (rewrite <- TN; apply map_length).
  destruct (start_ok V neg d n k c r _ cm OK ST Hr ID eq_refl) as (m0 & E). set (ops := send_ops _) in E. set (cm' := after_send _ _ _ _ _) in E. set (rq := mkReq _ _ _) in E.
  exists ops, cm', rq. destruct c; try discriminate; cbn [CommTimes.start_plain start_call] in *.
  - pose proof (on_start_halo (n, n) (Z.of_nat r) okb B N (q r) h cm s Re) as S. rewrite E in S. destruct (t_start_halo_update _ _ _ _ _ _ _ _ _ _ _ s) as [[l' s'] [trq|e]]; destruct S as (-> & S); [|destruct S].
    destruct S as (Re' & ns & (SR & bs & bs' & -> & -> & TG & ->) & Ad). exists s', trq. repeat (split; [first [assumption|reflexivity|apply idle_after]|]). split; [cbn [targets]; rewrite TG, <- TN, map_map; reflexivity|].
    revert Ad. apply adv_advf. apply each_name; cbn [when_started]; rewrite count_occ_app, !count_flat, LN; cbn; lia.
  - pose proof (on_start_vector (n, n) (Z.of_nat r) okb B N (x r) (y r) h cm s Re) as S. rewrite E in S. destruct (t_start_vector_halo_update _ _ _ _ _ _ _ _ _ _ _ _ s) as [[l' s'] [trq|e]]; destruct S as (-> & S); [|destruct S].
    destruct S as (Re' & ns & (SR & bs & bs1 & bs2 & -> & -> & -> & TG & ->) & Ad). exists s', trq. repeat (split; [first [assumption|reflexivity|apply idle_after]|]). split; [cbn [targets]; rewrite TG, <- TN, !map_map; reflexivity|].
    revert Ad. apply adv_advf. apply each_name; cbn [when_started]; rewrite !count_occ_app, !count_flat, LN; cbn; lia.
  - pose proof (on_start_sync (n, n) (Z.of_nat r) okb B N (x r) (y r) cm s Re) as S. rewrite E in S. destruct (t_start_synchronize _ _ _ _ _ _ _ _ _ _ _ s) as [[l' s'] [trq|e]]; destruct S as (-> & S); [|destruct S].
    destruct S as (Re' & ns & (SR & TG & ->) & Ad). exists s', trq. repeat (split; [first [assumption|reflexivity|apply idle_after]|]).
    revert Ad. apply adv_advf. apply each_name; reflexivity.
Qed.
Lemma count_waits l name : In name comm_names -> count_occ string_dec (flat_map recv_names l) name =
  (if String.eqb name "Recv" then length l else if String.eqb name "unpack" then 2 * length (filter negb l) else 0)%nat.
Proof using. clear Hr.
  intros I. induction l as [|b l IH]; [now destruct (String.eqb name "Recv"), (String.eqb name "unpack")|]. cbn [flat_map]. rewrite count_occ_app, IH. destruct I as [<-|[<-|[<-|[<-|[]]]]]; destruct b; cbn; lia.
Qed.
Definition others (t t0 : timer R) : Prop := forall name, ~ In name comm_names -> dget name (t_starts t) = dget name (t_starts t0) /\ dget name (t_acc t) = dget name (t_acc t0) /\ dget name (t_hits t) = dget name (t_hits t0).
Lemma others_advf f t t' t0 : advf f t t' -> others t t0 -> others t' t0.
Proof using. clear Hr. intros (_ & A) O name I. destruct (A name I) as (-> & -> & ->). auto. Qed.
Lemma harmless_step c cm s t0 : harmless c -> related cm s -> t_on t0 = true -> NoDup (dkeys (t_starts t0)) -> others (ct_timer s) t0 ->
  let t1 := fst (tstep R sub add c (ct_timer s)) in let t01 := fst (tstep R sub add c t0) in
  related cm (mkCT (ct_comm s) t1 (ct_reads s)) /\ t_on t01 = true /\ NoDup (dkeys (t_starts t01)) /\ others t1 t01 /\ (forall name, In name comm_names -> hits_of name t1 = hits_of name (ct_timer s)).
Proof using. clear Hr.
  intros H Re On0 ND0 O. destruct Re as [e1 e2 e3 e4 On ND Ru]. 
  assert (Same : related cm (mkCT (ct_comm s) (ct_timer s) (ct_reads s))) by now constructor.
  destruct c; cbn [harmless tstep] in *; try (destruct H; fail).
  - unfold t_start. rewrite On, On0. unfold dmem. destruct (O name H) as (Os & _ & _). rewrite Os. destruct (dget name (t_starts t0)) eqn:G; cbn [fst]; [auto 6|]. split; [constructor; cbn [ct_comm ct_timer t_starts t_on]; auto|].
    + now apply NoDup_dset.
    + intros m I. rewrite (Ru m I). unfold runs. cbn [t_starts]. rewrite dget_dset. destruct (String.eqb_spec m name) as [->|]; [contradiction|reflexivity].
    + cbn [t_on t_starts]. split; auto. split; [now apply NoDup_dset|]. split; [|reflexivity]. intros m I. cbn [t_starts t_acc t_hits]. rewrite !dget_dset. destruct (O m I) as (-> & -> & ->). auto.
  - unfold t_stop. rewrite On, On0. destruct (O name H) as (Os & Oa & Oh). rewrite Os, Oa, Oh. destruct (dget name (t_starts t0)) eqn:G; cbn [fst]; [|auto 6]. split; [constructor; cbn [ct_comm ct_timer t_starts t_on]; auto|].
    + now apply NoDup_dpop.
    + intros m I. rewrite (Ru m I). unfold runs. cbn [t_starts]. rewrite dget_dpop by auto. destruct (String.eqb_spec m name) as [->|]; [contradiction|reflexivity].
    + cbn [t_on t_starts]. split; auto. split; [now apply NoDup_dpop|]. split.
      * intros m I. cbn [t_starts t_acc t_hits]. rewrite !dget_dset, !dget_dpop by auto. destruct (O m I) as (-> & -> & ->). auto.
      * intros m I. unfold hits_of. cbn [t_hits]. rewrite dget_dset. destruct (String.eqb_spec m name) as [->|]; [contradiction|reflexivity].
  - destruct (t_null (ct_timer s)), (t_null t0); cbn [fst]; (split; [try exact Same; now constructor|auto 6]).
  - cbn [fst]. auto.
  - cbn [fst]. auto.
  - cbn [fst]. auto.
Qed.
Lemma run_timed : forall l cm s t0 reqs treqs cs,
  Forall (call_ok V n k) (comm_calls l) -> waits_in V (comm_calls l) (length reqs) -> Forall harmless (timer_calls l) ->
  idle n r cm -> related cm s -> t_on t0 = true -> NoDup (dkeys (t_starts t0)) -> others (ct_timer s) t0 ->
  Forall2 (CommTimes.same_request V) reqs treqs -> map (fun t => map snd (tr_recvs t)) treqs = map (targets V contig n r) cs ->
  exists ops cm' s', client V neg n r (comm_calls l) reqs cm = (ops, cm', Ok tt) /\ timed_client V neg R sub add clk contig (n, n) r l treqs s = (ops, s', Ok tt) /\
    idle n r cm' /\ related cm' s' /\ others (ct_timer s') (fst (trun R sub add (timer_calls l) t0)) /\
    (forall name, In name comm_names -> hits_of name (ct_timer s') = hits_of name (ct_timer s) + Z.of_nat (timed V contig n r (comm_calls l) cs name)).
Proof using d Hr.
  induction l as [|e l IH]; intros cm s t0 reqs treqs cs OK W Hm ID Re On0 ND0 O SR TG.
  - exists [], cm, s. repeat (split; auto). intros. cbn. lia.
  - destruct e as [c|c].
    + change (comm_calls (HCall c :: l)) with (c :: comm_calls l) in *. change (timer_calls (HCall c :: l)) with (timer_calls l) in *. inversion OK as [|? ? O1 O2]; subst.
      assert (ST : starts V c = true -> exists ops cm' s', client V neg n r (c :: comm_calls l) reqs cm = (ops, cm', Ok tt) /\ timed_client V neg R sub add clk contig (n, n) r (HCall c :: l) treqs s = (ops, s', Ok tt) /\
         idle n r cm' /\ related cm' s' /\ others (ct_timer s') (fst (trun R sub add (timer_calls l) t0)) /\
        (forall name, In name comm_names -> hits_of name (ct_timer s') = hits_of name (ct_timer s) + Z.of_nat (when_started V n r c name + timed V contig n r (comm_calls l) (cs ++ [c]) name))).
      { intros Sc. destruct (start_timed c cm s O1 Sc ID Re) as (ops & cm1 & rq & s1 & trq & Ep & Et & ID1 & Re1 & SR1 & TG1 & Ad).
        destruct (IH cm1 s1 t0 (reqs ++ [rq]) (treqs ++ [trq]) (cs ++ [c])) as (ops2 & cm2 & s2 & Ep2 & Et2 & ID2 & Re2 & O2' & H2); auto.
        - rewrite app_length. cbn [length]. rewrite Nat.add_1_r. destruct c; try discriminate; exact W.
        - eapply others_advf; eauto.
        - apply Forall2_app; auto.
        - rewrite !map_app. cbn [map]. rewrite TG, TG1. reflexivity.
        - exists (ops ++ ops2), cm2, s2. split; [destruct c; try discriminate; cbn [client CommTimes.start_plain] in *; unfold ebind; rewrite Ep, Ep2; reflexivity|].
          split; [destruct c; try discriminate; cbn [timed_client] in *; unfold tbind at 1; rewrite Et, Et2; reflexivity|]. repeat (split; auto). intros name I. rewrite H2 by auto. destruct Ad as (Ad & _). rewrite Ad by auto. lia. }
      destruct c; try (exact (ST eq_refl)); clear ST.
      * cbn [waits_in] in W. destruct W as (Hi & W). destruct (nth_error reqs i) as [rq|] eqn:Eq; [|apply nth_error_None in Eq; lia].
        destruct (Forall2_nth_error _ _ _ _ _ SR Eq) as (trq & Eq' & SRi). assert (TGi : exists c, nth_error cs i = Some c /\ map snd (tr_recvs trq) = targets V contig n r c).
        { pose proof (map_nth_error (fun t => map snd (tr_recvs t)) _ _ Eq') as X. rewrite TG in X. rewrite nth_error_map in X. destruct (nth_error cs i); [|discriminate]. injection X as X. eauto. }
        destruct TGi as (c & Ec & Ti). destruct (wait_timed okb cm s rq trq Re (proj1 ID) SRi) as (s1 & Et & Re1 & Ad).
        destruct (IH cm s1 t0 reqs treqs cs) as (ops2 & cm2 & s2 & Ep2 & Et2 & ID2 & Re2 & O2' & H2); auto.
        { intros name I. destruct Ad as (_ & Ad). destruct (Ad name I) as (-> & -> & ->). auto. }
        exists ((rq_recvs V rq ++ map OWait (rq_sends V rq)) ++ ops2), cm2, s2. cbn [client timed_client]. rewrite Eq, Eq'. unfold ebind, tbind, wait_request. rewrite Et, Ep2, Et2. repeat (split; auto).
        intros name I. rewrite H2 by auto. destruct Ad as (Ad & _). rewrite Ad, count_waits by auto. cbn [timed]. rewrite Ec. unfold when_waited. rewrite <- Ti. lia.
      * destruct (IH cm s t0 reqs treqs cs) as (ops2 & cm2 & s2 & Ep2 & Et2 & ID2 & Re2 & O2' & H2); auto. exists (OLocal (f r) :: ops2), cm2, s2. cbn [client timed_client]. unfold ebind, tbind. rewrite Ep2, Et2. repeat (split; auto).
    + change (comm_calls (HTimer c :: l)) with (@comm_calls V R l) in *. change (timer_calls (HTimer c :: l)) with (c :: @timer_calls V R l) in *. inversion Hm as [|? ? H1 H2]; subst.
      destruct (harmless_step c cm s t0 H1 Re On0 ND0 O) as (Re1 & On1 & ND1 & O1 & Hh). cbn [timed_client trun].
      destruct (IH cm (mkCT (ct_comm s) (fst (tstep R sub add c (ct_timer s))) (ct_reads s)) (fst (tstep R sub add c t0)) reqs treqs cs) as (ops2 & cm2 & s2 & Ep2 & Et2 & ID2 & Re2 & O2' & Hh2); auto.
      exists ops2, cm2, s2. destruct (tstep R sub add c t0) as [t1 r1] eqn:T1. cbn [fst] in *. destruct (trun R sub add (timer_calls l) t1) as [t2 rs]. cbn [fst] in *. repeat (split; auto). intros name I. rewrite Hh2 by auto. cbn [ct_timer]. now rewrite Hh.
Qed.
End Square.
End Sim.
