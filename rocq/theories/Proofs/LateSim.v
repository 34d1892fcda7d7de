(** If what is sent does not change until the send has completed, it does not matter when MPI reads it. *)
From Verif.Base Require Import Base Lemmas.
From Verif.Model Require Import Network LateRead.
From Verif.Spec Require Import Lockstep Late.
From Verif.Proofs Require Import NetworkProofs.

Lemma Forall2_nth2 {A B} (P : A -> B -> Prop) l l' i a b : Forall2 P l l' -> nth_error l i = Some a -> nth_error l' i = Some b -> P a b.
Proof. intros F. revert i; induction F; destruct i; simpl; intros E E'; try discriminate; [congruence|eauto]. Qed.

Section Sim.
Variables L V : Type.

(** while sends are pending, nothing the rank does changes what they send; [count]: sends so far *)
Fixpoint stable (pend : list (nat * (L -> list V))) (count : nat) (ops : list (op L V)) : Prop :=
  match ops with
  | [] => True
  | OSend _ _ f :: ops' => stable (pend ++ [(count, f)]) (S count) ops'
  | ORecv _ _ g :: ops' =>
      (forall j f b m m', In (j, f) pend -> g b m = Some m' -> f m' = f m) /\ stable pend count ops'
  | OWait j :: ops' => stable (filter (fun x => negb (Nat.eqb (fst x) j)) pend) count ops'
  | OLocal g :: ops' => (forall j f m, In (j, f) pend -> f (g m) = f m) /\ stable pend count ops'
  end.

Definition msim (m : L) (lm : lmsg L V) (em : msg V) : Prop :=
  lm_dst lm = ms_dst em /\ lm_tag lm = ms_tag em /\ lm_taken lm = ms_taken em /\
  length (lm_part lm) = length (ms_body em) /\
  (forall k v, nth_error (lm_part lm) k = Some (Some v) -> nth_error (ms_body em) k = Some v) /\
  (lm_taken lm = false -> all_copied (lm_part lm) = false -> lm_read lm m = ms_body em).

Definition rank_sim (m : L) (p : list (op L V)) (ls : list (lmsg L V)) (es : list (msg V)) : Prop :=
  Forall2 (msim m) ls es /\
  exists pend, stable pend (length ls) p /\
    forall j lm, nth_error ls j = Some lm -> lm_taken lm = false -> all_copied (lm_part lm) = false -> In (j, lm_read lm) pend.

Lemma fill_copied : forall (part : list (option V)) now body, length part = length body ->
  (forall k v, nth_error part k = Some (Some v) -> nth_error body k = Some v) ->
  all_copied part = true \/ now = body -> fill part now = body.
Proof.
  induction part as [|[x|] part IH]; intros now body EL A C; destruct body as [|b body]; try discriminate; auto.
  - cbn. specialize (A 0%nat x eq_refl) as A0. injection A0 as ->. f_equal. apply IH.
    + now injection EL.
    + intros k v. apply (A (S k) v).
    + destruct C as [C| ->]; auto.
  - cbn. destruct C as [C| ->]; [discriminate|]. f_equal. apply IH.
    + now injection EL.
    + intros k v. apply (A (S k) v).
    + auto.
Qed.

Lemma take_sim m dst tag : forall ls es, Forall2 (msim m) ls es ->
  match ltake dst tag m ls, take dst tag es with
  | Some (b, ls'), Some (b', es') => b = b' /\ Forall2 (msim m) ls' es' /\
      forall j lm, nth_error ls' j = Some lm -> lm_taken lm = false -> nth_error ls j = Some lm
  | None, None => True
  | _, _ => False
  end.
Proof.
  induction 1 as [|lm em ls es M F IH]; [exact I|]. pose proof M as (D & T & K & EL & A & P). cbn.
  unfold lmatches, matches. rewrite D, T, K.
  destruct (negb (ms_taken em) && (ms_dst em =? dst) && (ms_tag em =? tag)) eqn:E.
  - split; [|split].
    + apply fill_copied; auto. destruct (all_copied (lm_part lm)) eqn:C; auto. right. apply P; auto. rewrite K. destruct (ms_taken em); auto; discriminate.
    + constructor; auto. repeat split; cbn; auto. discriminate.
    + intros [|j] lm'; cbn; auto. intros [= <-]. discriminate.
  - destruct (ltake dst tag m ls) as [[b ls']|], (take dst tag es) as [[b' es']|]; auto.
    destruct IH as (-> & F' & Q). split; auto. split; auto. intros [|j] lm'; cbn; auto.
Qed.

Lemma length_ltake dst tag m : forall (ls : list (lmsg L V)) b ls', ltake dst tag m ls = Some (b, ls') -> length ls' = length ls.
Proof.
  induction ls as [|lm ls IH]; cbn; intros b ls' H; [discriminate|]. destruct (lmatches dst tag lm); [now injection H as <- <-|].
  destruct (ltake dst tag m ls) as [[b' l']|]; [|discriminate]. injection H as <- <-. cbn. f_equal. eauto.
Qed.

Lemma rank_take m p ls es dst tag b ls' : rank_sim m p ls es -> ltake dst tag m ls = Some (b, ls') ->
  exists es', take dst tag es = Some (b, es') /\ rank_sim m p ls' es'.
Proof.
  intros (F & pend & S & P) E. pose proof (take_sim m dst tag ls es F) as T. rewrite E in T.
  destruct (take dst tag es) as [[b' es']|]; [|contradiction]. destruct T as (<- & F' & Q). exists es'. split; auto. split; auto.
  exists pend. rewrite (length_ltake _ _ _ _ _ _ E). split; auto.
Qed.

Lemma msim_change m m' lm em : msim m lm em -> (lm_taken lm = false -> all_copied (lm_part lm) = false -> lm_read lm m' = lm_read lm m) -> msim m' lm em.
Proof. intros (D & T & K & EL & A & P) H. repeat split; auto. intros. rewrite H; auto. Qed.

Lemma Forall2_change (m m' : L) ls es : Forall2 (msim m) ls es ->
  (forall j lm, nth_error ls j = Some lm -> lm_taken lm = false -> all_copied (lm_part lm) = false -> lm_read lm m' = lm_read lm m) ->
  Forall2 (msim m') ls es.
Proof.
  induction 1 as [|lm em ls es M F IH]; intros H; constructor.
  - eapply msim_change; eauto. apply (H 0%nat). reflexivity.
  - apply IH. intros j. apply (H (S j)).
Qed.

Lemma rank_store m m' src tag g p ls es b : rank_sim m (ORecv src tag g :: p) ls es -> g b m = Some m' -> rank_sim m' p ls es.
Proof.
  intros (F & pend & (S1 & S2) & P) E. split.
  - apply (Forall2_change m); auto. intros j lm N K C. eapply S1; eauto.
  - exists pend. auto.
Qed.

Lemma rank_local m g p ls es : rank_sim m (OLocal g :: p) ls es -> rank_sim (g m) p ls es.
Proof.
  intros (F & pend & (S1 & S2) & P). split.
  - apply (Forall2_change m); auto. intros j lm N K C. eapply S1; eauto.
  - exists pend. auto.
Qed.

Lemma rank_wait m j p ls es : rank_sim m (OWait j :: p) ls es ->
  (forall lm, nth_error ls j = Some lm -> lm_taken lm = true \/ all_copied (lm_part lm) = true) -> rank_sim m p ls es.
Proof.
  intros (F & pend & S & P) D. split; auto. exists (filter (fun x => negb (Nat.eqb (fst x) j)) pend). split; auto.
  intros i lm N K C. apply filter_In. split; [now apply P|]. cbn. destruct (Nat.eqb_spec i j); auto. subst. destruct (D lm N); congruence.
Qed.

Lemma nth_error_map_none (l : list V) k v : nth_error (map (fun _ => @None V) l) k = Some (Some v) -> False.
Proof. revert k. induction l; destruct k; cbn; try discriminate; auto. apply IHl. Qed.

Lemma rank_send m dst tag f p ls es : rank_sim m (OSend dst tag f :: p) ls es ->
  rank_sim m p (ls ++ [mkLM dst tag f (map (fun _ => None) (f m)) false]) (es ++ [mkM dst tag (f m) false]).
Proof.
  intros (F & pend & S & P). split.
  - apply Forall2_app; auto. constructor; auto. repeat split; cbn; auto.
    + now rewrite map_length. + intros k v H. apply nth_error_map_none in H. contradiction.
  - exists (pend ++ [(length ls, f)])%list. split.
    + rewrite app_length. cbn [length]. rewrite Nat.add_1_r. exact S.
    + intros j lm N K C. apply in_app_iff. destruct (Nat.lt_ge_cases j (length ls)).
      * rewrite nth_error_app1 in N by auto. auto.
      * rewrite nth_error_app2 in N by auto. destruct (j - length ls)%nat as [|i] eqn:E; [|destruct i; discriminate].
        injection N as <-. cbn. replace j with (length ls) by lia. auto.
Qed.

Lemma upd_copied : forall (part : list (option V)) k v, all_copied part = true -> all_copied (upd part k (Some v)) = true.
Proof. induction part as [|x part IH]; intros [|k] v; cbn; auto; intros H; apply andb_true_iff in H as [H1 H2]; auto. rewrite H1. now apply IH. Qed.

Lemma nth_error_upd {A} (l : list A) i j a x : nth_error (upd l j a) i = Some x -> (i = j /\ x = a) \/ (i <> j /\ nth_error l i = Some x).
Proof.
  destruct (Nat.eq_dec i j) as [->|N]; [|rewrite nth_error_upd_neq; auto]. intros H. left. split; auto.
  destruct (nth_error l j) eqn:E; [rewrite (nth_error_upd_eq _ _ _ _ E) in H; congruence|].
  apply nth_error_None in E. assert (nth_error (upd l j a) j = None) by (apply nth_error_None; rewrite length_upd; auto). congruence.
Qed.

Lemma rank_copy m p ls es j lm k v : rank_sim m p ls es -> nth_error ls j = Some lm -> lm_taken lm = false ->
  nth_error (lm_part lm) k = Some None -> nth_error (lm_read lm m) k = Some v ->
  rank_sim m p (upd ls j (mkLM (lm_dst lm) (lm_tag lm) (lm_read lm) (upd (lm_part lm) k (Some v)) false)) es.
Proof.
  intros (F & pend & S & P) N K E R.
  assert (NC : all_copied (lm_part lm) = false).
  { destruct (all_copied (lm_part lm)) eqn:C; auto. unfold all_copied in C. rewrite forallb_forall in C. apply nth_error_In in E. apply C in E. discriminate. }
  split.
  - clear S P pend. revert j N. induction F as [|lm0 em ls es M F IH]; intros [|j] N; try discriminate; cbn; constructor; auto.
    cbn in N. injection N as ->. destruct M as (D & T & KK & EL & A & P). repeat split; cbn; auto.
    + congruence.
    + now rewrite length_upd.
    + intros i w H. apply nth_error_upd in H. destruct H as [(-> & [= <-])|(_ & H)]; auto. rewrite <- P; auto.
  - exists pend. rewrite length_upd. split; auto. intros i lm' N' K' C'. apply nth_error_upd in N'.
    destruct N' as [(-> & ->)|(_ & N')]; [exact (P j lm N K NC)|auto].
Qed.

(** ** states *)
Definition sim (s : lnet L V) (e : net L V) : Prop :=
  l_prog s = n_prog e /\ l_mem s = n_mem e /\ length (l_sent s) = length (n_sent e) /\
  length (l_mem s) = length (l_sent s) /\ length (l_prog s) = length (l_sent s) /\
  forall r p m ls es, nth_error (l_prog s) r = Some p -> nth_error (l_mem s) r = Some m ->
    nth_error (l_sent s) r = Some ls -> nth_error (n_sent e) r = Some es -> rank_sim m p ls es.

Definition bf1 : nat -> nat -> bool := fun _ _ => true.

Lemma nth_error_same_len {A B} (l : list A) (l' : list B) i x : length l = length l' -> nth_error l i = Some x -> exists y, nth_error l' i = Some y.
Proof.
  intros E H. destruct (nth_error l' i) eqn:Q; eauto. apply nth_error_None in Q. assert (i < length l)%nat by (apply nth_error_Some; congruence). lia.
Qed.

(** changing memory and program of one rank, messages of one rank *)
Lemma sim_rank s e r p m ls es : sim s e ->
  (exists p0 m0, nth_error (l_prog s) r = Some p0 /\ nth_error (l_mem s) r = Some m0) ->
  rank_sim m p ls es ->
  sim (mkLN (upd (l_prog s) r p) (upd (l_mem s) r m) (upd (l_sent s) r ls)) (mkN (upd (n_prog e) r p) (upd (n_mem e) r m) (upd (n_sent e) r es)).
Proof.
  intros (EP & EM & EL & EL2 & EL3 & H) (p0 & m0 & P & M) RS. unfold sim. cbn. rewrite !length_upd.
  split; [congruence|]. split; [congruence|]. split; [auto|]. split; [auto|]. split; [auto|].
  intros r' p' m' ls' es' P' M' LS' ES'. apply nth_error_upd in LS', ES', P', M'.
  destruct LS' as [(-> & ->)|(N & LS')].
  - destruct ES' as [(_ & ->)|[? ?]]; [|congruence]. destruct P' as [(_ & ->)|[? ?]]; [|congruence]. destruct M' as [(_ & ->)|[? ?]]; [|congruence]. auto.
  - destruct ES' as [(? & _)|(_ & ES')]; [congruence|]. destruct P' as [(? & _)|(_ & P')]; [congruence|]. destruct M' as [(? & _)|(_ & M')]; [congruence|]. eauto.
Qed.

Lemma move_sim r s e s' : sim s e -> lmove r s = Some s' -> exists e', step bf1 r e = Some e' /\ sim s' e'.
Proof.
  intros SIM E. pose proof SIM as (EP & EM & EL & EL2 & EL3 & H). unfold lmove in E. unfold step. rewrite <- EP, <- EM.
  destruct (nth_error (l_prog s) r) as [[|o ps]|] eqn:P; try discriminate.
  destruct (nth_error (l_mem s) r) as [m|] eqn:M; [|destruct o; discriminate].
  destruct (nth_error (l_sent s) r) as [ls|] eqn:LS; [|destruct o; discriminate].
  destruct (nth_error_same_len _ _ _ _ EL LS) as (es & ES). rewrite ES.
  pose proof (H r _ _ _ _ P M LS ES) as RS. destruct o as [dst tag f|src tag g|j|g].
  - injection E as <-. eexists. split; [reflexivity|].
    pose proof (sim_rank s e r _ _ _ _ SIM ltac:(eauto) (rank_send _ _ _ _ _ _ _ RS)) as Q.
    rewrite <- EP, <- EM in Q. rewrite (upd_same _ _ _ M) in Q. exact Q.
  - destruct (src <? 0) eqn:SN; [discriminate|].
    destruct (nth_error (l_sent s) (Z.to_nat src)) as [ls0|] eqn:LS0; [|discriminate].
    destruct (nth_error (l_mem s) (Z.to_nat src)) as [m0|] eqn:M0; [|discriminate].
    destruct (ltake (Z.of_nat r) tag m0 ls0) as [[b ls0']|] eqn:T; [|discriminate].
    destruct (g b m) as [m1|] eqn:G; [|discriminate]. injection E as <-.
    destruct (nth_error_same_len _ _ _ _ EL LS0) as (es0 & ES0). rewrite ES0.
    destruct (nth_error_same_len _ _ _ _ (eq_sym EL3) LS0) as (p0 & P0).
    destruct (rank_take _ _ _ _ _ _ _ _ (H _ _ _ _ _ P0 M0 LS0 ES0) T) as (es0' & TK & RS0). rewrite TK, G.
    eexists. split; [reflexivity|].
    pose proof (sim_rank s e _ _ _ _ _ SIM ltac:(eauto) RS0) as Q. rewrite <- EP, <- EM in Q.
    rewrite (upd_same _ _ _ M0), (upd_same _ _ _ P0) in Q.
    pose proof Q as (_ & _ & EL' & _ & _ & H'). cbn in EL', H'.
    destruct (nth_error (upd (l_sent s) (Z.to_nat src) ls0') r) as [ls1|] eqn:LS1; [|apply nth_error_None in LS1; rewrite length_upd in LS1; assert (r < length (l_sent s))%nat by (apply nth_error_Some; congruence); lia].
    destruct (nth_error_same_len _ _ _ _ EL' LS1) as (es1 & ES1).
    pose proof (H' _ _ _ _ _ P M LS1 ES1) as RS1.
    pose proof (sim_rank _ _ r _ _ _ _ Q ltac:(cbn; eauto) (rank_store _ _ _ _ _ _ _ _ _ RS1 G)) as Q'. cbn in Q'.
    rewrite (upd_same _ _ _ LS1), (upd_same _ _ _ ES1) in Q'. exact Q'.
  - destruct (nth_error ls j) as [lm|] eqn:J; [|discriminate].
    destruct (lm_taken lm || all_copied (lm_part lm)) eqn:D; [|discriminate]. injection E as <-.
    destruct (nth_error_same_len _ _ _ _ (Forall2_length _ _ _ (proj1 RS)) J) as (em & J'). rewrite J'.
    unfold bf1. rewrite orb_true_r. eexists. split; [reflexivity|].
    assert (W : rank_sim m ps ls es).
    { apply (rank_wait _ _ _ _ _ RS). intros lm' N. assert (lm' = lm) by congruence. subst. now apply orb_true_iff. }
    pose proof (sim_rank _ _ r _ _ _ _ SIM ltac:(eauto) W) as Q. rewrite <- EP, <- EM in Q.
    rewrite (upd_same _ _ _ M), (upd_same _ _ _ LS), (upd_same _ _ _ ES) in Q. exact Q.
  - injection E as <-. eexists. split; [reflexivity|].
    pose proof (sim_rank _ _ r _ _ _ _ SIM ltac:(eauto) (rank_local _ _ _ _ _ RS)) as Q. rewrite <- EP, <- EM in Q.
    rewrite (upd_same _ _ _ LS), (upd_same _ _ _ ES) in Q. exact Q.
Qed.

Lemma copy_sim r j k s e s' : sim s e -> lcopy r j k s = Some s' -> sim s' e.
Proof.
  intros SIM E. pose proof SIM as (EP & EM & EL & EL2 & EL3 & H). unfold lcopy in E.
  destruct (nth_error (l_mem s) r) as [m|] eqn:M; [|discriminate].
  destruct (nth_error (l_sent s) r) as [ls|] eqn:LS; [|discriminate].
  destruct (nth_error ls j) as [lm|] eqn:J; [|discriminate].
  destruct (lm_taken lm) eqn:K; [discriminate|].
  destruct (nth_error (lm_part lm) k) as [[|]|] eqn:PT; try discriminate.
  destruct (nth_error (lm_read lm m) k) as [v|] eqn:R; [|discriminate]. injection E as <-.
  destruct (nth_error_same_len _ _ _ _ EL LS) as (es & ES).
  destruct (nth_error_same_len _ _ _ _ (eq_sym EL3) LS) as (p & P).
  pose proof (sim_rank _ _ r _ _ _ _ SIM ltac:(eauto) (rank_copy _ _ _ _ _ _ _ _ (H _ _ _ _ _ P M LS ES) J K PT R)) as Q.
  rewrite <- EP, <- EM in Q. rewrite (upd_same _ _ _ M), (upd_same _ _ _ P), (upd_same _ _ _ ES) in Q.
  destruct e. cbn in *. subst. exact Q.
Qed.

Lemma run_sim : forall sched s e s1, sim s e -> lrun sched s = Some s1 ->
  exists sched' e1, run bf1 sched' e = Some e1 /\ length sched' = moves sched /\ sim s1 e1.
Proof.
  induction sched as [|a sched IH]; intros s e s1 SIM E.
  - injection E as <-. exists [], e. auto.
  - cbn in E. destruct (lstep a s) as [s'|] eqn:ST; [|discriminate]. destruct a as [r|r j k]; cbn in ST.
    + destruct (move_sim _ _ _ _ SIM ST) as (e' & ST' & SIM'). destruct (IH _ _ _ SIM' E) as (sched' & e1 & R & LN & S1).
      exists (r :: sched'), e1. cbn. rewrite ST'. auto.
    + apply (IH _ e) in E; auto. eapply copy_sim; eauto.
Qed.

Lemma not_all_copied (part : list (option V)) : all_copied part = false -> exists k, nth_error part k = Some None.
Proof.
  induction part as [|[x|] part IH]; cbn; intros H; [discriminate| |exists 0%nat; auto].
  destruct (IH H) as (k & E). exists (S k). auto.
Qed.

(** where nothing can happen with late reading, nothing can happen without *)
Lemma stuck_sim s e : sim s e -> (forall a, lstep a s = None) -> forall r, step bf1 r e = None.
Proof.
  intros SIM ST r. pose proof SIM as (EP & EM & EL & EL2 & EL3 & H). pose proof (ST (Move r)) as E. cbn in E.
  unfold lmove in E. unfold step. rewrite <- EP, <- EM.
  destruct (nth_error (l_prog s) r) as [[|o ps]|] eqn:P; auto.
  destruct (nth_error (l_mem s) r) as [m|] eqn:M; [|destruct o; auto].
  destruct (nth_error (n_sent e) r) as [es|] eqn:ES; [|destruct o; auto].
  destruct (nth_error_same_len _ _ _ _ (eq_sym EL) ES) as (ls & LS). rewrite LS in E.
  pose proof (H r _ _ _ _ P M LS ES) as RS. destruct o as [dst tag f|src tag g|j|g]; try discriminate.
  - destruct (src <? 0) eqn:SN; auto.
    destruct (nth_error (n_sent e) (Z.to_nat src)) as [es0|] eqn:ES0; auto.
    destruct (nth_error_same_len _ _ _ _ (eq_sym EL) ES0) as (ls0 & LS0).
    destruct (nth_error_same_len _ _ _ _ (eq_sym EL2) LS0) as (m0 & M0).
    destruct (nth_error_same_len _ _ _ _ (eq_sym EL3) LS0) as (p0 & P0). rewrite LS0, M0 in E.
    pose proof (take_sim m0 (Z.of_nat r) tag ls0 es0 (proj1 (H _ _ _ _ _ P0 M0 LS0 ES0))) as T.
    destruct (ltake (Z.of_nat r) tag m0 ls0) as [[b ls']|], (take (Z.of_nat r) tag es0) as [[b' es']|]; try contradiction; auto.
    destruct T as (<- & _). destruct (g b m); [discriminate|auto].
  - destruct (nth_error es j) as [em|] eqn:J; auto. exfalso.
    destruct (nth_error_same_len _ _ _ _ (eq_sym (Forall2_length _ _ _ (proj1 RS))) J) as (lm & J'). rewrite J' in E.
    destruct (lm_taken lm) eqn:K; [discriminate|]. destruct (all_copied (lm_part lm)) eqn:C; [discriminate|].
    destruct (not_all_copied _ C) as (k & PK).
    assert (MS : msim m lm em) by (destruct RS as (F & _); eapply Forall2_nth2; eauto).
    destruct MS as (_ & _ & _ & LB & _ & RD). specialize (RD K C).
    destruct (nth_error_same_len _ (lm_read lm m) k _ ltac:(rewrite RD; exact LB) PK) as (v & RV).
    pose proof (ST (Copy r j k)) as CP. cbn in CP. unfold lcopy in CP. rewrite M, LS, J', K, PK, RV in CP. discriminate.
Qed.

Theorem late_read n (p : nat -> list (op L V)) m ms : (forall r, (r < n)%nat -> stable [] 0 (p r)) ->
  always_completes (start_state n p m) ms -> late_completes (late_state n p m) ms.
Proof.
  intros ST (total & AC). exists total. intros sched s1 E.
  assert (SIM : sim (late_state n p m) (start_state n p m)).
  { unfold sim, late_state, start_state, tab. cbn. rewrite !map_length. repeat split; auto.
    - rewrite nth_error_map in H1, H2. destruct (nth_error (seq 0 n) r); try discriminate.
      injection H1 as <-. injection H2 as <-. constructor.
    - exists []. rewrite nth_error_map in H, H1. destruct (nth_error (seq 0 n) r) as [r0|] eqn:Q; try discriminate.
      injection H as <-. injection H1 as <-. split; [|intros [|j]; discriminate]. apply ST. apply nth_error_In in Q. apply in_seq in Q. lia. }
  destruct (run_sim _ _ _ _ SIM E) as (sched' & e1 & R & LN & S1). destruct (AC _ _ _ R) as (B & F). split; [lia|].
  intros STK. destruct (F (stuck_sim _ _ S1 STK)) as (F1 & F2). destruct S1 as (EP & EM & _). split; [|congruence].
  unfold lfinished. rewrite EP. exact F1.
Qed.

(** ** scripts *)
(** what is sent by exchanges under way is kept; [started], [done] as in [well_formed] *)
Fixpoint calm (r : nat) (evs : list (event L V)) (started : list (@exchange L V)) (done : list nat) : Prop :=
  match evs with
  | [] => True
  | EvStart e :: evs' => calm r evs' (started ++ [e]) done
  | EvFinish i :: evs' =>
      (forall j e e' d t f s u g b m m', nth_error started i = Some e' -> nth_error started j = Some e -> ~ In j done ->
         In (d, t, f) (x_sends e r) -> In (s, u, g) (x_recvs e' r) -> g b m = Some m' -> f m' = f m) /\
      calm r evs' started (i :: done)
  | EvLocal g :: evs' =>
      (forall j e d t f m, nth_error started j = Some e -> ~ In j done -> In (d, t, f) (x_sends e r) -> f (g r m) = f m) /\
      calm r evs' started done
  end.

Definition pending (r : nat) (started : list (@exchange L V * nat)) (done : list nat) (x : nat * (L -> list V)) : Prop :=
  exists i e o l d t, nth_error started i = Some (e, o) /\ ~ In i done /\ nth_error (x_sends e r) l = Some (d, t, snd x) /\ fst x = (o + l)%nat.

Lemma stable_sends : forall (l : list (Z * Z * (L -> list V))) pend count ops,
  stable (pend ++ combine (seq count (length l)) (map snd l)) (count + length l) ops ->
  stable pend count (map (fun x => OSend (fst (fst x)) (snd (fst x)) (snd x)) l ++ ops).
Proof.
  induction l as [|x l IH]; intros pend count ops H; cbn in *.
  - rewrite app_nil_r, Nat.add_0_r in H. auto.
  - apply IH. rewrite <- app_assoc. cbn. rewrite Nat.add_succ_r in H. exact H.
Qed.

Lemma stable_recvs : forall (l : list (Z * Z * (list V -> L -> option L))) pend count ops,
  (forall s u g j f b m m', In (s, u, g) l -> In (j, f) pend -> g b m = Some m' -> f m' = f m) ->
  stable pend count ops -> stable pend count (map (fun x => ORecv (fst (fst x)) (snd (fst x)) (snd x)) l ++ ops).
Proof.
  induction l as [|[[s u] g] l IH]; intros pend count ops H S; cbn in *; auto. split; [|apply IH; eauto].
  intros j f b m m' I E. eapply H; eauto.
Qed.

Lemma stable_waits : forall l pend count ops,
  (forall pend', (forall x, In x pend' -> In x pend /\ ~ In (fst x) l) -> stable pend' count ops) ->
  stable pend count (map OWait l ++ ops).
Proof.
  induction l as [|j l IH]; intros pend count ops H; cbn in *; [apply H; auto|].
  apply IH. intros pend' A. apply H. intros x I. destruct (A x I) as (I1 & I2). apply filter_In in I1. destruct I1 as [I1 NE].
  split; auto. intros [Q|Q]; auto. subst. rewrite Nat.eqb_refl in NE. discriminate.
Qed.

Lemma nth_error_combine {A B} (l : list A) (l' : list B) i a b : nth_error (combine l l') i = Some (a, b) -> nth_error l i = Some a /\ nth_error l' i = Some b.
Proof. revert l' i. induction l; intros [|b' l'] [|i]; cbn; try discriminate; auto. now intros [= <- <-]. Qed.
Lemma nth_error_seq n a i j : nth_error (seq a n) i = Some j -> j = (a + i)%nat.
Proof. revert a i. induction n; intros a [|i]; cbn; try discriminate; [intros [= <-]; lia|]. intros H. apply IHn in H. lia. Qed.

Lemma script_stable r : forall evs started count done pend,
  (forall x, In x pend -> pending r started done x) -> calm r evs (map fst started) done ->
  (forall i, In i done -> i < length started)%nat ->
  stable pend count (script_ops r evs started count).
Proof.
  induction evs as [|ev evs IH]; intros started count done pend P C B; [exact I|]. destruct ev as [e|i|g]; cbn [script_ops calm] in *.
  - apply stable_sends. apply (IH _ _ done).
    + intros x I. apply in_app_iff in I. destruct I as [I|I].
      * destruct (P x I) as (i & e' & o & l & d & t & N & ND & S & Q). exists i, e', o, l, d, t. repeat split; auto.
        rewrite nth_error_app1; auto. apply nth_error_Some. congruence.
      * destruct x as [j f]. apply In_nth_error in I. destruct I as (l & N). apply nth_error_combine in N. destruct N as (N1 & N2).
        rewrite nth_error_map in N2. destruct (nth_error (x_sends e r) l) as [[[d t] f']|] eqn:S; [|discriminate]. injection N2 as ->.
        exists (length started), e, count, l, d, t. rewrite nth_error_app2, Nat.sub_diag by lia. repeat split; auto.
        -- intros ID. apply B in ID. lia.
        -- cbn. apply nth_error_seq in N1. lia.
    + now rewrite map_app.
    + intros i I. rewrite app_length. specialize (B i I). lia.
  - destruct C as (C1 & C2). destruct (nth_error started i) as [[e o]|] eqn:E; [|exact I].
    apply stable_recvs.
    + intros s u g j f b m m' I J G. destruct (P (j, f) J) as (i' & e' & o' & l & d & t & N & ND & S & Q).
      eapply C1; eauto; try (rewrite nth_error_map; rewrite ?E, ?N; reflexivity). eapply nth_error_In; eauto.
    + apply stable_waits. intros pend' A. apply (IH _ _ (i :: done)); auto; [|intros i' [<-|I]; [apply nth_error_Some; congruence|auto]]. intros x I. destruct (A x I) as (I1 & I2).
      destruct (P x I1) as (i' & e' & o' & l & d & t & N & ND & S & Q). exists i', e', o', l, d, t. repeat split; auto.
      intros [->|ND2]; auto. rewrite E in N. injection N as <- <-. apply I2. apply in_seq. assert (l < length (x_sends e r))%nat by (apply nth_error_Some; congruence). lia.
  - destruct C as (C1 & C2). split.
    + intros j f m J. destruct (P (j, f) J) as (i' & e' & o' & l & d & t & N & ND & S & Q).
      eapply C1; eauto; try (rewrite nth_error_map; rewrite ?N; reflexivity). eapply nth_error_In; eauto.
    + eapply IH; eauto.
Qed.
End Sim.
