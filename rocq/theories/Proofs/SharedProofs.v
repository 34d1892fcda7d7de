(** Reasoning about ranks writing chunks of their own to a shared store whose metadata the root changes. *)
From Verif.Base Require Import Base Lemmas.
From Verif.Model Require Import Consts Numpy Shared Zarr.
From Verif.Spec Require Import Storage.
From Verif.Proofs Require Import NumpyProofs CollectiveProofs.

Lemma idx_eqb_eq p q : idx_eqb p q = true -> p = q.
Proof. now destruct (idx_eqb_spec p q). Qed.

Section M.
Context {V A : Type}.
Notation metas := (string -> option zmeta).
Notation heap := (string -> list Z -> option (chunk V)).

(** arrays appear, and grow along their first axis *)
Definition larger (z z' : zmeta) : Prop :=
  nth 0 (z_shape z) 0 <= nth 0 (z_shape z') 0 /\ tl (z_shape z') = tl (z_shape z) /\ length (z_shape z') = length (z_shape z) /\ z_chunks z' = z_chunks z.
Definition grows (m m' : metas) : Prop := forall n z, m n = Some z -> exists z', m' n = Some z' /\ larger z z'.
Lemma grows_refl m : grows m m.
Proof. intros n z H. exists z. repeat split; auto. lia. Qed.
Lemma grows_trans m m' m'' : grows m m' -> grows m' m'' -> grows m m''.
Proof.
  intros G G' n z H. destruct (G n z H) as (z' & H' & L1 & L2 & L3 & L4). destruct (G' n z' H') as (z'' & H'' & M1 & M2 & M3 & M4).
  exists z''. repeat split; auto; congruence || lia.
Qed.

Definition inside (m : metas) (n : string) (c : list Z) : Prop := exists z, m n = Some z /\ chunk_inside (z_shape z) (z_chunks z) c = true.
Lemma inside_larger z z' c : larger z z' -> chunk_inside (z_shape z) (z_chunks z) c = true -> chunk_inside (z_shape z') (z_chunks z') c = true.
Proof.
  intros (L1 & L2 & L3 & L4). rewrite L4. destruct z as [s ch at0], z' as [s' ch' at']; simpl in *. unfold chunk_inside.
  destruct s as [|x s], s' as [|x' s']; simpl in *; try discriminate; auto. subst s'.
  destruct (map2 Z.mul c ch) as [|y l]; simpl; auto. rewrite !andb_true_iff, !Z.ltb_lt. intuition lia.
Qed.
Lemma inside_grows m m' n c : grows m m' -> inside m n c -> inside m' n c.
Proof. intros G (z & H & I). destruct (G n z H) as (z' & H' & L). exists z'. split; auto. eapply inside_larger; eauto. Qed.

Variable owner : string -> list Z -> nat.
(** the collective calls all ranks make, and for each what the metadata is at least when the root makes it *)
Variable script : list (bool * metas).

Definition meta_op (o : zop V) : bool := match o with OCreate _ _ | OAttrs _ _ | OResize _ _ => true | _ => false end.

(** [wp r post n k h m p]: rank [r] with [k] calls behind it and [h] in its own chunks can execute [p], in at most [n] steps, until [post];
    the metadata is [m] if it is the root, otherwise has grown from [m] *)
Inductive wp {A : Type} (r : nat) (post : nat -> heap -> metas -> A -> Prop) : nat -> nat -> heap -> metas -> zproc V A -> Prop :=
| wp_ret n k h m a : post k h m a -> wp r post n k h m (SRet a)
| wp_read n k h m name c f : owner name c = r -> wp r post n k h m (f (AChunk (h name c))) -> wp r post (S n) k h m (SDo (ORead name c) f)
| wp_write n k h m name c d f : owner name c = r -> inside m name c -> wp r post n k (set_cell V name c d h) m (f AUnit) ->
    wp r post (S n) k h m (SDo (OWrite name c d) f)
| wp_load n k h m name f : (forall m', grows m m' -> wp r post n k h m (f (ALoaded (m' name)))) -> wp r post (S n) k h m (SDo (OLoad name) f)
| wp_meta n k h m o f a s : r = 0%nat -> meta_op o = true -> zexec o (mkStore m h) = (a, s) -> grows m (s_meta s) ->
    wp r post n k h (s_meta s) (f a) -> wp r post (S n) k h m (SDo o f)
| wp_sync n k h m b mk m' p : nth_error script k = Some (b, mk) -> (r = 0%nat -> grows mk m /\ m' = m) -> (r <> 0%nat -> m' = mk) ->
    wp r post n (S k) h m' p -> wp r post (S (S n)) k h m (SSync b p).

Lemma wp_more {B} r (post : nat -> heap -> metas -> B -> Prop) n k h m p : wp r post n k h m p -> forall n', (n <= n')%nat -> wp r post n' k h m p.
Proof.
  induction 1; intros n' L.
  - now constructor.
  - destruct n'; [lia|]. constructor; auto. apply IHwp. lia.
  - destruct n'; [lia|]. constructor; auto. apply IHwp. lia.
  - destruct n'; [lia|]. constructor. intros m' G. apply H0; auto. lia.
  - destruct n'; [lia|]. econstructor; eauto. apply IHwp. lia.
  - destruct n' as [|[|n']]; try lia. econstructor; eauto. apply IHwp. lia.
Qed.

Lemma wp_bind {B C} r (post : nat -> heap -> metas -> B -> Prop) (post' : nat -> heap -> metas -> C -> Prop) n n' k h m p f :
  wp r post n k h m p -> (forall k h m a, post k h m a -> wp r post' n' k h m (f a)) -> wp r post' (n + n') k h m (sbind p f).
Proof.
  intros W F. induction W; simpl.
  - eapply wp_more; [apply F; auto|lia].
  - now constructor.
  - now constructor.
  - constructor. intros m' G. now apply H0.
  - econstructor; eauto.
  - econstructor; eauto.
Qed.

Lemma wp_post {B} r (post post' : nat -> heap -> metas -> B -> Prop) n k h m p : wp r post n k h m p ->
  (forall k h m a, post k h m a -> post' k h m a) -> wp r post' n k h m p.
Proof.
  intros W F. induction W.
  - constructor; auto.
  - constructor; auto.
  - constructor; auto.
  - constructor; auto.
  - econstructor; eauto.
  - econstructor; eauto.
Qed.

(** ** the machine *)
Variable size : nat.
Hypothesis size_pos : (0 < size)%nat.
Variable post : nat -> nat -> heap -> metas -> A -> Prop.
Hypothesis post_end : forall r k h m a, post r k h m a -> k = length script.

Definition metas_eq (m m' : metas) : Prop := forall n, m n = m' n.

Record view_of := mkView { v_n : nat; v_h : heap; v_m : metas }.

Definition weight (c : srank (zop V) (zans V) A) (v : view_of) : nat := (v_n v + sr_done c - length (sr_posted c))%nat.
Fixpoint total (l : list (srank (zop V) (zans V) A)) (vs : list view_of) : nat :=
  match l, vs with c :: l, v :: vs => (weight c v + total l vs)%nat | _, _ => 0%nat end.

Definition rank_ok (r : nat) (c : srank (zop V) (zans V) A) (v : view_of) : Prop :=
  wp r (post r) (v_n v) (sr_done c) (v_h v) (v_m v) (sr_proc c) /\
  (forall i b, nth_error (sr_posted c) i = Some b -> exists m, nth_error script i = Some (b, m)) /\
  (length (sr_posted c) = sr_done c \/ length (sr_posted c) = S (sr_done c) /\ exists b p, sr_proc c = SSync b p).

Definition vheap (vs : list view_of) (r : nat) : heap := match nth_error vs r with Some v => v_h v | None => fun _ _ => None end.

Definition inv (s : zstore V * list (srank (zop V) (zans V) A)) (vs : list view_of) : Prop :=
  let '(st, ranks) := s in
  length ranks = size /\ length vs = size /\
  (forall r c v, nth_error ranks r = Some c -> nth_error vs r = Some v -> rank_ok r c v) /\
  (forall n c, s_cells st n c = vheap vs (owner n c) n c) /\
  (forall n c, s_cells st n c <> None -> inside (s_meta st) n c) /\
  (forall v, nth_error vs 0 = Some v -> metas_eq (v_m v) (s_meta st)) /\
  (forall r v, nth_error vs r = Some v -> grows (v_m v) (s_meta st)) /\
  (forall c i b m, nth_error ranks 0 = Some c -> (i < length (sr_posted c))%nat -> nth_error script i = Some (b, m) -> grows m (s_meta st)).

Lemma inv_upd st ranks vs r c v st' c' v' : inv (st, ranks) vs -> nth_error ranks r = Some c -> nth_error vs r = Some v ->
  rank_ok r c' v' ->
  (forall n x, s_cells st' n x = if Nat.eqb (owner n x) r then v_h v' n x else s_cells st n x) ->
  (forall n x, s_cells st' n x <> None -> inside (s_meta st') n x) ->
  grows (s_meta st) (s_meta st') -> (r = 0%nat -> metas_eq (v_m v') (s_meta st')) -> (r <> 0%nat -> metas_eq (s_meta st) (s_meta st')) ->
  grows (v_m v') (s_meta st') ->
  (r = 0%nat -> forall i b m, (i < length (sr_posted c'))%nat -> nth_error script i = Some (b, m) -> grows m (s_meta st')) ->
  inv (st', upd ranks r c') (upd vs r v').
Proof.
  intros (I1 & I2 & I3 & I4 & I5 & I6 & I7 & I8) Hc Hv R C Ins G M0 M1 Gv P. unfold inv. repeat match goal with |- _ /\ _ => split end.
  - now rewrite length_upd.
  - now rewrite length_upd.
  - intros r' c0 v0. rewrite !nth_error_upd. destruct (Nat.eqb_spec r r') as [<-|N].
    + rewrite Hc, Hv. intros [= <-] [= <-]. exact R.
    + apply I3.
  - intros n x. rewrite C. unfold vheap. rewrite nth_error_upd. rewrite Nat.eqb_sym. destruct (Nat.eqb_spec r (owner n x)) as [<-|N].
    + now rewrite Hv.
    + rewrite I4. reflexivity.
  - exact Ins.
  - intros v0. rewrite nth_error_upd. destruct (Nat.eqb_spec r 0) as [->|N].
    + rewrite Hv. intros [= <-]. auto.
    + intros E n. rewrite <- M1 by auto. now apply I6.
  - intros r' v0. rewrite nth_error_upd. destruct (Nat.eqb_spec r r') as [<-|N].
    + rewrite Hv. now intros [= <-].
    + intros E. eapply grows_trans; eauto.
  - intros c0 i b m. rewrite nth_error_upd. destruct (Nat.eqb_spec r 0) as [->|N].
    + rewrite Hc. intros [= <-]. intros. eapply P; eauto.
    + intros E L S. eapply grows_trans; eauto.
Qed.

Lemma total_upd ranks vs r c v c' v' : nth_error ranks r = Some c -> nth_error vs r = Some v ->
  (total (upd ranks r c') (upd vs r v') + weight c v = total ranks vs + weight c' v')%nat.
Proof.
  revert vs r. induction ranks as [|c0 ranks IH]; intros [|v0 vs] [|r]; simpl; try discriminate.
  - intros [= ->] [= ->]. lia.
  - intros E F. specialize (IH vs r E F). lia.
Qed.

Lemma zexec_meta o m h st a s : meta_op o = true -> metas_eq m (s_meta st) -> zexec o (mkStore m h) = (a, s) ->
  exists s2, zexec o st = (a, s2) /\ metas_eq (s_meta s) (s_meta s2) /\
    forall n c, s_cells s2 n c = s_cells st n c \/ s_cells s2 n c = None /\ ~ inside (s_meta s2) n c.
Proof.
  intros K E X. destruct o; try discriminate; simpl in *; rewrite (E name) in X; destruct (s_meta st name) as [z|] eqn:Z0.
  - injection X as <- <-. eexists. split; [reflexivity|]. split; auto.
  - injection X as <- <-. eexists. split; [reflexivity|]. split; auto. intros n. simpl. unfold set_meta. destruct (String.eqb n name); auto.
  - injection X as <- <-. eexists. split; [reflexivity|]. split; auto. intros n. simpl. unfold set_meta. destruct (String.eqb n name); auto.
  - injection X as <- <-. eexists. split; [reflexivity|]. split; auto.
  - destruct (Nat.eqb (length shape) (length (z_shape z))).
    + injection X as <- <-. eexists. split; [reflexivity|]. split.
      * intros n. simpl. unfold set_meta. destruct (String.eqb n name); auto.
      * intros n c. simpl. destruct (String.eqb_spec n name) as [->|N]; simpl; auto. destruct (chunk_inside shape (z_chunks z) c) eqn:I; simpl; auto.
        right. split; auto. intros (z' & Z' & I'). unfold set_meta in Z'. rewrite String.eqb_refl in Z'. injection Z' as <-. simpl in I'. congruence.
    + injection X as <- <-. eexists. split; [reflexivity|]. split; auto.
  - injection X as <- <-. eexists. split; [reflexivity|]. split; auto.
Qed.

Lemma grows_eq m m' m'' : grows m m' -> metas_eq m' m'' -> grows m m''.
Proof. intros G E n z H. rewrite <- E. now apply G. Qed.
Lemma grows_eq_l m m' m'' : metas_eq m m' -> grows m m'' -> grows m' m''.
Proof. intros E G n z H. rewrite <- E in H. now apply G. Qed.

Lemma inv_step delayed r st ranks vs s' : inv (st, ranks) vs -> sstep zexec delayed r (st, ranks) = Some s' ->
  exists vs', inv s' vs' /\ (total (snd s') vs' < total ranks vs)%nat.
Proof.
  intros I. pose proof I as (I1 & I2 & I3 & I4 & I5 & I6 & I7 & I8). unfold sstep. destruct (nth_error ranks r) as [c|] eqn:Hc; [|discriminate].
  assert (exists v, nth_error vs r = Some v) as (v & Hv).
  { destruct (nth_error vs r) as [v|] eqn:E; eauto. apply nth_error_None in E. assert (r < length ranks)%nat by (apply nth_error_Some; congruence). lia. }
  destruct (I3 r c v Hc Hv) as (W & P & D). destruct c as [p posted done]. destruct v as [n h m]. simpl in W, P, D.
  assert (IC : forall nm x, owner nm x = r -> s_cells st nm x = h nm x).
  { intros nm x O. rewrite I4. unfold vheap. now rewrite O, Hv. }
  pose proof (I7 _ _ Hv) as G7. simpl in G7.
  destruct p as [a|o f|b p]; [discriminate| |].
  - destruct (zexec o st) as [a st'] eqn:X. intros [= <-].
    assert (D' : length posted = done) by (destruct D as [D|[_ (b & p & D)]]; [auto|discriminate]). clear D.
    inversion W; subst.
    + cbn in X. injection X as <- <-. rewrite IC by reflexivity. exists (upd vs (owner name c) (mkView n0 h m)). split.
      * eapply inv_upd; eauto; simpl.
        -- split; simpl; auto.
        -- intros n x. destruct (Nat.eqb_spec (owner n x) (owner name c)) as [E|]; [now apply IC|auto].
        -- apply grows_refl.
        -- intros E. rewrite E in Hv. apply (I6 _ Hv).
        -- intros _ n. reflexivity.
        -- intros E i b mm. rewrite E in Hc. exact (I8 _ i b mm Hc).
      * simpl. pose proof (total_upd ranks vs _ _ _ (mkSR (f (AChunk (h name c))) posted (length posted)) (mkView n0 h m) Hc Hv) as T.
        unfold weight in T. cbn [v_n sr_done sr_posted] in T. lia.
    + cbn in X. injection X as <- <-. exists (upd vs (owner name c) (mkView n0 (set_cell V name c d h) m)). split.
      * eapply inv_upd; eauto; simpl.
        -- split; simpl; auto.
        -- intros n x. unfold set_cell. destruct (String.eqb n name && idx_eqb x c) eqn:E.
           ++ apply andb_prop in E. destruct E as [E1 E2]. apply String.eqb_eq in E1. apply idx_eqb_eq in E2. subst. now rewrite Nat.eqb_refl.
           ++ destruct (Nat.eqb_spec (owner n x) (owner name c)) as [E'|]; [now apply IC|auto].
        -- intros n x. unfold set_cell. destruct (String.eqb n name && idx_eqb x c) eqn:E; auto.
           apply andb_prop in E. destruct E as [E1 E2]. apply String.eqb_eq in E1. apply idx_eqb_eq in E2. subst. intros _. eapply inside_grows; eauto.
        -- apply grows_refl.
        -- intros E. rewrite E in Hv. apply (I6 _ Hv).
        -- intros _ n. reflexivity.
        -- intros E i b mm. rewrite E in Hc. exact (I8 _ i b mm Hc).
      * simpl. pose proof (total_upd ranks vs _ _ _ (mkSR (f AUnit) posted (length posted)) (mkView n0 (set_cell V name c d h) m) Hc Hv) as T.
        unfold weight in T. cbn [v_n sr_done sr_posted] in T. lia.
    + cbn in X. injection X as <- <-. exists (upd vs r (mkView n0 h m)). split.
      * eapply inv_upd; eauto; simpl.
        -- split; simpl; auto.
        -- intros n x. destruct (Nat.eqb_spec (owner n x) r) as [E|]; [now apply IC|auto].
        -- apply grows_refl.
        -- intros E. rewrite E in Hv. apply (I6 _ Hv).
        -- intros _ n. reflexivity.
        -- intros E i b mm. rewrite E in Hc. exact (I8 _ i b mm Hc).
      * simpl. pose proof (total_upd ranks vs _ _ _ (mkSR (f (ALoaded (s_meta st name))) posted (length posted)) (mkView n0 h m) Hc Hv) as T.
        unfold weight in T. cbn [v_n sr_done sr_posted] in T. lia.
    + pose proof (I6 _ Hv) as M6. simpl in M6.
      match goal with [ H : meta_op o = true, H' : zexec o _ = _, H'' : grows m _, HW : wp _ _ _ _ _ _ (f _) |- _ ] =>
        rename H into Mo; rename H' into X'; rename H'' into Gs; rename HW into W' end.
      destruct (zexec_meta _ _ _ st _ _ Mo M6 X') as (s2 & X2 & E2 & C2). rewrite X in X2. injection X2 as <- <-.
      assert (GG : grows (s_meta st) (s_meta st')) by (eapply grows_eq_l; [exact M6|]; eapply grows_eq; eauto).
      assert (CC : forall n x, s_cells st' n x = s_cells st n x).
      { intros n x. destruct (C2 n x) as [|[C2' C3]]; auto. destruct (s_cells st n x) eqn:E; auto. exfalso. apply C3. eapply inside_grows; [exact GG|]. apply I5. congruence. }
      exists (upd vs 0%nat (mkView n0 h (s_meta s))). split.
      * eapply inv_upd; eauto; simpl.
        -- split; simpl; auto.
        -- intros n x. rewrite CC. destruct (Nat.eqb_spec (owner n x) 0) as [E|]; [now apply IC|auto].
        -- intros n x. rewrite CC. intros Nn. eapply inside_grows; eauto.
        -- intros E. congruence.
        -- eapply grows_eq; [apply grows_refl|auto].
        -- intros E i b mm L S. eapply grows_trans; [|exact GG]. exact (I8 _ i b mm Hc L S).
      * simpl. pose proof (total_upd ranks vs _ _ _ (mkSR (f a) posted (length posted)) (mkView n0 h (s_meta s)) Hc Hv) as T.
        unfold weight in T. cbn [v_n sr_done sr_posted] in T. lia.
  - inversion W; subst. match goal with [ H : nth_error script done = Some (b, ?x) |- _ ] => rename H into Sk; rename x into mk end.
    destruct (Nat.eqb_spec (length posted) done) as [E|N].
    + intros [= <-]. exists vs. assert (U : upd vs r (mkView (S (S n0)) h m) = vs).
      { clear -Hv. revert r Hv. induction vs as [|v0 vs IH]; intros [|r]; simpl; try discriminate; [now intros [= ->]|]. intros H. f_equal. auto. }
      split.
      * rewrite <- U. eapply inv_upd; eauto; simpl.
        -- split; [exact W|]. split; simpl.
           ++ intros i b' Hi. destruct (Nat.lt_trichotomy i (length posted)) as [L|[L|L]].
              ** rewrite nth_error_app1 in Hi by auto. auto.
              ** subst i. rewrite nth_error_app2, Nat.sub_diag in Hi by auto. injection Hi as <-. exists mk. congruence.
              ** apply nth_error_Some_lt in Hi || (assert (i < length (posted ++ [b]))%nat by (apply nth_error_Some; congruence); rewrite app_length in *; simpl in *; lia).
           ++ right. rewrite app_length. simpl. split; [lia|]. eauto.
        -- intros n x. destruct (Nat.eqb_spec (owner n x) r) as [E'|]; [now apply IC|auto].
        -- apply grows_refl.
        -- intros E'. rewrite E' in Hv. apply (I6 _ Hv).
        -- intros _ n. reflexivity.
        -- intros E' i b' mm L S. rewrite app_length in L. simpl in L. destruct (Nat.eq_dec i (length posted)) as [->|].
           ++ rewrite E in S. rewrite S in Sk. injection Sk as -> ->. match goal with [ H : r = 0%nat -> _ |- _ ] => destruct (H E') as [Gk _] end. eapply grows_trans; eauto.
           ++ rewrite E' in Hc. apply (I8 _ i b' mm Hc); [simpl; lia|auto].
      * rewrite <- U at 1. simpl. pose proof (total_upd ranks vs _ _ _ (mkSR (SSync b p) (posted ++ [b]) done) (mkView (S (S n0)) h m) Hc Hv) as T.
        unfold weight in T. cbn [v_n sr_done sr_posted] in T. rewrite app_length in T. cbn [length] in T. lia.
    + destruct (may_complete (b || delayed r done) done b ranks) eqn:MC; [|discriminate]. intros [= <-].
      destruct D as [D|[D _]]; [contradiction|].
      match goal with [ H : wp _ _ _ (S done) _ ?x _, H0 : r = 0%nat -> _, H1 : r <> 0%nat -> _ |- _ ] => rename H into W'; rename H0 into R0; rename H1 into R1; rename x into m1 end.
      assert (Gm : grows m1 (s_meta st)).
      { destruct (Nat.eq_dec r 0) as [E0|N0].
        - destruct (R0 E0) as [_ ->]. exact G7.
        - rewrite (R1 N0). destruct ranks as [|root rest]; [discriminate|].
          assert (PC : posted_call done b root = true).
          { unfold may_complete in MC. destruct (b || delayed r done); [|exact MC]. cbn [forallb] in MC. apply andb_prop in MC. tauto. }
          unfold posted_call in PC. destruct (nth_error (sr_posted root) done) as [b'|] eqn:Pd; [|discriminate].
          apply (I8 root done b mk); auto. apply nth_error_Some. congruence. }
      exists (upd vs r (mkView n0 h m1)). split.
      * eapply inv_upd; eauto; simpl.
        -- split; simpl; auto.
        -- intros n x. destruct (Nat.eqb_spec (owner n x) r) as [E'|]; [now apply IC|auto].
        -- apply grows_refl.
        -- intros E'. destruct (R0 E') as [_ ->]. rewrite E' in Hv. apply (I6 _ Hv).
        -- intros _ n. reflexivity.
        -- intros E' i b' mm. rewrite E' in Hc. exact (I8 _ i b' mm Hc).
      * simpl. pose proof (total_upd ranks vs _ _ _ (mkSR p posted (S done)) (mkView n0 h m1) Hc Hv) as T.
        unfold weight in T. cbn [v_n sr_done sr_posted] in T. lia.
Qed.

Lemma inv_run delayed sched : forall st ranks vs s', inv (st, ranks) vs -> srun zexec delayed sched (st, ranks) = Some s' ->
  exists vs', inv s' vs' /\ (length sched + total (snd s') vs' <= total ranks vs)%nat.
Proof.
  induction sched as [|r sched IH]; intros st ranks vs s' I R; cbn [srun] in R.
  - injection R as <-. exists vs. split; auto.
  - destruct (sstep zexec delayed r (st, ranks)) as [[st1 ranks1]|] eqn:E; [|discriminate].
    destruct (inv_step _ _ _ _ _ _ I E) as (vs1 & I1 & L1). destruct (IH _ _ _ _ I1 R) as (vs' & I' & L'). exists vs'. split; auto. simpl in *. lia.
Qed.

(** a rank which has not ended and has completed fewest calls *)
Lemma fewest (l : list (srank (zop V) (zans V) A)) : (forall r c, nth_error l r = Some c -> result_of c <> None) \/
  exists r c, nth_error l r = Some c /\ result_of c = None /\ forall r' c', nth_error l r' = Some c' -> result_of c' = None -> (sr_done c <= sr_done c')%nat.
Proof.
  induction l as [|c l IH].
  - left. intros [|r] c; discriminate.
  - destruct IH as [IH|(r & c1 & H1 & H2 & H3)].
    + destruct (result_of c) eqn:E.
      * left. intros [|r] c'; cbn [nth_error]; [intros [= <-]; congruence|apply IH].
      * right. exists 0%nat, c. split; [reflexivity|]. split; auto. intros [|r'] c'; cbn [nth_error]; [intros [= <-]; auto|].
        intros H N. exfalso. eapply IH; eauto.
    + right. destruct (result_of c) eqn:E.
      * exists (S r), c1. split; auto. split; auto. intros [|r'] c'; cbn [nth_error]; [intros [= <-]; congruence|apply H3].
      * destruct (le_lt_dec (sr_done c) (sr_done c1)).
        -- exists 0%nat, c. split; auto. split; auto. intros [|r'] c'; cbn [nth_error]; [intros [= <-]; auto|]. intros H N. specialize (H3 _ _ H N). lia.
        -- exists (S r), c1. split; auto. split; auto. intros [|r'] c'; cbn [nth_error]; [intros [= <-] _; lia|apply H3].
Qed.

Lemma inv_progress delayed st ranks vs : inv (st, ranks) vs ->
  (forall r c, nth_error ranks r = Some c -> result_of c <> None) \/ exists r s', sstep zexec delayed r (st, ranks) = Some s'.
Proof.
  intros (I1 & I2 & I3 & _). destruct (fewest ranks) as [F|(r & c & Hc & Nr & Mn)]; [now left|right].
  (* some rank which can act without others *)
  assert (Free : (exists r' c', nth_error ranks r' = Some c' /\ result_of c' = None /\ length (sr_posted c') = sr_done c') \/
                 forall r' c', nth_error ranks r' = Some c' -> result_of c' = None -> length (sr_posted c') = S (sr_done c')).
  { assert (P : forall r' c', nth_error ranks r' = Some c' -> length (sr_posted c') = sr_done c' \/ length (sr_posted c') = S (sr_done c')).
    { intros r' c' H. assert (exists v, nth_error vs r' = Some v) as (v & Hv).
      { destruct (nth_error vs r') as [v|] eqn:E; eauto. apply nth_error_None in E. assert (r' < length ranks)%nat by (apply nth_error_Some; congruence). lia. }
      destruct (I3 _ _ _ H Hv) as (_ & _ & [D|[D _]]); auto. }
    clear -P. induction ranks as [|c0 l IH].
    - right. intros [|r'] c'; discriminate.
    - destruct IH as [(r' & c' & H & H')|IH].
      + intros r' c' H. apply (P (S r') c' H).
      + left. exists (S r'), c'. auto.
      + destruct (result_of c0) eqn:E.
        * right. intros [|r'] c'; simpl; [intros [= <-]; congruence|]. apply IH.
        * destruct (P 0%nat c0 eq_refl) as [D|D].
          -- left. exists 0%nat, c0. auto.
          -- right. intros [|r'] c'; simpl; [intros [= <-] _; auto|]. apply IH. }
  destruct Free as [(r' & c' & H & N & D)|All].
  - exists r'. unfold sstep. rewrite H. destruct c' as [[a|o f|b p] posted done]; simpl in *; try discriminate.
    + destruct (zexec o st). eauto.
    + subst. rewrite Nat.eqb_refl. eauto.
  - assert (V0 : forall r' c', nth_error ranks r' = Some c' -> exists v, nth_error vs r' = Some v /\ rank_ok r' c' v).
    { intros r' c' H. destruct (nth_error vs r') as [v|] eqn:E; eauto. apply nth_error_None in E. assert (r' < length ranks)%nat by (apply nth_error_Some; congruence). lia. }
    destruct (V0 _ _ Hc) as (v & Hv & W & P & D). pose proof (All _ _ Hc Nr) as Len.
    destruct c as [p posted done]. simpl in *. destruct D as [D|[_ (b & p' & ->)]]; [lia|].
    inversion W; subst. match goal with [ H : nth_error script done = Some (b, ?x) |- _ ] => rename H into Sk end.
    exists r. unfold sstep. rewrite Hc. destruct (Nat.eqb_spec (length posted) done); [lia|].
    assert (FA : forall c', In c' ranks -> posted_call done b c' = true).
    { intros c' HI. apply In_nth_error in HI. destruct HI as (r' & HI). destruct (V0 _ _ HI) as (v' & Hv' & W' & P' & D').
      assert (L : (done < length (sr_posted c'))%nat).
      { destruct (result_of c') as [a|] eqn:E.
        - destruct c' as [[a'|o f|b2 p2] posted' done']; simpl in *; try discriminate. injection E as ->.
          assert (done' = length script) by (inversion W'; eauto). assert (done < length script)%nat by (apply nth_error_Some; congruence). lia.
        - pose proof (All _ _ HI E). pose proof (Mn _ _ HI E). lia. }
      unfold posted_call. destruct (nth_error (sr_posted c') done) as [b'|] eqn:E; [|apply nth_error_None in E; lia].
      destruct (P' _ _ E) as (m2 & S'). rewrite S' in Sk. injection Sk as -> _. apply eqb_reflx. }
    assert (MC : may_complete (b || delayed r done) done b ranks = true).
    { unfold may_complete. destruct ranks as [|root rest]; [destruct r; discriminate|].
      destruct (b || delayed r done); [now apply forallb_forall|]. apply FA. now left. }
    rewrite MC. eauto.
Qed.

(** what is known once all ranks have ended *)
Definition all_ended (st : zstore V) (out : nat -> A) : Prop :=
  exists hs ms, (forall r, (r < size)%nat -> post r (length script) (hs r) (ms r) (out r)) /\
    (forall n c, s_cells st n c = if Nat.ltb (owner n c) size then hs (owner n c) n c else None) /\
    (forall n, ms 0%nat n = s_meta st n).

Theorem machine (ps : nat -> zproc V A) (ns : nat -> nat) :
  (forall r, (r < size)%nat -> wp r (post r) (ns r) 0 (fun _ _ => None) (fun _ => None) (ps r)) ->
  ends_with zexec size ps empty_store all_ended.
Proof.
  intros W. set (vs0 := map (fun r => mkView (ns r) (fun _ _ => None) (fun _ => None)) (seq 0 size)).
  assert (I0 : inv (empty_store, sstart size ps) vs0).
  { unfold sstart, vs0. split; [now rewrite map_length, seq_length|]. split; [now rewrite map_length, seq_length|].
    assert (Nth : forall B (f : nat -> B) r x, nth_error (map f (seq 0 size)) r = Some x -> (r < size)%nat /\ x = f r).
    { intros B f r x H. assert (r < size)%nat. { rewrite <- (seq_length size 0), <- (map_length f). apply nth_error_Some. congruence. }
      split; auto. rewrite (map_nth_error f r (seq 0 size) (d := r)) in H; [congruence|].
      rewrite (nth_error_nth' _ 0%nat) by (now rewrite seq_length). now rewrite seq_nth. }
    split; [|split; [|split; [|split; [|split]]]].
    - intros r c v H H'. apply Nth in H, H'. destruct H as [L ->], H' as [_ ->]. split; simpl; auto. split; auto. intros [|i] b; discriminate.
    - intros n c. simpl. unfold vheap. destruct (nth_error _ (owner n c)) as [v|] eqn:E; auto. apply Nth in E. destruct E as [_ ->]. reflexivity.
    - intros n c H. now contradiction H.
    - intros v H. apply Nth in H. destruct H as [_ ->]. intros n. reflexivity.
    - intros r v H. apply Nth in H. destruct H as [_ ->]. intros n z Hz. discriminate.
    - intros c i b m H. apply Nth in H. destruct H as [_ ->]. simpl. lia. }
  exists (total (sstart size ps) vs0). intros delayed sched st ranks R.
  destruct (inv_run _ _ _ _ _ _ I0 R) as (vs & I & L). split; [simpl in L; lia|].
  destruct (inv_progress delayed st ranks vs I) as [F|P]; [left|now right].
  pose proof I as (I1 & I2 & I3 & I4 & I5 & I6 & _).
  assert (Ex : forall r, (r < size)%nat -> exists c v a, nth_error ranks r = Some c /\ nth_error vs r = Some v /\ result_of c = Some a /\ post r (length script) (v_h v) (v_m v) a).
  { intros r Hr. destruct (nth_error ranks r) as [c|] eqn:Hc; [|apply nth_error_None in Hc; lia].
    destruct (nth_error vs r) as [v|] eqn:Hv; [|apply nth_error_None in Hv; lia].
    destruct (result_of c) as [a|] eqn:E; [|now contradiction (F r c)].
    exists c, v, a. repeat split; auto. destruct (I3 _ _ _ Hc Hv) as (W1 & _). destruct c as [[a'|o f|b p] posted done]; simpl in *; try discriminate.
    injection E as ->. inversion W1; subst. assert (done = length script) by eauto. now subst. }
  destruct (Ex 0%nat size_pos) as (_ & _ & a0 & _).
  set (out := fun r => match nth_error ranks r with Some c => match result_of c with Some a => a | None => a0 end | None => a0 end).
  exists out. split.
  - intros r Hr. destruct (Ex r Hr) as (c & v & a & Hc & Hv & E & _). exists c. split; auto. unfold out. now rewrite Hc, E.
  - exists (vheap vs), (fun r => match nth_error vs r with Some v => v_m v | None => fun _ => None end). split; [|split].
    + intros r Hr. destruct (Ex r Hr) as (c & v & a & Hc & Hv & E & Po). unfold vheap, out. now rewrite Hc, Hv, E.
    + intros n c. rewrite I4. destruct (Nat.ltb_spec (owner n c) size); auto. unfold vheap. destruct (nth_error vs (owner n c)) eqn:E; auto.
      assert (owner n c < length vs)%nat by (apply nth_error_Some; congruence). lia.
    + intros n. destruct (Ex 0%nat size_pos) as (c & v & a & Hc & Hv & _). rewrite Hv. now apply I6.
Qed.
End M.
