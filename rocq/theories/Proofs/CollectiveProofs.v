(** Programs proceeding in step end in the same way under every schedule. *)
From Verif.Base Require Import Base Lemmas.
From Verif.Model Require Import Collective.
From Verif.Spec Require Import Together.
Local Open Scope nat_scope.

Section Adequacy.
Context {Ob V A : Type}.
Variable size : nat.
Notation proc := (proc Ob V A).
Notation cstate := (cstate Ob V A).

Lemma collect_mono (f g : nat -> option (call Ob V)) len n l :
  (forall r c, f r = Some c -> g r = Some c) -> collect f len n = Some l -> collect g len n = Some l.
Proof.
  intros M. revert l. induction n as [|n IH]; cbn; intros l; auto.
  destruct (collect f len n) as [l'|]; try discriminate. rewrite (IH _ eq_refl).
  destruct (f n) as [c|] eqn:F; try discriminate. now rewrite (M _ _ F).
Qed.

Lemma respond_mono (f g : nat -> option (call Ob V)) r a :
  (forall r c, f r = Some c -> g r = Some c) -> respond size f r = Some a -> respond size g r = Some a.
Proof.
  intros M. unfold respond. destruct (f r) as [[o|sd n|d room]|] eqn:F; try discriminate; rewrite (M _ _ F).
  - destruct (f 0) as [[]|] eqn:F0; try discriminate. now rewrite (M _ _ F0).
  - destruct (f 0) as [[| |]|] eqn:F0; try discriminate. now rewrite (M _ _ F0).
  - destruct (Nat.eqb r 0); auto. destruct room; try discriminate.
    destruct (collect f (length d) size) as [l|] eqn:C; try discriminate. now rewrite (collect_mono f g _ _ l M C).
Qed.

Lemma collect_ext (f g : nat -> option (call Ob V)) len n : (forall r, r < n -> f r = g r) -> collect f len n = collect g len n.
Proof. induction n as [|n IH]; cbn; intros E; auto. rewrite IH, E by auto. reflexivity. Qed.
Lemma respond_ext (f g : nat -> option (call Ob V)) r : r < size -> (forall r, r < size -> f r = g r) -> respond size f r = respond size g r.
Proof.
  intros H E. unfold respond. rewrite !(E r), !(E 0) by lia.
  destruct (g r) as [[]|]; auto. now rewrite (collect_ext f g _ size).
Qed.

(** the rounds of programs proceeding in step *)
Definition rounds (n : nat) (P : nat -> nat -> proc) (C : nat -> nat -> call Ob V) (out : nat -> res A) : Prop :=
  (forall d, d < n -> forall r, r < size -> exists k a, P d r = PCall (C d r) k /\ respond size (all_calls size (C d)) r = Some a /\ P (S d) r = k a) /\
  (forall r, r < size -> P n r = plift (out r)).

Lemma together_rounds ps out : together size ps out -> exists n P C, P 0 = ps /\ rounds n P C out.
Proof.
  induction 1 as [ps out E|ps cs ks ans out E R T (n & P & C & P0 & S1 & S2)].
  - exists 0, (fun _ => ps), (fun _ _ => CGather [] None). split; auto. split; [lia|auto].
  - exists (S n), (fun d => match d with O => ps | S d => P d end), (fun d => match d with O => cs | S d => C d end).
    split; auto. split; [|exact S2].
    intros [|d] Hd r Hr; [|apply S1; lia].
    exists (ks r), (ans r). rewrite P0. auto.
Qed.

Section Inv.
Variables (n : nat) (P : nat -> nat -> proc) (C : nat -> nat -> call Ob V) (out : nat -> res A).
Hypothesis HR : rounds n P C out.

Definition rank_ok (r : nat) (c : cstate) : Prop :=
  exists d m, c = mkCS (P d r) (map (fun i => C i r) (seq 0 m)) d /\ ((m = d /\ d <= n) \/ (m = S d /\ d < n)).
Definition inv (s : list cstate) : Prop := length s = size /\ forall r c, nth_error s r = Some c -> rank_ok r c.

Lemma plift_not_call (x : res A) c k : (plift x : proc) = PCall c k -> False.
Proof. destruct x; discriminate. Qed.

Lemma running r d c k : r < size -> d <= n -> P d r = PCall c k -> d < n /\ c = C d r /\
  exists a, respond size (all_calls size (C d)) r = Some a /\ P (S d) r = k a.
Proof.
  intros Hr Hd E. destruct HR as [S1 S2]. destruct (Nat.eq_dec d n) as [->|].
  - rewrite S2 in E by auto. destruct (plift_not_call _ _ _ E).
  - destruct (S1 d ltac:(lia) r Hr) as (k' & a & E' & R & N). rewrite E in E'. injection E' as -> ->.
    split; [lia|]. split; auto. now exists a.
Qed.

Lemma inv_size s r c : inv s -> nth_error s r = Some c -> r < size.
Proof. intros [L _] E. rewrite <- L. apply nth_error_Some. congruence. Qed.

Lemma posted_sub s d r c : inv s -> posted_in s d r = Some c -> all_calls size (C d) r = Some c.
Proof.
  unfold posted_in. intros I. destruct (nth_error s r) as [x|] eqn:E; try discriminate.
  pose proof (inv_size _ _ _ I E) as Hr. destruct (proj2 I _ _ E) as (d' & m & -> & M). cbn.
  intros H. unfold all_calls. rewrite (proj2 (Nat.ltb_lt _ _) Hr).
  assert (d < m) by (rewrite <- (seq_length m 0), <- (map_length (fun i => C i r)); apply nth_error_Some; congruence).
  rewrite nth_error_map, (nth_error_nth' _ 0) in H by (rewrite seq_length; lia). rewrite seq_nth in H by lia. cbn in H. congruence.
Qed.

Lemma nth_error_upd {B} (l : list B) i j b : nth_error (upd l i b) j = if Nat.eqb i j then match nth_error l j with Some _ => Some b | None => None end else nth_error l j.
Proof. revert i j. induction l as [|x l IH]; intros [|i] [|j]; cbn; auto. now destruct (Nat.eqb i j). Qed.

Lemma inv_step delayed r s s' : inv s -> cstep delayed r s = Some s' -> inv s'.
Proof.
  intros I. unfold cstep. destruct (nth_error s r) as [[p posted d]|] eqn:E; try discriminate.
  pose proof (inv_size _ _ _ I E) as Hr. destruct (proj2 I _ _ E) as (d' & m & X & M). injection X as -> -> ->.
  destruct (P d' r) as [| |c k] eqn:EP; try discriminate.
  assert (Hd : d' <= n) by lia. destruct (running r d' c k Hr Hd EP) as (Hd' & -> & a & R & N).
  rewrite map_length, seq_length.
  destruct (Nat.eqb_spec m d') as [->|NE].
  - intros [= <-]. split; [rewrite length_upd; apply I|]. intros r' c'. rewrite nth_error_upd.
    destruct (Nat.eqb_spec r r') as [<-|]; [rewrite E; intros [= <-]|apply I].
    exists d', (S d'). rewrite seq_S, map_app. cbn. rewrite EP. split; auto.
  - destruct (delayed r d' && negb (all_posted s d'))%bool; try discriminate.
    destruct (respond (length s) (posted_in s d') r) as [a'|] eqn:RS; try discriminate. intros [= <-].
    rewrite (proj1 I) in RS.
    assert (a' = a).
    { apply (respond_mono _ (all_calls size (C d'))) in RS; [congruence|]. intros r' c'. now apply posted_sub. }
    subst a'. split; [rewrite length_upd; apply I|]. intros r' c'. rewrite nth_error_upd.
    destruct (Nat.eqb_spec r r') as [<-|]; [rewrite E; intros [= <-]|apply I].
    exists (S d'), m. rewrite N. split; auto. left. lia.
Qed.

Lemma inv_start : inv (cstart size (P 0)).
Proof.
  split; [unfold cstart; now rewrite map_length, seq_length|]. intros r c E.
  assert (r < size). { unfold cstart in E. rewrite <- (seq_length size 0), <- (map_length (fun r => mkCS (P 0 r) [] 0)). apply nth_error_Some. congruence. }
  unfold cstart in E. rewrite nth_error_map, (nth_error_nth' _ 0) in E by (rewrite seq_length; lia).
  rewrite seq_nth in E by lia. injection E as <-. exists 0, 0. split; auto. left. lia.
Qed.

Lemma inv_run delayed sched : forall s s', inv s -> crun delayed sched s = Some s' -> inv s'.
Proof.
  induction sched as [|r sched IH]; cbn; intros s s' I; [now intros [= <-]|].
  destruct (cstep delayed r s) as [s1|] eqn:E; try discriminate. apply IH. eapply inv_step; eauto.
Qed.

Definition work (s : list cstate) : nat := list_sum (map (fun c => cs_done c + length (cs_posted c)) s).

Lemma work_upd (s : list cstate) r c c' : nth_error s r = Some c ->
  work (upd s r c') + (cs_done c + length (cs_posted c)) = work s + (cs_done c' + length (cs_posted c')).
Proof.
  unfold work, list_sum. revert r. induction s as [|x s IH]; intros [|r]; cbn; try discriminate.
  - intros [= <-]. lia.
  - intros E. specialize (IH _ E). lia.
Qed.

Lemma work_step delayed r s s' : cstep delayed r s = Some s' -> work s' = S (work s).
Proof.
  unfold cstep. destruct (nth_error s r) as [[p posted d]|] eqn:E; try discriminate.
  destruct p as [| |c k]; try discriminate. 
  destruct (Nat.eqb_spec (length posted) d).
  - intros [= <-]. pose proof (work_upd s r _ (mkCS (PCall c k) (posted ++ [c]) d) E) as W. cbn in W. rewrite app_length in W. cbn in W. lia.
  - destruct (_ && _)%bool; try discriminate. destruct (respond _ _ _) as [a|]; try discriminate.
    intros [= <-]. pose proof (work_upd s r _ (mkCS (k a) posted (S d)) E) as W. cbn in W. lia.
Qed.

Lemma work_run delayed sched : forall s s', crun delayed sched s = Some s' -> work s' = work s + length sched.
Proof.
  induction sched as [|r sched IH]; cbn; intros s s'; [intros [= <-]; lia|].
  destruct (cstep delayed r s) as [s1|] eqn:E; try discriminate. intros R. apply IH in R. apply work_step in E. lia.
Qed.

Lemma list_sum_bound (l : list nat) b : (forall x, In x l -> x <= b) -> list_sum l <= length l * b.
Proof. unfold list_sum. induction l as [|x l IH]; cbn; intros H; [lia|]. pose proof (H x (or_introl eq_refl)). specialize (IH (fun y Hy => H y (or_intror Hy))). lia. Qed.

Lemma work_bound s : inv s -> work s <= size * (2 * n).
Proof.
  intros I. unfold work. rewrite <- (proj1 I), <- (map_length (fun c : cstate => cs_done c + length (cs_posted c)) s).
  apply list_sum_bound. intros x H. apply in_map_iff in H. destruct H as (c & <- & H).
  apply In_nth_error in H. destruct H as [r H]. destruct (proj2 I _ _ H) as (d & m & -> & M). cbn.
  rewrite map_length, seq_length. lia.
Qed.

Lemma work_start : work (cstart size (P 0)) = 0.
Proof. unfold work, cstart. rewrite map_map. cbn. induction (seq 0 size); cbn; auto. Qed.

(** the rank furthest behind *)
Lemma laggard (s : list cstate) : s <> [] -> exists r c, nth_error s r = Some c /\ forall r' c', nth_error s r' = Some c' -> cs_done c <= cs_done c'.
Proof.
  induction s as [|x s IH]; [congruence|]. intros _. destruct s as [|y s].
  - exists 0, x. split; auto. intros [|[|r']] c' E; cbn in E; congruence || (injection E as <-; lia).
  - destruct IH as (r & c & E & M); [congruence|].
    destruct (Nat.le_gt_cases (cs_done x) (cs_done c)).
    + exists 0, x. split; auto. intros [|r'] c' E'; cbn in E'; [injection E' as <-; lia|]. specialize (M r' c' E'). lia.
    + exists (S r), c. split; auto. intros [|r'] c' E'; cbn in E'; [injection E' as <-; lia|]. now apply (M r').
Qed.

Lemma outcome_plift (x : res A) : forall l d, outcome_of (mkCS (plift x) l d : cstate) = Some x.
Proof. now destruct x. Qed.

Lemma inv_progress delayed s : inv s ->
  (forall r, r < size -> exists c, nth_error s r = Some c /\ outcome_of c = Some (out r)) \/ (exists r s', cstep delayed r s = Some s').
Proof.
  intros I. destruct s as [|x s0] eqn:Es.
  - left. intros r Hr. pose proof (proj1 I) as L. cbn in L. lia.
  - rewrite <- Es in *. destruct (laggard s) as (r & c & E & M); [congruence|]. clear x s0 Es.
    pose proof (inv_size _ _ _ I E) as Hr. destruct (proj2 I _ _ E) as (d & m & -> & HM). cbn in M.
    destruct (Nat.eq_dec d n) as [->|].
    + left. intros r' Hr'. destruct (nth_error s r') as [c'|] eqn:E'; [|apply nth_error_None in E'; rewrite (proj1 I) in E'; lia].
      eexists. split; [reflexivity|]. destruct (proj2 I _ _ E') as (d' & m' & -> & HM'). specialize (M _ _ E'). cbn in M.
      assert (d' = n) by lia. subst d'. rewrite (proj2 HR) by auto. apply outcome_plift.
    + right. assert (Hd : d < n) by lia.
      destruct (proj1 HR d Hd r Hr) as (k & a & EP & R & N).
      destruct HM as [[-> _]|[-> _]].
      * exists r. unfold cstep. rewrite E, EP, map_length, seq_length, Nat.eqb_refl. eauto.
      * destruct (all_posted s d) eqn:AP.
        -- exists r. unfold cstep. rewrite E, EP, map_length, seq_length.
           destruct (Nat.eqb_spec (S d) d); [lia|]. rewrite AP, Bool.andb_false_r, (proj1 I).
           rewrite (respond_ext _ (all_calls size (C d)) r Hr), R; eauto.
           intros r' Hr'. destruct (nth_error s r') as [c'|] eqn:E'; [|apply nth_error_None in E'; rewrite (proj1 I) in E'; lia].
           unfold posted_in, all_calls. rewrite E', (proj2 (Nat.ltb_lt _ _) Hr').
           unfold all_posted in AP. rewrite forallb_forall in AP. specialize (AP _ (nth_error_In _ _ E')).
           destruct (proj2 I _ _ E') as (d' & m' & -> & HM'). cbn [cs_posted] in AP |- *. rewrite map_length, seq_length in AP.
           apply Nat.ltb_lt in AP. rewrite nth_error_map, (nth_error_nth' _ 0) by (rewrite seq_length; lia).
           rewrite seq_nth by lia. reflexivity.
        -- (* someone has not posted: they are equally far and can post *)
           assert (exists r' c', nth_error s r' = Some c' /\ length (cs_posted c') <= d) as (r' & c' & E' & LP).
           { unfold all_posted in AP. clear - AP. induction s as [|x s IH]; [discriminate|]. cbn [forallb] in AP.
             destruct (Nat.ltb_spec d (length (cs_posted x))); cbn [andb] in AP.
             - destruct (IH AP) as (r' & c' & E & L). now exists (S r'), c'.
             - now exists 0, x. }
           destruct (proj2 I _ _ E') as (d' & m' & -> & HM'). cbn in LP. rewrite map_length, seq_length in LP.
           specialize (M _ _ E'). cbn in M. assert (d' = d /\ m' = d) as [-> ->] by lia.
           pose proof (inv_size _ _ _ I E') as Hr'. destruct (proj1 HR d Hd r' Hr') as (k' & a' & EP' & _ & _).
           exists r'. unfold cstep. rewrite E', EP', map_length, seq_length, Nat.eqb_refl. eauto.
Qed.

Lemma inv_outcome s r c x : inv s -> nth_error s r = Some c -> outcome_of c = Some x -> x = out r.
Proof.
  intros I E. pose proof (inv_size _ _ _ I E) as Hr. destruct (proj2 I _ _ E) as (d & m & -> & HM). 
  destruct (Nat.eq_dec d n) as [->|].
  - rewrite (proj2 HR) by auto. rewrite outcome_plift. congruence.
  - destruct (proj1 HR d ltac:(lia) r Hr) as (k & a & EP & _). unfold outcome_of. cbn. rewrite EP. discriminate.
Qed.
End Inv.

Theorem together_always (ps : nat -> proc) out : together size ps out -> always_ends size ps out.
Proof.
  intros T. destruct (together_rounds _ _ T) as (n & P & C & <- & HR).
  exists (size * (2 * n)). intros delayed sched s E.
  assert (I : inv n P C s) by (eapply (inv_run n P C out HR); [apply inv_start|exact E]).
  split; [|split].
  - pose proof (work_run _ _ _ _ E) as W. rewrite work_start in W. pose proof (work_bound n P C s I). lia.
  - eapply inv_progress; eauto.
  - intros r c x. eapply inv_outcome; eauto.
Qed.

End Adequacy.

Section Ext.
Context {Ob V A : Type}.
Variable size : nat.

Lemma together_ext (ps ps' : nat -> proc Ob V A) out : (forall r, r < size -> ps r = ps' r) -> together size ps out -> together size ps' out.
Proof.
  intros E T. destruct T as [ps out F|ps cs ks ans out F R T].
  - apply tg_end. intros r H. rewrite <- E by auto. auto.
  - apply (tg_round size ps' cs ks ans out); auto. intros r H. rewrite <- E by auto. auto.
Qed.

Lemma together_out (ps : nat -> proc Ob V A) out out' : (forall r, r < size -> out r = out' r) -> together size ps out -> together size ps out'.
Proof.
  intros E T. induction T as [ps out F|ps cs ks ans out F R T IH].
  - apply tg_end. intros r H. rewrite <- E by auto. auto.
  - apply (tg_round size ps cs ks ans out'); auto.
Qed.

End Ext.
Section Bind.
Context {Ob V A B : Type}.
Variable size : nat.
(** one program after another, if all ranks return from the first *)
Lemma together_bind (ps : nat -> proc Ob V A) (vs : nat -> A) (f : nat -> A -> proc Ob V B) out :
  together size ps (fun r => Ok (vs r)) -> together size (fun r => f r (vs r)) out -> together size (fun r => pbind (ps r) (f r)) out.
Proof.
  intros T T'. remember (fun r => Ok (vs r)) as o eqn:Eo. induction T as [ps o F|ps cs ks ans o F R T IH].
  - eapply together_ext; [|exact T']. intros r H. cbn. rewrite F by auto. rewrite Eo. reflexivity.
  - apply (tg_round size _ cs (fun r a => pbind (ks r a) (f r)) ans); auto.
    intros r H. rewrite F by auto. reflexivity.
Qed.

(** when all raise *)
Lemma together_bind_err (ps : nat -> proc Ob V A) (es : nat -> exc) (f : nat -> A -> proc Ob V B) :
  together size ps (fun r => Err (es r)) -> together size (fun r => pbind (ps r) (f r)) (fun r => Err (es r)).
Proof.
  intros T. remember (fun r => Err (es r)) as o eqn:Eo. induction T as [ps o F|ps cs ks ans o F R T IH].
  - apply tg_end. intros r H. rewrite F by auto. rewrite Eo. reflexivity.
  - apply (tg_round size _ cs (fun r a => pbind (ks r a) (f r)) ans); auto.
    intros r H. rewrite F by auto. reflexivity.
Qed.
End Bind.

(** ** the three operations *)
Section Ops.
Context {Ob V A : Type}.
Variable size : nat.

Lemma together_bcast (o : nat -> Ob) (k : nat -> Ob -> proc Ob V A) out : 0 < size ->
  together size (fun r => k r (o 0)) out -> together size (fun r => pbcast (o r) (k r)) out.
Proof.
  intros Hs T. apply (tg_round size _ (fun r => CBcast (o r)) (fun r a => match a with AObject o => k r o | AData _ => PErr TypeError end) (fun _ => AObject (o 0))); auto.
  intros r H. unfold respond, all_calls. rewrite (proj2 (Nat.ltb_lt _ _) H), (proj2 (Nat.ltb_lt _ _) Hs). reflexivity.
Qed.

Lemma together_scatter (d : list V) (send : nat -> option (list V)) count (k : nat -> list V -> proc Ob V A) out : 0 < size ->
  send 0 = Some d -> length d = size * count ->
  together size (fun r => k r (firstn count (skipn (r * count) d))) out ->
  together size (fun r => pdata (CScatter (send r) count) (k r)) out.
Proof.
  intros Hs S0 L T. apply (tg_round size _ (fun r => CScatter (send r) count) (fun r a => match a with AData l => k r l | AObject _ => PErr TypeError end)
    (fun r => AData (firstn count (skipn (r * count) d)))); auto.
  intros r H. unfold respond, all_calls. rewrite (proj2 (Nat.ltb_lt _ _) H), (proj2 (Nat.ltb_lt _ _) Hs), S0, L, Nat.eqb_refl. reflexivity.
Qed.

Lemma collect_all (send : nat -> list V) room len n : n <= size -> (forall r, r < n -> length (send r) = len) ->
  collect (all_calls size (fun r => CGather (send r) (room r)) : nat -> option (call Ob V)) len n = Some (flat_map send (seq 0 n)).
Proof.
  induction n as [|n IH]; intros Hn L; cbn [collect]; auto. rewrite IH by (auto; lia). unfold all_calls at 1.
  rewrite (proj2 (Nat.ltb_lt n size)) by lia. rewrite L, Nat.eqb_refl by lia.
  rewrite seq_S, flat_map_app. cbn. now rewrite app_nil_r.
Qed.

Lemma flat_map_length_const {B C} (f : B -> list C) len l : (forall x, In x l -> length (f x) = len) -> length (flat_map f l) = length l * len.
Proof. induction l as [|x l IH]; cbn; intros H; auto. rewrite app_length, IH by auto. rewrite H by auto. reflexivity. Qed.

Lemma together_gather (send : nat -> list V) (room : nat -> option nat) len (k : nat -> list V -> proc Ob V A) out : 0 < size ->
  (forall r, r < size -> length (send r) = len) -> room 0 = Some (size * len) ->
  together size (fun r => k r (if Nat.eqb r 0 then flat_map send (seq 0 size) else [])) out ->
  together size (fun r => pdata (CGather (send r) (room r)) (k r)) out.
Proof.
  intros Hs L R0 T. apply (tg_round size _ (fun r => CGather (send r) (room r)) (fun r a => match a with AData l => k r l | AObject _ => PErr TypeError end)
    (fun r => AData (if Nat.eqb r 0 then flat_map send (seq 0 size) else []))); auto.
  intros r H. unfold respond. unfold all_calls at 1. rewrite (proj2 (Nat.ltb_lt _ _) H).
  destruct (Nat.eqb_spec r 0) as [->|]; auto. rewrite R0, L, collect_all by auto.
  rewrite (flat_map_length_const _ len) by (intros x Hx; apply in_seq in Hx; apply L; lia).
  rewrite seq_length, Nat.eqb_refl. reflexivity.
Qed.
End Ops.

(** ** a root that raises at once leaves ranks waiting for its broadcast *)
Section Stuck.
Context {Ob V A : Type}.
Variables (size : nat) (ps : nat -> proc Ob V A) (e : exc).
Hypothesis H0 : ps 0 = PErr e.
Hypothesis H1 : forall r, 0 < r < size -> exists o k, ps r = pbcast o k.

Definition waiting (s : list (cstate Ob V A)) : Prop :=
  nth_error s 0 = Some (mkCS (PErr e) [] 0) /\
  forall r c, 0 < r -> nth_error s r = Some c -> exists o k, cs_proc c = pbcast o k /\ cs_done c = 0 /\ (cs_posted c = [] \/ cs_posted c = [CBcast o]).

Lemma waiting_step delayed r s s' : waiting s -> cstep delayed r s = Some s' -> waiting s' /\ length s' = length s.
Proof.
  intros (W0 & W) E. unfold cstep in E. destruct (nth_error s r) as [[p posted d]|] eqn:N; try discriminate.
  destruct r as [|r]; [rewrite W0 in N; injection N as <- <- <-; discriminate|].
  destruct (W (S r) _ ltac:(lia) N) as (o & k & E1 & E2 & E3). cbn in E1, E2, E3. subst p d. unfold pbcast in E.
  destruct E3 as [->| ->]; cbn [length Nat.eqb] in E.
  - injection E as <-. split; [|apply length_upd]. split; [rewrite nth_error_upd; exact W0|].
    intros r' c' P. rewrite nth_error_upd. destruct (Nat.eqb_spec (S r) r') as [<-|].
    + rewrite N. intros [= <-]. exists o, k. cbn. auto.
    + now apply W.
  - assert (R : respond (length s) (posted_in s 0) (S r) = None).
    { unfold respond, posted_in. rewrite N, W0. reflexivity. }
    rewrite R in E. destruct (_ && _)%bool; discriminate.
Qed.

Theorem root_raises delayed sched s : 0 < size -> crun delayed sched (cstart size ps) = Some s ->
  (exists c, nth_error s 0 = Some c /\ outcome_of c = Some (Err e)) /\
  forall r, 0 < r < size -> exists c, nth_error s r = Some c /\ outcome_of c = None.
Proof.
  intros Hs. assert (I : waiting (cstart size ps) /\ length (cstart size ps) = size).
  { unfold cstart. split; [|now rewrite map_length, seq_length]. split; [destruct size; [lia|]; cbn; now rewrite H0|].
    intros r c P E. assert (r < size). { rewrite <- (seq_length size 0), <- (map_length (fun r => mkCS (ps r) [] 0)). apply nth_error_Some. congruence. }
    rewrite nth_error_map, (nth_error_nth' _ 0) in E by (rewrite seq_length; lia). rewrite seq_nth in E by lia. injection E as <-.
    destruct (H1 r ltac:(lia)) as (o & k & X). exists o, k. cbn. auto. }
  revert I. generalize (cstart size ps). induction sched as [|r sched IH]; intros s0 (W & L); cbn.
  - intros [= <-]. destruct W as (W0 & W). split; [eauto|]. intros r Hr. destruct (nth_error s0 r) as [c|] eqn:N; [|apply nth_error_None in N; lia].
    exists c. split; auto. destruct (W r c ltac:(lia) N) as (o & k & E & _). unfold outcome_of. rewrite E. reflexivity.
  - destruct (cstep delayed r s0) as [s1|] eqn:E; try discriminate. destruct (waiting_step _ _ _ _ W E). apply IH. split; auto. lia.
Qed.
End Stuck.
