(** Executions of message programs and of collective programs, as parts of executions of programs which use both. *)
From Verif.Base Require Import Base Lemmas.
From Verif.Model Require Import Network Collective Cluster.
From Verif.Spec Require Import Lockstep Together.
From Verif.Proofs Require Import NetworkProofs CollectiveProofs Phases ClusterProofs.
From Coq Require Import ZifyBool.

Section Lift.
Context {Ob V A : Type}.
Variable bf : nat -> nat -> bool.
Variable dl : nat -> ctx -> nat -> bool.
Variable size : nat.
Notation rproc := (rproc Ob V A).
Notation log := (nat -> list (ctx * gcall Ob V)).

(** all ranks, as functions of the rank *)
Definition cstp (pp : nat -> rproc) (posted : log) (pend : nat -> bool) (q : nat -> list (msg V)) : cluster Ob V A :=
  mkCl (tab size (fun r => mkRk (pp r) (posted r) (pend r))) (tab size q).
Definition cst pp posted q := cstp pp posted (fun _ => false) q.

Lemma cstp_ext pp pp' po po' pe pe' q q' : (forall r, (r < size)%nat -> pp r = pp' r) -> (forall r, (r < size)%nat -> po r = po' r) ->
  (forall r, (r < size)%nat -> pe r = pe' r) -> (forall r, (r < size)%nat -> q r = q' r) -> cstp pp po pe q = cstp pp' po' pe' q'.
Proof.
  intros H1 H2 H3 H4. unfold cstp. f_equal; [|now apply tab_ext]. apply tab_ext. intros r Hr. now rewrite H1, H2, H3.
Qed.

Definition creaches (s s' : cluster Ob V A) : Prop := exists sched, cl_run bf dl sched s = Some s'.
Lemma creaches_refl s : creaches s s.
Proof. exists []. reflexivity. Qed.
Lemma creaches_trans s1 s2 s3 : creaches s1 s2 -> creaches s2 s3 -> creaches s1 s3.
Proof. intros [a H] [b G]. exists (a ++ b)%list. now rewrite (cl_run_app _ _ _ _ _ _ H). Qed.
Lemma creaches_step s s' r : cl_step bf dl r s = Some s' -> creaches s s'.
Proof. intros E. exists [r]. cbn. now rewrite E. Qed.

(** ** messages *)
Section Messages.
Context {L : Type}.
Variable K : nat -> L -> rproc.
Variable posted : log.

Definition lifted (N : @net L V) : cluster Ob V A :=
  mkCl (tab size (fun r => mkRk (match nth_error (n_prog N) r, nth_error (n_mem N) r with
                                 | Some p, Some m => rbind (on_memory p m) (K r)
                                 | _, _ => RErr IndexError
                                 end) (posted r) false)) (n_sent N).

Lemma lifted_upd N r p m sent : (r < size)%nat -> nth_error (n_prog N) r <> None -> nth_error (n_mem N) r <> None ->
  lifted (mkN (upd (n_prog N) r p) (upd (n_mem N) r m) sent) =
  mkCl (upd (cl_ranks (lifted N)) r (mkRk (rbind (on_memory p m) (K r)) (posted r) false)) sent.
Proof.
  intros Hr HP HM. unfold lifted. cbn [cl_ranks n_prog n_mem n_sent]. rewrite upd_tab. f_equal. apply tab_ext. intros i Hi.
  destruct (nth_error (n_prog N) r) as [p0|] eqn:EP; [|congruence]. destruct (nth_error (n_mem N) r) as [m0|] eqn:EM; [|congruence].
  destruct (Nat.eqb_spec i r) as [->|NE].
  - now rewrite (nth_error_upd_eq _ _ _ _ EP), (nth_error_upd_eq _ _ _ _ EM).
  - now rewrite !nth_error_upd_neq by auto.
Qed.

Lemma upd_same {B} (l : list B) i a : nth_error l i = Some a -> upd l i a = l.
Proof. revert i; induction l; destruct i; cbn; intros E; try discriminate; [congruence|f_equal; auto]. Qed.

Lemma lift_step N N' r : length (n_prog N) = size -> step bf r N = Some N' -> length (n_prog N') = size /\ creaches (lifted N) (lifted N').
Proof.
  intros LN S. unfold step in S. destruct (nth_error (n_prog N) r) as [[|o ps]|] eqn:EP; try discriminate.
  assert (Hr : (r < size)%nat) by (rewrite <- LN; apply nth_error_Some; congruence).
  destruct (nth_error (n_mem N) r) as [m|] eqn:EM; [|destruct o; discriminate]. destruct (nth_error (n_sent N) r) as [sent|] eqn:ES; [|destruct o; discriminate].
  assert (KR : nth_error (cl_ranks (lifted N)) r = Some (mkRk (rbind (on_memory (o :: ps) m) (K r)) (posted r) false)).
  { unfold lifted. cbn [cl_ranks]. rewrite nth_error_tab by auto. now rewrite EP, EM. }
  assert (KEEP : forall ps' sent', lifted (mkN (upd (n_prog N) r ps') (n_mem N) sent') =
     mkCl (upd (cl_ranks (lifted N)) r (mkRk (rbind (on_memory ps' m) (K r)) (posted r) false)) sent').
  { intros ps' sent'. rewrite <- (lifted_upd N r ps' m sent') by (auto; congruence). now rewrite (upd_same (n_mem N) r m EM). }
  destruct o as [dst tag payload|src tag store|j|f].
  - injection S as <-. split; [cbn [n_prog]; now rewrite length_upd|]. apply creaches_step with r. unfold cl_step, react. rewrite KR.
    cbn [k_proc k_posted k_pending rbind on_memory cl_sent]. unfold lifted at 1. cbn [cl_sent]. rewrite ES. cbn [affect].
    change (cl_sent (lifted N)) with (n_sent N). rewrite ES. f_equal. symmetry. apply (KEEP ps).
  - destruct (src <? 0) eqn:SR; [discriminate|]. destruct (nth_error (n_sent N) (Z.to_nat src)) as [l|] eqn:EL; [|discriminate].
    destruct (take (Z.of_nat r) tag l) as [[body l']|] eqn:ET; [|discriminate]. destruct (store body m) as [m'|] eqn:EST; [|discriminate]. injection S as <-.
    split; [cbn [n_prog]; now rewrite length_upd|]. apply creaches_step with r. unfold cl_step, react. rewrite KR.
    cbn [k_proc k_posted k_pending rbind on_memory]. change (cl_sent (lifted N)) with (n_sent N). rewrite SR, EL, ET. cbn [affect]. rewrite EL, ET, EST.
    f_equal. symmetry. apply lifted_upd; auto; congruence.
  - destruct (nth_error sent j) as [mg|] eqn:EJ; [|discriminate]. destruct (ms_taken mg || bf r j) eqn:TB; [|discriminate]. injection S as <-.
    split; [cbn [n_prog]; now rewrite length_upd|]. apply creaches_step with r. unfold cl_step, react. rewrite KR.
    cbn [k_proc k_posted k_pending rbind on_memory]. change (cl_sent (lifted N)) with (n_sent N). rewrite ES, EJ, TB. cbn [affect].
    f_equal. symmetry. apply (KEEP ps).
  - injection S as <-. split; [cbn [n_prog]; now rewrite length_upd|]. cbn [rbind on_memory] in KR.
    rewrite lifted_upd by (auto; congruence). rewrite (upd_same _ _ _ KR). exists []. reflexivity.
Qed.

Lemma lift_run sched : forall N N', length (n_prog N) = size -> run bf sched N = Some N' -> creaches (lifted N) (lifted N').
Proof.
  induction sched as [|r sched IH]; cbn [run]; intros N N' LN R.
  - injection R as <-. apply creaches_refl.
  - destruct (step bf r N) as [N1|] eqn:S; [|discriminate]. destruct (lift_step _ _ _ LN S) as (L1 & C). eapply creaches_trans; eauto.
Qed.

Lemma lift_reaches p m q m' q' : reaches bf (net_of size p m q) (net_of size (fun _ => []) m' q') ->
  creaches (cst (fun r => rbind (on_memory (p r) (m r)) (K r)) posted q) (cst (fun r => K r (m' r)) posted q').
Proof.
  assert (LE : forall p m q, cst (fun r => rbind (on_memory (p r) (m r)) (K r)) posted q = lifted (net_of size p m q)).
  { clear. intros. unfold cst, cstp, lifted, net_of. cbn [n_prog n_mem n_sent]. f_equal. apply tab_ext. intros r Hr. now rewrite !nth_error_tab. }
  intros (sched & R). rewrite LE. change (cst (fun r => K r (m' r)) posted q') with (cst (fun r => rbind (on_memory (@nil (op L V)) (m' r)) (K r)) posted q').
  rewrite (LE (fun _ => [])). eapply lift_run; eauto. unfold net_of. cbn [n_prog]. unfold tab. now rewrite map_length, seq_length.
Qed.
End Messages.

(** ** one round of collective calls *)
Definition inb (r : nat) (l : list nat) : bool := existsb (Nat.eqb r) l.
Lemma inb_spec r l : reflect (In r l) (inb r l).
Proof.
  unfold inb. destruct (existsb (Nat.eqb r) l) eqn:E; constructor.
  - apply existsb_exists in E. destruct E as (x & I & H). apply Nat.eqb_eq in H. now subst.
  - intros I. assert (existsb (Nat.eqb r) l = true); [|congruence]. apply existsb_exists. exists r. split; auto. apply Nat.eqb_refl.
Qed.
Lemma inb_nil r : inb r [] = false. Proof. reflexivity. Qed.
Lemma inb_cons r x l : inb r (x :: l) = Nat.eqb r x || inb r l. Proof. reflexivity. Qed.
Lemma inb_self r l : ~ In r l -> inb r l = false. Proof. intros H. now destruct (inb_spec r l). Qed.

Ltac by_rank := repeat match goal with
  | |- context [inb _ (_ :: _)] => rewrite inb_cons
  | |- context [Nat.eqb ?a ?b] => destruct (Nat.eqb_spec a b); subst
  | H : ~ In ?a ?l |- context [inb ?a ?l] => rewrite (inb_self a l H)
  end; cbn [orb andb negb]; auto.

Lemma post_all (g : nat -> group) (c : nat -> gcall Ob V) (k : nat -> ganswer Ob V -> rproc) q ms : forall pp posted pend,
  NoDup ms -> (forall r, In r ms -> (r < size)%nat /\ pp r = RCall (g r) (c r) (k r) /\ pend r = false) ->
  creaches (cstp pp posted pend q) (cstp pp (fun r => if inb r ms then posted r ++ [(g_ctx (g r), c r)] else posted r)%list (fun r => inb r ms || pend r) q).
Proof.
  induction ms as [|x ms IH]; intros pp posted pend ND H.
  - apply creaches_refl.
  - inversion ND as [|? ? NI ND']; subst. destruct (H x (or_introl eq_refl)) as (Hx & Ex & Px).
    eapply creaches_trans.
    + apply creaches_step with x. unfold cl_step, react, cstp. cbn [cl_ranks cl_sent]. rewrite nth_error_tab by auto. cbn [k_proc k_posted k_pending]. rewrite Ex, Px.
      cbn [affect]. reflexivity.
    + rewrite upd_tab. fold (@tab (list (msg V)) size q).
      pose proof (IH pp (fun r => if Nat.eqb r x then posted r ++ [(g_ctx (g r), c r)] else posted r)%list (fun r => Nat.eqb r x || pend r) ND') as G.
      match type of G with _ -> creaches ?a _ => match goal with |- creaches ?b _ => replace b with a end end.
      2:{ unfold cstp. f_equal. apply tab_ext. intros r Hr. by_rank. now rewrite Ex. }
      match type of G with _ -> creaches _ ?a => match goal with |- creaches _ ?b => replace b with a end end.
      2:{ apply cstp_ext; auto; intros r Hr; by_rank; now rewrite ?orb_true_r. }
      apply G. intros r I. destruct (H r (or_intror I)) as (Hr & Er & Pr). split; auto. split; auto. destruct (Nat.eqb_spec r x); [subst; contradiction|]. now rewrite Pr.
Qed.

Section Round.
Variable g : group.
Variable c : nat -> gcall Ob V.
Variable k : nat -> ganswer Ob V -> rproc.
Variable N : nat.
Variable a : nat -> ganswer Ob V.

Lemma complete_all q posted ms : forall pp pend, NoDup ms -> (forall r, In r ms -> (r < size)%nat /\ pp r = RCall g (c r) (k r) /\ pend r = true /\
    length (calls_on (g_ctx g) (posted r)) = S N /\
    forall pp pend, let ks := tab size (fun r => mkRk (pp r) (posted r) (pend r)) : list (rank Ob V A) in
      everyone_posted ks g N = true /\ ganswered ks g N r (c r) = Some (a r)) ->
  creaches (cstp pp posted pend q) (cstp (fun r => if inb r ms then k r (a r) else pp r) posted (fun r => negb (inb r ms) && pend r) q).
Proof.
  induction ms as [|x ms IH]; intros pp pend ND H.
  - apply creaches_refl.
  - inversion ND as [|? ? NI ND']; subst. destruct (H x (or_introl eq_refl)) as (Hx & Ex & Px & Lx & Ax). destruct (Ax pp pend) as (EV & GA).
    eapply creaches_trans.
    + apply creaches_step with x. unfold cl_step, react, cstp. cbn [cl_ranks cl_sent]. rewrite nth_error_tab by auto. cbn [k_proc k_posted k_pending]. rewrite Ex, Px.
      cbv zeta. rewrite Lx. cbn [pred]. rewrite EV, GA, andb_false_r. cbn [affect]. reflexivity.
    + rewrite upd_tab. fold (@tab (list (msg V)) size q).
      pose proof (IH (fun r => if Nat.eqb r x then k r (a r) else pp r) (fun r => negb (Nat.eqb r x) && pend r) ND') as G.
      match type of G with _ -> creaches ?a _ => match goal with |- creaches ?b _ => replace b with a end end.
      2:{ unfold cstp. f_equal. apply tab_ext. intros r Hr. by_rank. }
      match type of G with _ -> creaches _ ?a => match goal with |- creaches _ ?b => replace b with a end end.
      2:{ apply cstp_ext; auto; intros r Hr; by_rank; now rewrite ?andb_false_r. }
      apply G. intros r I. destruct (H r (or_intror I)) as (Hr & Er & Pr & Lr & Ar). destruct (Nat.eqb_spec r x) as [->|]; [contradiction|]. rewrite Pr. auto.
Qed.

Hypothesis Hin : forall r, In r (g_members g) -> (r < size)%nat.
Hypothesis Hnd : NoDup (g_members g).

Lemma calls_on_app x (l l' : list (ctx * gcall Ob V)) : calls_on x (l ++ l') = (calls_on x l ++ calls_on x l')%list.
Proof. unfold calls_on. now rewrite filter_app, map_app. Qed.
Lemma calls_on_one x (b : gcall Ob V) : calls_on x [(x, b)] = [b].
Proof. unfold calls_on. cbn. destruct (ctx_eqb_spec x x); [reflexivity|congruence]. Qed.

(** calls of the members at the same place of the sequence of calls *)
Definition aligned (posted : log) : Prop := forall r, In r (g_members g) -> length (calls_on (g_ctx g) (posted r)) = N.

Lemma round_reaches pp posted q : aligned posted -> (forall r, In r (g_members g) -> pp r = RCall g (c r) (k r)) ->
  (forall ks : list (rank Ob V A), (forall i r, nth_error (g_members g) i = Some r -> posted_by ks g N i = Some (c r)) ->
     forall r, In r (g_members g) -> ganswered ks g N r (c r) = Some (a r)) ->
  creaches (cst pp posted q) (cst (fun r => if inb r (g_members g) then k r (a r) else pp r)
     (fun r => if inb r (g_members g) then posted r ++ [(g_ctx g, c r)] else posted r)%list q).
Proof.
  intros AL PP AN. unfold cst. eapply creaches_trans; [apply (post_all (fun _ => g) c k q (g_members g)); auto|].
  set (po := fun r => if inb r (g_members g) then (posted r ++ [(g_ctx g, c r)])%list else posted r).
  assert (PB : forall pp pend i r, nth_error (g_members g) i = Some r -> posted_by (tab size (fun r => mkRk (pp r) (po r) (pend r)) : list (rank Ob V A)) g N i = Some (c r)).
  { intros pp' pend i r E. unfold posted_by. rewrite E. assert (I := nth_error_In _ _ E). rewrite nth_error_tab by auto. cbn [k_posted]. unfold po.
    destruct (inb_spec r (g_members g)); [|contradiction]. rewrite calls_on_app, calls_on_one, nth_error_app2 by (rewrite AL; auto). rewrite AL, Nat.sub_diag by auto. reflexivity. }
  match goal with |- creaches (cstp ?a ?b ?e ?f) ?z => pose proof (complete_all q po (g_members g) a e Hnd) as C end.
  match type of C with _ -> creaches _ ?a => match goal with |- creaches _ ?b => replace b with a end end.
  2:{ apply cstp_ext; auto. intros r Hr. destruct (inb r (g_members g)); reflexivity. }
  apply C. intros r I. split; auto. split; auto. destruct (inb_spec r (g_members g)) as [_|]; [|contradiction]. split; auto.
  split. { unfold po. destruct (inb_spec r (g_members g)); [|contradiction]. rewrite calls_on_app, calls_on_one, app_length, AL by auto. cbn. lia. }
  intros pp' pend ks. split.
  - unfold everyone_posted. apply forallb_forall. intros i Ii. apply in_seq in Ii. destruct (nth_error (g_members g) i) as [y|] eqn:E; [|apply nth_error_None in E; lia].
    unfold ks. now rewrite (PB _ _ _ _ E).
  - apply AN; auto. intros i y E. unfold ks. now apply PB.
Qed.
End Round.

(** ** programs of collective calls *)
Lemma rank_in_nth r l : NoDup l -> forall i, nth_error l i = Some r <-> rank_in r l = Some i.
Proof.
  induction 1 as [|x l NI ND IH]; intros i; cbn. { destruct i; split; discriminate. }
  destruct (Nat.eqb_spec x r) as [->|NE].
  - split; [|intros [= <-]; reflexivity]. destruct i; cbn; auto. intros E. apply nth_error_In in E. contradiction.
  - destruct i; cbn; [split; [congruence|]; destruct (rank_in r l); discriminate|]. rewrite IH. destruct (rank_in r l); cbn; split; congruence.
Qed.
Lemma rank_in_inb r l : inb r l = match rank_in r l with Some _ => true | None => false end.
Proof. induction l as [|x l IH]; cbn; auto. rewrite Nat.eqb_sym. destruct (Nat.eqb x r); auto. cbn. fold (inb r l). rewrite IH. now destruct (rank_in r l). Qed.
Lemma rank_in_in r l : In r l -> exists i, rank_in r l = Some i.
Proof. destruct (inb_spec r l) as [H|H]; [|tauto]. intros _. pose proof (rank_in_inb r l) as E. destruct (inb_spec r l); [|contradiction]. destruct (rank_in r l); [eauto|discriminate]. Qed.

Definition resumed {B} (K : B -> rproc) (x : res B) : rproc := match x with Ok b => K b | Err e => RErr e end.
(** the logs have grown by [M] calls on the communicator *)
Definition grown (g : group) (M : nat) (posted posted' : log) : Prop :=
  forall r, exists l, posted' r = (posted r ++ l)%list /\ Forall (fun x => fst x = g_ctx g) l /\ length l = if inb r (g_members g) then M else 0%nat.

Lemma grown_calls g M posted posted' r : grown g M posted posted' ->
  length (calls_on (g_ctx g) (posted' r)) = (length (calls_on (g_ctx g) (posted r)) + if inb r (g_members g) then M else 0)%nat.
Proof.
  intros G. destruct (G r) as (l & -> & F & <-). rewrite calls_on_app, app_length. f_equal. clear -F. unfold calls_on. rewrite map_length.
  induction F as [|[x b] l E F IH]; auto. cbn in *. subst x. destruct (ctx_eqb_spec (g_ctx g) (g_ctx g)); [cbn; now rewrite IH|congruence].
Qed.
Lemma grown_other g M posted posted' r x : grown g M posted posted' -> x <> g_ctx g -> calls_on x (posted' r) = calls_on x (posted r).
Proof.
  intros G NE. destruct (G r) as (l & -> & F & _). rewrite calls_on_app. rewrite <- app_nil_r. f_equal. clear -F NE. unfold calls_on.
  induction F as [|[y b] l E F IH]; auto. cbn in *. subst y. destruct (ctx_eqb_spec (g_ctx g) x); [congruence|auto].
Qed.
Lemma grown_refl g posted : grown g 0 posted posted.
Proof. intros r. exists []. rewrite app_nil_r. split; auto. split; auto. now destruct (inb r (g_members g)). Qed.
Lemma grown_trans g M M' p1 p2 p3 : grown g M p1 p2 -> grown g M' p2 p3 -> grown g (M + M') p1 p3.
Proof.
  intros G1 G2 r. destruct (G1 r) as (l & E & F & Q), (G2 r) as (l' & E' & F' & Q'). exists (l ++ l')%list. rewrite E', E, app_assoc. split; auto.
  split; [now apply Forall_app|]. rewrite app_length, Q, Q'. now destruct (inb r (g_members g)).
Qed.

Lemma together_reaches {B} g (ps : nat -> proc Ob V B) out : (forall r, In r (g_members g) -> (r < size)%nat) -> NoDup (g_members g) ->
  together (length (g_members g)) ps out -> forall (K : nat -> B -> rproc) pp posted q N,
  (forall i r, nth_error (g_members g) i = Some r -> pp r = rbind (on_group g (ps i)) (K r)) -> aligned g N posted ->
  exists M posted', grown g M posted posted' /\
    creaches (cst pp posted q) (cst (fun r => match rank_in r (g_members g) with Some i => resumed (K r) (out i) | None => pp r end) posted' q).
Proof.
  intros Hin Hnd T. induction T as [ps out E|ps cs ks ans out E R T IH]; intros K pp posted q N PP AL.
  - exists 0%nat, posted. split; [apply grown_refl|].
    match goal with |- creaches ?a ?b => replace b with a; [apply creaches_refl|] end.
    apply cstp_ext; auto. intros r Hr. destruct (rank_in r (g_members g)) as [i|] eqn:P; auto. apply rank_in_nth in P; auto.
    rewrite (PP i r P), E by (apply nth_error_Some; congruence). now destruct (out i).
  - set (i_of := fun r => match rank_in r (g_members g) with Some i => i | None => 0%nat end).
    assert (IO : forall i r, nth_error (g_members g) i = Some r -> i_of r = i /\ (i < length (g_members g))%nat).
    { intros i r P. split; [|apply nth_error_Some; congruence]. unfold i_of. apply rank_in_nth in P; auto. now rewrite P. }
    set (kk := fun r => match pp r with RCall _ _ k => k | _ => fun _ => RErr TypeError end).
    assert (PC : forall i r, nth_error (g_members g) i = Some r -> pp r = RCall g (GCall (cs (i_of r))) (kk r) /\ kk r (GAnswer (ans (i_of r))) = rbind (on_group g (ks i (ans i))) (K r)).
    { intros i r P. destruct (IO _ _ P) as (-> & HJ). unfold kk. rewrite (PP i r P), E by auto. split; reflexivity. }
    assert (STEP : creaches (cst pp posted q) (cst (fun r => if inb r (g_members g) then kk r (GAnswer (ans (i_of r))) else pp r)
       (fun r => if inb r (g_members g) then posted r ++ [(g_ctx g, GCall (cs (i_of r)))] else posted r)%list q)).
    { apply (round_reaches g (fun r => GCall (cs (i_of r))) kk N (fun r => GAnswer (ans (i_of r))) Hin Hnd pp posted q AL).
      - intros r I. destruct (rank_in_in _ _ I) as (i & P). apply rank_in_nth in P; auto. now apply (PC i r).
      - intros kl PB r I. destruct (rank_in_in _ _ I) as (i & P). cbn [ganswered]. rewrite P. apply rank_in_nth in P; auto. destruct (IO _ _ P) as (-> & HJ).
        rewrite (respond_mono (length (g_members g)) (all_calls (length (g_members g)) cs) _ i (ans i)); auto.
        intros j x. unfold all_calls. destruct (Nat.ltb_spec j (length (g_members g))) as [HL|]; [|discriminate]. intros [= <-].
        destruct (nth_error (g_members g) j) as [y|] eqn:EJ; [|apply nth_error_None in EJ; lia]. rewrite (PB _ _ EJ). destruct (IO _ _ EJ) as (-> & _). reflexivity. }
    assert (G1 : grown g 1 posted (fun r => if inb r (g_members g) then posted r ++ [(g_ctx g, GCall (cs (i_of r)))] else posted r)%list).
    { intros r. destruct (inb r (g_members g)); [eexists; split; [reflexivity|]; split; [repeat constructor|reflexivity]|exists []; rewrite app_nil_r; auto]. }
    edestruct (IH K) as (M & posted' & G2 & C); cycle 2.
    + exists (1 + M)%nat, posted'. split; [eapply grown_trans; eauto|]. eapply creaches_trans; [exact STEP|].
      match type of C with creaches _ ?a => match goal with |- creaches _ ?b => replace b with a; [exact C|] end end.
      apply cstp_ext; auto. intros r Hr. rewrite rank_in_inb. now destruct (rank_in r (g_members g)).
    + intros i r P. destruct (PC i r P) as (_ & E2). cbv beta. rewrite E2. destruct (inb_spec r (g_members g)) as [|NI]; auto. exfalso. apply NI. eapply nth_error_In; eauto.
    + instantiate (1 := S N). intros r I. rewrite (grown_calls _ _ _ _ r G1), AL by auto. destruct (inb_spec r (g_members g)); [lia|contradiction].
Qed.
End Lift.
