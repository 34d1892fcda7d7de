(** Updates and stores in one execution. *)
From Verif.Base Require Import Base Lemmas.
From Verif.Model Require Import Consts Numpy Quantity Partitioner Network Communicator Collective Cluster ScatterGather Shared Zarr Joint.
From Verif.Spec Require Import Grid Cube Halo Lockstep Sync Client Views Together Distribute Storage Mixed Joint.
From Verif.Proofs Require Import CollectiveProofs SharedProofs ClusterProofs ClusterLift MixedProofs.

(** ** programs whose copies of the arrays accumulate *)
Section Ext.
Context {Ob V : Type}.
Notation rproc := (rproc Ob V (mem V * list (mem V))).
Inductive ext (hs : list (mem V)) : rproc -> Prop :=
| ext_ret m tl : ext hs (RRet (m, hs ++ tl)%list)
| ext_err e : ext hs (RErr e)
| ext_send dst tag body k : ext hs k -> ext hs (RSend dst tag body k)
| ext_recv src tag k : (forall b, ext hs (k b)) -> ext hs (RRecv src tag k)
| ext_wait j k : ext hs k -> ext hs (RWait j k)
| ext_call g c k : (forall a, ext hs (k a)) -> ext hs (RCall g c k).
Lemma ext_bind {A} hs (p : Cluster.rproc Ob V A) f : (forall a, ext hs (f a)) -> ext hs (rbind p f).
Proof. intros H. induction p; cbn [rbind]; try constructor; auto. Qed.
End Ext.

Lemma wp_reaches {V B} owner script r (post : nat -> (string -> list Z -> option (chunk V)) -> (string -> option zmeta) -> B -> Prop) n k h m p :
  wp owner script r post n k h m p -> exists k' h' m' a, (k <= k')%nat /\ post k' h' m' a.
Proof.
  induction 1 as [n k h m a P| | |n k h m name f H IH| |n k h m b mk m' p S H1 H2 W (k' & h' & m1 & a & L & P)]; auto.
  - exists k, h, m, a. auto.
  - apply (IH m). apply grows_refl.
  - exists k', h', m1, a. split; auto. lia.
Qed.

Section Joint.
Variables (V T : Type) (neg : V -> V) (junk : list Z -> V) (calendar_of text_of : T -> string) (encode : T -> T -> V) (layout : layout_t).
Notation size := (Mixed.size layout).
Notation metas := (string -> option zmeta).
Notation heap := (string -> list Z -> option (chunk V)).
Notation result := (nat * (monitor T * res unit))%type.
Variables (owner : string -> list Z -> nat) (script : list (bool * metas)) (N C : nat) (nsync off : nat -> nat).
Variables (F : nat -> nat -> mem V -> ScatterGather.state V T) (ms : nat -> nat -> mem V) (m' : nat -> mem V).
Variable post : nat -> nat -> heap -> metas -> result -> Prop.
Notation store_of j r mon := (store V T junk calendar_of text_of encode layout (Z.of_nat r) mon (F j r (ms j r))).
Hypothesis size_pos : (0 < size)%nat.
Hypothesis H_post : forall r k h m j mr, post r k h m (j, mr) -> k = off j /\ exists mon, mr = (mon, Ok tt).
Hypothesis H_store : forall r j k h m mon, (r < size)%nat -> (j < N)%nat -> post r k h m (j, (mon, Ok tt)) ->
  wp owner script r (fun k h m mr => post r k h m (S j, mr)) C k h m (store_of j r mon).
Hypothesis H_start : forall r, (r < size)%nat -> post r 0 (fun _ _ => None) (fun _ => None) (0%nat, (None, Ok tt)).
Hypothesis H_off : forall j, off (S j) = (off j + nsync j)%nat.

Notation uprog := (uproc (zop V) (zans V) V (mem V * monitor T)).
Notation rprog := (rproc unit V (mem V * list (mem V))).
Notation sprog := (sproc (zop V) (zans V) result).
Notation one := (one V T neg junk calendar_of text_of encode layout).
Notation mixed := (mixed unit V (list (mem V)) neg layout).

(** the collective calls of a store, followed by a copy of the arrays *)
Fixpoint bcasts {A} (l : nat) (p : proc unit V A) : proc unit V A := match l with O => p | S l => PCall (CBcast tt) (fun _ => bcasts l p) end.
Definition mark (l : nat) : mcall unit V (list (mem V)) := MWorld (fun _ s => bcasts l (PRet (fst s, snd s ++ [fst s])%list)).
Fixpoint skel (j : nat) (calls : list (ocall V T)) : list (mcall unit V (list (mem V))) :=
  match calls with
  | [] => []
  | OUpdate c :: calls' => MUpdate c :: skel j calls'
  | OStore _ :: calls' => mark (nsync j) :: skel (S j) calls'
  end.
(** the stores are of states [F j], [F (j + 1)], ..., up to [N] *)
Fixpoint asks (j : nat) (calls : list (ocall V T)) : Prop :=
  match calls with [] => j = N | OUpdate _ :: calls' => asks j calls' | OStore f :: calls' => f = F j /\ asks (S j) calls' end.
Lemma asks_le calls : forall j, asks j calls -> (j <= N)%nat.
Proof. induction calls as [|[c|f] calls IH]; cbn; intros j A; [lia|auto|]. destruct A as [_ A]. apply IH in A. lia. Qed.

Definition fated (r : nat) (p : rprog) : Prop := forall hs, ext hs p -> exists tl, map (fun i => ms i r) (seq 0 N) = (hs ++ tl)%list.

Lemma ext_mixed r calls hs : forall j reqs cm m tl, ext hs (mixed r (skel j calls) reqs cm None (m, hs ++ tl)%list).
Proof.
  induction calls as [|[c|f] calls IH]; intros j reqs cm m tl; cbn [skel Mixed.mixed mark].
  - constructor.
  - assert (X : forall A (e : eff V A) cm (k : A -> comm -> mem V * list (mem V) -> rprog), (forall a cm m, ext hs (k a cm (m, hs ++ tl)%list)) -> ext hs (issue unit V (list (mem V)) e cm (m, hs ++ tl)%list k)).
    { intros A e cm0 k H. unfold issue. destruct (e cm0) as [[ops cm'] x]. apply ext_bind. intros m1. cbn [snd]. destruct x; [apply H|constructor]. }
    destruct c; try (apply X; intros; apply IH); [|apply IH]. destruct (nth_error reqs i); [|constructor]. apply X. intros. apply IH.
  - cbn [fst snd]. generalize (nsync j). intros l. assert (Y : forall l, ext hs (rbind (on_group (all_ranks size) (bcasts l (PRet (m, (hs ++ tl) ++ [m])%list))) (mixed r (skel (S j) calls) reqs cm None))); [|apply Y].
    clear l. induction l as [|l IHl]; cbn [bcasts on_group rbind]; [rewrite <- app_assoc; apply IH|]. constructor. intros [a|g]; [exact IHl|constructor].
Qed.

(** ** how a rank of the joint machine corresponds to one of the cluster and one of the shared store *)
Definition after r calls reqs cm m (mr : monitor T * res unit) : uprog := match mr with (mon', Ok _) => one r calls reqs cm mon' m | (_, Err e) => UErr e end.
Inductive cont (r j : nat) (hs : list (mem V)) (mon : monitor T) : uprog -> rprog -> Prop :=
| cont_go calls reqs cm m : asks j calls -> length hs = j -> cont r j hs mon (one r calls reqs cm mon m) (mixed r (skel j calls) reqs cm None (m, hs))
| cont_err e : cont r j hs mon (UErr e) (RErr e).
Definition active (ops : list (pop V)) : Prop := match ops with OSend _ _ _ :: _ | ORecv _ _ _ :: _ | OWait _ :: _ => True | _ => False end.
Definition busy {A} (q : sproc (zop V) (zans V) A) : Prop := match q with SRet _ => False | _ => True end.
Inductive rel (r : nat) : nat -> nat -> uprog -> rprog -> sprog -> Prop :=
| rel_end done j mon m hs : j = N -> rel r done j (URet (m, mon)) (RRet (m, hs)) (SRet (j, (mon, Ok tt)))
| rel_err done j mr e : rel r done j (UErr e) (RErr e) (SRet (j, mr))
| rel_msg done j mon hs ops m K K' : active ops -> (forall m, cont r j hs mon (K m) (K' m)) ->
    rel r done j (of_messages (Ob := unit) (on_memory ops m) K) (rbind (on_memory ops m) K') (SRet (j, (mon, Ok tt)))
| rel_store done j q0 calls reqs cm m hs l : busy q0 -> (done + l = off (S j))%nat -> asks (S j) calls -> length hs = j ->
    rel r done (S j) (of_store q0 (after r calls reqs cm m)) (rbind (on_group (all_ranks size) (bcasts l (PRet (m, hs ++ [m])%list))) (mixed r (skel (S j) calls) reqs cm None))
      (sbind q0 (fun mr => SRet (S j, mr))).

Definition Settled (r done t0 : nat) (h : heap) (mm : metas) (u : uprog) (p : rprog) : Prop :=
  exists t q n, rel r done t u p q /\ wp owner script r (post r) n done h mm q /\ (t <= N)%nat /\ (n + (N - t) * C <= (N - t0) * C)%nat.

Lemma settle_ops r done j h mm mon hs (ops : list (pop V)) : forall m K K', (j <= N)%nat -> post r done h mm (j, (mon, Ok tt)) -> (forall m, cont r j hs mon (K m) (K' m)) ->
  (forall m, fated r (K' m) -> Settled r done j h mm (K m) (K' m)) -> fated r (rbind (on_memory ops m) K') ->
  Settled r done j h mm (of_messages (Ob := unit) (on_memory ops m) K) (rbind (on_memory ops m) K').
Proof.
  induction ops as [|o ops IH]; intros m K K' Hj P CN S FA; [apply S; exact FA|].
  assert (X : active (o :: ops) -> Settled r done j h mm (of_messages (Ob := unit) (on_memory (o :: ops) m) K) (rbind (on_memory (o :: ops) m) K')).
  { intros A. exists j, (SRet (j, (mon, Ok tt))), 0%nat. split; [now apply rel_msg with (hs := hs)|]. split; [now constructor|]. split; auto. }
  destruct o; try (apply X; exact I). cbn [on_memory]. apply IH; auto.
Qed.

Lemma settle_go r : (r < size)%nat -> forall calls j reqs cm mon m hs done h mm, asks j calls -> length hs = j -> post r done h mm (j, (mon, Ok tt)) ->
  fated r (mixed r (skel j calls) reqs cm None (m, hs)) -> Settled r done j h mm (one r calls reqs cm mon m) (mixed r (skel j calls) reqs cm None (m, hs)).
Proof.
  intros Hr. induction calls as [|[c|f] calls IH]; intros j reqs cm mon m hs done h mm AS LH P FA; pose proof (asks_le _ _ AS) as Hj.
  - cbn. exists j, (SRet (j, (mon, Ok tt))), 0%nat. split; [now constructor|]. split; [now constructor|]. auto.
  - cbn [asks] in AS.
    assert (X : forall A (e : eff V A) cm (k : A -> list (request V)), fated r (issue unit V (list (mem V)) e cm (m, hs) (fun a cm' s' => mixed r (skel j calls) (k a) cm' None s')) ->
      Settled r done j h mm (perform V T e cm m (fun a cm' m' => one r calls (k a) cm' mon m')) (issue unit V (list (mem V)) e cm (m, hs) (fun a cm' s' => mixed r (skel j calls) (k a) cm' None s'))).
    { intros A e cm0 k. unfold perform, issue. destruct (e cm0) as [[ops cm'] x]. cbn [fst snd]. intros FX. apply settle_ops with (mon := mon) (hs := hs); auto.
      - intros m1. destruct x; [now apply cont_go|apply cont_err].
      - intros m1 F1. destruct x as [a|e0]; [now apply IH|]. exists j, (SRet (j, (mon, Ok tt))), 0%nat. split; [constructor|]. split; [now constructor|]. auto. }
    cbn [skel Joint.one Mixed.mixed] in *. destruct c as [q h0|x y h0|x y|i|f].
    + exact (X _ _ cm (fun rq => reqs ++ [rq])%list FA).
    + exact (X _ _ cm (fun rq => reqs ++ [rq])%list FA).
    + exact (X _ _ cm (fun rq => reqs ++ [rq])%list FA).
    + destruct (nth_error reqs i) as [rq|]; [exact (X _ _ cm (fun _ => reqs) FA)|]. exists j, (SRet (j, (mon, Ok tt))), 0%nat. split; [constructor|]. split; [now constructor|]. auto.
    + cbn [fst snd] in *. now apply IH.
  - cbn [asks] in AS. destruct AS as [-> AS]. pose proof (asks_le _ _ AS) as Hj'. cbn [skel Mixed.mixed mark fst snd] in *.
    assert (M : m = ms j r).
    { destruct (FA (hs ++ [m])%list) as (tl & E).
      - generalize (nsync j). intros l. assert (Y : forall l, ext (hs ++ [m])%list (rbind (on_group (all_ranks size) (bcasts l (PRet (m, hs ++ [m])%list))) (mixed r (skel (S j) calls) reqs cm None))); [|apply Y].
        clear l. induction l as [|l IHl]; cbn [bcasts on_group rbind]; [|constructor; intros [a|g]; [exact IHl|constructor]].
        pose proof (ext_mixed r calls (hs ++ [m])%list (S j) reqs cm m []) as E. rewrite app_nil_r in E. exact E.
      - apply (f_equal (fun l => nth_error l j)) in E. rewrite <- app_assoc, nth_error_app2, LH, Nat.sub_diag in E by lia. cbn in E.
        rewrite nth_error_map, (nth_error_nth' _ 0%nat), seq_nth in E by (rewrite ?seq_length; lia). cbn in E. congruence. }
    pose proof (H_store r j done h mm mon Hr Hj' P) as W. cbn [Joint.one]. rewrite <- M in W.
    destruct (store V T junk calendar_of text_of encode layout (Z.of_nat r) mon (F j r m)) as [mr|o f|b q] eqn:Q.
    + cbn [of_store]. inversion W; subst. match goal with X : post _ _ _ _ (S _, _) |- _ => rename X into P' end. destruct (H_post _ _ _ _ _ _ P') as (D' & mon' & ->). destruct (H_post _ _ _ _ _ _ P) as (D & _). rewrite H_off in D'.
      assert (Z0 : nsync (length hs) = 0%nat) by lia. rewrite Z0 in *. cbn [bcasts on_group rbind] in *.
      destruct (IH (S (length hs)) reqs cm mon' (ms (length hs) r) (hs ++ [ms (length hs) r])%list done h mm) as (t & q & n & R & W' & Ht & B); auto.
      { rewrite app_length. cbn. lia. }
      exists t, q, n. repeat (split; auto). etransitivity; [exact B|]. apply Nat.mul_le_mono_r. lia.
    + exists (S j), (sbind (SDo o f) (fun mr => SRet (S j, mr))), (C + 0)%nat. split; [|split; [|split; [lia|]]].
      * destruct (H_post _ _ _ _ _ _ P) as (-> & _). change (fun mr => match mr with (mon', Ok _) => one r calls reqs cm mon' m | (_, Err e) => UErr e end) with (after r calls reqs cm m). apply rel_store; auto. exact I.
      * eapply wp_bind; [exact W|]. cbn beta. intros. now constructor.
      * replace (N - j)%nat with (S (N - S j)) by lia. cbn. lia.
    + exists (S j), (sbind (SSync b q) (fun mr => SRet (S j, mr))), (C + 0)%nat. split; [|split; [|split; [lia|]]].
      * destruct (H_post _ _ _ _ _ _ P) as (-> & _). change (fun mr => match mr with (mon', Ok _) => one r calls reqs cm mon' m | (_, Err e) => UErr e end) with (after r calls reqs cm m). apply rel_store; auto. exact I.
      * eapply wp_bind; [exact W|]. cbn beta. intros. now constructor.
      * replace (N - j)%nat with (S (N - S j)) by lia. cbn. lia.
Qed.

Lemma settle_cont r done j h mm mon hs u p : (r < size)%nat -> (j <= N)%nat -> cont r j hs mon u p -> post r done h mm (j, (mon, Ok tt)) -> fated r p -> Settled r done j h mm u p.
Proof.
  intros Hr Hj [calls reqs cm m AS LH|e] P FA; [now apply settle_go|]. exists j, (SRet (j, (mon, Ok tt))), 0%nat. split; [constructor|]. split; [now constructor|]. auto.
Qed.

(** ** what is known of reachable states of the cluster *)
Variables (bf : nat -> nat -> bool) (dl : nat -> nat -> bool).
Definition needs_all (r : nat) (c : ctx) (n : nat) : bool := match nth_error script n with Some (b, _) => b || dl r n | None => dl r n end.
Notation cluster := (cluster unit V (mem V * list (mem V))).
Variable start : cluster.
Variable bound : nat.
Hypothesis H_ends : forall sched s, cl_run bf needs_all sched start = Some s -> (length sched <= bound)%nat /\
    ((forall r, (r < size)%nat -> exists k, nth_error (cl_ranks s) r = Some k /\ rank_outcome k = Some (Ok (m' r, map (fun i => ms i r) (seq 0 N)))) \/
     (exists r s', cl_step bf needs_all r s = Some s')).

Lemma ext_step r (cs cs' : cluster) i c hs : cl_step bf needs_all r cs = Some cs' -> nth_error (cl_ranks cs) i = Some c -> ext hs (k_proc c) ->
  exists c', nth_error (cl_ranks cs') i = Some c' /\ ext hs (k_proc c').
Proof.
  unfold cl_step. destruct (react bf needs_all r cs) as [[k e]|] eqn:R; [|discriminate]. intros [= <-] Hc E. cbn [cl_ranks]. rewrite nth_error_upd.
  destruct (Nat.eqb_spec r i) as [->|]; [|eauto]. rewrite Hc. exists k. split; auto. unfold react in R. rewrite Hc in R.
  destruct (k_proc c) as [a|e0|dst tag body p|src tag p|j p|g c0 p]; try discriminate; inversion E; subst.
  - destruct (nth_error (cl_sent cs) i); [|discriminate]. injection R as <- _. auto.
  - destruct (src <? 0); [discriminate|]. destruct (nth_error (cl_sent cs) (Z.to_nat src)) as [l|]; [|discriminate]. destruct (take _ _ l) as [[b l']|]; [|discriminate]. injection R as <- _. cbn. auto.
  - destruct (nth_error (cl_sent cs) i) as [l|]; [|discriminate]. destruct (nth_error l j) as [m|]; [|discriminate]. destruct (_ || _); [|discriminate]. injection R as <- _. auto.
  - destruct (k_pending c).
    + cbv zeta in R. destruct (_ && _); [discriminate|]. destruct (ganswered _ _ _ _ _); [|discriminate]. injection R as <- _. cbn. auto.
    + injection R as <- _. cbn. now constructor.
Qed.

Lemma reach_fated sched (cs : cluster) r c : cl_run bf needs_all sched start = Some cs -> (r < size)%nat -> nth_error (cl_ranks cs) r = Some c -> fated r (k_proc c).
Proof.
  intros R Hr Hc hs E. remember (bound - length sched)%nat as k eqn:K. revert sched cs c R Hc E K.
  induction k as [k IH] using lt_wf_ind. intros sched cs c R Hc E K. destruct (H_ends _ _ R) as (B & [D|(i & cs' & S)]).
  - destruct (D r Hr) as (c0 & X & O). assert (c0 = c) by congruence. subst c0. unfold rank_outcome in O. destruct (k_proc c) eqn:P; try discriminate. injection O as ->. inversion E; subst. eauto.
  - destruct (ext_step _ _ _ _ _ _ S Hc E) as (c' & Hc' & E').
    assert (R' : cl_run bf needs_all (sched ++ [i]) start = Some cs') by (rewrite (cl_run_app _ _ _ _ _ _ R); cbn; now rewrite S).
    destruct (H_ends _ _ R') as (B' & _). rewrite app_length in B'. cbn in B'. eapply (IH (bound - length (sched ++ [i]))%nat); eauto. rewrite app_length. cbn. lia.
Qed.

(** ** the invariant *)
Notation urank := (urank (zop V) (zans V) V (mem V * monitor T)).
Notation srank := (srank (zop V) (zans V) result).
Notation inv := (inv owner script size post).
Definition linked (r : nat) (u : urank) (c : rank unit V (mem V * list (mem V))) (q : srank) (t : nat) : Prop :=
  sr_posted q = u_posted u /\ sr_done q = u_done u /\ k_posted c = repeat ([], GCall (CBcast tt)) (length (u_posted u)) /\
  k_pending c = negb (Nat.eqb (length (u_posted u)) (u_done u)) /\ rel r (u_done u) t (u_proc u) (k_proc c) (sr_proc q) /\ (t <= N)%nat.
Record J (s : joint (zstore V) (zop V) (zans V) V (mem V * monitor T)) (cs : cluster) (sr : list srank) (vs : list (@view_of V)) (ts : list nat) : Prop := mkJ_ {
  J_ranks : length (j_ranks s) = size;
  J_cl : length (cl_ranks cs) = size;
  J_ts : length ts = size;
  J_inv : inv (j_store s, sr) vs;
  J_sent : cl_sent cs = j_sent s;
  J_each : forall r u c q t, nth_error (j_ranks s) r = Some u -> nth_error (cl_ranks cs) r = Some c -> nth_error sr r = Some q -> nth_error ts r = Some t -> linked r u c q t }.

Lemma nth_of {A} (l : list A) r k : length l = k -> (r < k)%nat -> exists a, nth_error l r = Some a.
Proof. intros L H. destruct (nth_error l r) eqn:E; eauto. apply nth_error_None in E. lia. Qed.
Lemma J_at s cs sr vs ts r : J s cs sr vs ts -> (r < size)%nat ->
  exists u c q t v, nth_error (j_ranks s) r = Some u /\ nth_error (cl_ranks cs) r = Some c /\ nth_error sr r = Some q /\ nth_error ts r = Some t /\ nth_error vs r = Some v /\
    linked r u c q t /\ rank_ok owner script post r q v.
Proof.
  intros Jx Hr. pose proof (J_inv _ _ _ _ _ Jx) as (I1 & I2 & I3 & _). destruct (nth_of _ r _ (J_ranks _ _ _ _ _ Jx) Hr) as (u & Hu). destruct (nth_of _ r _ (J_cl _ _ _ _ _ Jx) Hr) as (c & Hc).
  destruct (nth_of _ r _ (J_ts _ _ _ _ _ Jx) Hr) as (t & Ht). destruct (nth_of _ r _ I1 Hr) as (q & Hq). destruct (nth_of _ r _ I2 Hr) as (v & Hv).
  exists u, c, q, t, v. do 5 (split; [assumption|]). split; [eapply J_each; eauto|eapply I3; eauto].
Qed.
Lemma J_upd s cs sr vs ts r u' c' q' t' st' sent' vs' : J s cs sr vs ts -> (r < size)%nat -> inv (st', upd sr r q') vs' -> linked r u' c' q' t' ->
  J (mkJ st' (upd (j_ranks s) r u') sent') (mkCl (upd (cl_ranks cs) r c') sent') (upd sr r q') vs' (upd ts r t').
Proof.
  intros Jx Hr I L. destruct (J_at _ _ _ _ _ r Jx Hr) as (u & c & q & t & v & Hu & Hc & Hq & Ht & Hv & _). split; cbn [j_ranks j_store j_sent cl_ranks cl_sent]; auto.
  - rewrite length_upd. apply Jx.
  - rewrite length_upd. apply Jx.
  - rewrite length_upd. apply Jx.
  - intros i u1 c1 q1 t1. rewrite !nth_error_upd. destruct (Nat.eqb_spec r i) as [<-|].
    + rewrite Hu, Hc, Hq, Ht. intros [= <-] [= <-] [= <-] [= <-]. exact L.
    + apply Jx.
Qed.

Fixpoint tsum (ts : list nat) : nat := match ts with [] => 0%nat | t :: ts => ((N - t) * C + tsum ts)%nat end.
Lemma tsum_upd ts r t t' : nth_error ts r = Some t -> (tsum (upd ts r t') + (N - t) * C = tsum ts + (N - t') * C)%nat.
Proof. revert r. induction ts as [|t0 ts IH]; intros [|r] H; cbn in *; try discriminate; [injection H as ->; lia|]. specialize (IH r H). lia. Qed.

Lemma inv_swap st sr vs r q v q' n' : inv (st, sr) vs -> nth_error sr r = Some q -> nth_error vs r = Some v -> length (sr_posted q) = sr_done q ->
  wp owner script r (post r) n' (sr_done q) (v_h v) (v_m v) q' ->
  inv (st, upd sr r (mkSR q' (sr_posted q) (sr_done q))) (upd vs r (mkView n' (v_h v) (v_m v))).
Proof.
  intros I Hq Hv D W. pose proof I as (I1 & I2 & I3 & I4 & I5 & I6 & I7 & I8). destruct (I3 _ _ _ Hq Hv) as (_ & P & _). eapply inv_upd; eauto.
  - split; [exact W|]. split; [exact P|]. left. exact D.
  - intros n x. cbn [v_h]. destruct (Nat.eqb_spec (owner n x) r) as [E|]; auto. rewrite I4. unfold vheap. now rewrite E, Hv.
  - apply grows_refl.
  - intros ->. cbn [v_m]. now apply I6.
  - intros _ n. reflexivity.
  - cbn [v_m]. eauto.
  - intros -> i b m L. cbn [sr_posted] in L. eapply I8; eauto.
Qed.

(** a rank goes on to something settled *)
Lemma J_go s cs sr vs ts r u c q t v p' u' sent' : J s cs sr vs ts -> (r < size)%nat -> nth_error (j_ranks s) r = Some u -> nth_error (cl_ranks cs) r = Some c -> nth_error sr r = Some q ->
  nth_error ts r = Some t -> nth_error vs r = Some v -> linked r u c q t -> length (u_posted u) = u_done u -> Settled r (u_done u) t (v_h v) (v_m v) u' p' ->
  exists sr' vs' ts', J (mkJ (j_store s) (upd (j_ranks s) r (mkUR u' (u_posted u) (u_done u))) sent') (mkCl (upd (cl_ranks cs) r (mkRk p' (k_posted c) (k_pending c))) sent') sr' vs' ts' /\
    (total sr' vs' + tsum ts' <= total sr vs + tsum ts)%nat.
Proof.
  intros Jx Hr Hu Hc Hq Ht Hv (L1 & L2 & L3 & L4 & L5 & L6) D (t' & q' & n' & R & W & Ht' & B). rewrite <- L2 in W. assert (D' : length (sr_posted q) = sr_done q) by congruence.
  pose proof (inv_swap _ _ _ _ _ _ _ _ (J_inv _ _ _ _ _ Jx) Hq Hv D' W) as I. exists (upd sr r (mkSR q' (sr_posted q) (sr_done q))), (upd vs r (mkView n' (v_h v) (v_m v))), (upd ts r t'). split.
  - apply (J_upd s cs sr vs ts); auto. repeat split; cbn [u_posted u_done u_proc sr_posted sr_done sr_proc k_posted k_pending k_proc]; auto.
  - pose proof (total_upd size size_pos sr vs r q v (mkSR q' (sr_posted q) (sr_done q)) (mkView n' (v_h v) (v_m v)) Hq Hv) as T1. unfold weight in T1. cbn [v_n sr_done sr_posted] in T1.
    pose proof (tsum_upd ts r t t' Ht) as T2. lia.
Qed.

(** ** collective calls *)
Definition calling (n : nat) (s : joint (zstore V) (zop V) (zans V) V (mem V * monitor T)) (i : nat) : Prop := exists u, nth_error (j_ranks s) i = Some u /\ (n < length (u_posted u))%nat.
Lemma calls_repeat l : calls_on [] (repeat ([], GCall (CBcast tt) : gcall unit V) l) = repeat (GCall (CBcast tt)) l.
Proof. induction l as [|l IH]; auto. unfold calls_on in *. cbn. now f_equal. Qed.
Lemma nth_repeat {A} (a : A) l n : nth_error (repeat a l) n = if (n <? l)%nat then Some a else None.
Proof. revert n. induction l as [|l IH]; intros [|n]; auto. cbn [repeat nth_error]. rewrite IH. reflexivity. Qed.

Lemma posted_J s cs sr vs ts n i : J s cs sr vs ts -> (i < size)%nat ->
  (calling n s i /\ posted_by (cl_ranks cs) (all_ranks size) n i = Some (GCall (CBcast tt))) \/ (~ calling n s i /\ posted_by (cl_ranks cs) (all_ranks size) n i = None).
Proof.
  intros Jx Hi. destruct (J_at _ _ _ _ _ i Jx Hi) as (u & c & q & t & v & Hu & Hc & _ & _ & _ & (L1 & L2 & L3 & L4 & _) & _).
  unfold posted_by, all_ranks. cbn [g_members g_ctx]. rewrite (nth_error_nth' _ 0%nat), seq_nth by (rewrite ?seq_length; auto). cbn [Nat.add]. rewrite Hc, L3, calls_repeat, nth_repeat.
  destruct (Nat.ltb_spec n (length (u_posted u))); [left|right]; split; auto; [exists u; auto|]. intros (u1 & E & X). assert (u1 = u) by congruence. subst. lia.
Qed.
Lemma everyone_J s cs sr vs ts n : J s cs sr vs ts -> everyone_posted (cl_ranks cs) (all_ranks size) n = true <-> forall i, (i < size)%nat -> calling n s i.
Proof.
  intros Jx. unfold everyone_posted, all_ranks. cbn [g_members]. rewrite seq_length, forallb_forall. fold (all_ranks size). split; intros H i Hi.
  - specialize (H i ltac:(apply in_seq; lia)). destruct (posted_J _ _ _ _ _ n i Jx Hi) as [[X _]|[_ X]]; auto. now rewrite X in H.
  - apply in_seq in Hi. destruct (posted_J _ _ _ _ _ n i Jx ltac:(lia)) as [[_ X]|[X _]]; [now rewrite X|]. exfalso. apply X, H. lia.
Qed.
Lemma has_J s cs sr vs ts n i u b mk : J s cs sr vs ts -> nth_error script n = Some (b, mk) -> nth_error (j_ranks s) i = Some u -> has_posted n b u = true <-> calling n s i.
Proof.
  intros Jx Sn Hu. assert (Hi : (i < size)%nat) by (rewrite <- (J_ranks _ _ _ _ _ Jx); apply nth_error_Some; congruence).
  destruct (J_at _ _ _ _ _ i Jx Hi) as (u1 & c & q & t & v & Hu1 & Hc & _ & _ & _ & (L1 & _) & (_ & P & _)). assert (u1 = u) by congruence. subst u1. rewrite L1 in P. unfold has_posted.
  destruct (nth_error (u_posted u) n) as [b'|] eqn:E; split; auto.
  - intros _. exists u. split; auto. apply nth_error_Some. congruence.
  - intros _. destruct (P _ _ E) as (mk' & E'). assert (b' = b) by congruence. subst. apply Bool.eqb_reflx.
  - discriminate.
  - intros (u1 & X & Y). assert (u1 = u) by congruence. subst u1. apply nth_error_None in E. lia.
Qed.
Lemma completes_J s cs sr vs ts n b mk all : J s cs sr vs ts -> nth_error script n = Some (b, mk) ->
  completes all n b (j_ranks s) = true <-> calling n s 0 /\ (all = true -> forall i, (i < size)%nat -> calling n s i).
Proof.
  intros Jx Sn. destruct (nth_of _ 0%nat _ (J_ranks _ _ _ _ _ Jx) size_pos) as (root & H0). unfold completes. destruct (j_ranks s) as [|r0 l] eqn:E; [discriminate|]. cbn in H0. injection H0 as ->. rewrite <- E.
  assert (Hr : has_posted n b root = true <-> calling n s 0) by (eapply has_J; eauto; rewrite E; reflexivity). destruct all.
  - rewrite forallb_forall. split.
    + intros H. assert (Al : forall i, (i < size)%nat -> calling n s i).
      { intros i Hi. destruct (nth_of _ i _ (J_ranks _ _ _ _ _ Jx) Hi) as (u & Hu). eapply (has_J _ _ _ _ _ n i u b mk); eauto. apply H. eapply nth_error_In; eauto. }
      split; auto.
    + intros [_ H] u I. apply In_nth_error in I. destruct I as (i & Hu). eapply (has_J _ _ _ _ _ n i u b mk); eauto. apply H; auto. rewrite <- (J_ranks _ _ _ _ _ Jx). apply nth_error_Some. congruence.
  - rewrite Hr. split; [|tauto]. intros H. split; auto. discriminate.
Qed.
Lemma nth_error_same {A} (l l' : list A) : (forall i, nth_error l i = nth_error l' i) -> l = l'.
Proof.
  revert l'. induction l as [|a l IH]; intros [|a' l'] H; auto; [discriminate (H 0%nat)|discriminate (H 0%nat)|]. pose proof (H 0%nat) as H0. injection H0 as ->. f_equal. apply IH. intros i. exact (H (S i)).
Qed.
Lemma may_J s cs sr vs ts n b all : J s cs sr vs ts -> may_complete all n b sr = completes all n b (j_ranks s).
Proof.
  intros Jx. pose proof (J_inv _ _ _ _ _ Jx) as (I1 & _). pose proof (J_ranks _ _ _ _ _ Jx) as I2.
  assert (X : map sr_posted sr = map u_posted (j_ranks s)).
  { apply nth_error_same. intros i. rewrite !nth_error_map. destruct (le_lt_dec size i) as [G|Hi].
    - rewrite (proj2 (nth_error_None sr i)), (proj2 (nth_error_None (j_ranks s) i)) by lia. reflexivity.
    - destruct (J_at _ _ _ _ _ i Jx Hi) as (u & c & q & t & v & Hu & _ & Hq & _ & _ & (L1 & _) & _). rewrite Hu, Hq. cbn. now rewrite L1. }
  clear -X. destruct sr as [|q sr], (j_ranks s) as [|u l]; cbn in X; try discriminate; auto. injection X as X1 X2. unfold may_complete, completes. cbn [forallb]. 
  assert (Y : posted_call n b q = has_posted n b u) by (unfold posted_call, has_posted; now rewrite X1). rewrite Y. destruct all; auto. f_equal.
  clear -X2. revert l X2. induction sr as [|q sr IH]; intros [|u l] X; cbn in X; try discriminate; auto. injection X as X1 X2. cbn. rewrite (IH l X2). f_equal. unfold posted_call, has_posted. now rewrite X1.
Qed.
Lemma calling_dec s n i : calling n s i \/ ~ calling n s i.
Proof.
  unfold calling. destruct (nth_error (j_ranks s) i) as [u|]; [|right; intros (? & [=] & _)]. destruct (le_lt_dec (length (u_posted u)) n); [right|left; eauto]. intros (? & [= <-] & ?). lia.
Qed.

(** completing a call in the cluster *)
Lemma react_J s cs sr vs ts r c n b mk K : J s cs sr vs ts -> (r < size)%nat -> nth_error (cl_ranks cs) r = Some c -> nth_error script n = Some (b, mk) ->
  k_proc c = RCall (all_ranks size) (GCall (CBcast tt)) K -> k_pending c = true -> length (k_posted c) = S n -> calling n s r ->
  (completes (b || dl r n) n b (j_ranks s) = true -> react bf needs_all r cs = Some (mkRk (K (GAnswer (AObject tt))) (k_posted c) false, ENone)) /\
  (completes (b || dl r n) n b (j_ranks s) = false -> react bf needs_all r cs = None).
Proof.
  intros Jx Hr Hc Sn P PE LP CR. destruct (J_at _ _ _ _ _ r Jx Hr) as (u & c1 & q & t & v & Hu & Hc1 & _ & _ & _ & (L1 & L2 & L3 & _) & _). assert (c1 = c) by congruence. subst c1.
  rewrite L3, repeat_length in LP. unfold react. rewrite Hc, P, PE. cbv zeta. rewrite L3. cbn [g_ctx all_ranks]. rewrite calls_repeat, repeat_length, LP. cbn [pred]. fold (all_ranks size).
  unfold needs_all. rewrite Sn. pose proof (completes_J _ _ _ _ _ n b mk (b || dl r n) Jx Sn) as CJ. pose proof (everyone_J _ _ _ _ _ n Jx) as EJ.
  unfold ganswered. cbn [g_members all_ranks]. rewrite rank_in_seq. cbn [Nat.leb andb Nat.add]. replace (r <? size)%nat with true by (symmetry; now apply Nat.ltb_lt). rewrite Nat.sub_0_r. fold (all_ranks size).
  unfold respond. destruct (posted_J _ _ _ _ _ n r Jx Hr) as [[_ PR]|[X _]]; [|contradiction]. rewrite PR. cbn [as_call].
  split; intros E.
  - apply CJ in E. destruct E as [C0 E]. destruct (posted_J _ _ _ _ _ n 0%nat Jx size_pos) as [[_ P0]|[X _]]; [|contradiction]. rewrite P0. cbn [as_call option_map].
    destruct (b || dl r n); cbn [andb]; auto. rewrite (proj2 EJ) by auto. reflexivity.
  - destruct (posted_J _ _ _ _ _ n 0%nat Jx size_pos) as [[C0 P0]|[_ P0]]; rewrite P0; cbn [as_call option_map]; [|now destruct (_ && _)].
    destruct (b || dl r n); cbn [andb].
    + destruct (everyone_posted (cl_ranks cs) (all_ranks size) n); cbn [negb]; auto. exfalso. rewrite (proj2 CJ) in E; [discriminate|]. split; auto. intros _. now apply EJ.
    + rewrite (proj2 CJ) in E; [discriminate|]. split; auto. discriminate.
Qed.

(** ** steps *)
Lemma upd_same {A} (l : list A) r a : nth_error l r = Some a -> upd l r a = l.
Proof. revert r. induction l as [|x l IH]; intros [|r] H; cbn in *; try discriminate; [congruence|]. f_equal. auto. Qed.

Lemma J_store s cs sr vs ts r j q1 calls reqs cm m hs l posted done kp st' sent' vs1 : J s cs sr vs ts -> (r < size)%nat -> nth_error ts r = Some (S j) -> (S j <= N)%nat ->
  (done + l = off (S j))%nat -> asks (S j) calls -> length hs = j -> kp = repeat ([], GCall (CBcast tt)) (length posted) -> (~ busy q1 -> length posted = done) ->
  let q' := mkSR (sbind q1 (fun mr => SRet (S j, mr))) posted done in
  let p' := rbind (on_group (all_ranks size) (bcasts l (PRet (m, hs ++ [m])%list))) (mixed r (skel (S j) calls) reqs cm None) in
  inv (st', upd sr r q') vs1 -> fated r p' ->
  exists sr' vs' ts', J (mkJ st' (upd (j_ranks s) r (mkUR (of_store q1 (after r calls reqs cm m)) posted done)) sent')
      (mkCl (upd (cl_ranks cs) r (mkRk p' kp (negb (Nat.eqb (length posted) done)))) sent') sr' vs' ts' /\
    (total sr' vs' + tsum ts' <= total (upd sr r q') vs1 + tsum ts)%nat.
Proof.
  intros Jx Hr Ht Hj Hl AS LH KP D q' p' I FA. pose proof (tsum_upd ts r (S j) (S j) Ht) as TS.
  assert (B : busy q1 \/ exists mr, q1 = SRet mr) by (destruct q1; [right; eauto|left; exact Logic.I|left; exact Logic.I]).
  destruct B as [B|(mr & ->)].
  - exists (upd sr r q'), vs1, (upd ts r (S j)). split; [|lia]. apply (J_upd s cs sr vs ts); auto.
    split; [reflexivity|]. split; [reflexivity|]. split; [exact KP|]. split; [reflexivity|]. split; [|exact Hj]. cbn [u_done u_proc k_proc sr_proc q']. now apply rel_store.
  - specialize (D (fun x => x)). cbn [sbind] in q'. pose proof I as (I1 & I2 & I3 & _). rewrite length_upd in I1.
    destruct (nth_of _ r _ I2 Hr) as (v & Hv). assert (Hq : nth_error (upd sr r q') r = Some q') by (destruct (nth_of _ r _ I1 Hr) as (q0 & H0); rewrite nth_error_upd, Nat.eqb_refl, H0; reflexivity).
    destruct (I3 _ _ _ Hq Hv) as (W & _). cbn [q' sr_proc sr_done] in W. inversion W; subst. match goal with X : post _ _ _ _ (S _, _) |- _ => rename X into P' end.
    destruct (H_post _ _ _ _ _ _ P') as (D' & mon' & ->). assert (l = 0%nat) by lia. subst l. cbn [bcasts on_group rbind] in p', FA. cbn [of_store after].
    destruct (settle_go r Hr calls (S (length hs)) reqs cm mon' m (hs ++ [m])%list (length posted) (v_h v) (v_m v)) as (t' & q2 & n' & R & W' & Ht' & Bd); auto.
    { rewrite app_length. cbn. lia. }
    pose proof (inv_swap _ _ _ _ _ _ _ _ I Hq Hv eq_refl W') as I'. rewrite upd_upd in I'. cbn [q' sr_posted sr_done] in I'.
    exists (upd sr r (mkSR q2 posted (length posted))), (upd vs1 r (mkView n' (v_h v) (v_m v))), (upd ts r t'). split.
    + apply (J_upd s cs sr vs ts); auto. split; [reflexivity|]. split; [reflexivity|]. split; [reflexivity|]. split; [reflexivity|]. split; [exact R|exact Ht'].
    + pose proof (total_upd size size_pos (upd sr r q') vs1 r q' v (mkSR q2 posted (length posted)) (mkView n' (v_h v) (v_m v)) Hq Hv) as T1. rewrite upd_upd in T1. unfold weight in T1. cbn [v_n sr_done sr_posted q'] in T1.
      pose proof (tsum_upd ts r _ t' Ht) as T2. fold q'. lia.
Qed.

Lemma sync_left r n done l h m j q1 : wp owner script r (post r) n (S done) h m (sbind q1 (fun mr => SRet (S j, mr))) -> (done + l = off (S j))%nat -> exists l', l = S l'.
Proof.
  intros W1 OFF. assert (X : wp owner script r (fun k h m (a : result) => fst a = S j /\ post r k h m a) n (S done) h m (sbind q1 (fun mr => SRet (S j, mr)))).
  { clear -W1. remember (sbind q1 (fun mr => SRet (S j, mr))) as qq eqn:E. revert q1 E. induction W1; intros q1 E.
    - constructor. split; auto. destruct q1; cbn in E; try discriminate. now injection E as ->.
    - destruct q1; cbn in E; try discriminate. injection E as E1 E2; subst. constructor; eauto.
    - destruct q1; cbn in E; try discriminate. injection E as E1 E2; subst. constructor; eauto.
    - destruct q1; cbn in E; try discriminate. injection E as E1 E2; subst. constructor; eauto.
    - destruct q1; cbn in E; try discriminate. injection E as E1 E2; subst. econstructor; eauto.
    - destruct q1; cbn in E; try discriminate. injection E as E1 E2; subst. econstructor; eauto. }
  destruct (wp_reaches _ _ _ _ _ _ _ _ _ X) as (k' & h' & m1 & [a1 a2] & Le & E & Pk). cbn in E. subst a1. destruct (H_post _ _ _ _ _ _ Pk) as (Ek & _). destruct l; [lia|eauto].
Qed.

Lemma J_step s cs sr vs ts sched r s' : J s cs sr vs ts -> cl_run bf needs_all sched start = Some cs -> ustep zexec bf dl r s = Some s' ->
  exists cs' sr' vs' ts', J s' cs' sr' vs' ts' /\
    ((cl_step bf needs_all r cs = Some cs' /\ (total sr' vs' + tsum ts' <= total sr vs + tsum ts)%nat) \/ (cs' = cs /\ (total sr' vs' + tsum ts' < total sr vs + tsum ts)%nat)).
Proof.
  intros Jx RU US. destruct s as [st ranks sent]. cbn [ustep] in US. destruct (nth_error ranks r) as [u|] eqn:Hu; [|discriminate].
  assert (Hr : (r < size)%nat) by (rewrite <- (J_ranks _ _ _ _ _ Jx); apply nth_error_Some; cbn; congruence).
  destruct (J_at _ _ _ _ _ r Jx Hr) as (u1 & c & q & t & v & Hu1 & Hc & Hq & Ht & Hv & LK & (W & PO & D)). cbn [j_ranks] in Hu1. assert (u1 = u) by congruence. subst u1. clear Hu1.
  pose proof LK as (L1 & L2 & L3 & L4 & L5 & L6). destruct u as [pu posted done]. destruct c as [pc kp pend]. destruct q as [pq posted' done']. cbn [u_posted u_done u_proc k_posted k_pending k_proc sr_posted sr_done sr_proc] in *. subst posted' done'.
  pose proof (conj (J_sent _ _ _ _ _ Jx) Logic.I) as SE0. cbn [j_sent] in SE0.
  assert (FATE : forall cs', cl_step bf needs_all r cs = Some cs' -> forall c', nth_error (cl_ranks cs') r = Some c' -> fated r (k_proc c')).
  { intros cs' S c' Hc'. apply (reach_fated (sched ++ [r]) cs'); auto. rewrite (cl_run_app _ _ _ _ _ _ RU). cbn. now rewrite S. }
  assert (NTH : forall c', nth_error (upd (cl_ranks cs) r c') r = Some c') by (intros c'; rewrite nth_error_upd, Nat.eqb_refl, Hc; reflexivity).
  inversion L5; subst; try discriminate.
  - (* messages *)
    assert (DN : length posted = done) by (destruct D as [D|[_ (b & p & D)]]; [auto|discriminate]). inversion W; subst. destruct SE0 as [SE _]. match goal with X : post _ _ _ _ (t, _) |- _ => rename X into PP end.
    match goal with X : forall m, cont _ _ _ _ _ _ |- _ => rename X into CN end. match goal with X : active ops |- _ => rename X into AC end.
    assert (GO : forall u' p' sent', cl_step bf needs_all r cs = Some (mkCl (upd (cl_ranks cs) r (mkRk p' (repeat ([], GCall (CBcast tt)) (length posted)) (negb (length posted =? length posted)%nat))) sent') ->
       (fated r p' -> Settled r (length posted) t (v_h v) (v_m v) u' p') ->
       exists cs' sr' vs' ts', J (mkJ st (upd ranks r (mkUR u' posted (length posted))) sent') cs' sr' vs' ts' /\
         ((cl_step bf needs_all r cs = Some cs' /\ (total sr' vs' + tsum ts' <= total sr vs + tsum ts)%nat) \/ (cs' = cs /\ (total sr' vs' + tsum ts' < total sr vs + tsum ts)%nat))).
    { intros u' p' sent' S SET. pose proof (FATE _ S _ (NTH _)) as FA. cbn [k_proc] in FA.
      destruct (J_go _ _ _ _ _ r _ _ _ t v p' u' sent' Jx Hr Hu Hc Hq Ht Hv LK eq_refl (SET FA)) as (sr' & vs' & ts' & J' & B). cbn [j_store j_ranks u_posted u_done k_posted k_pending] in J'.
      eexists; exists sr', vs', ts'. split; [exact J'|]. left. auto. }
    assert (SO : forall os m1, fated r (rbind (on_memory os m1) K') -> Settled r (length posted) t (v_h v) (v_m v) (of_messages (Ob := unit) (on_memory os m1) K) (rbind (on_memory os m1) K')).
    { intros os m1. apply settle_ops with (mon := mon) (hs := hs); auto. intros m2 F2. eapply settle_cont; eauto. }
    destruct ops as [|[dst tag pay|src tag sto|j|f] ops]; try contradiction; cbn [on_memory of_messages rbind] in *.
    + destruct (nth_error sent r) as [l|] eqn:Sr; [|discriminate]. injection US as <-. apply GO with (p' := rbind (on_memory ops m) K'); [|apply SO].
      unfold cl_step, react. rewrite Hc. cbn [k_proc k_posted k_pending]. rewrite SE, Sr. unfold affect. rewrite ?Sr. reflexivity.
    + destruct (src <? 0) eqn:S0; [discriminate|]. destruct (nth_error sent (Z.to_nat src)) as [l|] eqn:Sr; [|discriminate]. destruct (take (Z.of_nat r) tag l) as [[body l']|] eqn:TK; [|discriminate]. injection US as <-.
      eapply GO.
      * unfold cl_step, react. rewrite Hc. cbn [k_proc k_posted k_pending]. rewrite S0, SE, Sr, TK. unfold affect. rewrite ?Sr, ?TK. reflexivity.
      * cbn beta. destruct (sto body m) as [m1|]; [apply SO|]. intros _. exists t, (SRet (t, (mon, Ok tt))), 0%nat. split; [constructor|]. split; [now constructor|]. auto.
    + destruct (nth_error sent r) as [l|] eqn:Sr; [|discriminate]. destruct (nth_error l j) as [mg|] eqn:Mj; [|discriminate]. destruct (ms_taken mg || bf r j) eqn:TB; [|discriminate]. injection US as <-.
      apply GO with (p' := rbind (on_memory ops m) K'); [|apply SO]. unfold cl_step, react. rewrite Hc. cbn [k_proc k_posted k_pending]. rewrite SE, Sr, Mj, TB. reflexivity.
  - (* stores *)
    match goal with X : busy q0 |- _ => rename X into BU end. match goal with X : asks _ _ |- _ => rename X into AS end. match goal with X : (done + l = _)%nat |- _ => rename X into OFF end.
    destruct q0 as [mr|o f|b q1]; [contradiction| |]; cbn [of_store sbind] in *.
    + destruct SE0 as [SE _]. destruct (zexec o st) as [a st'] eqn:X. injection US as <-. assert (DN : length posted = done) by (destruct D as [D|[_ (b & p & D)]]; [auto|discriminate]).
      assert (SS : sstep zexec dl r (st, sr) = Some (st', upd sr r (mkSR (sbind (f a) (fun mr => SRet (S (length hs), mr))) posted done))) by (unfold sstep; rewrite Hq, X; reflexivity).
      destruct (inv_step _ _ _ size_pos _ _ _ _ _ _ _ (J_inv _ _ _ _ _ Jx) SS) as (vs1 & I1 & LT). cbn [snd] in LT.
      destruct (J_store _ _ _ _ _ r (length hs) (f a) calls reqs cm m hs l posted done _ st' sent vs1 Jx Hr Ht L6 OFF AS eq_refl eq_refl (fun _ => DN) I1) as (sr' & vs' & ts' & J' & B).
      { exact (reach_fated sched cs r _ RU Hr Hc). }
      cbn [j_ranks] in J'. match type of J' with J _ (mkCl ?X _) _ _ _ => replace X with (cl_ranks cs) in J' by (symmetry; exact (upd_same _ _ _ Hc)) end. exists cs, sr', vs', ts'. split; [|right; split; auto; lia]. rewrite <- SE in J'. destruct cs as [kr ks]. cbn in *. subst ks. exact J'.
    + inversion W; subst. destruct SE0 as [SE _]. match goal with X : nth_error script done = _ |- _ => rename X into Sk end. match goal with X : wp _ _ _ _ _ (S done) _ _ _ |- _ => rename X into W1 end.
      assert (LL : exists l', l = S l') by (eapply sync_left; eauto).
      destruct LL as (l' & ->). cbn [bcasts on_group rbind] in *.
      destruct (Nat.eqb_spec (length posted) done) as [E|NE].
      * injection US as <-.
        assert (SS : sstep zexec dl r (st, sr) = Some (st, upd sr r (mkSR (sbind (SSync b q1) (fun mr => SRet (S (length hs), mr))) (posted ++ [b]) done))).
        { unfold sstep. rewrite Hq. replace (length posted =? done)%nat with true by (symmetry; now apply Nat.eqb_eq). reflexivity. }
        destruct (inv_step _ _ _ size_pos _ _ _ _ _ _ _ (J_inv _ _ _ _ _ Jx) SS) as (vs1 & I1 & LT). cbn [snd] in LT.
        assert (KP : (repeat (([] : ctx), (GCall (CBcast tt) : gcall unit V)) (length posted) ++ [([], GCall (CBcast tt))])%list = repeat ([], GCall (CBcast tt)) (length (posted ++ [b]))).
        { rewrite <- repeat_cons, app_length, Nat.add_comm. reflexivity. }
        destruct (J_store _ _ _ _ _ r (length hs) (SSync b q1) calls reqs cm m hs (S l') (posted ++ [b])%list done _ st sent vs1 Jx Hr Ht L6 OFF AS eq_refl KP ltac:(intros X; exfalso; apply X; exact Logic.I) I1) as (sr' & vs' & ts' & J' & B).
        { exact (reach_fated sched cs r _ RU Hr Hc). }
        eexists; exists sr', vs', ts'. split; [exact J'|]. left. split; [|lia]. unfold cl_step, react. rewrite Hc. cbn [k_proc k_posted k_pending]. cbn [negb affect]. rewrite SE.
        replace (negb (length (posted ++ [b]) =? done)%nat) with true; [reflexivity|]. symmetry. apply Bool.negb_true_iff, Nat.eqb_neq. rewrite app_length. cbn. lia.
      * destruct (completes (b || dl r done) done b ranks) eqn:CO; [|discriminate]. injection US as <-. assert (LS : length posted = S done) by (destruct D as [D|[D _]]; [contradiction|exact D]).
        assert (SS : sstep zexec dl r (st, sr) = Some (st, upd sr r (mkSR (sbind q1 (fun mr => SRet (S (length hs), mr))) posted (S done)))).
        { unfold sstep. rewrite Hq. replace (length posted =? done)%nat with false by (symmetry; now apply Nat.eqb_neq). rewrite (may_J _ _ _ _ _ _ _ _ Jx). cbn [j_ranks]. rewrite CO. reflexivity. }
        destruct (inv_step _ _ _ size_pos _ _ _ _ _ _ _ (J_inv _ _ _ _ _ Jx) SS) as (vs1 & I1 & LT). cbn [snd] in LT.
        destruct (react_J _ _ _ _ _ r _ done b _ _ Jx Hr Hc Sk eq_refl eq_refl) as (RJ & _); [cbn [k_posted]; now rewrite repeat_length| |].
        { eexists. split; [exact Hu|]. cbn. lia. }
        cbn [j_ranks] in RJ. specialize (RJ CO). cbn [k_posted] in RJ.
        assert (CS : cl_step bf needs_all r cs = Some (mkCl (upd (cl_ranks cs) r (mkRk (rbind (on_group (all_ranks size) (bcasts l' (PRet (m, hs ++ [m])%list))) (mixed r (skel (S (length hs)) calls) reqs cm None)) (repeat ([], GCall (CBcast tt)) (length posted)) false)) sent)).
        { unfold cl_step. rewrite RJ. cbn [affect]. now rewrite SE. }
        destruct (J_store _ _ _ _ _ r (length hs) q1 calls reqs cm m hs l' posted (S done) _ st sent vs1 Jx Hr Ht L6 ltac:(lia) AS eq_refl eq_refl (fun _ => LS) I1) as (sr' & vs' & ts' & J' & B).
        { exact (FATE _ CS _ (NTH _)). }
        eexists; exists sr', vs', ts'. split; [exact J'|]. left. split; [|lia]. rewrite CS. rewrite LS. rewrite Nat.eqb_refl. reflexivity.
Qed.

Lemma J_run sched : forall s cs sr vs ts sc s', J s cs sr vs ts -> cl_run bf needs_all sc start = Some cs -> urun zexec bf dl sched s = Some s' ->
  exists sc' cs' sr' vs' ts', J s' cs' sr' vs' ts' /\ cl_run bf needs_all sc' start = Some cs' /\ (length sched + length sc + (total sr' vs' + tsum ts') <= length sc' + (total sr vs + tsum ts))%nat.
Proof.
  induction sched as [|r sched IH]; intros s cs sr vs ts sc s' Jx RU US; cbn [urun] in US.
  - injection US as <-. exists sc, cs, sr, vs, ts. split; [exact Jx|]. split; [exact RU|]. cbn. lia.
  - destruct (ustep zexec bf dl r s) as [s1|] eqn:E; [|discriminate]. destruct (J_step _ _ _ _ _ _ _ _ Jx RU E) as (cs1 & sr1 & vs1 & ts1 & J1 & [[CS B]|[-> B]]).
    + assert (RU1 : cl_run bf needs_all (sc ++ [r]) start = Some cs1) by (rewrite (cl_run_app _ _ _ _ _ _ RU); cbn; now rewrite CS).
      destruct (IH _ _ _ _ _ _ _ J1 RU1 US) as (sc' & cs' & sr' & vs' & ts' & J' & R' & L'). exists sc', cs', sr', vs', ts'. split; [exact J'|]. split; [exact R'|]. rewrite app_length in L'. cbn in *. lia.
    + destruct (IH _ _ _ _ _ _ _ J1 RU US) as (sc' & cs' & sr' & vs' & ts' & J' & R' & L'). exists sc', cs', sr', vs', ts'. split; [exact J'|]. split; [exact R'|]. cbn. lia.
Qed.

(** a rank has ended well, or some rank can proceed, or the cluster's rank has neither ended nor can it *)
Definition well (s : joint (zstore V) (zop V) (zans V) V (mem V * monitor T)) (vs : list (@view_of V)) (r : nat) : Prop :=
  exists u mon v k, nth_error (j_ranks s) r = Some u /\ u_proc u = URet (m' r, mon) /\ nth_error vs r = Some v /\ post r k (v_h v) (v_m v) (N, (mon, Ok tt)).
Lemma J_moves s cs sr vs ts r : J s cs sr vs ts -> (r < size)%nat ->
  (forall k h, nth_error (cl_ranks cs) r = Some k -> rank_outcome k = Some (Ok (m' r, h)) -> well s vs r \/ exists s', ustep zexec bf dl r s = Some s') /\
  (cl_step bf needs_all r cs <> None -> exists s', ustep zexec bf dl r s = Some s').
Proof.
  intros Jx Hr. destruct s as [st ranks sent]. destruct (J_at _ _ _ _ _ r Jx Hr) as (u & c & q & t & v & Hu & Hc & Hq & Ht & Hv & LK & (W & PO & D)). cbn [j_ranks] in Hu.
  destruct LK as (L1 & L2 & L3 & L4 & L5 & L6). destruct u as [pu posted done]. destruct c as [pc kp pend]. destruct q as [pq posted' done']. cbn [u_posted u_done u_proc k_posted k_pending k_proc sr_posted sr_done sr_proc] in *. subst posted' done'.
  pose proof (conj (J_sent _ _ _ _ _ Jx) Logic.I) as SE0. cbn [j_sent] in SE0. cbn [ustep]. rewrite Hu. inversion L5; subst.
  - inversion W; subst. match goal with X : post _ _ _ _ _ |- _ => rename X into PP end. split.
    + intros k h' Hk O. left. rewrite Hc in Hk. injection Hk as <-. cbn in O. injection O as -> _. exists (mkUR (URet (m' r, mon)) posted done), mon, v, done. auto.
    + intros X. exfalso. apply X. unfold cl_step, react. rewrite Hc. reflexivity.
  - split.
    + intros k h' Hk O. rewrite Hc in Hk. injection Hk as <-. discriminate.
    + intros X. exfalso. apply X. unfold cl_step, react. rewrite Hc. reflexivity.
  - match goal with X : active ops |- _ => rename X into AC end. destruct SE0 as [SE _]. destruct ops as [|[dst tag pay|src tag sto|j|f] ops]; try contradiction; cbn [on_memory of_messages rbind] in *;
      (split; [intros k h' Hk O; rewrite Hc in Hk; injection Hk as <-; discriminate|]); unfold cl_step, react; rewrite Hc; cbn [k_proc k_posted k_pending]; rewrite SE; intros X.
    + destruct (nth_error sent r); [eauto|contradiction].
    + destruct (src <? 0); [contradiction|]. destruct (nth_error sent (Z.to_nat src)) as [l|]; [|contradiction]. destruct (take (Z.of_nat r) tag l) as [[b l']|]; [eauto|contradiction].
    + destruct (nth_error sent r) as [l|]; [|contradiction]. destruct (nth_error l j) as [mg|]; [|contradiction]. destruct (ms_taken mg || bf r j); [eauto|contradiction].
  - match goal with X : busy q0 |- _ => rename X into BU end. match goal with X : (done + l = _)%nat |- _ => rename X into OFF end. destruct q0 as [mr|o f|b q1]; [contradiction| |]; cbn [of_store sbind] in *.
    + destruct (zexec o st) as [a st']. split; eauto.
    + inversion W; subst. destruct SE0 as [SE _]. match goal with X : nth_error script done = _ |- _ => rename X into Sk end. match goal with X : wp _ _ _ _ _ (S done) _ _ _ |- _ => rename X into W1 end.
      destruct (sync_left _ _ _ _ _ _ _ _ W1 OFF) as (l' & ->). cbn [bcasts on_group rbind] in *. split; [intros k h' Hk O; rewrite Hc in Hk; injection Hk as <-; discriminate|].
      destruct (Nat.eqb_spec (length posted) done) as [E|NE]; [eauto|]. assert (LS : length posted = S done) by (destruct D as [D|[D _]]; [contradiction|exact D]).
      destruct (react_J _ _ _ _ _ r _ done b _ _ Jx Hr Hc Sk eq_refl eq_refl) as (_ & RJ); [cbn [k_posted]; now rewrite repeat_length| |].
      { eexists. split; [exact Hu|]. cbn. lia. }
      cbn [j_ranks] in RJ. unfold cl_step. destruct (completes (b || dl r done) done b ranks); [eauto|]. rewrite (RJ eq_refl). contradiction.
Qed.

Lemma all_or {P : nat -> Prop} {Q : Prop} k : (forall r, (r < k)%nat -> P r \/ Q) -> (forall r, (r < k)%nat -> P r) \/ Q.
Proof.
  induction k as [|k IH]; intros H; [left; lia|]. destruct IH as [A|q]; auto. destruct (H k ltac:(lia)) as [p|q]; auto. left. intros r Hr. destruct (Nat.eq_dec r k) as [->|]; auto. apply A. lia.
Qed.
Lemma J_progress s cs sr vs ts sc : J s cs sr vs ts -> cl_run bf needs_all sc start = Some cs -> (forall r, (r < size)%nat -> well s vs r) \/ exists r s', ustep zexec bf dl r s = Some s'.
Proof.
  intros Jx RU. destruct (H_ends _ _ RU) as (_ & [O|(r & cs' & E)]).
  - apply all_or. intros r Hr. destruct (O r Hr) as (k & Hk & Ok). destruct (J_moves _ _ _ _ _ r Jx Hr) as (M & _). destruct (M k _ Hk Ok) as [W|(s' & E)]; eauto.
  - right. assert (Hr : (r < size)%nat).
    { rewrite <- (J_cl _ _ _ _ _ Jx). apply nth_error_Some. intros X. unfold cl_step, react in E. rewrite X in E. discriminate. }
    destruct (J_moves _ _ _ _ _ r Jx Hr) as (_ & M). destruct M as (s' & X); [congruence|]. eauto.
Qed.

(** ** the start *)
Lemma choose {A} (P : nat -> A -> Prop) k : (forall r, (r < k)%nat -> exists x, P r x) -> exists l, length l = k /\ forall r x, nth_error l r = Some x -> P r x.
Proof.
  induction k as [|k IH]; intros H; [exists []; split; auto; intros [|r] x; discriminate|]. destruct IH as (l & L & N0); auto. destruct (H k ltac:(lia)) as (x & X). exists (l ++ [x])%list. split; [rewrite app_length; cbn; lia|].
  intros r y E. destruct (Nat.lt_ge_cases r k) as [Lt|Ge]; [rewrite nth_error_app1 in E by lia; auto|]. rewrite nth_error_app2 in E by lia. destruct (r - length l)%nat as [|z] eqn:Z0; cbn in E; [|destruct z; discriminate].
  injection E as <-. replace r with k by lia. exact X.
Qed.
Variables (calls : list (ocall V T)) (m0 : nat -> mem V).
Hypothesis AS0 : asks 0 calls.
Hypothesis ST0 : start = cl_start size (mixed_program unit V (list (mem V)) neg layout (skel 0 calls) m0 (fun _ => [])).

Lemma nth_map_start {B} (f : nat -> B) r x : nth_error (map f (seq 0 size)) r = Some x -> (r < size)%nat /\ x = f r.
Proof.
  intros H. assert (r < size)%nat. { rewrite <- (seq_length size 0), <- (map_length f). apply nth_error_Some. congruence. }
  split; auto. rewrite (map_nth_error f r (seq 0 size) (d := r)) in H; [congruence|]. rewrite (nth_error_nth' _ 0%nat) by (now rewrite seq_length). now rewrite seq_nth.
Qed.
Lemma nth_start {B} (f : nat -> B) r : (r < size)%nat -> nth_error (map f (seq 0 size)) r = Some (f r).
Proof. intros H. rewrite (map_nth_error f r (seq 0 size) (d := r)); auto. rewrite (nth_error_nth' _ 0%nat) by (now rewrite seq_length). now rewrite seq_nth. Qed.

Lemma J_start : exists sr vs ts, J (ustart size (one_program V T neg junk calendar_of text_of encode layout calls m0) empty_store) start sr vs ts /\ (total sr vs + tsum ts <= size * (N * C))%nat.
Proof.
  set (h0 := (fun _ _ => None) : heap). set (e0 := (fun _ => None) : metas).
  destruct (choose (fun r (x : nat * sprog * nat) => let '(t, q, n) := x in
     rel r 0 t (one_program V T neg junk calendar_of text_of encode layout calls m0 r) (mixed_program unit V (list (mem V)) neg layout (skel 0 calls) m0 (fun _ => []) r) q /\
     wp owner script r (post r) n 0 h0 e0 q /\ (t <= N)%nat /\ (n + (N - t) * C <= N * C)%nat) size) as (xs & LX & PX).
  { intros r Hr. destruct (settle_go r Hr calls 0%nat [] new_comm None (m0 r) [] 0%nat h0 e0) as (t & q & n & R & W & Ht & B); auto.
    - assert (RU : cl_run bf needs_all [] start = Some start) by reflexivity.
      apply (reach_fated [] start r (mkRk (mixed_program unit V (list (mem V)) neg layout (skel 0 calls) m0 (fun _ => []) r) [] false) RU Hr). rewrite ST0. unfold cl_start. cbn [cl_ranks]. rewrite nth_start by auto. reflexivity.
    - exists (t, q, n). rewrite Nat.sub_0_r in B. auto. }
  exists (map (fun x => mkSR (snd (fst x)) [] 0%nat) xs), (map (fun x => mkView (snd x) h0 e0) xs), (map (fun x => fst (fst x)) xs). split.
  - assert (NX : forall B (f : nat * sprog * nat -> B) r y, nth_error (map f xs) r = Some y -> exists t q n, y = f (t, q, n) /\ (r < size)%nat /\ nth_error xs r = Some (t, q, n)).
    { intros B f r y E. rewrite nth_error_map in E. destruct (nth_error xs r) as [[[t q] n]|] eqn:X; [|discriminate]. injection E as <-. exists t, q, n. split; auto. split; auto. rewrite <- LX. apply nth_error_Some. congruence. }
    split; cbn [ustart j_ranks j_store j_sent].
    + now rewrite map_length, seq_length.
    + rewrite ST0. cbn. now rewrite map_length, seq_length.
    + now rewrite map_length.
    + split; [now rewrite map_length|]. split; [now rewrite map_length|]. split; [|split; [|split; [|split; [|split]]]].
      * intros r c v Hc Hv. apply NX in Hc, Hv. destruct Hc as (t & q & n & -> & Hr & X), Hv as (t1 & q1 & n1 & -> & _ & X1). assert (E : (t, q, n) = (t1, q1, n1)) by congruence. injection E as <- <- <-.
        destruct (PX _ _ X) as (_ & W & _). split; [exact W|]. split; [intros [|i] b; discriminate|]. left. reflexivity.
      * intros n c. unfold vheap. destruct (nth_error _ (owner n c)) as [v|] eqn:E; auto. apply NX in E. destruct E as (t & q & n1 & -> & _). reflexivity.
      * intros n c H. now contradiction H.
      * intros v H. apply NX in H. destruct H as (t & q & n1 & -> & _). intros x. reflexivity.
      * intros r v H. apply NX in H. destruct H as (t & q & n1 & -> & _). intros x z Hz. discriminate.
      * intros c i b m H. apply NX in H. destruct H as (t & q & n1 & -> & _). cbn. lia.
    + rewrite ST0. reflexivity.
    + intros r u c q t Hu Hc Hq Ht. apply NX in Hq, Ht. destruct Hq as (t1 & q1 & n1 & -> & Hr & X), Ht as (t2 & q2 & n2 & -> & _ & X2). rewrite X in X2. injection X2 as <- <- <-.
      apply nth_map_start in Hu. destruct Hu as (_ & ->). rewrite ST0 in Hc. cbn [cl_start cl_ranks] in Hc. apply nth_map_start in Hc. destruct Hc as (_ & ->).
      destruct (PX _ _ X) as (R & _ & Ht & _). repeat (split; auto).
  - rewrite <- LX. assert (FX : Forall (fun x => (snd x + (N - fst (fst x)) * C <= N * C)%nat) xs).
    { apply Forall_forall. intros x I. apply In_nth_error in I. destruct I as (r & X). specialize (PX _ _ X). destruct x as [[t q] n]. cbn. tauto. }
    clear -FX. induction FX as [|x xs H FX IH]; cbn [map total tsum length Nat.mul]; [lia|]. unfold weight at 1. cbn [v_n sr_done sr_posted length]. lia.
Qed.

Lemma joint_execution sched s : urun zexec bf dl sched (ustart size (one_program V T neg junk calendar_of text_of encode layout calls m0) empty_store) = Some s ->
  (length sched <= bound + size * (N * C))%nat /\
  ((exists sr vs, inv (j_store s, sr) vs /\ forall r, (r < size)%nat -> well s vs r) \/ exists r s', ustep zexec bf dl r s = Some s').
Proof.
  intros US. destruct J_start as (sr & vs & ts & J0 & B0). destruct (J_run _ _ _ _ _ _ [] _ J0 eq_refl US) as (sc' & cs' & sr' & vs' & ts' & J' & R' & L'). destruct (H_ends _ _ R') as (B & _). split; [cbn in L'; lia|].
  destruct (J_progress _ _ _ _ _ _ J' R') as [W|P]; [left|right; exact P]. exists sr', vs'. split; [apply J'|exact W].
Qed.
End Joint.
