(** Counting messages (C84). *)
From Verif.Base Require Import Base Lemmas.
From Verif.Model Require Import Network.
From Verif.Spec Require Import Lockstep.
From Verif.Proofs Require Import ValuesProofs.
From Coq Require Import ZifyBool.

Section Count.
Context {L V : Type}.
Variable bf : nat -> nat -> bool.

Definition sends_of (l : list (op L V)) : list (Z * Z) := flat_map (fun o => match o with OSend d t _ => [(d, t)] | _ => [] end) l.
Definition recvs_of (l : list (op L V)) : list (Z * Z) := flat_map (fun o => match o with ORecv s t _ => [(s, t)] | _ => [] end) l.
Definition zz_dec (a b : Z * Z) : {a = b} + {a <> b}.
Proof. decide equality; apply Z.eq_dec. Defined.
Definition cnt (l : list (Z * Z)) (k : Z * Z) : nat := count_occ zz_dec l k.
Definition key (m : msg V) : Z * Z := (ms_dst m, ms_tag m).
Definition taken_on (k : Z * Z) (l : list (msg V)) : nat := cnt (map key (filter ms_taken l)) k.

Lemma taken_le k l : (taken_on k l <= cnt (map key l) k)%nat.
Proof. unfold taken_on, cnt. induction l as [|m l IH]; cbn [filter map count_occ]; auto. destruct (ms_taken m); cbn [map count_occ]; destruct (zz_dec (key m) k); lia. Qed.
Lemma take_facts d t l b l' : take d t l = Some (b, l') ->
  map key l' = map key l /\ (forall k, taken_on k l' = taken_on k l + (if zz_dec (d, t) k then 1 else 0))%nat /\
  (forall j m, nth_error l j = Some m -> ms_taken m = true -> exists m', nth_error l' j = Some m' /\ ms_taken m' = true).
Proof.
  revert b l'. induction l as [|m l IH]; intros b l'; cbn [take]; [discriminate|]. destruct (matches d t m) eqn:M.
  - intros [= <- <-]. unfold matches in M. apply andb_prop in M. destruct M as [M Mt]. apply andb_prop in M. destruct M as [M Md]. apply Z.eqb_eq in Mt, Md. apply negb_true_iff in M. split; [|split].
    + reflexivity.
    + intros k. unfold taken_on, cnt. cbn [filter ms_taken]. rewrite M. cbn [map count_occ]. unfold key at 1. cbn [ms_dst ms_tag]. rewrite Md, Mt. destruct (zz_dec (d, t) k); lia.
    + intros [|j] m0; cbn [nth_error]; [|intros; eauto]. intros [= <-] T. congruence.
  - destruct (take d t l) as [[b0 l0]|]; [|discriminate]. intros [= <- <-]. destruct (IH _ _ eq_refl) as (A & B & C). split; [|split].
    + cbn. now f_equal.
    + intros k. specialize (B k). unfold taken_on, cnt in *. cbn [filter]. destruct (ms_taken m); cbn [map count_occ]; [destruct (zz_dec (key m) k)|]; lia.
    + intros [|j] m0; cbn [nth_error]; eauto.
Qed.

Variables (N : nat) (p : nat -> list (op L V)) (m : nat -> L).
Definition good (s : net L V) : Prop :=
  length (n_prog s) = N /\ length (n_sent s) = N /\
  (forall r ps sent, nth_error (n_prog s) r = Some ps -> nth_error (n_sent s) r = Some sent ->
     map key sent ++ sends_of ps = sends_of (p r) /\
     forall j, In (OWait j) (p r) -> In (OWait j) ps \/ bf r j = true \/ exists mg, nth_error sent j = Some mg /\ ms_taken mg = true) /\
  (forall r src ps sent t, nth_error (n_prog s) r = Some ps -> nth_error (n_sent s) src = Some sent ->
     cnt (recvs_of (p r)) (Z.of_nat src, t) = (cnt (recvs_of ps) (Z.of_nat src, t) + taken_on (Z.of_nat r, t) sent)%nat).

Lemma nth_tab {A} (f : nat -> A) r a : nth_error (tab N f) r = Some a -> (r < N)%nat /\ a = f r.
Proof.
  unfold tab. intros E. assert (H : (r < length (map f (seq 0 N)))%nat) by (apply nth_error_Some; congruence). rewrite map_length, seq_length in H. split; auto.
  rewrite nth_error_map in E. rewrite (nth_error_nth' _ 0%nat) in E by now rewrite seq_length. cbn in E. rewrite seq_nth in E by auto. now injection E.
Qed.
Lemma good_start : good (start_state N p m).
Proof.
  unfold start_state. split; [|split; [|split]]; cbn [n_prog n_sent].
  - unfold tab. now rewrite map_length, seq_length.
  - unfold tab. now rewrite map_length, seq_length.
  - intros r ps sent E1 E2. apply nth_tab in E1, E2. destruct E1 as [_ ->], E2 as [_ ->]. split; auto.
  - intros r src ps sent t E1 E2. apply nth_tab in E1, E2. destruct E1 as [_ ->], E2 as [_ ->]. unfold taken_on, cnt. cbn. lia.
Qed.
Lemma upd_some {A} (l : list A) r a i b : nth_error (upd l r a) i = Some b -> i = r /\ b = a \/ i <> r /\ nth_error l i = Some b.
Proof. rewrite nth_error_upd. destruct (Nat.eqb_spec r i); [destruct (Nat.ltb r (length l)); [intros [= <-]|discriminate]; auto|auto]. Qed.
Lemma good_step r s s' : good s -> step bf r s = Some s' -> good s'.
Proof.
  intros (L1 & L2 & W & C). unfold step. destruct (nth_error (n_prog s) r) as [[|o ps]|] eqn:P; try discriminate. destruct (nth_error (n_mem s) r) as [me|] eqn:M; [|destruct o; discriminate].
  destruct (nth_error (n_sent s) r) as [sent|] eqn:S; [|destruct o; discriminate]. destruct o as [d t f|src t g|j|f].
  - intros [= <-]. split; [|split; [|split]]; cbn [n_prog n_sent]; rewrite ?length_upd; auto.
    + intros i qs sn E1 E2. destruct (upd_some _ _ _ _ _ E1) as [[-> ->]|[NE E1']], (upd_some _ _ _ _ _ E2) as [[Q ->]|[NE2 E2']]; try congruence; [|now apply W].
      destruct (W r _ _ P S) as (K & H). split.
      * rewrite map_app, <- app_assoc. exact K.
      * intros j I. destruct (H j I) as [[Q2|I2]|[B|(mg & X & T)]]; [discriminate|auto|auto|]. right. right. exists mg. split; auto. rewrite nth_error_app1; auto. apply nth_error_Some. congruence.
    + intros i src qs sn u E1 E2. assert (Q : nth_error (n_prog s) i = Some qs \/ i = r /\ qs = ps) by (destruct (upd_some _ _ _ _ _ E1) as [[-> ->]|[NE E1']]; auto).
      assert (T : exists sn0, nth_error (n_sent s) src = Some sn0 /\ taken_on (Z.of_nat i, u) sn = taken_on (Z.of_nat i, u) sn0).
      { destruct (upd_some _ _ _ _ _ E2) as [[-> ->]|[NE E2']]; [|eauto]. exists sent. split; auto. unfold taken_on. rewrite filter_app. cbn [filter ms_taken]. now rewrite app_nil_r. }
      destruct T as (sn0 & T1 & T2). rewrite T2. destruct Q as [Q|[-> ->]]; [now apply C|]. rewrite (C r src _ sn0 u P T1). reflexivity.
  - destruct (src <? 0) eqn:Sr; [discriminate|]. destruct (nth_error (n_sent s) (Z.to_nat src)) as [from|] eqn:F; [|discriminate]. destruct (take (Z.of_nat r) t from) as [[b from']|] eqn:T; [|discriminate].
    destruct (g b me); [|discriminate]. intros [= <-]. destruct (take_facts _ _ _ _ _ T) as (K & TK & KT). split; [|split; [|split]]; cbn [n_prog n_sent]; rewrite ?length_upd; auto.
    + intros i qs sn E1 E2.
      assert (Z : exists sn0, nth_error (n_sent s) i = Some sn0 /\ map key sn = map key sn0 /\ forall j mg, nth_error sn0 j = Some mg -> ms_taken mg = true -> exists mg', nth_error sn j = Some mg' /\ ms_taken mg' = true).
      { destruct (upd_some _ _ _ _ _ E2) as [[-> ->]|[NE E2']]; [exists from; auto|exists sn; split; eauto]. }
      destruct Z as (sn0 & Z1 & Z2 & Z3). rewrite Z2.
      assert (Q : exists qs0, nth_error (n_prog s) i = Some qs0 /\ sends_of qs0 = sends_of qs /\ forall j, In (OWait j) qs0 -> In (OWait j) qs).
      { destruct (upd_some _ _ _ _ _ E1) as [[-> ->]|[NE E1']]; [exists (ORecv src t g :: ps)|exists qs; auto]. split; auto. split; auto. intros j [Q|I]; [discriminate|auto]. }
      destruct Q as (qs0 & Q1 & Q2 & Q3). destruct (W _ _ _ Q1 Z1) as (K' & H). rewrite <- Q2. split; auto. intros j I. destruct (H j I) as [X|[X|(mg & X & Y)]]; eauto.
    + intros i src' qs sn u E1 E2. destruct (upd_some _ _ _ _ _ E2) as [[-> ->]|[NE2 E2']].
      * rewrite TK. destruct (upd_some _ _ _ _ _ E1) as [[-> ->]|[NE E1']].
        -- rewrite (C r _ _ _ u P F). change (recvs_of (ORecv src t g :: ps)) with ((src, t) :: recvs_of ps). unfold cnt at 1. cbn [count_occ]. fold (cnt (recvs_of ps) (Z.of_nat (Z.to_nat src), u)).
           destruct (zz_dec (src, t) (Z.of_nat (Z.to_nat src), u)) as [e|ne], (zz_dec (Z.of_nat r, t) (Z.of_nat r, u)) as [e'|ne']; try lia.
           ++ congruence.
           ++ exfalso. apply ne. f_equal; [lia|congruence].
        -- rewrite (C i _ _ _ u E1' F). destruct (zz_dec (Z.of_nat r, t) (Z.of_nat i, u)) as [e|]; [|lia]. exfalso. assert (Z.of_nat r = Z.of_nat i) by congruence. lia.
      * destruct (upd_some _ _ _ _ _ E1) as [[-> ->]|[NE E1']]; [|now apply C]. rewrite (C r src' _ _ u P E2'). change (recvs_of (ORecv src t g :: ps)) with ((src, t) :: recvs_of ps). unfold cnt. cbn [count_occ].
        destruct (zz_dec (src, t) (Z.of_nat src', u)) as [e|]; [|lia]. exfalso. apply NE2. assert (src = Z.of_nat src') by congruence. lia.
  - destruct (nth_error sent j) as [mg|] eqn:J; [|discriminate]. destruct (ms_taken mg || bf r j) eqn:T; [|discriminate]. intros [= <-]. split; [|split; [|split]]; cbn [n_prog n_sent]; rewrite ?length_upd; auto.
    + intros i qs sn E1 E2. destruct (upd_some _ _ _ _ _ E1) as [[-> ->]|[NE E1']]; [|now apply W]. destruct (W r _ _ P S) as (K & H). assert (sn = sent) by congruence. subst sn. split; auto.
      intros j' I. destruct (H j' I) as [[Q|I2]|X]; auto. injection Q as ->. right. apply orb_prop in T. destruct T; eauto.
    + intros i src qs sn u E1 E2. destruct (upd_some _ _ _ _ _ E1) as [[-> ->]|[NE E1']]; [|now apply C]. now rewrite (C r src _ _ u P E2).
  - intros [= <-]. split; [|split; [|split]]; cbn [n_prog n_sent]; rewrite ?length_upd; auto.
    + intros i qs sn E1 E2. destruct (upd_some _ _ _ _ _ E1) as [[-> ->]|[NE E1']]; [|now apply W]. destruct (W r _ _ P S) as (K & H). assert (sn = sent) by congruence. subst sn. split; auto.
      intros j' I. destruct (H j' I) as [[Q|I2]|X]; auto. discriminate.
    + intros i src qs sn u E1 E2. destruct (upd_some _ _ _ _ _ E1) as [[-> ->]|[NE E1']]; [|now apply C]. now rewrite (C r src _ _ u P E2).
Qed.
Lemma good_run sched : forall s s', good s -> run bf sched s = Some s' -> good s'.
Proof.
  induction sched as [|r sched IH]; intros s s' G E; cbn [run] in E; [now injection E as <-|]. destruct (step bf r s) as [u|] eqn:S; [|discriminate]. eapply IH; [|eauto]. eapply good_step; eauto.
Qed.

(** more receives than sends *)
Theorem starved r src t sched s : (r < N)%nat -> (src < N)%nat -> (cnt (sends_of (p src)) (Z.of_nat r, t) < cnt (recvs_of (p r)) (Z.of_nat src, t))%nat ->
  run bf sched (start_state N p m) = Some s -> nth_error (n_prog s) r <> Some [].
Proof.
  intros Lr Ls Lt E P. destruct (good_run _ _ _ good_start E) as (L1 & L2 & W & C). destruct (nth_error (n_sent s) src) as [sent|] eqn:S; [|apply nth_error_None in S; lia].
  destruct (nth_error (n_prog s) src) as [qs|] eqn:Q; [|apply nth_error_None in Q; lia]. pose proof (C r src _ _ t P S) as E1. destruct (W src _ _ Q S) as (K & _). rewrite <- K in Lt.
  pose proof (taken_le (Z.of_nat r, t) sent). unfold cnt in *. rewrite count_occ_app in Lt. cbn in E1. lia.
Qed.
(** a send nobody receives *)
Theorem unreceived r dst t j sched s : (r < N)%nat -> (dst < N)%nat -> nth_error (sends_of (p r)) j = Some (Z.of_nat dst, t) -> In (OWait j) (p r) -> bf r j = false ->
  ~ In (Z.of_nat r, t) (recvs_of (p dst)) -> run bf sched (start_state N p m) = Some s -> nth_error (n_prog s) r <> Some [].
Proof.
  intros Lr Ld J I B NI E P. destruct (good_run _ _ _ good_start E) as (L1 & L2 & W & C). destruct (nth_error (n_sent s) r) as [sent|] eqn:S; [|apply nth_error_None in S; lia].
  destruct (W r _ _ P S) as (K & H). destruct (H j I) as [[]|[X|(mg & X & T)]]; [congruence|]. rewrite app_nil_r in K. rewrite <- K, nth_error_map, X in J. cbn in J.
  destruct (nth_error (n_prog s) dst) as [qs|] eqn:Q; [|apply nth_error_None in Q; lia]. pose proof (C dst r _ _ t Q S) as E1. apply (count_occ_not_In zz_dec) in NI. unfold cnt in E1. rewrite NI in E1.
  assert (Z : In (Z.of_nat dst, t) (map key (filter ms_taken sent))).
  { apply in_map_iff. exists mg. split; [congruence|]. apply filter_In. split; auto. eapply nth_error_In; eauto. }
  apply (count_occ_In zz_dec) in Z. unfold taken_on, cnt in E1. lia.
Qed.
End Count.
