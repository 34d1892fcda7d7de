(** Programs whose ranks wait for updates in orders of their own (C16). *)
From Verif.Base Require Import Base Lemmas.
From Verif.Model Require Import Consts Numpy Quantity Partitioner Network Communicator.
From Verif.Spec Require Import Cube Halo Lockstep Sync Client Orders.
From Verif.Proofs Require Import Phases Scripts HaloOps HaloEffect SyncEffect ClientProofs OrderScripts.
From Coq Require Import ZifyBool.

Lemma finite_choice {A} (a0 : A) (P : nat -> A -> Prop) n : (forall r, (r < n)%nat -> exists a, P r a) ->
  exists f, forall r, (r < n)%nat -> P r (f r).
Proof.
  induction n as [|n IH]; intros H. { exists (fun _ => a0). intros; lia. }
  destruct IH as (f & F). { intros r Hr. apply H. lia. }
  destruct (H n) as (a & Pa); [lia|]. exists (fun r => if Nat.eqb r n then a else f r). intros r Hr.
  destruct (Nat.eqb_spec r n) as [->|NE]; auto. apply F. lia.
Qed.

Section Orders.
Variable V : Type.
Variable neg : V -> V.
Variable d : V.
Variable n : Z.
Variable k : nat.

Notation exch := (exch V neg n).
Notation events := (events V neg n).
Notation stands := (stands V neg n k).

(** what remains at the next start *)
Fixpoint crest (calls : list (call V)) : list (call V) :=
  match calls with
  | CWait _ _ :: calls' | CLocal _ _ :: calls' => crest calls'
  | _ => calls
  end.

Lemma crest_filter calls : filter (starts V) (crest calls) = filter (starts V) calls.
Proof. induction calls as [|[] calls IH]; simpl; auto. Qed.

Lemma crest_cases calls : match filter (starts V) calls with
  | [] => crest calls = []
  | c :: l => exists calls', crest calls = c :: calls' /\ filter (starts V) calls' = l /\ starts V c = true end.
Proof. induction calls as [|[] calls IH]; simpl; eauto. Qed.

Lemma crest_ok calls : Forall (call_ok V n k) calls -> Forall (call_ok V n k) (crest calls).
Proof. induction 1 as [|[] calls O1 O2 IH]; simpl; auto. Qed.

(** a rank on its own up to its next start *)
Lemma call_segment r t sc se : (r < ranks n)%nat -> Forall2 stands sc se -> forall calls done m,
  Forall (call_ok V n k) calls -> waits_ok V calls (length sc) done -> length m = k ->
  exists m1 done1, length m1 = k /\ waits_ok V (crest calls) (length sc) done1 /\
    forall ahead mm, rank_meaning V neg d n r (crest calls) ahead sc m1 mm -> rank_lock r (events t (crest calls)) ahead se m1 mm ->
      rank_meaning V neg d n r calls ahead sc m mm /\ rank_lock r (events t calls) ahead se m mm.
Proof.
  intros Hr ST. induction calls as [|c calls IH]; intros done m OK W Hm.
  - exists m, done. auto.
  - inversion OK as [|? ? O1 O2]; subst. destruct c; try (exists m, done; auto; fail); cbn [crest waits_ok] in *.
    + destruct W as (ND & Hi & W). destruct (nth_error sc i) as [[c snap]|] eqn:E; [|apply nth_error_None in E; lia].
      destruct (Forall2_nth_error _ _ _ _ _ ST E) as ([e snap'] & E' & (C1 & C2 & (t' & C3) & C4 & C5)). cbn [fst snd] in *. subst e snap'.
      destruct (exch_effect V neg d n (length m) t' c snap (fun _ => m) C1 C2 C5 ltac:(auto)) as (D & EF).
      destruct (D r Hr) as (DL & LL).
      destruct (IH (i :: done) (delivered V (exch t' c) snap (fun _ => m) r) O2 W LL) as (m1 & done1 & L1 & W1 & K).
      exists m1, done1. split; auto. split; auto. intros ahead mm RM RL. destruct (K ahead mm RM RL) as (RM' & RL'). split.
      * cbn [rank_meaning]. exists c, snap, (fun _ => m), (delivered V (exch t' c) snap (fun _ => m)). auto.
      * cbn [ClientProofs.events rank_lock]. exists (exch t' c), snap, (delivered V (exch t' c) snap (fun _ => m) r). auto.
    + destruct (IH done (f r m) O2 W) as (m1 & done1 & L1 & W1 & K). { apply O1; auto. }
      exists m1, done1. split; auto.
Qed.

Lemma client_orders : (0 < ranks n)%nat -> forall order sc se t calls done m,
  (forall r, (r < ranks n)%nat -> filter (starts V) (calls r) = order) ->
  (forall r, (r < ranks n)%nat -> Forall (call_ok V n k) (calls r)) ->
  (forall r, (r < ranks n)%nat -> waits_ok V (calls r) (length sc) (done r)) -> Forall2 stands sc se ->
  (forall r, (r < ranks n)%nat -> length (m r) = k) ->
  exists snaps mm, forall r, (r < ranks n)%nat ->
    rank_meaning V neg d n r (calls r) snaps sc (m r) (mm r) /\ rank_lock r (events t (calls r)) snaps se (m r) (mm r).
Proof.
  intros Hn. induction order as [|c order IH]; intros sc se t calls done m FL OK W ST Hm.
  - destruct (finite_choice ([] : mem V) (fun r m1 => rank_meaning V neg d n r (calls r) [] sc (m r) m1 /\ rank_lock r (events t (calls r)) [] se (m r) m1) (ranks n)) as (mm & H).
    + intros r Hr. destruct (call_segment r t sc se Hr ST (calls r) (done r) (m r)) as (m1 & done1 & L1 & W1 & K); auto.
      pose proof (crest_cases (calls r)) as CC. rewrite FL in CC by auto. rewrite CC in K. exists m1. apply K; simpl; auto.
    + exists [], mm. exact H.
  - destruct (finite_choice ([] : mem V, @nil nat) (fun r p => length (fst p) = k /\ waits_ok V (crest (calls r)) (length sc) (snd p) /\
       forall ahead mm, rank_meaning V neg d n r (crest (calls r)) ahead sc (fst p) mm -> rank_lock r (events t (crest (calls r))) ahead se (fst p) mm ->
        rank_meaning V neg d n r (calls r) ahead sc (m r) mm /\ rank_lock r (events t (calls r)) ahead se (m r) mm) (ranks n)) as (f & F).
    { intros r Hr. destruct (call_segment r t sc se Hr ST (calls r) (done r) (m r)) as (m1 & done1 & H); auto. exists (m1, done1). exact H. }
    set (snap := fun r => fst (f r)).
    set (tail := fun r => match crest (calls r) with _ :: l => l | [] => [] end).
    assert (CC : forall r, (r < ranks n)%nat -> crest (calls r) = c :: tail r /\ filter (starts V) (tail r) = order /\ starts V c = true).
    { intros r Hr. pose proof (crest_cases (calls r)) as CC. rewrite FL in CC by auto. destruct CC as (l & E & E2). unfold tail. rewrite E. auto. }
    assert (Cok : call_ok V n k c).
    { pose proof (crest_ok _ (OK O Hn)) as O1. rewrite (proj1 (CC O Hn)) in O1. now inversion O1. }
    assert (Cs : starts V c = true) by apply (CC O Hn).
    destruct (IH (sc ++ [(c, snap)])%list (se ++ [(exch t c, snap)])%list (next_tag V t c) tail (fun r => snd (f r)) snap) as (snaps & mm & H).
    + intros r Hr. apply CC, Hr.
    + intros r Hr. pose proof (crest_ok _ (OK r Hr)) as O1. rewrite (proj1 (CC r Hr)) in O1. now inversion O1.
    + intros r Hr. destruct (F r Hr) as (_ & W1 & _). rewrite (proj1 (CC r Hr)) in W1. rewrite app_length. cbn [length].
      replace (length sc + 1)%nat with (S (length sc)) by lia. destruct c; try discriminate; exact W1.
    + apply Forall2_app; auto. constructor; [|constructor]. repeat split; simpl; eauto. intros r Hr. apply F, Hr.
    + intros r Hr. apply F, Hr.
    + exists (snap :: snaps), mm. intros r Hr. destruct (H r Hr) as (RM & RL). destruct (F r Hr) as (_ & _ & K). apply K.
      * rewrite (proj1 (CC r Hr)). destruct c; try discriminate; cbn [rank_meaning]; exists snap, snaps; auto.
      * rewrite (proj1 (CC r Hr)). destruct c; try discriminate; cbn [ClientProofs.events rank_lock]; exists snap, snaps; auto.
Qed.

Lemma events_starts calls : forall t, start_list (events t calls) = start_list (events t (filter (starts V) calls)).
Proof. induction calls as [|[] calls IH]; intros t; simpl; auto; f_equal; apply IH. Qed.

Lemma events_fin calls : forall t j done, waits_ok V calls j done -> fin_ok (events t calls) j done.
Proof. induction calls as [|[] calls IH]; intros t j done; simpl; auto. intros (A & B & C). auto. Qed.

Lemma order_ok : forall calls started t, Forall (call_ok V n k) calls ->
  (forall e u, In e started -> uses_tag (ranks n) e u -> u <= t) -> starts_ok (ranks n) (start_list (events t calls)) started.
Proof.
  induction calls as [|c calls IH]; intros started t OK T; [exact I|].
  inversion OK as [|? ? O1 O2]; subst.
  assert (ST : starts V c = true -> starts_ok (ranks n) (exch t c :: start_list (events (next_tag V t c) calls)) started).
  { intros S. cbn [starts_ok]. split; [eapply exch_matched; eauto|]. split.
    - intros e' u I U U'. apply exch_tags in U; auto. apply T in U'; auto. lia.
    - apply IH; auto. intros e u I U. apply in_app_iff in I. destruct I as [I|[<-|[]]].
      + specialize (T e u I U). destruct c; cbn [next_tag]; lia.
      + apply exch_tags in U; auto. lia. }
  destruct c; try (exact (ST eq_refl)); simpl; auto.
Qed.

Theorem orders_correct calls m : 1 <= n -> same_starts V n calls ->
  (forall r, (r < ranks n)%nat -> Forall (call_ok V n k) (calls r) /\ waits_ok V (calls r) 0 []) ->
  (forall r, (r < ranks n)%nat -> length (m r) = k) ->
  exists m', orders_meaning V neg d n calls m m' /\
    completes_with all_buffered (start_state (ranks n) (fun r => client_ops V neg n (calls r) r) m) (tab (ranks n) m').
Proof.
  intros Hn SS OK Hm. assert (H0 : (0 < ranks n)%nat) by (unfold ranks; nia).
  destruct (client_orders H0 (filter (starts V) (calls O)) [] [] 0 calls (fun _ => []) m) as (snaps & mm & H); auto.
  { intros r Hr. now apply OK. } { intros r Hr. now apply OK. }
  exists mm. split. { exists snaps. intros r Hr. now apply H. }
  assert (E : start_state (ranks n) (fun r => client_ops V neg n (calls r) r) m = start_state (ranks n) (fun r => script_ops r (events 0 (calls r)) [] O) m).
  { unfold start_state. f_equal. apply tab_ext. intros r Hr. unfold client_ops. destruct (OK r Hr) as (O1 & W1).
    destruct (client_ops_eq V neg d n k r Hr (calls r) [] new_comm [] O1 W1) as (cm' & E); [split; simpl; auto|]. cbn [map] in E. now rewrite E. }
  rewrite E. apply (orders_complete (ranks n) (start_list (events 0 (calls O))) (fun r => events 0 (calls r)) m snaps mm H0).
  - intros r Hr. rewrite events_starts, SS, <- events_starts; auto.
  - apply order_ok; [now apply OK|]. simpl. tauto.
  - intros r Hr. apply events_fin. now apply OK.
  - intros r Hr. now apply H.
Qed.
End Orders.
