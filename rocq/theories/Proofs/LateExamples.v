(** Concrete instances used beside the theorems of Props/LateRead.v. *)
From Verif.Base Require Import Base Lemmas.
From Verif.Model Require Import Consts Numpy Quantity Partitioner Rotate Network LateRead Communicator.
From Verif.Spec Require Import Grid Cube Halo Lockstep Sync Client Updates Late.
From Verif.Proofs Require Import NetworkProofs ClientProofs UpdateExamples LateSim LateProofs.

(** schedules under which the highest rank that can move does *)
Fixpoint pick {S} (move : nat -> S -> option S) (r : nat) (s : S) : option (nat * S) :=
  match move r s with
  | Some s' => Some (r, s')
  | None => match r with O => None | Datatypes.S r' => pick move r' s end
  end.
Fixpoint plan {S} (move : nat -> S -> option S) (top fuel : nat) (s : S) : list nat :=
  match fuel with
  | O => []
  | Datatypes.S fuel' => match pick move top s with Some (r, s') => r :: plan move top fuel' s' | None => [] end
  end.

Definition late_value {V} (d : V) (s : lnet (mem V) V) (r id : nat) (p : list Z) : V :=
  match nth_error (l_mem s) r with
  | Some m => match nth_error m id with Some a => at_ a p | None => d end
  | None => d
  end.
Definition late_done {L V} (s : lnet L V) : bool := forallb (fun p => match p with [] => true | _ => false end) (l_prog s) && forallb (forallb lm_taken) (l_sent s).
(** messages are read as late as possible *)
Definition late_run (calls : list (call Z)) (m : nat -> mem Z) : list nat :=
  plan lmove 5 1000 (late_state (ranks 1) (client_ops Z Z.opp 1 calls) m).

Lemma late_done_stuck {L V} (s : lnet L V) : late_done s = true -> forall a, lstep a s = None.
Proof.
  intros H a. apply andb_true_iff in H as [H1 H2]. rewrite forallb_forall in H1, H2. destruct a as [r|r j k]; cbn.
  - unfold lmove. destruct (nth_error (l_prog s) r) as [p|] eqn:E; auto. apply nth_error_In in E. apply H1 in E. destruct p; [reflexivity|discriminate].
  - unfold lcopy. destruct (nth_error (l_mem s) r); auto. destruct (nth_error (l_sent s) r) as [ls|] eqn:E; auto.
    destruct (nth_error ls j) as [lm|] eqn:J; auto. apply nth_error_In in E. apply H2 in E. rewrite forallb_forall in E. apply nth_error_In in J. now rewrite (E _ J).
Qed.
Lemma done_stuck {L V} bf (s : net L V) : all_done s = true -> forall r, step bf r s = None.
Proof.
  intros H r. unfold all_done in H. rewrite forallb_forall in H. unfold step.
  destruct (nth_error (n_prog s) r) as [p|] eqn:E; auto. apply nth_error_In in E. apply H in E. destruct p; [reflexivity|discriminate].
Qed.

(** the whole array changes while it is being sent *)
Definition bump : nat -> mem Z -> mem Z := fun _ => map (fun a => mkA (shp a) (fun p => at_ a p + 7)).
Definition ex_disturbed : list (call Z) := [CHalo Z ex_q 1; CLocal Z bump; CWait Z 0].
(** only points outside the compute domain change *)
Definition outside (p : list Z) : bool :=
  negb (match p with [y; z; x] => (1 <=? y) && (y <? 3) && (0 <=? z) && (z <? 1) && (2 <=? x) && (x <? 4) | _ => false end).
Definition bump_outside : nat -> mem Z -> mem Z := fun _ => map (fun a => mkA (shp a) (fun p => if outside p then at_ a p + 7 else at_ a p)).
Definition ex_overlap : list (call Z) := [CHalo Z ex_q 1; CLocal Z bump_outside; CHalo Z ex_q 1; CWait Z 1; CWait Z 0; CLocal Z bump].

Lemma ex_halo_call : call_ok Z 1 1 (CHalo Z ex_q 1).
Proof. split; [intros r; cbn; lia|exists 2, 3%nat, 2%nat, 0%nat; exact ex_halo_ok]. Qed.

Lemma nth_error_nil' {A} i : nth_error (@nil A) i = None. Proof. now destruct i. Qed.

Example ex_overlap_ok : Forall (call_ok Z 1 1) ex_overlap /\ waits_ok Z ex_overlap 0 [] /\ undisturbed Z 1 ex_overlap [] [].
Proof.
  split; [|split].
  - pose proof ex_halo_call. unfold ex_overlap. repeat (constructor; auto); intros r m _ H1; unfold bump_outside, bump; now rewrite map_length.
  - cbn. repeat split; auto; intros []; auto; discriminate.
  - assert (H : forall c' c, In c' [CHalo Z ex_q 1; CHalo Z ex_q 1] -> In c [CHalo Z ex_q 1; CHalo Z ex_q 1] -> forall r k p, may_read Z 1 c r k p -> ~ may_write Z 1 c' r k p).
    { intros c' c [<-|[<-|[]]] [<-|[<-|[]]] r k p; cbn; tauto. }
    cbn [undisturbed ex_overlap app]. split; [|split; [|split; [|split; [|exact I]]]].
    + intros j c E _ r m _. destruct j as [|j]; [|destruct j; discriminate]. injection E as <-. split; [apply map_length|].
      intros i a a' Ea Ea' p (_ & D). unfold bump_outside in Ea'. rewrite nth_error_map, Ea in Ea'. injection Ea' as <-. cbn [at_].
      replace (outside p) with false; auto. unfold outside. destruct D as (L & D). cbn in L. destruct p as [|y [|z [|x [|]]]]; try discriminate.
      cbn in D. pose proof (D 0%nat ltac:(lia)) as D0. pose proof (D 1%nat ltac:(lia)) as D1. pose proof (D 2%nat ltac:(lia)) as D2. unfold rel, xat in *. cbn in D0, D1, D2. lia.
    + intros j c c' E1 E2 _ _ r k p _. apply nth_error_In in E1, E2. now apply H.
    + intros j c c' E1 E2 _ _ r k p _. apply nth_error_In in E1, E2. now apply H.
    + intros [|[|j]] c E ND; [destruct ND; cbn; auto|destruct ND; cbn; auto|destruct j; discriminate].
Qed.

Lemma some_pair {S A B} (x : option S) (f : S -> A) (g : S -> B) a b : option_map (fun s => (f s, g s)) x = Some (a, b) -> exists s, x = Some s /\ f s = a /\ g s = b.
Proof. destruct x as [s|]; [|discriminate]. cbn. intros [= <- <-]. eauto. Qed.

Lemma runs_differ (s : net (mem Z) Z) (l : lnet (mem Z) Z) ms sched lsched r id p v w :
  option_map (fun s => (all_done s, value_at 0 s r id p)) (run (fun _ _ => false) sched s) = Some (true, v) ->
  option_map (fun s => (late_done s, late_value 0 s r id p)) (lrun lsched l) = Some (true, w) -> v <> w ->
  always_completes s ms -> ~ late_completes l ms.
Proof.
  intros E1 E2 NE (tot & AC) (total & LC).
  apply some_pair in E1. destruct E1 as (s1 & R1 & D1 & V1). apply some_pair in E2. destruct E2 as (s2 & R2 & D2 & V2).
  destruct (AC _ _ _ R1) as (_ & F1). destruct (F1 (done_stuck _ _ D1)) as (_ & Q1).
  destruct (LC _ _ R2) as (_ & F2). destruct (F2 (late_done_stuck _ D2)) as (_ & Q2).
  unfold value_at in V1. unfold late_value in V2. rewrite Q1 in V1. rewrite Q2 in V2. congruence.
Qed.

Lemma disturbed_early : option_map (fun s => (all_done s, value_at 0 s 0 0 [3; 0; 2]))
  (run (fun _ _ => false) (plan (step (fun _ _ => false)) 5 1000 (start_state (ranks 1) (client_ops Z Z.opp 1 ex_disturbed) ex_mem1))
     (start_state (ranks 1) (client_ops Z Z.opp 1 ex_disturbed) ex_mem1)) = Some (true, 2202).
Proof. vm_compute. reflexivity. Qed.
Lemma disturbed_late : option_map (fun s => (late_done s, late_value 0 s 0 0 [3; 0; 2]))
  (lrun (map Move (late_run ex_disturbed ex_mem1)) (late_state (ranks 1) (client_ops Z Z.opp 1 ex_disturbed) ex_mem1)) = Some (true, 2209).
Proof. vm_compute. reflexivity. Qed.

Theorem disturbed_differs : exists m', meaning Z Z.opp 0 1 ex_disturbed [] ex_mem1 m' /\
  always_completes (start_state (ranks 1) (client_ops Z Z.opp 1 ex_disturbed) ex_mem1) (tab (ranks 1) m') /\
  ~ late_completes (late_state (ranks 1) (client_ops Z Z.opp 1 ex_disturbed) ex_mem1) (tab (ranks 1) m').
Proof.
  destruct (client_correct Z Z.opp 0 1 1 ex_disturbed ex_mem1) as (m' & M & AC).
  - pose proof ex_halo_call. unfold ex_disturbed. repeat (constructor; auto); intros r m _ H1; unfold bump; now rewrite map_length.
  - cbn. repeat split; auto.
  - reflexivity.
  - exists m'. split; [exact M|]. split; [exact AC|]. eapply runs_differ; [exact disturbed_early|exact disturbed_late|discriminate|exact AC].
Qed.

Example ex_overlap_late : option_map (fun s => (late_done s, map (late_value 0 s 0 0) (all_idx [4; 1; 5])))
  (lrun (map Move (late_run ex_overlap ex_mem1)) (late_state (ranks 1) (client_ops Z Z.opp 1 ex_overlap) ex_mem1)) =
  Some (true,
    [ 14;   15; 5209; 5210;   18;
     114; 4210;  109;  110; 1109;
     214; 4209;  209;  210; 1209;
     314;  315; 2209; 2109;  318]).
Proof. vm_compute. reflexivity. Qed.
