(** Concrete programs whose ranks wait in different orders, used beside the theorems of Props/Orders.v. *)
From Verif.Base Require Import Base Lemmas.
From Verif.Model Require Import Consts Numpy Quantity Partitioner Network Communicator.
From Verif.Spec Require Import Cube Halo Lockstep Sync Client Updates Orders.
From Verif.Proofs Require Import UpdateExamples NetworkProofs LateExamples OrderScripts.

(** two updates of one array, which grows by 7 in between; rank 0 waits for the second one first *)
Definition ex_orders (r : nat) : list (call Z) :=
  [CHalo Z ex_q 1; CLocal Z (fun _ => map (fun a => mkA (shp a) (fun p => at_ a p + 7))); CHalo Z ex_q 1] ++
  (if Nat.eqb r 0 then [CWait Z 1; CWait Z 0] else [CWait Z 0; CWait Z 1]).

Example ex_orders_ok : same_starts Z 1 ex_orders /\ forall r, (r < ranks 1)%nat -> Forall (call_ok Z 1 1) (ex_orders r) /\ waits_ok Z (ex_orders r) 0 [].
Proof.
  split. { intros r _. unfold ex_orders. now destruct (Nat.eqb r 0). }
  intros r _. unfold ex_orders. pose proof ex_halo_call as H. destruct (Nat.eqb r 0); split; cbn [app].
  all: try (repeat (constructor; auto); intros ? m _ H1; now rewrite map_length).
  all: cbn; repeat split; auto; intros []; auto; discriminate.
Qed.

Definition ex_orders_start : @net (mem Z) Z := start_state (ranks 1) (fun r => client_ops Z Z.opp 1 (ex_orders r) r) ex_mem1.

Lemma stuck_state (s : @net (mem Z) Z) bf sched : 
  option_map (fun s => (all_done s, (length (n_prog s), forallb (fun r => match step bf r s with None => true | _ => false end) (seq 0 6)))) (run bf sched s) = Some (false, (6%nat, true)) ->
  never_completes bf s.
Proof.
  intros E. apply some_pair in E. destruct E as (F & R & D & E). pose proof (f_equal fst E) as LN. pose proof (f_equal snd E) as NS. cbn [fst snd] in LN, NS.
  apply (stuck_never bf sched s F R).
  - intros i. destruct (Nat.lt_ge_cases i 6) as [H|H].
    + rewrite forallb_forall in NS. specialize (NS i). destruct (step bf i F); auto. assert (X : In i (seq 0 6)) by (apply in_seq; lia). now apply NS in X.
    + unfold step. replace (nth_error (n_prog F) i) with (@None (list (op (mem Z) Z))); auto. symmetry. apply nth_error_None. lia.
  - intros FF. unfold all_done in D. unfold finished in FF. rewrite Forall_forall in FF.
    assert (X : forallb (fun p => match p with [] => true | _ => false end) (n_prog F) = true).
    { apply forallb_forall. intros p Hp. now rewrite (FF p Hp). }
    congruence.
Qed.

Theorem orders_deadlock : never_completes none_buffered ex_orders_start.
Proof. apply (stuck_state _ _ (plan (step none_buffered) 5 1000 ex_orders_start)). vm_compute. reflexivity. Qed.

Example ex_orders_run : let s := drive all_buffered 1000 ex_orders_start in
   (all_done s, map (value_at 0 s 0 0) [[1; 0; 2]; [3; 0; 2]], map (value_at 0 s 1 0) [[1; 0; 2]; [3; 0; 2]]) = (true, [109; 2202], [1109; 2109]).
Proof. vm_compute. reflexivity. Qed.
