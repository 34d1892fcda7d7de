(** C77: programs of updates which tests run on DummyComm. *)
From Verif.Base Require Import Base.
From Verif.Model Require Import Consts Numpy Quantity Partitioner Network Communicator DummyComm DummyNet.
From Verif.Spec Require Import Cube Halo Lockstep Sync Client Updates Orders OneThread.
From Verif.Proofs Require Import UpdateExamples OneThreadProofs OneThreadExamples.

(** C77: if one thread makes each call on all ranks, in any order of the ranks, and updates are waited for in the order in which
    they were started, all calls succeed on DummyComm and leave the arrays as the same programs do under MPI, whatever the
    schedule and buffering there. *)
Theorem C77_programs : forall V (neg : V -> V) (d : V) n k calls order m,
  Forall (call_ok V n k) calls -> waits_ok V calls 0 [] -> in_turn V calls ->
  (forall r, (r < ranks n)%nat -> length (m r) = k) -> orders_ranks n order ->
  exists m' q, meaning V neg d n calls [] m m' /\
    always_completes (start_state (ranks n) (client_ops V neg n calls) m) (tab (ranks n) m') /\
    drun (one_thread V neg n calls order) (mkDW (tab (ranks n) m) None) = Ok (mkDW (tab (ranks n) m') q).
Proof. exact one_thread_correct. Qed.
Print Assumptions C77_programs.

(** two updates of an array which grows by 7 in between, waited for in turn *)
Example C77_example :
  Forall (call_ok Z 1 1) (ex_turns 0 1) /\ orders_ranks 1 ex_rank_order /\
  in_turn Z (ex_turns 0 1) /\ waits_ok Z (ex_turns 0 1) 0 [] /\
  map (dummy_at (ex_dummy (ex_turns 0 1)) 0 0) [[1; 0; 2]; [3; 0; 2]] = [Some 109; Some 2209] /\
  all_done (ex_mpi (ex_turns 0 1)) = true /\ map (value_at 0 (ex_mpi (ex_turns 0 1)) 0 0) [[1; 0; 2]; [3; 0; 2]] = [109; 2209].
Proof. exact (conj (ex_turns_ok 0 1) (conj ex_rank_order_ok ex_turns_run)). Qed.

(** C77: a blocking update raises ConcurrencyError on the rank which makes it first. *)
Theorem C77_blocking : forall V (neg : V -> V) (d : V) n k c r (m : nat -> mem V),
  call_ok V n k c -> starts V c = true -> (r < ranks n)%nat ->
  drun (map (pair r) (client_ops V neg n [c; CWait V 0] r)) (mkDW (tab (ranks n) m) None) = Err ConcurrencyError.
Proof. exact blocking_first. Qed.
Print Assumptions C77_blocking.

Example C77_blocking_example :
  drun (map (pair 3%nat) (client_ops Z Z.opp 1 [CHalo Z ex_q 1; CWait Z 0] 3)) (mkDW (tab (ranks 1) ex_mem1) None) = Err ConcurrencyError.
Proof. exact ex_blocking. Qed.

(** C77: waiting out of turn, on all ranks alike, is correct under MPI (C16) but not on DummyComm, which ignores tags: the wait for
    the first update, made last, takes the data of the second (2209) instead of those of the first (2202). *)
Theorem C77_out_of_turn_refuted :
  Forall (call_ok Z 1 1) (ex_turns 1 0) /\ orders_ranks 1 ex_rank_order /\ waits_ok Z (ex_turns 1 0) 0 [] /\
  map (dummy_at (ex_dummy (ex_turns 1 0)) 0 0) [[1; 0; 2]; [3; 0; 2]] = [Some 109; Some 2209] /\
  all_done (ex_mpi (ex_turns 1 0)) = true /\ map (value_at 0 (ex_mpi (ex_turns 1 0)) 0 0) [[1; 0; 2]; [3; 0; 2]] = [109; 2202].
Proof. exact (conj (ex_turns_ok 1 0) (conj ex_rank_order_ok ex_crossed_run)). Qed.
Print Assumptions C77_out_of_turn_refuted.
