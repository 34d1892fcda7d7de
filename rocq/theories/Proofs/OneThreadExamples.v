(** Concrete programs run by one thread, used beside the theorems of Props/OneThread.v. *)
From Verif.Base Require Import Base Lemmas.
From Verif.Model Require Import Consts Numpy Quantity Partitioner Network Communicator DummyComm DummyNet.
From Verif.Spec Require Import Cube Halo Lockstep Sync Client Updates Orders OneThread.
From Verif.Proofs Require Import UpdateExamples LateExamples.
From Coq Require Import Permutation.

(** two updates of one array, which grows by 7 in between; then the two waits *)
Definition ex_turns (i j : nat) : list (call Z) :=
  [CHalo Z ex_q 1; CLocal Z (fun _ => map (fun a => mkA (shp a) (fun p => at_ a p + 7))); CHalo Z ex_q 1; CWait Z i; CWait Z j].
Definition ex_rank_order (i : nat) : list nat := if Nat.even i then [0; 1; 2; 3; 4; 5]%nat else [5; 3; 1; 4; 0; 2]%nat.
Definition dummy_at (w : res (world (mem Z) Z)) (r id : nat) (p : list Z) : option Z :=
  match w with
  | Ok w => match nth_error (dw_mem w) r with Some m => option_map (fun a => at_ a p) (nth_error m id) | None => None end
  | Err _ => None
  end.
Definition ex_dummy (calls : list (call Z)) : res (world (mem Z) Z) := drun (one_thread Z Z.opp 1 calls ex_rank_order) (mkDW (tab (ranks 1) ex_mem1) None).
Definition ex_mpi (calls : list (call Z)) : @net (mem Z) Z := drive all_buffered 1000 (start_state (ranks 1) (client_ops Z Z.opp 1 calls) ex_mem1).

Lemma ex_turns_ok i j : Forall (call_ok Z 1 1) (ex_turns i j).
Proof. unfold ex_turns. pose proof ex_halo_call as H. repeat (constructor; auto). intros ? m _ H1. now rewrite map_length. Qed.

Lemma ex_rank_order_ok : orders_ranks 1 ex_rank_order.
Proof.
  intros i. unfold ex_rank_order. destruct (Nat.even i); [apply Permutation_refl|].
  apply NoDup_Permutation.
  - repeat constructor; cbn; intuition lia.
  - apply seq_NoDup.
  - intros x. rewrite in_seq. cbn. intuition lia.
Qed.

Example ex_turns_run : in_turn Z (ex_turns 0 1) /\ waits_ok Z (ex_turns 0 1) 0 [] /\
  map (dummy_at (ex_dummy (ex_turns 0 1)) 0 0) [[1; 0; 2]; [3; 0; 2]] = [Some 109; Some 2209] /\
  all_done (ex_mpi (ex_turns 0 1)) = true /\ map (value_at 0 (ex_mpi (ex_turns 0 1)) 0 0) [[1; 0; 2]; [3; 0; 2]] = [109; 2209].
Proof. repeat apply conj; try (vm_compute; reflexivity); cbn; auto; intros []; auto; discriminate. Qed.

Example ex_crossed_run : waits_ok Z (ex_turns 1 0) 0 [] /\
  map (dummy_at (ex_dummy (ex_turns 1 0)) 0 0) [[1; 0; 2]; [3; 0; 2]] = [Some 109; Some 2209] /\
  all_done (ex_mpi (ex_turns 1 0)) = true /\ map (value_at 0 (ex_mpi (ex_turns 1 0)) 0 0) [[1; 0; 2]; [3; 0; 2]] = [109; 2202].
Proof. repeat apply conj; try (vm_compute; reflexivity); cbn; auto; intros []; auto; discriminate. Qed.

Example ex_blocking : drun (map (pair 3%nat) (client_ops Z Z.opp 1 [CHalo Z ex_q 1; CWait Z 0] 3)) (mkDW (tab (ranks 1) ex_mem1) None) = Err (A := world (mem Z) Z) ConcurrencyError.
Proof. vm_compute. reflexivity. Qed.
