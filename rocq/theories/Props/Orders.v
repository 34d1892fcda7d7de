(** C16, continued: ranks that wait for updates in different orders. *)
From Verif.Base Require Import Base.
From Verif.Model Require Import Consts Numpy Quantity Partitioner Network Communicator.
From Verif.Spec Require Import Cube Halo Lockstep Sync Client Updates Orders.
From Verif.Proofs Require Import UpdateExamples OrderProofs OrderExamples.

(** C16: if all ranks start the same updates in the same order and all sends are buffered, each rank may wait for them, and compute
    in between, in an order of its own: under every schedule all ranks come to their end, and a wait gives a rank the data
    which the others held when they started that update. *)
Theorem C16_any_order : forall V (neg : V -> V) (d : V) n k calls m,
  1 <= n -> same_starts V n calls ->
  (forall r, (r < ranks n)%nat -> Forall (call_ok V n k) (calls r) /\ waits_ok V (calls r) 0 []) -> arrays n k m ->
  exists m', orders_meaning V neg d n calls m m' /\
    completes_with all_buffered (start_state (ranks n) (fun r => client_ops V neg n (calls r) r) m) (tab (ranks n) m').
Proof. exact orders_correct. Qed.
Print Assumptions C16_any_order.

(** two updates, the array growing by 7 in between: rank 0, which waits for the first update last, keeps its data; rank 1 that of the second *)
Example C16_any_order_example :
  (same_starts Z 1 ex_orders /\ forall r, (r < ranks 1)%nat -> Forall (call_ok Z 1 1) (ex_orders r) /\ waits_ok Z (ex_orders r) 0 []) /\
  let s := drive all_buffered 1000 (start_state (ranks 1) (fun r => client_ops Z Z.opp 1 (ex_orders r) r) ex_mem1) in
   (all_done s, map (value_at 0 s 0 0) [[1; 0; 2]; [3; 0; 2]], map (value_at 0 s 1 0) [[1; 0; 2]; [3; 0; 2]]) = (true, [109; 2202], [1109; 2109]).
Proof. split; [exact ex_orders_ok|exact ex_orders_run]. Qed.

(** C16: without buffering such a program deadlocks, whatever the schedule. *)
Theorem C16_unbuffered_refuted :
  same_starts Z 1 ex_orders /\ (forall r, (r < ranks 1)%nat -> Forall (call_ok Z 1 1) (ex_orders r) /\ waits_ok Z (ex_orders r) 0 []) /\
  never_completes none_buffered (start_state (ranks 1) (fun r => client_ops Z Z.opp 1 (ex_orders r) r) ex_mem1).
Proof. exact (conj (proj1 ex_orders_ok) (conj (proj2 ex_orders_ok) orders_deadlock)). Qed.
Print Assumptions C16_unbuffered_refuted.
