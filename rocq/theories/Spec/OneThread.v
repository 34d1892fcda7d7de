(** Programs of all ranks run by one thread, call after call, each call on all ranks in some order: the way tests use DummyComm. *)
From Verif.Base Require Import Base.
From Verif.Model Require Import Consts Numpy Quantity Partitioner Network Communicator.
From Verif.Spec Require Import Halo Client.
From Coq Require Import Permutation.

Section OneThread.
Variable V : Type.
Variable neg : V -> V.

(** operations which the i-th call issues on rank [r] *)
Definition call_ops (n : Z) (calls : list (call V)) (i r : nat) : list (pop V) :=
  skipn (length (client_ops V neg n (firstn i calls) r)) (client_ops V neg n (firstn (S i) calls) r).
(** [order i]: the order in which the ranks make the i-th call *)
Definition one_thread (n : Z) (calls : list (call V)) (order : nat -> list nat) : list (nat * pop V) :=
  flat_map (fun i => flat_map (fun r => map (pair r) (call_ops n calls i r)) (order i)) (seq 0 (length calls)).
Definition orders_ranks (n : Z) (order : nat -> list nat) : Prop := forall i, Permutation (order i) (seq 0 (ranks n)).

(** updates are waited for in the order in which they were started, none being left out *)
Definition waited (calls : list (call V)) : list nat := flat_map (fun c => match c with CWait _ i => [i] | _ => [] end) calls.
Definition in_turn (calls : list (call V)) : Prop := waited calls = seq 0 (length (waited calls)).
End OneThread.
