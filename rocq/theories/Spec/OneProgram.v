(** A whole computation as one program on one communicator. *)
From Verif.Base Require Import Base.
From Verif.Model Require Import Consts Numpy Quantity Partitioner Network Communicator Collective ScatterGather Cluster.
From Verif.Spec Require Import Grid Client Steps Whole Mixed.

(** Receive a part of the global quantity into [local r], alternate halo updates and local computations, gather the result.
    The rank keeps its data in one array; what gather returns is left in the other part of the state. *)
Definition scatter_compute_gather {V T} (p : partitioner) (h : Z) (fs : list (nat -> mem V -> mem V)) (sends : nat -> option (quantity V)) (local : nat -> quantity V)
    (recv : nat -> option (quantity V)) (junk junk' : nat -> nat -> idx -> V) : list (mcall (obj T) V (option (quantity V))) :=
  (MWorld (fun r s => pbind (scatter V T p (Z.of_nat r) (junk r) (sends r) (Some (with_data (local r) (fst s)))) (fun q => PRet ([q_data q], snd s)))
   :: map MUpdate (stepping (fun r => mkH 0 (q_meta (local r))) h fs 0)
   ++ [MWorld (fun r s => pbind (gather V T p (Z.of_nat r) (junk' r) (with_data (local r) (fst s)) (recv r)) (fun o => PRet (fst s, o)))])%list.
