(** Distributing and collecting data tile by tile, and a whole computation which does. *)
From Verif.Base Require Import Base.
From Verif.Model Require Import Consts Numpy Quantity Partitioner Network Communicator Collective ScatterGather Cluster.
From Verif.Spec Require Import Grid Client Steps Views Distribute Whole Mixed.

(** tile [t] of global data *)
Definition slab {V} (t : nat) (a : arr V) : arr V := mkA (tl (shp a)) (fun g => at_ a (Z.of_nat t :: g)).

Section Run.
Context {V T : Type}.
Notation call := (mcall (obj T) V (option (quantity V))).

(** receive a part of a global quantity into [local r]: with the communicator of all ranks, or [tiles]: with those of tiles *)
Definition receive (tiles : bool) (l : layout_t) (sends : nat -> option (quantity V)) (local : nat -> quantity V) (junk : nat -> nat -> idx -> V) : call :=
  let p part (rank r : nat) (s : rank_state V (option (quantity V))) :=
    pbind (scatter V T part (Z.of_nat rank) (junk r) (sends r) (Some (with_data (local r) (fst s)))) (fun q => PRet ([q_data q], snd s)) in
  if tiles then MTile (fun r i s => p (TilePart l) i r s) else MWorld (fun r s => p (CubePart l) r r s).
(** gather the parts *)
Definition collect (tiles : bool) (l : layout_t) (local : nat -> quantity V) (recv : nat -> option (quantity V)) (junk : nat -> nat -> idx -> V) : call :=
  let p part (rank r : nat) (s : rank_state V (option (quantity V))) :=
    pbind (gather V T part (Z.of_nat rank) (junk r) (with_data (local r) (fst s)) (recv r)) (fun o => PRet (fst s, o)) in
  if tiles then MTile (fun r i s => p (TilePart l) i r s) else MWorld (fun r s => p (CubePart l) r r s).

(** receive, alternate halo updates and local computations, collect *)
Definition distributed_run (tiles tiles' : bool) (l : layout_t) (h : Z) (fs : list (nat -> mem V -> mem V)) (sends : nat -> option (quantity V)) (local : nat -> quantity V)
    (recv : nat -> option (quantity V)) (junk junk' : nat -> nat -> idx -> V) : list call :=
  (receive tiles l sends local junk :: map MUpdate (stepping (fun r => mkH 0 (q_meta (local r))) h fs 0) ++ [collect tiles' l local recv junk'])%list.

(** the ranks which have quantities of all ranks or of their tile: rank 0, or the first of each tile *)
Definition is_first (tiles : bool) (l : layout_t) (r : nat) : bool := if tiles then Nat.eqb (r mod per_tile l) 0 else Nat.eqb r 0.
Definition extent_for (tiles : bool) (l : layout_t) (dims : list string) (rext : list Z) : quantity V -> Prop :=
  if tiles then global_sized (TilePart l) dims rext else global_sized (CubePart l) dims rext.
(** the data such a rank has: all of [a] or its tile of it *)
Definition share (tiles : bool) (l : layout_t) (r : nat) (a : arr V) : arr V := if tiles then slab (r / per_tile l) a else a.
End Run.
