(** C87: the communicators of tiles distribute and collect data. *)
From Verif.Base Require Import Base Lemmas.
From Verif.Model Require Import Consts Numpy Quantity Partitioner Network Communicator Collective ScatterGather Cluster TileComm.
From Verif.Spec Require Import Grid Cube Halo Lockstep Sync Client Updates Steps Layouts Views Together Distribute Whole Mixed OneProgram TileRun.
From Verif.Proofs Require Import UpdateExamples Slices StepsProofs StepsExamples MixedExamples TileRunProofs.

(** Whatever the ranks of each tile achieve by collective operations between them, they achieve under every schedule with the communicators
    which [tile] gives them, without regard to the other tiles. *)
Theorem C87_tiles : forall l, 1 <= fst l -> 1 <= snd l -> forall Ob V A (ps : nat -> nat -> proc Ob V A) out, let T := per_tile l in
  (forall t, (t < 6)%nat -> together T (fun i => ps (t * T + i)%nat i) (fun i => out (t * T + i)%nat)) ->
  cluster_ends (Mixed.size l) (fun r => TileComm.on_tile l r (all_ranks (Mixed.size l)) (ps r)) out.
Proof. exact on_tiles. Qed.
Print Assumptions C87_tiles.

(** tile.scatter: each rank ends with its part of what the first rank of its tile sent; tiles may differ in dimensions and sizes *)
Theorem C87_scatter : forall l, 1 <= fst l -> 1 <= snd l -> forall V Tm dims rext (send : nat -> quantity V) (sends recv : nat -> option (quantity V)) junk, let T := per_tile l in
  (forall t, (t < 6)%nat -> Distribute.fits l (dims t) (rext t) /\ sends (t * T)%nat = Some (send t) /\ global_sized (TilePart l) (dims t) (rext t) (send t) /\
     forall i, (i < T)%nat -> given (rank_sized (rext t)) (recv (t * T + i)%nat)) ->
  exists outs, cluster_ends (Mixed.size l) (fun r => TileComm.on_tile l r (all_ranks (Mixed.size l)) (fun i => scatter V Tm (TilePart l) (Z.of_nat i) (junk r) (sends r) (recv r))) (fun r => Ok (outs r)) /\
    forall t i, (t < 6)%nat -> (i < T)%nat -> let r := (t * T + i)%nat in
      written (or_blank (recv r) (blank (dims t) (q_units (send t)) (rext t) (junk r 0%nat))) (outs r) (part_of (TilePart l) i (dims t) (rext t) (domain_of (send t))).
Proof. exact @scatter_tiles. Qed.
Print Assumptions C87_scatter.
(** tile.gather *)
Theorem C87_gather : forall l, 1 <= fst l -> 1 <= snd l -> forall V Tm dims rext (sends : nat -> quantity V) (recv : nat -> option (quantity V)) junk, let T := per_tile l in
  (forall t, (t < 6)%nat -> Distribute.fits l (dims t) (rext t) /\ (forall i, (i < T)%nat -> rank_sized (rext t) (sends (t * T + i)%nat)) /\
     match recv (t * T)%nat with Some q => global_sized (TilePart l) (dims t) (rext t) q | None => q_dims (sends (t * T)%nat) = dims t end) ->
  exists outs, cluster_ends (Mixed.size l) (fun r => TileComm.on_tile l r (all_ranks (Mixed.size l)) (fun i => gather V Tm (TilePart l) (Z.of_nat i) (junk r) (sends r) (recv r)))
      (fun r => Ok (if Nat.eqb (r mod T) 0 then Some (outs (r / T)%nat) else None)) /\
    forall t, (t < 6)%nat -> let base := or_blank (recv (t * T)%nat) (blank (dims t) (q_units (sends (t * T)%nat)) (tile_size l (dims t) (rext t)) (junk (t * T)%nat 0%nat)) in
      exists a, written base (outs t) a /\ gathered (TilePart l) (dims t) (rext t) (fun i => domain_of (sends (t * T + i)%nat)) (domain_of base) a.
Proof. exact @gather_tiles. Qed.
Print Assumptions C87_gather.

(** parts of tiles are the parts scatter of all ranks gives, and what tiles gather is what rank 0 would, tile by tile *)
Theorem C87_parts : forall l, 1 <= fst l -> 1 <= snd l -> forall V t i dims rext (a : arr V), (i < per_tile l)%nat ->
  same (part_of (TilePart l) i dims rext (slab t a)) (part_of (CubePart l) (t * per_tile l + i) dims rext a).
Proof. exact parts_of_tiles. Qed.
Print Assumptions C87_parts.
Theorem C87_gathered : forall l, 1 <= fst l -> 1 <= snd l -> forall V t dims rext vals (old a : arr V), (t < 6)%nat -> gathered (CubePart l) dims rext vals old a ->
  gathered (TilePart l) dims rext (fun i => vals (t * per_tile l + i)%nat) (slab t old) (slab t a).
Proof. exact @gathered_tiles. Qed.
Print Assumptions C87_gathered.

(** Data scattered between all ranks or on tiles, computing in steps with halo updates, gathered by rank 0 or by tiles, as one program: all four
    ways give the same result on all layouts. *)
Theorem C87_runs : forall V T (neg : V -> V) (d : V) M h len ix iy ext dims (gs : list (rule V)), cell_dims len ix iy dims -> Forall (looks_around h (level len ix iy ext)) gs ->
  forall A : arr V, shp A = 6 :: box len ix iy M ext ->
  exists result : arr V, shp result = shp A /\ forall tiles tiles' n N (sends : nat -> option (quantity V)) (local : nat -> quantity V) recv junk junk' fs,
    let l := (n, n) in let rext := box len ix iy N ext in
    1 <= n -> n * N = M -> 1 <= h <= N -> Distribute.fits l dims rext ->
    (forall r, (r < Mixed.size l)%nat -> is_first tiles l r = true -> exists q, sends r = Some q /\ extent_for tiles l dims rext q /\ same (domain_of q) (share tiles l r A)) ->
    (forall r, (r < Mixed.size l)%nat -> q_dims (local r) = dims /\ Halo.fits N h len ix iy 0 0 ext (q_meta (local r))) ->
    (forall r, (r < Mixed.size l)%nat -> is_first tiles' l r = true -> given (extent_for tiles' l dims rext) (recv r)) ->
    Forall2 (applies n N ix iy (fun r => mkH 0 (q_meta (local r))) 1) gs fs ->
    exists m o outs,
      cluster_ends (Mixed.size l)
        (mixed_program (obj T) V (option (quantity V)) neg l (distributed_run tiles tiles' l h fs sends local recv junk junk') (fun r => [q_data (local r)]) (fun _ => None))
        (fun r => Ok (m r, o r)) /\
      forall r, (r < Mixed.size l)%nat -> o r = (if is_first tiles' l r then Some (outs r) else None) /\ (is_first tiles' l r = true -> same (domain_of (outs r)) (share tiles' l r result)).
Proof. exact runs. Qed.
Print Assumptions C87_runs.

(** the computation of C81_example with parts from the communicators of tiles: what ranks 0 to 9 of 24 have in the end; elements of the first
    two tiles if tiles gather, and of these in the global quantity if rank 0 does *)
Definition ex_tile_send (T r : nat) : option (quantity Z) :=
  if Nat.eqb (r mod T) 0 then Some (mkQ (mkA [2; 2; 2] (fun i => at_ (q_data ex_send) (Z.of_nat (r / T) :: i))) ex_dims "m"%string [0; 0; 0] [2; 2; 2]) else None.
Definition ex_tile_run (tiles tiles' : bool) (n N : Z) (q : nat -> handle) :=
  let sends := if tiles then ex_tile_send (per_tile (n, n)) else fun r => match r with O => Some ex_send | _ => None end in
  let (s, stuck) := drive_all (fun _ _ => false) (fun _ _ _ => false) (100 * 100) (cl_start (Mixed.size (n, n)) (mixed_program (obj Z) Z _ Z.opp (n, n)
    (distributed_run tiles tiles' (n, n) 1 (repeat (run_rule n N 2 0 q ex_rule) 2) sends (ex_local q) (fun _ => None) (fun _ _ _ => -9) (fun _ _ _ => -8))
    (fun r => [q_data (ex_local q r)]) (fun _ => None))) in
  (stuck, map (fun x => match x with Some (Ok s) => match snd s with Some q => Some (q_dims q, q_extent q, firstn 16 (ravel (q_data q))) | _ => None end | _ => None end) (firstn 6 (outcomes s))).
Example C87_example :
  (is_first true (2, 2) 4 = true /\ exists q, ex_tile_send (per_tile (2, 2)) 4 = Some q /\ extent_for true (2, 2) ex_dims (box 3 2 0 1 (fun _ => 2)) q /\ same (domain_of q) (share true (2, 2) 4 (domain_of ex_send))) /\
  shp (domain_of ex_send) = 6 :: box 3 2 0 2 (fun _ => 2) /\
  let first := [463934134; 416162052; 513306974; 465534892; 252884345; 405362074; 302257185; 454734914] in
  let second := [34973242; 57876963; 84346082; 107249803; 27153164; 40561885; 76526004; 89934725] in
  ex_tile_run true true 2 1 ex_four = (true, [Some (ex_dims, [2; 2; 2], first); None; None; None; Some (ex_dims, [2; 2; 2], second); None]) /\
  ex_tile_run true false 2 1 ex_four = (true, [Some ("tile"%string :: ex_dims, [6; 2; 2; 2], first ++ second)%list; None; None; None; None; None]) /\
  firstn 2 (snd (ex_tile_run false true 1 2 ex_one)) = [Some (ex_dims, [2; 2; 2], first); Some (ex_dims, [2; 2; 2], second)].
Proof.
  split; [|vm_compute; auto]. split; [reflexivity|]. eexists. split; [vm_compute; reflexivity|]. split.
  - cbn [extent_for]. split; [split; [reflexivity|]; repeat constructor; simpl; lia|]. split; reflexivity.
  - split; [reflexivity|]. intros i HI. pose proof (Forall2_length _ _ _ HI) as L. vm_compute in L. clear HI. destruct i as [|a [|b [|c [|? ?]]]]; try discriminate L.
    vm_compute. destruct a, b, c; reflexivity.
Qed.
