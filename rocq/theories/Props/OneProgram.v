(** C78-C81: programs which use one communicator for halo updates, collective operations and the communicators of tiles. *)
From Verif.Base Require Import Base.
From Verif.Model Require Import Consts Numpy Quantity Partitioner Network Communicator Collective ScatterGather Properties Restart Cluster TileComm.
From Verif.Spec Require Import Grid Cube Halo Lockstep Sync Client Updates Steps Layouts Views Together Distribute Whole Mixed OneProgram.
From Verif.Props Require Restart.
From Verif.Proofs Require Import UpdateExamples StepsProofs StepsExamples MixedProofs TileCommProofs OneProgramProofs MixedExamples.

(** C78: updates may be under way while ranks use collective operations of all ranks or of their tile: whatever the program achieves if the parts
    are understood one after the other, it achieves under every schedule. *)
Theorem C78_mixed : forall Ob V St (neg : V -> V) layout (d : V) n k, 1 <= fst layout -> 1 <= snd layout ->
  forall (calls : list (mcall Ob V St)) m o (Q : (nat -> mem V) -> (nat -> St) -> Prop), mixed_ok Ob V St layout n k calls ->
  (forall r, (r < Mixed.size layout)%nat -> length (m r) = k) -> achieves Ob V St neg layout d n k calls [] m o Q ->
  exists m' o', Q m' o' /\ cluster_ends (Mixed.size layout) (mixed_program Ob V St neg layout calls m o) (fun r => Ok (m' r, o' r)).
Proof. exact mixed_correct. Qed.
Print Assumptions C78_mixed.

(** 24 ranks: a halo update is started, rank 0 broadcasts 7, the ranks of each tile gather on its first rank, then the update is waited for;
    the state of the first ranks of tiles and elements from the halos of all *)
Example C78_example : mixed_ok Z Z (list Z) (2, 2) 2 1 ex_mixed /\ achieves Z Z (list Z) Z.opp (2, 2) 0 2 1 ex_mixed [] (ex_fill 2 1 ex_four) (fun _ => []) ex_mixed_goal /\
  let (s, stuck) := drive_all (fun _ _ => false) (fun _ _ _ => true) (100 * 100) (cl_start 24 (mixed_program Z Z (list Z) Z.opp (2, 2) ex_mixed (ex_fill 2 1 ex_four) (fun _ => []))) in
  stuck = true /\
  map (fun x => match x with Some (Ok s) => match fst s with a :: _ => Some (snd s, at_ a [0; 0; 2], at_ a [1; 0; 3]) | _ => None end | _ => None end) (firstn 6 (outcomes s)) =
    [Some ([7; 0; 7; 1; 7; 2; 7; 3], 503, 2); Some ([], 504, 101); Some ([], 1, 4); Some ([], 2, 103); Some ([7; 4; 7; 5; 7; 6; 7; 7], 504, 102); Some ([], 502, 302)].
Proof. split; [exact ex_mixed_ok|]. split; [exact ex_mixed_achieves|]. vm_compute. auto. Qed.

(** C79: [tile] gives each rank a communicator of the ranks of its tile in their order; ranks which access it again, on their own, get the same one *)
Theorem C79_tile : forall Ob V layout, 1 <= fst layout -> 1 <= snd layout -> let T := per_tile layout in forall again : nat -> bool,
  exists G : nat -> group, (forall r, g_members (G r) = seq (r / T * T) T) /\
  cluster_ends (Mixed.size layout) (fun r => tile (Ob := Ob) (V := V) layout r (all_ranks (Mixed.size layout)) None (fun g => with_rank r g (fun i =>
      if again r then tile layout r (all_ranks (Mixed.size layout)) (Some g) (fun g' => RRet (g, i, g')) else RRet (g, i, g))))
    (fun r => Ok (G r, (r mod T)%nat, G r)).
Proof. exact @tile_group. Qed.
Print Assumptions C79_tile.

(** the first access is collective: if one rank makes no collective call, the others do not get past it *)
Theorem C79_needs_all : forall Ob V layout, 1 <= fst layout -> 1 <= snd layout -> forall A (ps : nat -> rproc Ob V A) absent r k,
  (absent < Mixed.size layout)%nat -> silent (ps absent) -> (r < Mixed.size layout)%nat -> r <> absent -> ps r = tile layout r (all_ranks (Mixed.size layout)) None k ->
  forall buffered delayed sched s, cl_run buffered delayed sched (cl_start (Mixed.size layout) ps) = Some s ->
  exists x, nth_error (cl_ranks s) r = Some x /\ rank_outcome x = None.
Proof. exact @tile_needs_all. Qed.
Print Assumptions C79_needs_all.

Definition ex_tiles (absent r : nat) : rproc Z Z (list nat * nat) :=
  if Nat.eqb r absent then RRet ([], 0%nat) else tile (2, 1) r (all_ranks 12) None (fun g => with_rank r g (fun i => RRet (g_members g, i))).
(** all 12 ranks access [tile] (no rank has number 12), and all but rank 5 *)
Example C79_example :
  (let (s, stuck) := drive_all (fun _ _ => false) (fun _ _ _ => false) 100 (cl_start 12 (ex_tiles 12)) in
   stuck = true /\ firstn 6 (outcomes s) = [Some (Ok ([0; 1], 0)); Some (Ok ([0; 1], 1)); Some (Ok ([2; 3], 0)); Some (Ok ([2; 3], 1)); Some (Ok ([4; 5], 0)); Some (Ok ([4; 5], 1))]%nat) /\
  (let (s, stuck) := drive_all (fun _ _ => false) (fun _ _ _ => false) 100 (cl_start 12 (ex_tiles 5)) in
   stuck = true /\ firstn 6 (outcomes s) = [None; None; None; None; None; Some (Ok ([], 0%nat))]) /\ silent (ex_tiles 5 5) /\ ex_tiles 5 0 = tile (2, 1) 0 (all_ranks (Mixed.size (2, 1))) None (fun g => with_rank 0 g (fun i => RRet (g_members g, i))).
Proof. split; [|split; [|split; [constructor|reflexivity]]]; vm_compute; auto. Qed.

(** C80: open_restart on a new cubed-sphere communicator: the ranks of tiles whose files can be loaded end with their parts; where loading fails,
    the first rank of the tile raises the exception and the others of this tile hang *)
Theorem C80_open_restart : forall V Date (cftime : Z -> list Z -> res Date) (fs : string -> node V) order dirname layout label only tp junk
    (recvs : nat -> option (state V (time_value V Date))) (D : nat -> string -> list string) (E : nat -> string -> list Z),
  1 <= fst layout -> 1 <= snd layout ->
  let p := TilePart layout in
  let load t := load_tile V Date cftime fs order dirname label (Z.of_nat t) (merged_properties tp) only in
  let vars r := match recvs r with Some s => st_vars s | None => [] end in
  (forall t st name q, (t < 6)%nat -> load t = Ok st -> dget name (st_vars st) = Some q -> Distribute.fits layout (D t name) (E t name) /\ global_sized p (D t name) (E t name) q /\
     forall i, (i < per_tile layout)%nat -> given (rank_sized (E t name)) (dget name (vars (t * per_tile layout + i)%nat))) ->
  exists out, cluster_halts (Mixed.size layout)
      (fun r => open_restart_on V Date cftime fs order dirname layout r (all_ranks (Mixed.size layout)) label only (junk r) (recvs r) tp) out /\
    forall t i, (t < 6)%nat -> (i < per_tile layout)%nat -> let r := (t * per_tile layout + i)%nat in
      match load t with
      | Ok st => exists s, out r = Some (Ok s) /\ st_time s = st_time st /\
          (forall name q, dget name (st_vars st) = Some q -> exists q', dget name (st_vars s) = Some q' /\
             written (or_blank (dget name (vars r)) (blank (D t name) (q_units q) (E t name) (junk r name 0%nat))) q' (part_of p i (D t name) (E t name) (domain_of q))) /\
          (forall name, dget name (st_vars st) = None -> dget name (st_vars s) = dget name (vars r))
      | Err e => out r = match i with O => Some (Err e) | _ => None end
      end.
Proof. exact @open_restart_cube. Qed.
Print Assumptions C80_open_restart.

(** 24 ranks, files for the third tile only *)
Example C80_example :
  let (s, stuck) := drive_all (fun _ _ => false) (fun _ _ _ => false) (100 * 100) (cl_start 24 (fun r => open_restart_on Z _ Restart.ex_cftime Restart.ex_fs (fun l => l) "dir" (2, 2) r (all_ranks 24) ""
    (Names ["air_temperature"%string; "time"%string]) (fun _ _ _ => 0) None None)) in
  stuck = true /\
  map (option_map (fun x => match x with Ok st => Ok (map (fun kq => (fst kq, ravel (q_data (snd kq)))) (st_vars st)) | Err e => Err e end)) (firstn 12 (outcomes s)) =
    [Some (Err OSError); None; None; None; Some (Err OSError); None; None; None;
     Some (Ok [("air_temperature"%string, [0])]); Some (Ok [("air_temperature"%string, [1])]); Some (Ok [("air_temperature"%string, [10])]); Some (Ok [("air_temperature"%string, [11])])].
Proof. vm_compute. auto. Qed.

(** C81: scatter, compute in steps with halo updates, gather, as one program on one communicator: the quantity which rank 0 gathers does not depend on the layout *)
Theorem C81_one_program : forall V T (neg : V -> V) (d : V) M h len ix iy ext dims (gs : list (rule V)), cell_dims len ix iy dims -> Forall (looks_around h (level len ix iy ext)) gs ->
  forall send : quantity V, well_formed (q_meta send) -> q_dims send = "tile"%string :: dims -> q_extent send = 6 :: box len ix iy M ext ->
  exists result : arr V, shp result = q_extent send /\ forall n N (sends : nat -> option (quantity V)) (local : nat -> quantity V) recv junk junk' fs,
    1 <= n -> n * N = M -> 1 <= h <= N -> Distribute.fits (n, n) dims (box len ix iy N ext) -> sends 0%nat = Some send ->
    (forall r, (r < Halo.ranks n)%nat -> q_dims (local r) = dims /\ Halo.fits N h len ix iy 0 0 ext (q_meta (local r))) ->
    given (global_sized (CubePart (n, n)) dims (box len ix iy N ext)) (recv 0%nat) ->
    Forall2 (applies n N ix iy (fun r => mkH 0 (q_meta (local r))) 1) gs fs ->
    exists m o out,
      cluster_ends (Mixed.size (n, n))
        (mixed_program (obj T) V (option (quantity V)) neg (n, n) (scatter_compute_gather (CubePart (n, n)) h fs sends local recv junk junk') (fun r => [q_data (local r)]) (fun _ => None))
        (fun r => Ok (m r, o r)) /\
      (forall r, (r < Mixed.size (n, n))%nat -> o r = match r with O => Some out | _ => None end) /\ same (domain_of out) result.
Proof. exact one_program. Qed.
Print Assumptions C81_one_program.

(** the computation of C75_example and C76_example: what six ranks gather and what 24 do *)
Definition ex_gathered (n N : Z) (q : nat -> handle) :=
  let (s, stuck) := drive_all (fun _ _ => false) (fun _ _ _ => false) (100 * 100) (cl_start (Mixed.size (n, n)) (mixed_program (obj Z) Z _ Z.opp (n, n)
    (scatter_compute_gather (CubePart (n, n)) 1 (repeat (run_rule n N 2 0 q ex_rule) 2) (fun r => match r with O => Some ex_send | _ => None end) (ex_local q) (fun _ => None) (fun _ _ _ => -9) (fun _ _ _ => -8))
    (fun r => [q_data (ex_local q r)]) (fun _ => None))) in
  (stuck, map (fun x => match x with Some (Ok s) => match snd s with Some q => Some (q_dims q, q_extent q, firstn 8 (ravel (q_data q))) | _ => None end | _ => None end) (firstn 2 (outcomes s))).
Example C81_example : let expected := (true, [Some (["tile"; "y"; "z"; "x"]%string, [6; 2; 2; 2], [463934134; 416162052; 513306974; 465534892; 252884345; 405362074; 302257185; 454734914]); None]) in
  ex_gathered 1 2 ex_one = expected /\ ex_gathered 2 1 ex_four = expected.
Proof. vm_compute. auto. Qed.
