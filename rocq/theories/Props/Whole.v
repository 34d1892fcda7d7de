(** C75, C76: computations distributed over ranks. *)
From Verif.Base Require Import Base.
From Verif.Model Require Import Consts Numpy Quantity Partitioner Network Communicator Collective ScatterGather.
From Verif.Spec Require Import Grid Cube Halo Lockstep Sync Client Updates Steps Layouts Views Together Distribute Whole.
From Verif.Proofs Require Import UpdateExamples StepsProofs StepsExamples WholeProofs Slices.

(** C75: ranks which alternate between halo updates and applying a rule compute, under every schedule, what the rule gives on the
    sphere as a whole. *)
Theorem C75_steps : forall V (neg : V -> V) (d : V) n N len ix iy q h k s ext, 1 <= n -> 1 <= N -> 1 <= h <= N ->
  (forall r, (r < Halo.ranks n)%nat -> Halo.fits N h len ix iy s s ext (h_meta (q r))) -> ids_below k q ->
  forall (gs : list (rule V)) fs m F F', Forall2 (applies n N ix iy q k) gs fs -> Forall (looks_around h (level len ix iy ext)) gs ->
  evolves (n * N) s (level len ix iy ext) gs F F' -> arrays n k m ->
  let held F m := holds n N ix iy (fun r => h_meta (q r)) (fun r => in_domain (h_meta (q r))) F (content V m (fun r => h_id (q r)) d) in
  held F m ->
  exists m', always_completes (start_state (Halo.ranks n) (client_ops V neg n (stepping q h fs 0)) m) (tab (Halo.ranks n) m') /\ held F' m'.
Proof. exact steps_correct. Qed.
Print Assumptions C75_steps.
(** for cell centres every sequence of rules can be applied to every field, and by ranks *)
Theorem C75_defined : forall V M lev (gs : list (rule V)) F, exists F', evolves M 0 lev gs F F'.
Proof. exact @evolution_exists. Qed.
Print Assumptions C75_defined.
Theorem C75_applicable : forall V n N ix iy q k (g : rule V), applies n N ix iy q k g (run_rule n N ix iy q g).
Proof. exact run_rule_applies. Qed.
Print Assumptions C75_applicable.

(** the result [A'] is the same for every layout *)
Theorem C75_layouts : forall V (neg : V -> V) (d : V) M h len ix iy ext (gs : list (rule V)) A, Forall (looks_around h (level len ix iy ext)) gs ->
  exists A', forall n N q k fs sh m,
  1 <= n -> n * N = M -> 1 <= h <= N -> (forall r, (r < Halo.ranks n)%nat -> Halo.fits N h len ix iy 0 0 ext (h_meta (q r))) -> ids_below k q ->
  Forall2 (applies n N ix iy q k) gs fs -> arrays n k m -> shaped n q sh m -> tiled n N ix iy q d m A ->
  exists m', always_completes (start_state (Halo.ranks n) (client_ops V neg n (stepping q h fs 0)) m) (tab (Halo.ranks n) m') /\ tiled n N ix iy q d m' A' /\ shaped n q sh m'.
Proof. exact layouts. Qed.
Print Assumptions C75_layouts.

(** two steps on tiles of two by two cells: six ranks, and 24 ranks with one cell each *)
Example C75_example : looks_around 1 (level 3 2 0 (fun _ => 2)) ex_rule /\
  (forall r, (r < Halo.ranks 1)%nat -> Halo.fits 2 1 3 2 0 0 0 (fun _ => 2) (h_meta (ex_one r))) /\ tiled 1 2 2 0 ex_one (-1) (ex_fill 1 2 ex_one) ex_values /\
  (forall r, (r < Halo.ranks 2)%nat -> Halo.fits 1 1 3 2 0 0 0 (fun _ => 2) (h_meta (ex_four r))) /\ tiled 2 1 2 0 ex_four (-1) (ex_fill 2 1 ex_four) ex_values /\
  (let s := ex_steps 1 2 ex_one 2 in all_done s = true /\ map (value_at 0 s 0 0) [[1; 0; 1]; [1; 0; 2]; [2; 0; 1]; [2; 0; 2]] = [463934134; 416162052; 252884345; 405362074]) /\
  (let s := ex_steps 2 1 ex_four 2 in all_done s = true /\ map (fun r => value_at 0 s r 0 [1; 0; 2]) [0; 1; 2; 3]%nat = [463934134; 416162052; 252884345; 405362074]).
Proof.
  split; [exact ex_rule_around|]. split; [exact ex_one_fits|]. split; [apply ex_tiled; intros r Hr; split; [reflexivity|now apply ex_one_fits]|].
  split; [exact ex_four_fits|]. split; [apply ex_tiled; intros r Hr; split; [reflexivity|now apply ex_four_fits]|]. vm_compute. auto.
Qed.

(** C76: scatter, compute in steps, gather: the gathered quantity does not depend on the layout. *)
Theorem C76_distributed : forall V T (neg : V -> V) (d : V) M h len ix iy ext dims (gs : list (rule V)), cell_dims len ix iy dims -> Forall (looks_around h (level len ix iy ext)) gs ->
  forall send : quantity V, well_formed (q_meta send) -> q_dims send = "tile"%string :: dims -> q_extent send = 6 :: box len ix iy M ext ->
  exists result : arr V, shp result = q_extent send /\ forall n N (sends : nat -> option (quantity V)) (local : nat -> quantity V) recv junk junk' fs,
    1 <= n -> n * N = M -> 1 <= h <= N -> Distribute.fits (n, n) dims (box len ix iy N ext) -> sends 0%nat = Some send ->
    (forall r, (r < Halo.ranks n)%nat -> q_dims (local r) = dims /\ Halo.fits N h len ix iy 0 0 ext (q_meta (local r))) ->
    given (global_sized (CubePart (n, n)) dims (box len ix iy N ext)) (recv 0%nat) ->
    Forall2 (applies n N ix iy (fun r => mkH 0 (q_meta (local r))) 1) gs fs ->
    let p := CubePart (n, n) in
    exists (outs : nat -> quantity V) (m : nat -> mem V) out,
      always_ends (Distribute.ranks p) (fun r => scatter V T p (Z.of_nat r) (junk r) (sends r) (Some (local r))) (fun r => Ok (outs r)) /\
      always_completes (start_state (Halo.ranks n) (client_ops V neg n (stepping (fun r => mkH 0 (q_meta (local r))) h fs 0)) (fun r => [q_data (outs r)])) (tab (Halo.ranks n) m) /\
      always_ends (Distribute.ranks p) (fun r => gather V T p (Z.of_nat r) (junk' r) (with_data (outs r) (m r)) (recv r)) (fun r => Ok (match r with O => Some out | _ => None end)) /\
      same (domain_of out) result.
Proof. exact distributed. Qed.
Print Assumptions C76_distributed.

(** the quantity of C75_example as one global quantity, and quantities of ranks with halos on both layouts *)
Example C76_example : cell_dims 3 2 0 ex_dims /\ well_formed (q_meta ex_send) /\ q_extent ex_send = 6 :: box 3 2 0 2 (fun _ => 2) /\
  Distribute.fits (1, 1) ex_dims (box 3 2 0 2 (fun _ => 2)) /\ Distribute.fits (2, 2) ex_dims (box 3 2 0 1 (fun _ => 2)) /\
  (forall r, (r < Halo.ranks 1)%nat -> Halo.fits 2 1 3 2 0 0 0 (fun _ => 2) (q_meta (ex_local ex_one r))) /\
  (forall r, (r < Halo.ranks 2)%nat -> Halo.fits 1 1 3 2 0 0 0 (fun _ => 2) (q_meta (ex_local ex_four r))).
Proof.
  split; [|split; [|split; [|split; [|split; [|split]]]]].
  - repeat split; try (vm_compute; congruence); try lia. intros i Hi. apply nat_lt3 in Hi. destruct Hi as [->|[->| ->]]; reflexivity.
  - split; [reflexivity|]. repeat constructor; simpl; lia.
  - reflexivity.
  - split; [split; apply layout_ok_below_49; simpl; lia|]. split; [discriminate|]. repeat apply Forall2_cons; try apply Forall2_nil; vm_compute; split; congruence.
  - split; [split; apply layout_ok_below_49; simpl; lia|]. split; [discriminate|]. repeat apply Forall2_cons; try apply Forall2_nil; vm_compute; split; congruence.
  - exact ex_one_fits.
  - exact ex_four_fits.
Qed.
