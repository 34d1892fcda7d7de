(** C86: the state of a model, made of scalars and vectors, computed in steps by ranks. *)
From Verif.Base Require Import Base.
From Verif.Model Require Import Consts Numpy Quantity Partitioner Network Communicator.
From Verif.Spec Require Import Grid Cube Halo Lockstep Sync Client Updates Steps Prognostic.
From Verif.Proofs Require Import UpdateExamples PrognosticProofs PrognosticExamples.

(** Ranks which start the halo updates of all variables, wait for all of them, apply a rule and synchronize interfaces of vectors, again
    and again, compute under every schedule what the rules give on the sphere as a whole. The rule sees all variables around a point:
    neighbours of vectors on other tiles have the components and signs they have seen from this tile. *)
Theorem C86_steps : forall V (neg : V -> V) (d : V) n N h k st, 1 <= n -> 1 <= N -> 1 <= h <= N -> state_ok n N h k st -> forall syn, syn_ok (kinds st) syn ->
  forall (gs : list (mrule V)) fs m F F', Forall2 (computes n N k st) gs fs -> Forall (looks_near h (kinds st)) gs ->
  proper neg (kinds st) F -> develops neg (n * N) (kinds st) syn gs F F' -> arrays n k m -> state_held n N st d F m ->
  exists m', always_completes (start_state (ranks n) (client_ops V neg n (model_steps st syn h fs 0)) m) (tab (ranks n) m') /\ state_held n N st d F' m'.
Proof. exact model_correct. Qed.
Print Assumptions C86_steps.

(** rules which change variables in cells and vectors which are synchronized can be applied to every state of the sphere; the result is
    the same for every layout *)
Theorem C86_layouts : forall V (neg : V -> V) (d : V) M h ks syn (gs : list (mrule V)), (forall x, neg (neg x) = x) -> syn_ok ks syn ->
  Forall (fun g => looks_near h ks g /\ forall i vector f, nth_error ks i = Some (vector, f) -> f_sy f = 0 /\ f_sx f = 0 \/ syn i = true \/ keeps g i) gs ->
  forall F, proper neg ks F -> exists F', develops neg M ks syn gs F F' /\ forall n N k st fs m, 1 <= n -> n * N = M -> 1 <= h <= N -> kinds st = ks -> state_ok n N h k st ->
    Forall2 (computes n N k st) gs fs -> arrays n k m -> state_held n N st d F m ->
    exists m', always_completes (start_state (ranks n) (client_ops V neg n (model_steps st syn h fs 0)) m) (tab (ranks n) m') /\ state_held n N st d F' m'.
Proof. exact model_layouts. Qed.
Print Assumptions C86_layouts.
(** ranks can apply every rule *)
Theorem C86_applicable : forall V (d : V) n N h k st g, state_ok n N h k st -> looks_near h (kinds st) g -> computes n N k st g (run_model V d n N st g).
Proof. exact run_model_computes. Qed.
Print Assumptions C86_applicable.

(** tiles of two by two cells, two steps: a scalar in cells, winds on the C grid which stay as they are, winds on the D grid which change and
    are synchronized; six ranks, and 24 ranks with one cell each *)
Example C86_example : kinds (pr_state 2) = pr_kinds /\ kinds (pr_state 1) = pr_kinds /\ state_ok 1 2 1 5 (pr_state 2) /\ state_ok 2 1 1 5 (pr_state 1) /\ syn_ok pr_kinds pr_syn /\
  looks_near 1 pr_kinds pr_rule /\ (forall i vector f, nth_error pr_kinds i = Some (vector, f) -> f_sy f = 0 /\ f_sx f = 0 \/ pr_syn i = true \/ keeps pr_rule i) /\ proper Z.opp pr_kinds pr_sphere /\
  state_held 1 2 (pr_state 2) (-1) pr_sphere (pr_memory 1 2) /\ state_held 2 1 (pr_state 1) (-1) pr_sphere (pr_memory 2 1).
Proof.
  split; [reflexivity|]. split; [reflexivity|]. split; [apply pr_ok; lia|]. split; [apply pr_ok; lia|]. split; [exact pr_syn_ok|]. split; [exact pr_near|]. split; [exact pr_stays|]. split; [exact pr_proper|].
  split; apply pr_held.
Qed.
(** scalars of tiles 0 and 5, north and south edge of tile 0, west edge of tile 2 *)
Example C86_run_example :
  (let s := pr_run 1 2 2 in
   (all_done s, map (value_at 0 s 0 1) [[1; 0; 2]; [1; 0; 3]; [2; 0; 2]; [2; 0; 3]], map (value_at 0 s 5 1) [[1; 0; 2]; [1; 0; 3]; [2; 0; 2]; [2; 0; 3]],
    map (value_at 0 s 0 3) [[2; 1; 0]; [2; 2; 0]; [4; 1; 0]; [4; 2; 0]], map (value_at 0 s 2 4) [[1; 1; 0]; [2; 1; 0]])) =
    (true, [1137; 1018; 652; 482], [-740; -360; 211; 602], [422; 249; -126; -290], [290; 126]) /\
  (let s := pr_run 2 1 2 in
   (all_done s, map (fun r => value_at 0 s r 1 [1; 0; 2]) [0; 1; 2; 3]%nat, map (fun r => value_at 0 s r 1 [1; 0; 2]) [20; 21; 22; 23]%nat,
    (map (fun r => value_at 0 s r 3 [2; 1; 0]) [0; 1]%nat ++ map (fun r => value_at 0 s r 3 [3; 1; 0]) [2; 3]%nat)%list, map (fun r => value_at 0 s r 4 [1; 1; 0]) [8; 10]%nat)) =
    (true, [1137; 1018; 652; 482], [-740; -360; 211; 602], [422; 249; -126; -290], [290; 126]).
Proof. split; vm_compute; reflexivity. Qed.
