(** C88: a whole model as one program: a state is scattered, advances in steps, and is gathered. *)
From Verif.Base Require Import Base.
From Verif.Model Require Import Consts Numpy Quantity Partitioner Network Communicator Collective ScatterGather Cluster.
From Verif.Spec Require Import Grid Cube Halo Lockstep Sync Client Updates Steps Layouts Views Together Distribute Whole Mixed Prognostic ModelRun.
From Verif.Proofs Require Import UpdateExamples PrognosticProofs PrognosticExamples ModelRunProofs ModelRunExamples.

(** Whatever the schedule: ranks which receive a state with scatter_state, update halos, compute and synchronize interfaces in steps, and give it
    to gather_state all finish; rank 0 has the quantities the rules give on the sphere as a whole, and the time of the state which was scattered. *)
Theorem C88_run : forall V T (neg : V -> V) (d : V) M h ks es syn (gs : list (mrule V)), (forall x, neg (neg x) = x) -> catalogue ks es -> syn_ok ks syn ->
  Forall (fun g => looks_near h ks g /\ forall i vector f, nth_error ks i = Some (vector, f) -> f_sy f = 0 /\ f_sx f = 0 \/ syn i = true \/ keeps g i) gs ->
  forall F (send : ScatterGather.state V T), proper neg ks F -> on_sphere M ks es F (st_vars send) -> NoDup (dkeys (st_vars send)) -> (forall name, In name (dkeys (st_vars send)) -> In name (map e_name es)) ->
  exists F', develops neg M ks syn gs F F' /\
    forall n N st fs local sends recvs junk junk', 1 <= n -> n * N = M -> 1 <= h <= N -> kinds st = ks -> state_ok n N h (length es) st -> arranged n es st local ->
      (forall e f, In e es -> part ks (e_var e) (e_comp e) f -> Distribute.fits (n, n) (e_dims e) (extent_on f (e_comp e) N)) ->
      Forall2 (computes n N (length es) st) gs fs -> sends 0%nat = Some send ->
      let vars := match recvs 0%nat with Some s => st_vars s | None => [] end in
      (forall e f q, In e es -> part ks (e_var e) (e_comp e) f -> dget (e_name e) vars = Some q -> of_sphere M f e q) ->
      exists m o out,
        cluster_ends (Mixed.size (n, n))
          (mixed_program (obj T) V (held_back V T) neg (n, n) (model_run (n, n) st syn h fs es sends local recvs junk junk') (fun r => map (fun q => q_data q) (local r)) (fun _ => (None, None)))
          (fun r => Ok (m r, o r)) /\
        (forall r, (r < Mixed.size (n, n))%nat -> o r = (st_time send, match r with O => Some out | _ => recvs r end)) /\
        st_time out = match st_time send with Some t => Some t | None => match recvs 0%nat with Some s => st_time s | None => None end end /\
        on_sphere M ks es F' (st_vars out) /\ (forall name, ~ In name (map e_name es) -> dget name (st_vars out) = dget name vars) /\
        state_held n N st d F' m.
Proof. exact model_run_correct. Qed.
Print Assumptions C88_run.

(** a state is one of a sphere exactly if the points of two tiles which are one place agree *)
Theorem C88_sphere : forall V (neg : V -> V) (z : V) M ks es vars, (forall x, neg (neg x) = x) -> neg z = z -> 1 <= M -> catalogue ks es ->
  (forall i vector f, nth_error ks i = Some (vector, f) -> (f_sy f = 0 \/ f_sy f = 1) /\ (f_sx f = 0 \/ f_sx f = 1)) ->
  (agrees neg M ks es vars <-> exists F, proper neg ks F /\ on_sphere M ks es F vars).
Proof. exact sphere_iff. Qed.
Print Assumptions C88_sphere.

(** the gathered state is the same for every layout; it agrees where tiles meet, as the scattered one did *)
Theorem C88_layouts : forall V T (neg : V -> V) (z d : V) M h ks es syn (gs : list (mrule V)), (forall x, neg (neg x) = x) -> neg z = z -> 1 <= M -> catalogue ks es -> syn_ok ks syn ->
  (forall i vector f, nth_error ks i = Some (vector, f) -> (f_sy f = 0 \/ f_sy f = 1) /\ (f_sx f = 0 \/ f_sx f = 1)) ->
  Forall (fun g => looks_near h ks g /\ forall i vector f, nth_error ks i = Some (vector, f) -> f_sy f = 0 /\ f_sx f = 0 \/ syn i = true \/ keeps g i) gs ->
  forall send : ScatterGather.state V T, agrees neg M ks es (st_vars send) -> NoDup (dkeys (st_vars send)) -> (forall name, In name (dkeys (st_vars send)) -> In name (map e_name es)) ->
  exists result : string -> arr V,
    forall n N st fs local sends recvs junk junk', 1 <= n -> n * N = M -> 1 <= h <= N -> kinds st = ks -> state_ok n N h (length es) st -> arranged n es st local ->
      (forall e f, In e es -> part ks (e_var e) (e_comp e) f -> Distribute.fits (n, n) (e_dims e) (extent_on f (e_comp e) N)) ->
      Forall2 (computes n N (length es) st) gs fs -> sends 0%nat = Some send ->
      (forall e f q, In e es -> part ks (e_var e) (e_comp e) f -> dget (e_name e) (match recvs 0%nat with Some s => st_vars s | None => [] end) = Some q -> of_sphere M f e q) ->
      exists m o out,
        cluster_ends (Mixed.size (n, n))
          (mixed_program (obj T) V (held_back V T) neg (n, n) (model_run (n, n) st syn h fs es sends local recvs junk junk') (fun r => map (fun q => q_data q) (local r)) (fun _ => (None, None)))
          (fun r => Ok (m r, o r)) /\
        snd (o 0%nat) = Some out /\ agrees neg M ks es (st_vars out) /\
        forall e, In e es -> exists q, dget (e_name e) (st_vars out) = Some q /\ q_dims q = "tile"%string :: e_dims e /\ same (domain_of q) (result (e_name e)).
Proof. exact model_run_layouts. Qed.
Print Assumptions C88_layouts.

(** a state of five arrays on tiles of two by two cells, for six ranks and for 24 *)
Example C88_example : catalogue pr_kinds mr_entries /\ syn_ok pr_kinds pr_syn /\ looks_near 1 pr_kinds pr_rule /\ proper Z.opp pr_kinds pr_sphere /\
  on_sphere 2 pr_kinds mr_entries pr_sphere (st_vars (mr_send 2)) /\ agrees Z.opp 2 pr_kinds mr_entries (st_vars (mr_send 2)) /\
  (forall i vector f, nth_error pr_kinds i = Some (vector, f) -> (f_sy f = 0 \/ f_sy f = 1) /\ (f_sx f = 0 \/ f_sx f = 1)) /\
  dkeys (st_vars (mr_send 2)) = map e_name mr_entries /\
  (state_ok 1 2 1 5 (pr_state 2) /\ arranged 1 mr_entries (pr_state 2) (mr_local 2) /\
   forall e f, In e mr_entries -> part pr_kinds (e_var e) (e_comp e) f -> Distribute.fits (1, 1) (e_dims e) (extent_on f (e_comp e) 2)) /\
  (state_ok 2 1 1 5 (pr_state 1) /\ arranged 2 mr_entries (pr_state 1) (mr_local 1) /\
   forall e f, In e mr_entries -> part pr_kinds (e_var e) (e_comp e) f -> Distribute.fits (2, 2) (e_dims e) (extent_on f (e_comp e) 1)).
Proof.
  split; [exact mr_catalogue|]. split; [exact pr_syn_ok|]. split; [exact pr_near|]. split; [exact pr_proper|]. split; [now apply mr_on_sphere|].
  split; [apply (sphere_agrees Z Z.opp 2 pr_kinds mr_entries _ pr_sphere mr_catalogue pr_proper); now apply mr_on_sphere|]. split; [|split; [reflexivity|]].
  - intros i vector f E. destruct i as [|[|[|[|]]]]; try discriminate; injection E as <- <-; cbn; lia.
  - split; (split; [apply pr_ok; lia|]; split; [apply mr_arranged|intros e f; apply mr_fits; lia]).
Qed.
(** what rank 0 gathers after two steps, and what rank 1 has, is the same for six ranks and for 24 *)
Example C88_run_example : let expected := (true,
  [(Some 12, Some ([("v", ["tile"; "y_interface"; "x"; "z"], [6; 3; 2; 1], [-5; 1; -5; 1]); ("t", ["tile"; "y"; "z"; "x"], [6; 2; 1; 2], [1137; 1018; 652; 482]);
      ("u", ["tile"; "y"; "x_interface"; "z"], [6; 2; 3; 1], [7; 7; 7; 1]); ("a", ["tile"; "y_interface"; "x"; "z"], [6; 3; 2; 1], [422; 249; 697; 467]);
      ("b", ["tile"; "y"; "x_interface"; "z"], [6; 2; 3; 1], [170; 420; 220; 288])]%string, Some 12)); (Some 12, None)]) in
  mr_gathered 1 2 = expected /\ mr_gathered 2 1 = expected.
Proof. vm_compute. auto. Qed.
