(** C92: the states of a model stored with ZarrMonitor. *)
From Verif.Base Require Import Base.
From Verif.Model Require Import Consts Numpy Quantity Partitioner Network Communicator Collective ScatterGather Shared Zarr Cluster.
From Verif.Spec Require Import Grid Cube Halo Lockstep Sync Client Updates Steps Layouts Views Distribute Storage Mixed Prognostic ModelRun History.
From Verif.Proofs Require Import Slices PrognosticProofs PrognosticExamples ModelRunProofs ModelRunExamples HistoryProofs.

(** A model advances in steps of halo updates, computation and synchronisation; the ranks keep copies of the state they
    started from and of the state after every step, and store them. However updates and stores are scheduled, nothing raises, all ranks come to an end,
    and the store holds the states which the rules give on the sphere as a whole: these do not depend on the number of ranks. *)
Theorem C92_recorded : forall V T (neg : V -> V) (d : V) M h ks es syn (gs : list (mrule V)), (forall x, neg (neg x) = x) -> catalogue ks es -> ~ In "time"%string (map e_name es) -> syn_ok ks syn ->
  Forall (fun g => looks_near h ks g /\ forall i vector f, nth_error ks i = Some (vector, f) -> f_sy f = 0 /\ f_sx f = 0 \/ syn i = true \/ keeps g i) gs ->
  forall F, proper neg ks F -> exists Fs, evolution neg M ks syn gs F Fs /\
    forall n N st fs local units (junk : list Z -> V) (calendar_of text_of : T -> string) encode times, 1 <= n -> layouts_ok (n, n) -> n * N = M -> 1 <= h <= N -> kinds st = ks ->
      state_ok n N h (length es) st -> arranged n es st local ->
      (forall r j e q, (r < Halo.ranks n)%nat -> nth_error es j = Some e -> nth_error (local r) j = Some q -> q_units q = units e) ->
      (forall e f, In e es -> part ks (e_var e) (e_comp e) f ->
         Distribute.fits (n, n) (e_dims e) (extent_on f (e_comp e) N) /\ Forall2 (fun dm x => 1 <= x - stag dm) (e_dims e) (extent_on f (e_comp e) N)) ->
      (forall i, (i <= length gs)%nat -> calendar_of (times i) = calendar_of (times 0%nat)) ->
      Forall2 (computes n N (length es) st) gs fs -> state_held n N st d F (fun r => map (fun q => q_data q) (local r)) ->
      exists ms m',
        cluster_ends (Mixed.size (n, n)) (mixed_program (obj T) V (list (mem V)) neg (n, n) (recorded_run st syn h fs) (fun r => map (fun q => q_data q) (local r)) (fun _ => []))
          (fun r => Ok (m' r, map (fun i => ms i r) (seq 0 (S (length gs))))) /\
        ends_with zexec (Mixed.size (n, n))
          (fun r => store_all V T junk calendar_of text_of encode (n, n) (Z.of_nat r) None (map (fun i => snapshot es local (ms i) (times i) r) (seq 0 (S (length gs))))) empty_store
          (fun s out => (forall r, (r < Mixed.size (n, n))%nat -> snd (out r) = Ok tt) /\ records M ks es units calendar_of text_of encode Fs times (S (length gs)) s).
Proof. exact history_recorded. Qed.
Print Assumptions C92_recorded.

(** the model of C86 and C88, on six ranks and on 24; its quantities hold the sphere at the start *)
Definition ex_local (n N : Z) (r : nat) : list (quantity Z) := map2 with_array (mr_local N r) (pr_memory n N r).
Example C92_example : forall n N, (n, N) = (1, 2) \/ (n, N) = (2, 1) ->
  catalogue pr_kinds mr_entries /\ ~ In "time"%string (map e_name mr_entries) /\ syn_ok pr_kinds pr_syn /\ looks_near 1 pr_kinds pr_rule /\ proper Z.opp pr_kinds pr_sphere /\
  layouts_ok (n, n) /\ kinds (pr_state N) = pr_kinds /\ state_ok n N 1 5 (pr_state N) /\ arranged n mr_entries (pr_state N) (ex_local n N) /\
  (forall r j q, nth_error (ex_local n N r) j = Some q -> q_units q = "m"%string) /\
  (forall e f, In e mr_entries -> part pr_kinds (e_var e) (e_comp e) f ->
     Distribute.fits (n, n) (e_dims e) (extent_on f (e_comp e) N) /\ Forall2 (fun dm x => 1 <= x - stag dm) (e_dims e) (extent_on f (e_comp e) N)) /\
  computes n N 5 (pr_state N) pr_rule (run_model Z (-1) n N (pr_state N) pr_rule) /\
  state_held n N (pr_state N) (-1) pr_sphere (fun r => map (fun q => q_data q) (ex_local n N r)).
Proof.
  intros n N C. assert (B : 1 <= n <= 2 /\ 1 <= N <= 2 /\ (N = 1 \/ N = 2)) by (destruct C as [C|C]; injection C as -> ->; lia). destruct B as (Bn & BN & CN).
  split; [exact mr_catalogue|]. split; [cbn; intuition discriminate|]. split; [exact pr_syn_ok|]. split; [exact pr_near|]. split; [exact pr_proper|].
  split; [split; apply layout_ok_below_49; simpl; lia|]. split; [reflexivity|]. split; [apply pr_ok; lia|]. split; [|split; [|split; [|split]]].
  - intros r Hr. split; [reflexivity|]. intros j e v f EJ (C1 & _).
    destruct j as [|[|[|[|[|[|]]]]]]; try discriminate; injection EJ as <-; cbn [e_var e_comp] in *; injection C1 as <- <-; eexists; (split; [reflexivity|split; reflexivity]).
  - intros r j q X. destruct j as [|[|[|[|[|[|]]]]]]; try discriminate; injection X as <-; reflexivity.
  - intros e f I PT. split; [now apply mr_fits|]. destruct PT as (b & K & _). cbn in I.
    destruct I as [<-|[<-|[<-|[<-|[<-|[]]]]]]; cbn [e_var e_comp] in K; injection K as <- <-; destruct CN as [-> | ->]; (repeat apply Forall2_cons; try apply Forall2_nil); vm_compute; congruence.
  - apply (run_model_computes Z (-1) n N 1); [apply pr_ok; lia|exact pr_near].
  - exact (pr_held n N).
Qed.
