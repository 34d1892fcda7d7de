(** C96: updates and stores in one execution. *)
From Verif.Base Require Import Base.
From Verif.Model Require Import Consts Numpy Quantity Partitioner Network Communicator Collective Cluster ScatterGather Shared Zarr Joint.
From Verif.Spec Require Import Grid Cube Halo Lockstep Sync Client Updates Steps Layouts Views Distribute Storage Mixed Prognostic ModelRun History Joint.
From Verif.Proofs Require Import Slices PrognosticProofs PrognosticExamples ModelRunProofs ModelRunExamples HistoryProofs StoringProofs JointExamples.

(** All ranks make the same calls in the same order: they start updates, wait on them, compute, and store states made of their arrays, in whatever
    order - also while updates are under way. However they are scheduled, the ranks end without raising; the arrays are what the updates make them, and
    the store holds the states of all stores. *)
Theorem C96_program : forall V T (neg : V -> V) (d : V) (junk : list Z -> V) (calendar_of text_of : T -> string) encode n k names var (times : nat -> nat -> T),
  1 <= n -> NoDup names -> ~ In "time"%string names -> (forall x, In x names -> divided (n, n) (var x)) ->
  forall calls m Q, calls_ok V T n k calls -> (forall r, (r < Halo.ranks n)%nat -> length (m r) = k) -> attains V T neg d n calls [] m [] Q ->
  let N := length (stores_of V T calls) in
  (forall m' past, Q m' past -> length past = N -> forall r i, (r < Halo.ranks n)%nat -> (i < N)%nat -> described names var (times r i) (state_at V T calls past r i)) ->
  (forall i, (i < N)%nat -> calendar_of (times 0%nat i) = calendar_of (times 0%nat 0%nat)) ->
  exists m' past, Q m' past /\ length past = N /\
    joint_ends zexec (Halo.ranks n) (one_program V T neg junk calendar_of text_of encode (n, n) calls m) empty_store
      (fun s out => (forall r, (r < Halo.ranks n)%nat -> fst (out r) = m' r) /\
         ((0 < N)%nat -> holds (n, n) names var calendar_of text_of encode (state_at V T calls past) times N s)).
Proof. exact program_stores. Qed.
Print Assumptions C96_program.

(** A model which stores its state at the start and after every step, as it goes: the store holds the states which the rules give on
    the sphere as a whole, whatever the number of ranks, and the ranks end with the last of them. *)
Theorem C96_model : forall V T (neg : V -> V) (d : V) M h ks es syn (gs : list (mrule V)), (forall x, neg (neg x) = x) -> catalogue ks es -> ~ In "time"%string (map e_name es) -> syn_ok ks syn ->
  Forall (fun g => looks_near h ks g /\ forall i vector f, nth_error ks i = Some (vector, f) -> f_sy f = 0 /\ f_sx f = 0 \/ syn i = true \/ keeps g i) gs ->
  forall F, proper neg ks F -> exists Fs, evolution neg M ks syn gs F Fs /\
    forall n N st fs local units (junk : list Z -> V) (calendar_of text_of : T -> string) encode times, 1 <= n -> layouts_ok (n, n) -> n * N = M -> 1 <= h <= N -> kinds st = ks ->
      state_ok n N h (length es) st -> arranged n es st local ->
      (forall r j e q, (r < Halo.ranks n)%nat -> nth_error es j = Some e -> nth_error (local r) j = Some q -> q_units q = units e) ->
      (forall e f, In e es -> part ks (e_var e) (e_comp e) f ->
         Distribute.fits (n, n) (e_dims e) (extent_on f (e_comp e) N) /\ Forall2 (fun dm x => 1 <= x - stag dm) (e_dims e) (extent_on f (e_comp e) N)) ->
      (forall i, (i <= length gs)%nat -> calendar_of (times i) = calendar_of (times 0%nat)) ->
      Forall2 (computes n N (length es) st) gs fs -> state_held n N st d F (fun r => map (fun q => q_data q) (local r)) ->
      exists m', state_held n N st d (Fs (length gs)) m' /\
        joint_ends zexec (Halo.ranks n)
          (one_program V T neg junk calendar_of text_of encode (n, n) (storing_run (fun i r m => snapshot es local (fun _ => m) (times i) r) st syn h fs) (fun r => map (fun q => q_data q) (local r))) empty_store
          (fun s out => (forall r, (r < Halo.ranks n)%nat -> fst (out r) = m' r) /\ records M ks es units calendar_of text_of encode Fs times (S (length gs)) s).
Proof. exact model_stores. Qed.
Print Assumptions C96_model.

(** three states are stored while a halo update is started, the arrays changed, and the update waited on; on six ranks and on 24 *)
Example C96_program_example : forall n N, (n, N) = (1, 2) \/ (n, N) = (2, 1) ->
  NoDup (map e_name mr_entries) /\ ~ In "time"%string (map e_name mr_entries) /\ (forall x, In x (map e_name mr_entries) -> divided (n, n) (jx_var N x)) /\
  calls_ok Z Z n 5 (jx_calls n N) /\ (forall r, length (jx_start n N r) = 5%nat) /\ attains Z Z Z.opp (-1) n (jx_calls n N) [] (jx_start n N) [] (jx_end n N) /\
  length (stores_of Z Z (jx_calls n N)) = 3%nat /\
  (forall m' past, jx_end n N m' past -> forall r i, (r < Halo.ranks n)%nat -> (i < 3)%nat -> described (map e_name mr_entries) (jx_var N) (100 + Z.of_nat i) (state_at Z Z (jx_calls n N) past r i)).
Proof.
  intros n N C. split; [exact (proj1 mr_catalogue)|]. split; [cbn; intuition discriminate|]. split; [exact (jx_divided n N C)|]. split; [exact (jx_calls_ok n N C)|]. split; [reflexivity|].
  split; [exact (jx_attains n N)|]. split; [reflexivity|]. intros m' past E r i Hr Hi. exact (jx_described n N C m' past r i E Hr Hi).
Qed.
(** carried out: no rank raises, and the store holds at a point of the fourth tile the value of the sphere, and one more in the later states *)
Example C96_run_example : forall n N, (n, N) = (1, 2) \/ (n, N) = (2, 1) ->
  let s := jx_final n N in
  Forall (fun k => exists x, ended_with k = Some (Ok x)) (j_ranks s) /\
  map (fun i => element (j_store s) "t"%string [i; 3; 1; 0; 0]) [0; 1; 2] = [Some (-15); Some (-14); Some (-14)] /\
  map (fun i => element (j_store s) "time"%string [i]) [0; 1; 2] = [Some 0; Some 1; Some 2].
Proof.
  intros n N C s. assert (X : forallb (fun k => match ended_with k with Some (Ok _) => true | _ => false end) (j_ranks s) = true) by (destruct C as [C|C]; injection C as -> ->; vm_compute; reflexivity).
  split; [|destruct C as [C|C]; injection C as -> ->; vm_compute; split; reflexivity].
  apply Forall_forall. intros k Hk. rewrite forallb_forall in X. specialize (X k Hk). cbn beta in X. destruct (ended_with k) as [[x|]|]; [now exists x|discriminate|discriminate].
Qed.
(** the hypotheses of [C96_model] are those of [C92_recorded]; the model of C86 and C88 meets them *)
Example C96_model_example : forall n N, (n, N) = (1, 2) \/ (n, N) = (2, 1) ->
  catalogue pr_kinds mr_entries /\ ~ In "time"%string (map e_name mr_entries) /\ syn_ok pr_kinds pr_syn /\ looks_near 1 pr_kinds pr_rule /\
  (forall i vector f, nth_error pr_kinds i = Some (vector, f) -> f_sy f = 0 /\ f_sx f = 0 \/ pr_syn i = true \/ keeps pr_rule i) /\ proper Z.opp pr_kinds pr_sphere /\
  layouts_ok (n, n) /\ kinds (pr_state N) = pr_kinds /\ state_ok n N 1 5 (pr_state N) /\ arranged n mr_entries (pr_state N) (jx_local n N) /\
  (forall r j q, nth_error (jx_local n N r) j = Some q -> q_units q = "m"%string) /\
  (forall e f, In e mr_entries -> part pr_kinds (e_var e) (e_comp e) f ->
     Distribute.fits (n, n) (e_dims e) (extent_on f (e_comp e) N) /\ Forall2 (fun dm x => 1 <= x - stag dm) (e_dims e) (extent_on f (e_comp e) N)) /\
  computes n N 5 (pr_state N) pr_rule (run_model Z (-1) n N (pr_state N) pr_rule) /\
  state_held n N (pr_state N) (-1) pr_sphere (fun r => map (fun q => q_data q) (jx_local n N r)).
Proof.
  intros n N C. assert (B : 1 <= n <= 2 /\ 1 <= N <= 2 /\ (N = 1 \/ N = 2)) by (destruct C as [C|C]; injection C as -> ->; lia). destruct B as (Bn & BN & CN).
  split; [exact mr_catalogue|]. split; [cbn; intuition discriminate|]. split; [exact pr_syn_ok|]. split; [exact pr_near|]. split; [exact pr_stays|]. split; [exact pr_proper|].
  split; [split; apply layout_ok_below_49; simpl; lia|]. split; [reflexivity|]. split; [apply pr_ok; lia|]. split; [exact (jx_arranged n N)|]. split; [exact (jx_units n N)|]. split; [exact (jx_fits n N C)|].
  split; [apply (run_model_computes Z (-1) n N 1); [apply pr_ok; lia|exact pr_near]|exact (pr_held n N)].
Qed.
