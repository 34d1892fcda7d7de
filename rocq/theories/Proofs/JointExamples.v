(** A concrete program used beside the theorems of Props/Joint.v: a halo update is under way while the state is stored. *)
From Verif.Base Require Import Base Lemmas.
From Verif.Model Require Import Consts Numpy Quantity Partitioner Network Communicator Collective Cluster ScatterGather Shared Zarr Joint.
From Verif.Spec Require Import Grid Cube Halo Lockstep Sync Client Updates Steps Layouts Views Distribute Storage Mixed Prognostic ModelRun History Joint.
From Verif.Proofs Require Import Slices WholeProofs PrognosticProofs PrognosticExamples ModelRunProofs ModelRunExamples HistoryProofs StoringProofs.
From Coq Require Import ZifyBool.

(** the quantities of C86 and C88, which hold the sphere at the start *)
Definition jx_local (n N : Z) (r : nat) : list (quantity Z) := map2 with_array (mr_local N r) (pr_memory n N r).
Definition jx_start (n N : Z) (r : nat) : mem Z := map (fun q => q_data q) (jx_local n N r).
Definition jx_stored (n N : Z) (i r : nat) (m : mem Z) : ScatterGather.state Z Z := snapshot mr_entries (jx_local n N) (fun _ => m) (100 + Z.of_nat i) r.
(** every value one more than before *)
Definition jx_more (r : nat) (m : mem Z) : mem Z := map (fun a => mkA (shp a) (fun p => at_ a p + 1)) m.
Definition jx_calls (n N : Z) : list (ocall Z Z) :=
  [OUpdate (CHalo Z (pr_T N) 1); OStore (jx_stored n N 0); OUpdate (CLocal Z jx_more); OStore (jx_stored n N 1); OUpdate (CWait Z 0); OStore (jx_stored n N 2)].
Definition jx_var (N : Z) : string -> vspec := var_of N mr_entries (pr_state N) (fun _ => "m"%string).
(** the arrays at the stores: the first two are known, the halo has been filled in the third *)
Definition jx_end (n N : Z) (m' : nat -> mem Z) (past : list (nat -> mem Z)) : Prop :=
  past = [jx_start n N; (fun r => jx_more r (jx_start n N r)); m'] /\ effect Z Z.opp (-1) n (CHalo Z (pr_T N) 1) (jx_start n N) (fun r => jx_more r (jx_start n N r)) m'.

Section Example.
Variables n N : Z.
Hypothesis C : (n, N) = (1, 2) \/ (n, N) = (2, 1).
Let B : 1 <= n <= 2 /\ 1 <= N <= 2 /\ (N = 1 \/ N = 2).
Proof. destruct C as [E|E]; injection E as -> ->; lia. Qed.

Lemma jx_arranged : arranged n mr_entries (pr_state N) (jx_local n N).
Proof.
  intros r Hr. split; [reflexivity|]. intros j e v f EJ (C1 & _).
  destruct j as [|[|[|[|[|[|]]]]]]; try discriminate; injection EJ as <-; cbn [e_var e_comp] in *; injection C1 as <- <-; eexists; (split; [reflexivity|split; reflexivity]).
Qed.
Lemma jx_units r j q : nth_error (jx_local n N r) j = Some q -> q_units q = "m"%string.
Proof. intros X. destruct j as [|[|[|[|[|[|]]]]]]; try discriminate; injection X as <-; reflexivity. Qed.
Lemma jx_fits e f : In e mr_entries -> part pr_kinds (e_var e) (e_comp e) f ->
  Distribute.fits (n, n) (e_dims e) (extent_on f (e_comp e) N) /\ Forall2 (fun dm x => 1 <= x - stag dm) (e_dims e) (extent_on f (e_comp e) N).
Proof.
  intros I PT. destruct B as (Bn & BN & CN). split; [now apply mr_fits|]. destruct PT as (b & K & _). cbn in I.
  destruct I as [<-|[<-|[<-|[<-|[<-|[]]]]]]; cbn [e_var e_comp] in K; injection K as <- <-; destruct CN as [-> | ->]; (repeat apply Forall2_cons; try apply Forall2_nil); vm_compute; congruence.
Qed.
Lemma jx_divided x : In x (map e_name mr_entries) -> divided (n, n) (jx_var N x).
Proof.
  destruct B as (Bn & BN & CN). apply (var_divided Z n N 1 mr_entries (pr_state N)) with (local := jx_local n N); [lia|apply pr_ok; lia|exact mr_catalogue|exact jx_arranged| |exact jx_fits].
  intros r j e q _ _ X. exact (jx_units r j q X).
Qed.

Lemma jx_calls_ok : calls_ok Z Z n 5 (jx_calls n N).
Proof.
  destruct B as (Bn & BN & CN). split.
  - cbn [updates_of jx_calls]. constructor; [|constructor; [|constructor; [exact I|constructor]]].
    + assert (X : Forall (call_ok Z n 5) (model_steps (pr_state N) pr_syn 1 [run_model Z (-1) n N (pr_state N) pr_rule] 0)).
      { apply (model_calls Z n N 1 5 (pr_state N)) with (gs := [pr_rule]); [lia|lia|lia|apply pr_ok; lia|exact pr_syn_ok|]. constructor; [|constructor]. apply (run_model_computes Z (-1) n N 1); [apply pr_ok; lia|exact pr_near]. }
      inversion X; subst. assumption.
    + intros r m _ L. unfold jx_more. now rewrite map_length.
  - cbn. split; [intros []|]. split; [lia|exact I].
Qed.
Lemma jx_attains : attains Z Z Z.opp (-1) n (jx_calls n N) [] (jx_start n N) [] (jx_end n N).
Proof. cbn [jx_calls attains app]. intros c sent m' X E. injection X as <- <-. split; [reflexivity|exact E]. Qed.

Lemma jx_described m' past r i : jx_end n N m' past -> (r < Halo.ranks n)%nat -> (i < 3)%nat -> described (map e_name mr_entries) (jx_var N) (100 + Z.of_nat i) (state_at Z Z (jx_calls n N) past r i).
Proof.
  intros (-> & EF) Hr Hi. destruct B as (Bn & BN & CN).
  assert (A : forall m, arrays n 5 m -> shaped Z n (jx_local n N) m -> described (map e_name mr_entries) (jx_var N) (100 + Z.of_nat i) (jx_stored n N i r (m r))).
  { intros m A SH. pose proof (pr_ok n N ltac:(lia) CN) as OK. pose proof mr_catalogue as CAT. pose proof jx_arranged as AR.
    assert (UN : forall r j e q, (r < Halo.ranks n)%nat -> nth_error mr_entries j = Some e -> nth_error (jx_local n N r) j = Some q -> q_units q = "m"%string) by (intros r0 j e q _ _ X; exact (jx_units r0 j q X)).
    exact (snapshot_described Z Z n N 1 mr_entries (pr_state N) OK CAT (jx_local n N) AR (fun _ => "m"%string) UN m (100 + Z.of_nat i) r A SH Hr). }
  assert (A0 : arrays n 5 (jx_start n N)) by (intros r0 _; reflexivity). assert (S0 : shaped Z n (jx_local n N) (jx_start n N)).
  { intros r0 j q _ X. exists (q_data q). split; [unfold jx_start; now rewrite nth_error_map, X|reflexivity]. }
  assert (A1 : arrays n 5 (fun r => jx_more r (jx_start n N r))) by (intros r0 _; reflexivity). assert (S1 : shaped Z n (jx_local n N) (fun r => jx_more r (jx_start n N r))).
  { intros r0 j q Hr0 X. destruct (S0 r0 j q Hr0 X) as (a & Y & SA). unfold jx_more. rewrite nth_error_map, Y. cbn [option_map]. eexists. split; [reflexivity|exact SA]. }
  destruct i as [|[|[|]]]; [exact (A _ A0 S0)|exact (A _ A1 S1)| |lia].
  destruct EF as (OC & _). apply (A m'); [intros r0 Hr0|intros r0 j q Hr0 X].
  - destruct (OC r0 Hr0) as (L & _). rewrite L. now apply A1.
  - destruct (S1 r0 j q Hr0 X) as (a & Y & SA).
    destruct (OC r0 Hr0) as (_ & SH). destruct (SH j a Y) as (a' & Y' & SA' & _). exists a'. split; [exact Y'|congruence].
Qed.
End Example.

(** the program carried out, sends waiting for their receipt and broadcasts for everyone: one rank after another makes a move *)
Fixpoint u_move {A} (bf dl : nat -> nat -> bool) (k : nat) (s : joint (zstore Z) (zop Z) (zans Z) Z A) : option (joint (zstore Z) (zop Z) (zans Z) Z A) :=
  match ustep zexec bf dl k s with Some s' => Some s' | None => match k with O => None | S k' => u_move bf dl k' s end end.
Fixpoint u_drive {A} bf dl (fuel : nat) (s : joint (zstore Z) (zop Z) (zans Z) Z A) : joint (zstore Z) (zop Z) (zans Z) Z A :=
  match fuel with O => s | S fuel' => match u_move bf dl (pred (length (j_ranks s))) s with Some s' => u_drive bf dl fuel' s' | None => s end end.
Definition jx_final (n N : Z) := u_drive (fun _ _ => false) (fun _ _ => true) (100 * 100)
  (ustart (Halo.ranks n) (one_program Z Z Z.opp (fun _ => -7) (fun _ => "julian"%string) (fun _ => "start"%string) (fun a b => b - a) (n, n) (jx_calls n N) (jx_start n N)) empty_store).
