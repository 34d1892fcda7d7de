(** Concrete instances used beside the theorems of Props/Prognostic.v: a scalar in cells, winds on the C grid which stay as they are and winds on
    the D grid which change and are synchronized, on one rank per tile and on four. *)
From Verif.Base Require Import Base Lemmas.
From Verif.Model Require Import Consts Numpy Quantity Partitioner Network Communicator.
From Verif.Spec Require Import Grid Cube Halo Lockstep Sync Client Updates Steps Prognostic.
From Verif.Proofs Require Import UpdateExamples StepsProofs PrognosticProofs.
From Coq Require Import ZifyBool.

Definition pr_T (N : Z) (r : nat) := mkH 1 (mkMeta ["y"; "z"; "x"]%string [1; 0; 2] [N; 1; N] [N + 2; 1; N + 3]).
Definition pr_u (N : Z) (r : nat) := mkH 2 (mkMeta ["y"; "x_interface"; "z"]%string [1; 1; 0] [N; N + 1; 1] [N + 2; N + 3; 1]).
Definition pr_v (N : Z) (r : nat) := mkH 0 (mkMeta ["y_interface"; "x"; "z"]%string [1; 1; 0] [N + 1; N; 1] [N + 3; N + 2; 1]).
Definition pr_a (N : Z) (r : nat) := mkH 3 (mkMeta ["y_interface"; "x"; "z"]%string [2; 1; 0] [N + 1; N; 1] [N + 4; N + 2; 1]).
Definition pr_b (N : Z) (r : nat) := mkH 4 (mkMeta ["y"; "x_interface"; "z"]%string [1; 1; 0] [N; N + 1; 1] [N + 2; N + 3; 1]).
Definition pr_cells := mkForm 3 2 0 0 0 (fun _ => 1).
Definition pr_cgrid := mkForm 3 1 0 0 1 (fun _ => 1).
Definition pr_dgrid := mkForm 3 1 0 1 0 (fun _ => 1).
Definition pr_kinds : list (bool * form) := [(false, pr_cells); (true, pr_cgrid); (true, pr_dgrid)].
Definition pr_state (N : Z) : state := [(Scalar (pr_T N), pr_cells); (Vector (pr_u N) (pr_v N), pr_cgrid); (Vector (pr_a N) (pr_b N), pr_dgrid)].
Definition pr_syn (i : nat) : bool := Nat.eqb i 2.

Lemma pr_parts N i c v f : component (pr_state N) i c v f ->
  i = 0%nat /\ c = false /\ v = Scalar (pr_T N) /\ f = pr_cells \/ i = 1%nat /\ v = Vector (pr_u N) (pr_v N) /\ f = pr_cgrid \/ i = 2%nat /\ v = Vector (pr_a N) (pr_b N) /\ f = pr_dgrid.
Proof. intros (E & C). destruct i as [|[|[|[|]]]]; try discriminate; injection E as <- <-; [left|right; left|right; right]; auto. Qed.
Example pr_ok n N : 1 <= n -> N = 1 \/ N = 2 -> state_ok n N 1 5 (pr_state N).
Proof.
  intros Hn HN. split.
  - intros i v f E. destruct i as [|[|[|[|]]]]; try discriminate; injection E as <- <-; (split; [split; [reflexivity || exact I|]|]).
    + intros c r -> Hr. destruct HN as [-> | ->]; fits_tac.
    + intros c -> r. cbn. lia.
    + intros c r _ Hr. destruct HN as [-> | ->], c; fits_tac.
    + intros c _ r. destruct c; cbn; lia.
    + intros c r _ Hr. destruct HN as [-> | ->], c; fits_tac.
    + intros c _ r. destruct c; cbn; lia.
  - intros i c v f i' c' v' f' r C C' Hr E. apply pr_parts in C, C'.
    destruct C as [(-> & -> & -> & ->)|[(-> & -> & ->)|(-> & -> & ->)]], C' as [(-> & -> & -> & ->)|[(-> & -> & ->)|(-> & -> & ->)]]; cbn in E; try (destruct c); try (destruct c'); try discriminate; auto.
Qed.
Example pr_syn_ok : syn_ok pr_kinds pr_syn.
Proof. intros i vector f E S. destruct i as [|[|[|[|]]]]; try discriminate; injection E as <- <-. repeat split. right. auto. Qed.

(** the scalar changes with its neighbours and the winds on several sides, winds on the D grid with the scalars on both sides, differently on every tile *)
Definition pr_rule : mrule Z := fun i c t j x w lev =>
  let l := [0; 0; 0] in
  match i with
  | O => w 0%nat false 0 1 l * w 1%nat false 0 1 l + 3 * w 0%nat false (-1) 0 l + 7 * w 1%nat false 0 2 l + 11 * w 1%nat true (-1) 0 l + w 0%nat false 0 0 l + w 2%nat false 1 0 l
  | 1%nat => w i c 0 0 lev
  | _ => if c then w 2%nat true 0 0 lev + 2 * w 0%nat false 0 (-1) l + t else w 2%nat false 0 0 lev + 3 * w 0%nat false (-1) 0 l + w 0%nat false 0 0 l
  end.
Example pr_near : looks_near 1 pr_kinds pr_rule.
Proof.
  intros i c f t j x w w' lev P LV H. destruct P as (b & E & CB).
  assert (L0 : level 3 2 0 (fun _ => 1) [0; 0; 0]) by (split; [reflexivity|intros k Hk; apply nat_lt3 in Hk; destruct Hk as [->|[->| ->]]; vm_compute; repeat split; congruence]).
  assert (L1 : level 3 1 0 (fun _ => 1) [0; 0; 0]) by (split; [reflexivity|intros k Hk; apply nat_lt3 in Hk; destruct Hk as [->|[->| ->]]; vm_compute; repeat split; congruence]).
  assert (P0 : part pr_kinds 0 false pr_cells) by (eexists; split; [reflexivity|discriminate]).
  assert (P1 : forall c, part pr_kinds 1 c pr_cgrid) by (intros; eexists; split; [reflexivity|auto]).
  assert (P2 : forall c, part pr_kinds 2 c pr_dgrid) by (intros; eexists; split; [reflexivity|auto]).
  destruct i as [|[|[|[|]]]]; try discriminate; injection E as <- <-; unfold pr_rule; cbv zeta.
  - assert (c = false) as -> by (destruct c; auto; now specialize (CB eq_refl)).
    rewrite !(H 0%nat false _ _ _ _ P0) by (try exact L0; unfold reach, inner, outer; cbn; lia).
    rewrite !(H 1%nat false _ _ _ _ (P1 false)) by (try exact L1; unfold reach, inner, outer; cbn; lia).
    rewrite !(H 1%nat true _ _ _ _ (P1 true)) by (try exact L1; unfold reach, inner, outer; cbn; lia).
    rewrite !(H 2%nat false _ _ _ _ (P2 false)) by (try exact L1; unfold reach, inner, outer; cbn; lia). reflexivity.
  - apply (H 1%nat c _ _ _ _ (P1 c)); [destruct c; unfold reach, inner, outer; cbn; lia|exact LV].
  - destruct c; rewrite !(H 0%nat false _ _ _ _ P0) by (try exact L0; unfold reach, inner, outer; cbn; lia);
      rewrite !(H 2%nat _ _ _ _ _ (P2 _)) by (try exact LV; unfold reach, inner, outer; cbn; lia); reflexivity.
Qed.
Lemma pr_stays i vector f : nth_error pr_kinds i = Some (vector, f) -> f_sy f = 0 /\ f_sx f = 0 \/ pr_syn i = true \/ keeps pr_rule i.
Proof. intros E. destruct i as [|[|[|[|]]]]; try discriminate; injection E as <- <-; [left; auto|right; right; intros c t j x w lev; reflexivity|right; left; reflexivity]. Qed.

(** a linear function of the place, and rotation about an axis *)
Definition pr_sphere : sphere Z := fun i pl lev dir =>
  match i, pl, dir with
  | O, Some (a, b, c), _ => a + 3 * b + 9 * c + 1
  | S _, Some (a, b, c), (p, q, r) => (2 * c - 3 * b) * p + (3 * a - c) * q + (b - 2 * a) * r
  | _, None, _ => 0
  end.
Example pr_proper : proper Z.opp pr_kinds pr_sphere.
Proof.
  intros i vector f E. destruct i as [|[|[|[|]]]]; try discriminate; injection E as <- <-; [intros [[[a b] c]|] lev dir dir'; reflexivity| |];
  intros [[[a b] c]|] lev [[p q] r]; cbn [pr_sphere vscale]; (lia || reflexivity).
Qed.

Definition pr_array (n N : Z) (i : nat) (c : bool) (ix iy : nat) (hd : nat -> handle) (r : nat) : arr Z :=
  let m := h_meta (hd r) in
  mkA (m_shape m) (fun p =>
    if forallb (fun k => (0 <=? rel m p k) && (rel m p k <? xat (m_extent m) k)) [0; 1; 2]%nat
    then pr_sphere i (place_of n N ix iy m r p) (column m ix iy p) (dir_of n N ix iy c m r p) else -7).
Definition pr_memory (n N : Z) (r : nat) : mem Z :=
  [pr_array n N 1 true 1 0 (pr_v N) r; pr_array n N 0 false 2 0 (pr_T N) r; pr_array n N 1 false 1 0 (pr_u N) r; pr_array n N 2 false 1 0 (pr_a N) r; pr_array n N 2 true 1 0 (pr_b N) r].
Example pr_held n N : state_held n N (pr_state N) (-1) pr_sphere (pr_memory n N).
Proof.
  intros i c v f r p C Hr D.
  assert (B : forallb (fun k => (0 <=? rel (h_meta (handles v c r)) p k) && (rel (h_meta (handles v c r)) p k <? xat (m_extent (h_meta (handles v c r))) k)) [0; 1; 2]%nat = true).
  { apply forallb_forall. intros k K. assert (X : 0 <= rel (h_meta (handles v c r)) p k < xat (m_extent (h_meta (handles v c r))) k); [|lia].
    apply D. apply pr_parts in C. replace (length (m_dims (h_meta (handles v c r)))) with 3%nat; [cbn in K; lia|].
    destruct C as [(-> & -> & -> & ->)|[(-> & -> & ->)|(-> & -> & ->)]]; [|destruct c|destruct c]; reflexivity. }
  apply pr_parts in C. destruct C as [(-> & -> & -> & ->)|[(-> & -> & ->)|(-> & -> & ->)]]; [|destruct c|destruct c]; unfold content, pr_memory; cbn [handles pr_T pr_u pr_v pr_a pr_b h_id nth_error f_ix f_iy pr_cells pr_cgrid pr_dgrid] in *;
    unfold pr_array; cbv zeta; cbn [at_]; cbn [h_meta pr_T pr_u pr_v pr_a pr_b] in *; rewrite B; reflexivity.
Qed.

Definition pr_run (n N : Z) (steps : nat) :=
  drive (fun _ _ => false) (100 * 100) (start_state (ranks n) (client_ops Z Z.opp n (model_steps (pr_state N) pr_syn 1 (repeat (run_model Z (-1) n N (pr_state N) pr_rule) steps) 0)) (pr_memory n N)).
