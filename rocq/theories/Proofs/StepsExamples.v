(** Concrete instances used beside the theorems of Props/Whole.v: cells of two by two tiles, on one rank per tile and on four. *)
From Verif.Base Require Import Base Lemmas.
From Verif.Model Require Import Consts Numpy Quantity Partitioner Network Communicator.
From Verif.Spec Require Import Grid Cube Halo Lockstep Sync Client Updates Steps.
From Verif.Proofs Require Import UpdateExamples StepsProofs.
From Coq Require Import ZifyBool.

Definition ex_dims : list string := ["y"; "z"; "x"]%string.
Definition ex_one (r : nat) := mkH 0 (mkMeta ex_dims [1; 0; 1] [2; 2; 2] [4; 2; 4]).
Definition ex_four (r : nat) := mkH 0 (mkMeta ex_dims [1; 0; 2] [1; 2; 1] [3; 2; 4]).
Example ex_one_fits : forall r, (r < ranks 1)%nat -> fits 2 1 3 2 0 0 0 (fun _ => 2) (h_meta (ex_one r)).
Proof. intros r _. fits_tac. Qed.
Example ex_four_fits : forall r, (r < ranks 2)%nat -> fits 1 1 3 2 0 0 0 (fun _ => 2) (h_meta (ex_four r)).
Proof. intros r _. fits_tac. Qed.

(** neighbours in the four directions at the other of two levels, with different weights, and the row *)
Definition ex_rule : rule Z := fun t j i w c =>
  match c with
  | [0; z; 0] => if (0 <=? z) && (z <? 2) then let c' := [0; 1 - z; 0] in w 1 0 c' + 10 * w (-1) 0 c' + 100 * w 0 1 c' + 1000 * w 0 (-1) c' + j else 0
  | _ => 0
  end.
Example ex_rule_around : looks_around 1 (level 3 2 0 (fun _ => 2)) ex_rule.
Proof.
  intros t j i w w' c H. unfold ex_rule. destruct c as [|[| |] [|z [|[| |] [|]]]]; try reflexivity.
  destruct ((0 <=? z) && (z <? 2)) eqn:B; [|reflexivity]. apply andb_true_iff in B. destruct B as (B1 & B2).
  assert (LV : level 3 2 0 (fun _ => 2) [0; 1 - z; 0]). { split; [reflexivity|]. intros k Hk. apply nat_lt3 in Hk. destruct Hk as [->|[->| ->]]; unfold xat; cbn [Nat.eqb orb nth]; lia. }
  cbv zeta. rewrite !H; auto; unfold cross; lia.
Qed.

(** value 100 t + 40 z + 2 j + i + 1 at tile t, level z, row j, column i; nothing known in the halos *)
Definition ex_values (t j i : Z) (c : list Z) : Z := 100 * t + 40 * xat c 1 + 2 * j + i + 1.
Definition ex_fill (n N : Z) (q : nat -> handle) (r : nat) : mem Z :=
  let m := h_meta (q r) in
  [mkA (m_shape m) (fun p =>
     if (0 <=? rel m p 0) && (rel m p 0 <? N) && (0 <=? rel m p 2) && (rel m p 2 <? N) then
       let '(t, J, K) := place n (Z.of_nat r) in ex_values t (J * N + rel m p 0) (K * N + rel m p 2) (column m 2 0 p) else -7)].
Example ex_tiled n N q : (forall r, (r < ranks n)%nat -> h_id (q r) = 0%nat /\ fits N 1 3 2 0 0 0 (fun _ => 2) (h_meta (q r))) -> tiled n N 2 0 q (-1) (ex_fill n N q) ex_values.
Proof.
  intros Q r p Hr D. destruct (Q r Hr) as (I0 & F). destruct (point_level N 1 3 2 0 0 (fun _ => 2) _ F p D) as (_ & Y & X).
  unfold content, ex_fill. rewrite I0. cbn [nth_error at_]. replace (_ && _) with true by lia. destruct (place n (Z.of_nat r)) as [[t J] K]. reflexivity.
Qed.

Definition ex_steps (n N : Z) (q : nat -> handle) (k : nat) :=
  drive (fun _ _ => false) (100 * 100) (start_state (ranks n) (client_ops Z Z.opp n (stepping q 1 (repeat (run_rule n N 2 0 q ex_rule) k) 0)) (ex_fill n N q)).

(** a global quantity, and the quantities of ranks *)
Definition ex_send : quantity Z := mkQ (mkA [6; 2; 2; 2] (fun g => match g with t :: y :: z :: x :: _ => ex_values t y x [0; z; 0] | _ => 0 end)) ("tile"%string :: ex_dims) "m" [0; 0; 0; 0] [6; 2; 2; 2].
Definition ex_local (q : nat -> handle) (r : nat) : quantity Z :=
  let m := h_meta (q r) in mkQ (mkA (m_shape m) (fun _ => -7)) (m_dims m) "m" (m_origin m) (m_extent m).
