(** Concrete instances used beside the theorems of Props/OneProgram.v. *)
From Verif.Base Require Import Base Lemmas.
From Verif.Model Require Import Consts Numpy Quantity Partitioner Network Communicator Collective ScatterGather Cluster TileComm.
From Verif.Spec Require Import Grid Cube Halo Lockstep Sync Client Updates Steps Layouts Views Together Distribute Whole Mixed OneProgram.
From Verif.Proofs Require Import UpdateExamples StepsProofs StepsExamples CollectiveProofs.

(** a scheduler: runs the highest rank that can move, [fuel] times; the state, and whether no rank can move any more *)
Fixpoint some_move {Ob V A} bf dl (r : nat) (s : cluster Ob V A) : option (cluster Ob V A) :=
  match cl_step bf dl r s with
  | Some s' => Some s'
  | None => match r with O => None | S r' => some_move bf dl r' s end
  end.
Fixpoint drive_all {Ob V A} bf dl (fuel : nat) (s : cluster Ob V A) : cluster Ob V A * bool :=
  match fuel with
  | O => (s, false)
  | S fuel' => match some_move bf dl (pred (length (cl_ranks s))) s with Some s' => drive_all bf dl fuel' s' | None => (s, true) end
  end.
Definition outcomes {Ob V A} (s : cluster Ob V A) : list (option (res A)) := map rank_outcome (cl_ranks s).

(** 24 ranks start a halo update, exchange data with everyone, then within tiles, and then wait for the update *)
Definition ex_mixed : list (mcall Z Z (list Z)) :=
  [MUpdate (CHalo Z ex_four 1);
   MWorld (fun r s => pbcast (Z.of_nat r + 7) (fun o => PRet (fst s, [o])));
   MTile (fun r i s => pdata (CGather (snd s ++ [Z.of_nat r]) (if Nat.eqb i 0 then Some 8%nat else None)) (fun l => PRet (fst s, l)));
   MUpdate (CWait Z 0)].
Definition ex_mixed_state (r : nat) : list Z := if Nat.eqb (r mod 4) 0 then [7; Z.of_nat r; 7; Z.of_nat r + 1; 7; Z.of_nat r + 2; 7; Z.of_nat r + 3] else [].
Definition ex_mixed_goal (m : nat -> mem Z) (o : nat -> list Z) : Prop :=
  effect Z Z.opp 0 2 (CHalo Z ex_four 1) (ex_fill 2 1 ex_four) (ex_fill 2 1 ex_four) m /\ forall r, (r < 24)%nat -> o r = ex_mixed_state r.

Example ex_mixed_ok : mixed_ok Z Z (list Z) (2, 2) 2 1 ex_mixed.
Proof.
  split; [right; reflexivity|]. split.
  - repeat constructor; cbn; auto. exists 1, 3%nat, 2%nat, 0%nat. repeat split; try lia. exists 0, (fun _ => 2). exact ex_four_fits.
  - cbn. repeat split; auto; lia.
Qed.
Example ex_mixed_achieves : achieves Z Z (list Z) Z.opp (2, 2) 0 2 1 ex_mixed [] (ex_fill 2 1 ex_four) (fun _ => []) ex_mixed_goal.
Proof.
  cbn [achieves ex_mixed app]. exists (ex_fill 2 1 ex_four), (fun _ => [7]). split; [|split; [reflexivity|]].
  { eapply tg_round with (ans := fun _ => AObject 7); [intros r Hr; cbn [fst snd]; unfold pbcast; reflexivity|intros r Hr|cbv beta iota; apply tg_end; reflexivity].
    change (Mixed.size (2, 2)) with 24%nat in *. unfold respond, all_calls. apply Nat.ltb_lt in Hr. now rewrite Hr. }
  exists (ex_fill 2 1 ex_four), ex_mixed_state. split; [|split; [reflexivity|]].
  { intros t Ht. eapply tg_round with (ans := fun i => AData (ex_mixed_state (t * per_tile (2, 2)%Z + i)%nat)); [intros i Hi; cbn [fst snd]; unfold pdata; reflexivity| |cbv beta iota; apply tg_end; reflexivity].
    change (per_tile (2, 2)) with 4%nat in *. intros i Hi.
    do 6 (destruct t as [|t]; [do 4 (destruct i as [|i]; [reflexivity|]); lia|]). lia. }
  intros c sent m' [= <- <-] EF. split; auto.
Qed.
