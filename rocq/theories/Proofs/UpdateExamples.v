(** Concrete instances used beside the theorems of Props/Updates.v. *)
From Verif.Base Require Import Base Lemmas.
From Verif.Model Require Import Consts Numpy Quantity Partitioner Rotate Network Communicator.
From Verif.Spec Require Import Grid Cube Halo Lockstep Sync Client Updates.

(** a scheduler: runs the lowest rank that can move, [fuel] times *)
Fixpoint first_move {L V} bf (r : nat) (s : @net L V) : option (@net L V) :=
  match step bf r s with
  | Some s' => Some s'
  | None => match r with O => None | S r' => first_move bf r' s end
  end.
Fixpoint drive {L V} bf (fuel : nat) (s : @net L V) : @net L V :=
  match fuel with
  | O => s
  | S fuel' => match first_move bf (pred (length (n_prog s))) s with Some s' => drive bf fuel' s' | None => s end
  end.
Definition all_done {L V} (s : @net L V) : bool := forallb (fun p => match p with [] => true | _ => false end) (n_prog s).
Definition value_at {V} (d : V) (s : @net (mem V) V) (r id : nat) (p : list Z) : V :=
  match nth_error (n_mem s) r with
  | Some m => match nth_error m id with Some a => at_ a p | None => d end
  | None => d
  end.

Section Ex.
Local Open Scope string_scope.
(** one rank per tile, 2 by 2 cells, vertical dimension in the middle, halo of 1 *)
Definition ex_meta := mkMeta ["y"; "z"; "x"] [1; 0; 2]%Z [2; 1; 2]%Z [4; 1; 5]%Z.
Definition ex_q (r : nat) := mkH 0 ex_meta.
(** C grid: x component on y interfaces and the reverse *)
Definition ex_mx := mkMeta ["y_interface"; "x"; "z"] [1; 1; 0]%Z [3; 2; 1]%Z [5; 4; 1]%Z.
Definition ex_my := mkMeta ["y"; "x_interface"; "z"] [1; 1; 0]%Z [2; 3; 1]%Z [4; 5; 1]%Z.
Definition ex_x (r : nat) := mkH 0 ex_mx.
Definition ex_y (r : nat) := mkH 1 ex_my.
End Ex.

(** array [id] of rank [r] holds 1000 r + 500 id + digits of the index *)
Definition ex_arr (r id : nat) (shape : list Z) : arr Z :=
  mkA shape (fun p => 1000 * Z.of_nat r + 500 * Z.of_nat id + fold_left (fun a i => 10 * a + i) p 0).
Definition ex_mem1 (r : nat) : mem Z := [ex_arr r 0 [4; 1; 5]].
Definition ex_mem2 (r : nat) : mem Z := [ex_arr r 0 [5; 4; 1]; ex_arr r 1 [4; 5; 1]].

Lemma nat_lt3 i : (i < 3)%nat -> i = 0%nat \/ i = 1%nat \/ i = 2%nat.
Proof. lia. Qed.
Ltac fits_tac := constructor; try reflexivity; try (vm_compute; lia); try lia;
  try (intros i Hi; apply nat_lt3 in Hi; destruct Hi as [->|[->| ->]]; vm_compute; repeat split; congruence);
  try (intros i [->| ->]; vm_compute; repeat split; congruence).

Example ex_fits : fits 2 1 3 2 0 0 0 (fun _ => 1) ex_meta.
Proof. fits_tac. Qed.
Example ex_halo_ok : halo_ok 1 2 3 2 0 ex_q 1.
Proof. repeat split; try lia. exists 0, (fun _ => 1). intros r _. exact ex_fits. Qed.
Example ex_fits_x : forall h, h <= 1 -> fits 2 h 3 1 0 1 0 (fun _ => 1) ex_mx.
Proof. intros h Hh. fits_tac. intros i [->| ->]; unfold xat, ex_mx, ex_my; cbn [nth m_origin m_extent m_shape]; lia. Qed.
Example ex_fits_y : forall h, h <= 1 -> fits 2 h 3 1 0 0 1 (fun _ => 1) ex_my.
Proof. intros h Hh. fits_tac. intros i [->| ->]; unfold xat, ex_mx, ex_my; cbn [nth m_origin m_extent m_shape]; lia. Qed.
Example ex_vector_ok : vector_ok 1 2 3 1 0 ex_x ex_y 1.
Proof. repeat split; try lia; try (intros r _; vm_compute; congruence). exists 1, 0, (fun _ => 1). intros r _. split; [apply ex_fits_x|apply ex_fits_y]; lia. Qed.
Example ex_sync_ok : sync_ok 1 2 3 1 0 (fun r => h_meta (ex_x r)) (fun r => h_meta (ex_y r)).
Proof. repeat split; try lia; auto. exists (fun _ => 1). intros r _. split; [apply ex_fits_x|apply ex_fits_y]; lia. Qed.

Definition ex_run (program : nat -> eff Z unit) (m : nat -> mem Z) : @net (mem Z) Z :=
  drive (fun _ _ => false) 1000 (start_state (ranks 1) (fun r => issued (program r)) m).

Example ex_left_alone : left_alone 1 2 1 2 0 ex_meta 0 [1; 0; 2] /\ left_alone 1 2 1 2 0 ex_meta 0 [1; 0; 0] /\
  left_alone 1 2 1 2 0 ex_meta 0 [0; 0; 1] /\ to_fill 1 2 1 2 0 ex_meta 0 [1; 0; 1].
Proof.
  split; [|split; [|split]].
  - left. split; [reflexivity|]. cbn [m_dims ex_meta length]. intros i Hi. apply nat_lt3 in Hi. destruct Hi as [->|[->| ->]]; vm_compute; split; congruence.
  - right. left. exists 2%nat. split; auto. left. vm_compute. reflexivity.
  - right. right. left. reflexivity.
  - split; [|vm_compute; discriminate]. exists WEST. split.
    + split; [reflexivity|]. cbn [m_dims ex_meta length]. intros i Hi N1 N2. apply nat_lt3 in Hi. destruct Hi as [->|[->| ->]]; try lia. vm_compute; split; congruence.
    + vm_compute. repeat split; congruence.
Qed.

Example ex_program :
  let calls := [CHalo Z ex_q 1; CLocal Z (fun _ => map (fun a => mkA (shp a) (fun p => at_ a p + 7))); CHalo Z ex_q 1; CWait Z 1; CWait Z 0] in
  Forall (call_ok Z 1 1) calls /\ waits_ok Z calls 0 [] /\
  (let s := drive (fun _ _ => false) 1000 (start_state (ranks 1) (client_ops Z Z.opp 1 calls) ex_mem1) in
   all_done s = true /\ value_at 0 s 0 0 [1; 0; 2] = 109 /\ value_at 0 s 0 0 [3; 0; 2] = 2202).
Proof.
  cbv zeta. split; [|split].
  - assert (call_ok Z 1 1 (CHalo Z ex_q 1)) by (split; [intros r; cbn; lia|exists 2, 3%nat, 2%nat, 0%nat; exact ex_halo_ok]).
    repeat (constructor; auto). intros r m _ H1. now rewrite map_length.
  - cbn. repeat split; auto; intros [].  discriminate. auto.
  - vm_compute. auto.
Qed.
