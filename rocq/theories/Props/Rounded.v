(** C97: nudging in float64. *)
From Coq Require Import Reals SpecFloat.
From Verif.Base Require Import Base.
From Verif.Model Require Import Consts Numpy Quantity Partitioner Nudging NudgingFloat.
From Verif.Spec Require Import Grid Views Relaxation Repeated Rounded.
From Verif.Proofs Require Import RoundedProofs.
Local Open Scope Z_scope.

(** each point of the compute domain moves as it should, up to a few units in the last place of the larger of state and reference; a state equal to
    its reference stays as it is; where the reference is not a number the state becomes not a number *)
Theorem C97_nudged : forall state reference_state timescales dt, NoDup (dkeys timescales) -> Forall (matched state reference_state) timescales -> Forall (fun nt => 0 < snd nt <= 2 ^ 53) timescales -> 0 <= dt <= 2 ^ 53 ->
  exists state' tendencies, nudge_f64 state reference_state timescales dt = (state', Ok tendencies) /\
    forall name tau q r, In (name, tau) timescales -> dget name state = Some q -> dget name reference_state = Some r -> exists q', dget name state' = Some q' /\
      forall p, in_shape (q_extent q) p ->
        let s := at_ (domain_of q) p in let f := at_ (domain_of r) p in let x := at_ (domain_of q') p in
        (dt <= tau -> number s -> number f -> (Rabs (value s) <= powerRZ 2 900)%R -> (Rabs (value f) <= powerRZ 2 900)%R ->
          number x /\ nudged_within (Rmax (Rabs (value s)) (Rabs (value f))) (value s) (value f) tau dt (value x)) /\
        (number s -> f = s -> number x /\ value x = value s) /\
        (f = S754_nan -> x = S754_nan).
Proof. exact nudged_f64. Qed.
Print Assumptions C97_nudged.

(** [n] calls: the errors of the calls add up and are not amplified *)
Theorem C97_steps : forall reference_state timescales dt M n state, NoDup (dkeys timescales) -> Forall (matched state reference_state) timescales -> Forall (fun nt => 0 < snd nt <= 2 ^ 53 /\ dt <= snd nt) timescales -> 0 <= dt ->
  Z.of_nat n <= 2 ^ 40 -> (1 <= M <= powerRZ 2 890)%R ->
  exists state', nudge_steps f64_sub f64_add over_time times_time n reference_state timescales dt state = (state', Ok tt) /\
    forall name tau q r, In (name, tau) timescales -> dget name state = Some q -> dget name reference_state = Some r -> exists q', dget name state' = Some q' /\
      forall p, in_shape (q_extent q) p ->
        let s := at_ (domain_of q) p in let f := at_ (domain_of r) p in let x := at_ (domain_of q') p in
        number s -> number f -> (Rabs (value s) <= M)%R -> (Rabs (value f) <= M)%R -> number x /\ settled_within n M (value s) (value f) tau dt (value x).
Proof. exact nudged_steps_f64. Qed.
Print Assumptions C97_steps.

(** three cells, a halo at either side; a reference without one *)
Definition ex_cells (l : list Z) (o e : Z) : quantity spec_float := mkQ (mkA [Z.of_nat (length l)] (fun p => f64_of_Z (nth (Z.to_nat (nth 0 p 0)) l 0))) ["x"%string] "K" [o] [e].
Definition ex_state : dict (quantity spec_float) := [("t"%string, ex_cells [0; 3; 10; -7; 0] 1 3)].
Definition ex_reference : dict (quantity spec_float) := [("t"%string, ex_cells [10; 10; 20] 0 3)].
Definition ex_contents (d : dict (quantity spec_float)) : list (list spec_float) := map (fun nq => ravel (q_data (snd nq))) d.
Example C97_example :
  NoDup (dkeys [("t"%string, 4000000)]) /\ Forall (matched ex_state ex_reference) [("t"%string, 4000000)] /\
  Forall (fun z => number (f64_of_Z z) /\ value (f64_of_Z z) = IZR z /\ (Rabs (value (f64_of_Z z)) <= powerRZ 2 890 <= powerRZ 2 900)%R) [3; 10; -7; 20] /\
  ex_contents (fst (nudge_f64 ex_state ex_reference [("t"%string, 4000000)] 1000000)) =
    [[S754_zero false; f64_div (f64_of_Z 19) (f64_of_Z 4); f64_of_Z 10; f64_div (f64_of_Z (-1)) (f64_of_Z 4); S754_zero false]].
Proof.
  split; [repeat constructor; intros []|]. split; [|split].
  - constructor; [|constructor]. do 2 eexists. split; [reflexivity|]. split; [reflexivity|]. split; [split; [reflexivity|repeat constructor; cbn; lia]|]. split; [split; [reflexivity|repeat constructor; cbn; lia]|]. split; [reflexivity|discriminate].
  - repeat (apply Forall_cons; [apply whole_numbers; cbn; lia|]). apply Forall_nil.
  - vm_compute. reflexivity.
Qed.

(** it is not so that the state stays between its old value and the reference, nor that a step of the timescale reaches the reference:
    from 2.3 towards 9.9 in a step of three seconds and with a timescale of three seconds leads beyond 9.9 *)
Definition ex_tenth (z : Z) : spec_float := f64_div (f64_of_Z z) (f64_of_Z 10).
Definition ex_one (f : spec_float) : dict (quantity spec_float) := [("t"%string, mkQ (mkA [1] (fun _ => f)) ["x"%string] "K" [0] [1])].
Theorem C97_between_refuted : exists x, ex_contents (fst (nudge_f64 (ex_one (ex_tenth 23)) (ex_one (ex_tenth 99)) [("t"%string, 3000000)] 3000000)) = [[x]] /\
  SFltb (ex_tenth 23) (ex_tenth 99) = true /\ SFltb (ex_tenth 99) x = true.
Proof. eexists. split; [vm_compute; reflexivity|]. split; vm_compute; reflexivity. Qed.
Print Assumptions C97_between_refuted.
