(** C94: nudging in every step of a program, on one rank or distributed. *)
From Verif.Base Require Import Base.
From Verif.Model Require Import Consts Numpy Quantity Collective ScatterGather Nudging.
From Verif.Spec Require Import Grid Layouts Views Together Distribute Relaxation Repeated.
From Verif.Proofs Require Import RepeatedProofs Slices StateProofs.
From Coq Require Import QArith Qabs.
Local Open Scope Z_scope.

(** [n] calls: none raises, and the values change as if each was nudged by itself; nothing else changes *)
Theorem C94_steps : forall V T (sub add : V -> V -> V) (div mul : V -> T -> V) reference_state timescales dt, NoDup (dkeys timescales) ->
  forall n state, Forall (matched state reference_state) timescales ->
  exists state', nudge_steps sub add div mul n reference_state timescales dt state = (state', Ok tt) /\ dkeys state' = dkeys state /\
    (forall name tau, In (name, tau) timescales -> exists q r q', dget name state = Some q /\ dget name reference_state = Some r /\ dget name state' = Some q' /\
       written q q' (mkA (q_extent q) (fun p => settled sub add div mul n (at_ (domain_of r) p) tau dt (at_ (domain_of q) p)))) /\
    (forall name, ~ In name (dkeys timescales) -> dget name state' = dget name state).
Proof. exact @nudged_again. Qed.
Print Assumptions C94_steps.

(** ranks which receive parts of a quantity and its reference, nudge them and gather the result give what nudging the whole gives,
    for every layout and whatever the arithmetic (so also with rounding) *)
Theorem C94_distributed : forall V T (sub add : V -> V -> V) (div mul : V -> T -> V) Tm p dims rext n name tau dt (sends references recv outs : nat -> option (quantity V)) send reference junk junk1 junk2,
  fits (layout_of p) dims rext -> at_most_one AxX dims -> at_most_one AxY dims ->
  sends 0%nat = Some send -> references 0%nat = Some reference -> global_sized p dims rext send -> global_sized p dims rext reference ->
  (forall r, (r < ranks p)%nat -> given (fun q => rank_sized rext q /\ q_dims q = dims) (recv r)) -> given (global_sized p dims rext) (outs 0%nat) ->
  exists out, always_ends (ranks p) (fun r => nudging_rank (Tm := Tm) sub add div mul p n name tau dt r (junk r) (junk1 r) (junk2 r) (sends r) (references r) (recv r) (outs r))
      (fun r => Ok (match r with O => Some out | _ => None end)) /\ q_dims out = global_dims p dims /\
    same (domain_of out) (mkA (q_extent send) (fun g => settled sub add div mul n (at_ (domain_of reference) g) tau dt (at_ (domain_of send) g))).
Proof. exact @nudged_apart. Qed.
Print Assumptions C94_distributed.

(** in exact arithmetic each call multiplies the distance to the reference by 1 - dt/tau *)
Theorem C94_distance : forall n (r tau dt s : Q), (~ tau == 0 -> settled Qminus Qplus Qdiv Qmult n r tau dt s - r == (s - r) * qpow (1 - dt / tau) n)%Q.
Proof. exact (fun n r tau dt s N => settled_distance n r tau dt N s). Qed.
Print Assumptions C94_distance.

(** so it vanishes with the number of calls for steps up to the timescale ... *)
Theorem C94_near : forall n (r tau dt s : Q), (0 < tau -> 0 <= dt -> dt <= tau -> Qabs (settled Qminus Qplus Qdiv Qmult n r tau dt s - r) * (1 + qn n * (dt / tau)) <= Qabs (s - r))%Q.
Proof. exact settled_near. Qed.
Print Assumptions C94_near.

(** ... and grows without bound for steps of more than twice the timescale, which apply_nudging does not refuse *)
Theorem C94_far : forall n (r tau dt s : Q), (0 < tau -> 2 * tau <= dt -> Qabs (s - r) * (1 + qn n * (dt / tau - 2)) <= Qabs (settled Qminus Qplus Qdiv Qmult n r tau dt s - r))%Q.
Proof. exact settled_far. Qed.
Print Assumptions C94_far.

(** four ranks on a tile; integers divided by 4 and multiplied by 1 *)
Definition ex_p : partitioner := TilePart (2, 2).
Definition ex_send : quantity Z := mkQ (mkA [7; 6] (fun i => nth 0 i 0 * 10 + nth 1 i 0)) ["y_interface"; "x"]%string "K" [1; 1] [5; 4].
Definition ex_ref : quantity Z := mkQ (mkA [5; 4] (fun _ => 100)) ["y_interface"; "x"]%string "K" [0; 0] [5; 4].
Definition ex_round : list nat := flat_map (fun _ => [0; 1; 2; 3; 0; 1; 2; 3])%nat (seq 0 5).
Example C94_example : fits (2, 2) ["y_interface"; "x"]%string [3; 2] /\ global_sized ex_p ["y_interface"; "x"]%string [3; 2] ex_send /\
  global_sized ex_p ["y_interface"; "x"]%string [3; 2] ex_ref /\
  option_map (fun s => match nth_error s 0 with
                       | Some c => match outcome_of c with Some (Ok (Some q)) => map (at_ (q_data q)) [[0; 0]; [2; 3]; [4; 2]] | _ => [] end
                       | None => []
                       end)
    (crun (fun _ _ => false) ex_round (cstart 4 (fun r => nudging_rank (Tm := Z) Z.sub Z.add Z.div Z.mul ex_p 2 "t" 4 1 r (fun _ _ => 0) (fun _ _ => 0) (fun _ _ => 0) (Some ex_send) (Some ex_ref) None None))) =
    Some (map (fun s => settled Z.sub Z.add Z.div Z.mul 2 100 4 1 s) [11; 34; 53]) /\
  map (fun s => settled Z.sub Z.add Z.div Z.mul 2 100 4 1 s) [11; 34; 53] = [49; 62; 73].
Proof.
  split. { split; [split; apply layout_ok_below_49; simpl; lia|]. split; [discriminate|]. repeat apply Forall2_cons; try apply Forall2_nil; vm_compute; split; congruence. }
  split. { split; [split; [reflexivity|repeat constructor; cbn; lia]|auto]. }
  split. { split; [split; [reflexivity|repeat constructor; cbn; lia]|auto]. }
  vm_compute. auto.
Qed.
