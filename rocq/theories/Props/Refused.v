(** C93: quantities without tile dimension on a cubed sphere communicator. *)
From Verif.Base Require Import Base.
From Verif.Model Require Import Consts Partitioner Numpy Quantity Collective ScatterGather.
From Verif.Spec Require Import Grid Layouts Views Together Distribute Refused.
From Verif.Proofs Require Import RefusedProofs Slices.

(** scatter: every rank raises, NotImplementedError or for a quantity without dimensions IndexError; none waits *)
Theorem C93_scatter : forall V T l size (sends recv : nat -> option (quantity V)) send junk e, (0 < size)%nat -> sends 0%nat = Some send -> refusal (q_dims send) = Some e ->
  always_ends size (fun r => scatter V T (CubePart l) (Z.of_nat r) (junk r) (sends r) (recv r)) (fun _ => Err e).
Proof. exact @scatter_refused. Qed.
Print Assumptions C93_scatter.

(** scatter_state: every rank raises, although the variables before were distributed *)
Theorem C93_scatter_state : forall V T l D E (send : state V T) (sends recvs : nat -> option (state V T)) junk names bad rest q e, sends 0%nat = Some send -> (0 < ranks (CubePart l))%nat ->
  dkeys (st_vars send) = (names ++ bad :: rest)%list -> NoDup (names ++ [bad]) -> dget bad (st_vars send) = Some q -> refusal (q_dims q) = Some e ->
  let vars r := match recvs r with Some s => st_vars s | None => [] end in
  (forall name, In name names -> fits l (D name) (E name) /\ (exists q, dget name (st_vars send) = Some q /\ global_sized (CubePart l) (D name) (E name) q) /\
     forall r, (r < ranks (CubePart l))%nat -> given (rank_sized (E name)) (dget name (vars r))) ->
  always_ends (ranks (CubePart l)) (fun r => scatter_state V T (CubePart l) (Z.of_nat r) (junk r) (sends r) (recvs r)) (fun _ => Err e).
Proof. exact @scatter_state_refused. Qed.
Print Assumptions C93_scatter_state.

(** gather into such a quantity: the root raises, the others end as if nothing had happened *)
Theorem C93_gather : forall V T l size (sends : nat -> quantity V) (recv : nat -> option (quantity V)) junk ext q e, Z.of_nat size = total_ranks l -> (0 < size)%nat -> ext <> [] ->
  (forall r, (r < size)%nat -> rank_sized ext (sends r)) -> recv 0%nat = Some q -> refusal (q_dims q) = Some e ->
  always_ends size (fun r => gather V T (CubePart l) (Z.of_nat r) (junk r) (sends r) (recv r)) (fun r => match r with O => Err e | _ => Ok None end).
Proof. exact @gather_refused. Qed.
Print Assumptions C93_gather.

(** one rank per tile; a tile's quantity used for the whole sphere, and one with the tile last *)
Definition ex_tile : quantity Z := mkQ (mkA [2; 2] (fun i => nth 0 i 0 * 10 + nth 1 i 0)) ["y"; "x"]%string "K" [0; 0] [2; 2].
Definition ex_last : quantity Z := mkQ (mkA [2; 2; 6] (fun i => nth 0 i 0 * 10 + nth 1 i 0)) ["y"; "x"; "tile"]%string "K" [0; 0; 0] [2; 2; 6].
Definition ex_cube : quantity Z := mkQ (mkA [6; 2; 2] (fun i => nth 0 i 0 * 10 + nth 1 i 0)) ["tile"; "y"; "x"]%string "K" [0; 0; 0] [6; 2; 2].
Definition ex_outcomes {A B} (show : A -> B) (sched : list nat) (ps : nat -> program Z Z A) : option (list (option (res B))) :=
  option_map (map (fun c => option_map (rmap show) (outcome_of c))) (crun (fun _ _ => false) sched (cstart 6 ps)).
Definition ex_all : list nat := flat_map (fun r => repeat r 2) (seq 0 6).
Example C93_example : map (fun q => refusal (q_dims q)) [ex_tile; ex_last; ex_cube] = [Some NotImplementedError; Some NotImplementedError; None] /\
  rank_sized [2; 2] ex_tile /\
  ex_outcomes (fun _ => 0) ex_all (fun r => scatter Z Z (CubePart (1, 1)) (Z.of_nat r) (fun _ _ => 0) (Some ex_last) None) = Some (repeat (Some (Err NotImplementedError)) 6) /\
  ex_outcomes (fun s => Z.of_nat (length (dkeys (st_vars s)))) (flat_map (fun r => repeat r 8) (seq 0 6)) (fun r => scatter_state Z Z (CubePart (1, 1)) (Z.of_nat r) (fun _ _ _ => 0) (Some (mkSt [("a"%string, ex_cube); ("b"%string, ex_last)] None)) None) =
    Some (repeat (Some (Err NotImplementedError)) 6) /\
  ex_outcomes (option_map (fun q => length (q_dims q))) ([1; 1; 2; 2; 3; 3; 4; 4; 5; 5; 0; 0])%nat (fun r => gather Z Z (CubePart (1, 1)) (Z.of_nat r) (fun _ _ => 0) ex_tile (Some ex_last)) =
    Some (Some (Err NotImplementedError) :: repeat (Some (Ok None)) 5).
Proof. split; [reflexivity|]. split; [split; [split; [reflexivity|repeat constructor; cbn; lia]|reflexivity]|]. vm_compute. auto. Qed.
