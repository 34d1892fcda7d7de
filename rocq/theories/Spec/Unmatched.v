(** Programs in which waits and updates of the ranks do not match (C84). *)
From Verif.Base Require Import Base.
From Verif.Model Require Import Consts Numpy Quantity Partitioner Network Communicator.
From Verif.Spec Require Import Cube Halo Lockstep Client.

(** no schedule brings the rank to its end *)
Definition never_ends {L V} (buffered : nat -> nat -> bool) (s : @net L V) (r : nat) : Prop :=
  forall sched s1, run buffered sched s = Some s1 -> nth_error (n_prog s1) r <> Some [].

Section Unmatched.
Variable V : Type.

(** every wait is for a request obtained before, perhaps not for the first time *)
Fixpoint waits_in (calls : list (call V)) (nstarted : nat) : Prop :=
  match calls with
  | [] => True
  | CWait _ i :: calls' => (i < nstarted)%nat /\ waits_in calls' nstarted
  | c :: calls' => waits_in calls' (if starts V c then S nstarted else nstarted)
  end.
(** the requests waited for *)
Definition waited (calls : list (call V)) : list nat := flat_map (fun c => match c with CWait _ i => [i] | _ => [] end) calls.

(** tags an update uses *)
Definition tags_used (c : call V) : nat := match c with CHalo _ _ _ | CSync _ _ _ => 1 | CVector _ _ _ _ => 2 | _ => 0 end.
Definition tags (calls : list (call V)) : nat := fold_right (fun c t => (tags_used c + t)%nat) O calls.

(** rank [r] receives from [src] in an update *)
Definition hears (n : Z) (c : call V) (r src : nat) : Prop :=
  exists B b, cs_boundary (n, n) B (Z.of_nat r) = Ok (Some b) /\ b_to b = Z.of_nat src /\
    match c with
    | CHalo _ _ _ | CVector _ _ _ _ => True
    | CSync _ _ _ => B = NORTH \/ B = EAST
    | _ => False
    end.

(** calls which are the same for one rank *)
Definition same_at (r : nat) (c c' : call V) : Prop :=
  match c, c' with
  | CHalo _ q h, CHalo _ q' h' => q r = q' r /\ h = h'
  | CVector _ x y h, CVector _ x' y' h' => x r = x' r /\ y r = y' r /\ h = h'
  | CSync _ x y, CSync _ x' y' => x r = x' r /\ y r = y' r
  | CWait _ i, CWait _ i' => i = i'
  | CLocal _ f, CLocal _ f' => f r = f' r
  | _, _ => False
  end.
End Unmatched.
