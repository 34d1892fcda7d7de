(** References with fewer or single points: numpy aligns the last axes, and an axis of length one stands for any length. *)
From Verif.Base Require Import Base.
From Verif.Model Require Import Consts Numpy Quantity.
From Verif.Spec Require Import Grid Views.

Definition spreads (small large : list Z) : Prop :=
  (length small <= length large)%nat /\ Forall2 (fun a b => a = b \/ a = 1) small (skipn (length large - length small) large).

Fixpoint spread_index (small p : list Z) : list Z :=
  match small, p with a :: small', x :: p' => (if a =? 1 then 0 else x) :: spread_index small' p' | _, _ => [] end.

(** the reference [r] as a quantity of the extent of [q] *)
Definition spread_to {V} (q r : quantity V) : quantity V :=
  let ext := q_extent q in
  mkQ (mkA ext (fun p => at_ (domain_of r) (spread_index (q_extent r) (skipn (length ext - length (q_extent r)) p))))
    (q_dims q) (q_units r) (map (fun _ => 0) (q_dims q)) ext.

(** a variable to be nudged is in both states, and its reference can be spread over it *)
Definition spread_matched {V T} (state reference_state : dict (quantity V)) (nt : string * T) : Prop :=
  exists q r, dget (fst nt) state = Some q /\ dget (fst nt) reference_state = Some r /\ well_formed (q_meta q) /\ well_formed (q_meta r) /\
    q_dims q <> [] /\ q_dims r <> [] /\ spreads (q_extent r) (q_extent q).
