(** What nudging should do. *)
From Verif.Base Require Import Base.
From Verif.Model Require Import Consts Numpy Quantity.
From Verif.Spec Require Import Grid Views.

Section Relaxation.
Context {V T : Type}.
Variables (sub add : V -> V -> V) (div mul : V -> T -> V).

(** rate of change which takes [s] to [r] in time [tau], and [s] after time [dt] at this rate *)
Definition rate (s r : V) (tau : T) : V := div (sub r s) tau.
Definition relaxed (s r : V) (tau dt : T) : V := add s (mul (rate s r tau) dt).

(** a quantity with at least one dimension whose reference has the same extent *)
Definition comparable (q r : quantity V) : Prop :=
  well_formed (q_meta q) /\ well_formed (q_meta r) /\ q_extent q = q_extent r /\ q_dims q <> [].

(** [t] is the rate for quantity [q] and reference [r]: an array of its own without halo *)
Definition is_rate (q r : quantity V) (tau : T) (t : quantity V) : Prop :=
  shp (q_data t) = q_extent q /\ q_extent t = q_extent q /\ q_origin t = map (fun _ => 0) (q_dims q) /\ q_dims t = q_dims q /\
  q_units t = (q_units q ++ " s^-1")%string /\
  forall p, in_shape (q_extent q) p -> at_ (q_data t) p = rate (at_ (domain_of q) p) (at_ (domain_of r) p) tau.

(** [q'] is [q] nudged towards [r] in its compute domain and nothing else changed *)
Definition is_relaxed (q r : quantity V) (tau dt : T) (q' : quantity V) : Prop :=
  written q q' (mkA (q_extent q) (fun p => relaxed (at_ (domain_of q) p) (at_ (domain_of r) p) tau dt)).

(** a variable to be nudged is in both states, and comparable *)
Definition matched (state reference_state : dict (quantity V)) (nt : string * T) : Prop :=
  exists q r, dget (fst nt) state = Some q /\ dget (fst nt) reference_state = Some r /\ comparable q r.
End Relaxation.
