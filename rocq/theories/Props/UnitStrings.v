(** C50: comparison of units. *)
From Coq Require Import Ascii.
From Verif.Base Require Import Base.
From Verif.Model Require Import Units.
From Verif.Spec Require Import Trim.
From Verif.Proofs Require Import UnitsProofs.

Theorem C50_equal_iff : forall Ch space eqb, (forall c d : Ch, eqb c d = true <-> c = d) ->
  forall u v, units_are_equal Ch space eqb u v = true <-> exists k, core Ch space u k /\ core Ch space v k.
Proof. exact units_equal_iff. Qed.
Print Assumptions C50_equal_iff.

Theorem C50_equivalence : forall Ch space eqb, (forall c d : Ch, eqb c d = true <-> c = d) ->
  (forall u, units_are_equal Ch space eqb u u = true) /\
  (forall u v, units_are_equal Ch space eqb u v = units_are_equal Ch space eqb v u) /\
  (forall u v w, units_are_equal Ch space eqb u v = true -> units_are_equal Ch space eqb v w = true -> units_are_equal Ch space eqb u w = true) /\
  (forall u v p q, blanks Ch space p -> blanks Ch space q -> units_are_equal Ch space eqb (p ++ u ++ q) v = units_are_equal Ch space eqb u v).
Proof. exact units_equivalence. Qed.
Print Assumptions C50_equivalence.

Theorem C50_ensure : forall Ch space eqb, (forall c d : Ch, eqb c d = true <-> c = d) ->
  forall u v, (ensure_equal_units Ch space eqb u v = Ok tt <-> exists k, core Ch space u k /\ core Ch space v k) /\
  (ensure_equal_units Ch space eqb u v = Err UnitsError <-> ~ exists k, core Ch space u k /\ core Ch space v k).
Proof. exact ensure_raises. Qed.
Print Assumptions C50_ensure.

Definition blank_char (c : ascii) : bool := Ascii.eqb c " ".
Example C50_example : (forall c d, Ascii.eqb c d = true <-> c = d) /\
  units_are_equal ascii blank_char Ascii.eqb (list_ascii_of_string " m s^-1  ") (list_ascii_of_string "m s^-1") = true /\
  units_are_equal ascii blank_char Ascii.eqb (list_ascii_of_string "ms^-1") (list_ascii_of_string "m s^-1") = false /\
  ensure_equal_units ascii blank_char Ascii.eqb (list_ascii_of_string "K") (list_ascii_of_string "C") = Err UnitsError.
Proof. split; [exact Ascii.eqb_eq|]. repeat split; reflexivity. Qed.
