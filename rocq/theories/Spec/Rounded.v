(** Nudging up to rounding. *)
From Coq Require Import Reals SpecFloat.
From Verif.Base Require Import Base.

(** the numbers among the float64 values, and their value *)
Definition number (f : spec_float) : Prop :=
  match f with S754_zero _ => True | S754_finite _ m e => bounded 53 1024 m e = true | _ => False end.
Definition value (f : spec_float) : R :=
  match f with S754_finite s m e => (IZR (if s then Zneg m else Zpos m) * powerRZ 2 e)%R | _ => 0%R end.
(** [x] is the value [s] after moving for time [dt] towards [r] at the rate which takes it there in time [tau], up to 16 units in the 53rd binary digit of [M], and underflow *)
Definition nudged_within (M s r : R) (tau dt : Z) (x : R) : Prop :=
  (Rabs (x - (s + (r - s) * (IZR dt / IZR tau))) <= M * powerRZ 2 (-49) + powerRZ 2 (-1030))%R.
(** [x] is the value [s] after [n] such steps, up to 64 units in the 53rd binary digit of [M] per step *)
Definition settled_within (n : nat) (M s r : R) (tau dt : Z) (x : R) : Prop :=
  (Rabs (x - (r + (s - r) * (1 - IZR dt / IZR tau) ^ n)) <= INR n * (M * powerRZ 2 (-47)))%R.
