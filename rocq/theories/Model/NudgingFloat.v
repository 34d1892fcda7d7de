(** fv3gfs/util/nudging.py on float64 arrays: the operations of [Nudging.v] in IEEE binary64, with times in microseconds as datetime.timedelta has them.
    Simplification: numpy converts the python float of total_seconds() to float64, which is the same number. *)
From Verif.Base Require Import Base.
From Verif.Model Require Import Consts Numpy Quantity Partitioner Nudging.
From Coq Require Import SpecFloat.

Definition f64_add := SFadd 53 1024.
(** timedelta.total_seconds() (nudging.py 43, 69): CPython divides the integers of microseconds and 10**6, correctly rounded; for up to 2^53
    microseconds (285 years), to which results refer, both integers are float64 numbers *)
Definition total_seconds (us : Z) : spec_float := f64_div (f64_of_Z us) (f64_of_Z 1000000).
(** nudging.py 69: difference / timescale.total_seconds() *)
Definition over_time (x : spec_float) (us : Z) : spec_float := f64_div x (total_seconds us).
(** nudging.py 43: tendency * timestep.total_seconds() *)
Definition times_time (x : spec_float) (us : Z) : spec_float := f64_mul x (total_seconds us).
(** nudging.py 6-33 *)
Definition nudge_f64 (state reference_state : dict (quantity spec_float)) (timescales : dict Z) (timestep : Z) :=
  apply_nudging f64_sub f64_add over_time times_time state reference_state timescales timestep.
