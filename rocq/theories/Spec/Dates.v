(** What converting dates should do. *)
From Verif.Base Require Import Base.
From Verif.Model Require Import Time.

(** nanoseconds in a unit *)
Definition nanoseconds (u : dt_unit) : Z :=
  match u with
  | Days => 86400000000000
  | Hours => 3600000000000
  | Minutes => 60000000000
  | Seconds => 1000000000
  | Milliseconds => 1000000
  | Microseconds => 1000
  | Nanoseconds => 1
  end.
(** [k] units from 1970 on are before (or as far back as) [s] seconds from then *)
Definition within (s : Z) (u : dt_unit) (k : Z) : Prop := Z.abs (k * nanoseconds u) < s * 1000000000.
(** [us] microseconds are [k] units *)
Definition same_time (us : Z) (u : dt_unit) (k : Z) : Prop := us * 1000 = k * nanoseconds u.
(** they differ by less than a microsecond *)
Definition nearly_same_time (us : Z) (u : dt_unit) (k : Z) : Prop := Z.abs (us * 1000 - k * nanoseconds u) < 1000.
Definition whole_seconds (u : dt_unit) : Prop := u = Days \/ u = Hours \/ u = Minutes \/ u = Seconds.
(** the first and last second of the years 1 to 9999 *)
Definition in_years (u : dt_unit) (k : Z) : Prop := -62135596800 * 1000000000 <= k * nanoseconds u <= 253402300799 * 1000000000.
