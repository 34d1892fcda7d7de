(** Model of datetime64_to_datetime (fv3gfs/util/time.py 20-23).
    Simplifications: a datetime is the number of microseconds since 1970 (datetime.utcfromtimestamp and the calendar of python's
    datetime determine each other from year 1 to 9999); numpy's conversion of units coarser than seconds does not overflow; a
    timestamp outside the years 1 to 9999 raises ValueError (OverflowError or OSError if it does not fit the platform's time_t). *)
From Coq Require Import SpecFloat.
From Verif.Base Require Import Base.
From Verif.Model Require Import Consts Partitioner.

(** units of numpy's datetime64, from days to nanoseconds *)
Inductive dt_unit := Days | Hours | Minutes | Seconds | Milliseconds | Microseconds | Nanoseconds.
(** numpy brings the date, or the second, to the finer unit of the two: units per second of this unit *)
Definition per_second (u : dt_unit) : Z :=
  match u with Days | Hours | Minutes | Seconds => 1 | Milliseconds => 1000 | Microseconds => 1000000 | Nanoseconds => 1000000000 end.
(** seconds in one of the coarser units *)
Definition coarse (u : dt_unit) : Z := match u with Days => 86400 | Hours => 3600 | Minutes => 60 | _ => 1 end.
Definition NaT : Z := - 2 ^ 63.

(** C's modf: integer part, rounded towards zero, and remainder, which is exact *)
Definition f64_modf (f : spec_float) : res (Z * spec_float) :=
  match f with
  | S754_zero s => Ok (0, S754_zero s)
  | S754_infinity _ => Err OverflowError
  | S754_nan => Err ValueError
  | S754_finite s m e =>
      if 0 <=? e then Ok ((if s then - (Zpos m * 2 ^ e) else Zpos m * 2 ^ e), S754_zero s)
      else let q := Zpos m / 2 ^ (- e) in
           let r := Zpos m mod 2 ^ (- e) in
           Ok ((if s then - q else q), binary_normalize 53 1024 (if s then - r else r) e s)
  end.
(** the nearest integer, the even one of two *)
Definition f64_half_even (f : spec_float) : Z :=
  match f with
  | S754_finite s m e =>
      let a := if 0 <=? e then Zpos m * 2 ^ e
               else let d := 2 ^ (- e) in
                    let q := Zpos m / d in
                    let r := Zpos m mod d in
                    match 2 * r ?= d with Lt => q | Gt => q + 1 | Eq => if Z.even q then q else q + 1 end in
      if s then - a else a
  | _ => 0
  end.
(** datetime.utcfromtimestamp of CPython (_PyTime_DoubleToDenominator, rounding half to even); carrying a whole second from the
    microseconds to the seconds does not change the sum *)
Definition utcfromtimestamp (t : spec_float) : res Z :=
  do ip <- f64_modf t;
  let '(sec, part) := ip in
  let us := f64_half_even (f64_mul part (f64_of_Z 1000000)) in
  let total := sec * 1000000 + us in
  if (-62135596800 <=? total / 1000000) && (total / 1000000 <=? 253402300799) then Ok total else Err ValueError.

(** time.py 20-23; numpy divides the numbers of units as float64, and NaT gives nan *)
Definition datetime64_to_datetime (u : dt_unit) (k : Z) : res Z :=
  utcfromtimestamp (if k =? NaT then S754_nan else f64_div (f64_of_Z (k * coarse u)) (f64_of_Z (per_second u))).
