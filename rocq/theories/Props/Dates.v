(** C69-C70: converting dates. *)
From Verif.Base Require Import Base.
From Verif.Model Require Import Time.
From Verif.Spec Require Import Dates.
From Verif.Proofs Require Import TimeProofs.

(** units from days to microseconds, less than 2^33 seconds from 1970: from 1697 to 2242 *)
Theorem C69_exact : forall u k, u <> Nanoseconds -> within (2 ^ 33) u k ->
  exists us, datetime64_to_datetime u k = Ok us /\ same_time us u k.
Proof. exact exact_times. Qed.
Print Assumptions C69_exact.
Example C69_exact_example : within (2 ^ 33) Microseconds 1700000000123457 /\
  datetime64_to_datetime Microseconds 1700000000123457 = Ok 1700000000123457 /\
  within (2 ^ 33) Microseconds (2 ^ 33 * 1000000 - 1) /\ datetime64_to_datetime Microseconds (2 ^ 33 * 1000000 - 1) = Ok (2 ^ 33 * 1000000 - 1) /\
  within (2 ^ 33) Days (-20000) /\ datetime64_to_datetime Days (-20000) = Ok (-1728000000000000).
Proof. repeat apply conj; vm_compute; reflexivity. Qed.

(** nanoseconds, less than 2^32 seconds from 1970: from 1833 to 2106 *)
Theorem C69_nanoseconds : forall k, within (2 ^ 32) Nanoseconds k ->
  exists us, datetime64_to_datetime Nanoseconds k = Ok us /\ nearly_same_time us Nanoseconds k /\
    (k mod 1000 = 0 -> same_time us Nanoseconds k).
Proof. exact nanosecond_times. Qed.
Print Assumptions C69_nanoseconds.
Example C69_nanoseconds_example : within (2 ^ 32) Nanoseconds 1700000000123456000 /\
  datetime64_to_datetime Nanoseconds 1700000000123456000 = Ok 1700000000123456 /\
  within (2 ^ 32) Nanoseconds (-1700000000123456789) /\ datetime64_to_datetime Nanoseconds (-1700000000123456789) = Ok (-1700000000123457).
Proof. repeat apply conj; vm_compute; reflexivity. Qed.

(** whole seconds, at any time *)
Theorem C69_seconds : forall u k, whole_seconds u -> Z.abs (k * nanoseconds u) <= 2 ^ 53 * 1000000000 ->
  (in_years u k /\ exists us, datetime64_to_datetime u k = Ok us /\ same_time us u k) \/
  (~ in_years u k /\ datetime64_to_datetime u k = Err ValueError).
Proof. exact whole_second_times. Qed.
Print Assumptions C69_seconds.
Example C69_seconds_example : whole_seconds Seconds /\ in_years Seconds 253402300799 /\
  datetime64_to_datetime Seconds 253402300799 = Ok 253402300799000000 /\ datetime64_to_datetime Seconds 253402300800 = Err ValueError.
Proof. split; [right; right; right; reflexivity|]. split; [split; apply Z.leb_le; reflexivity|]. split; vm_compute; reflexivity. Qed.

(** the limits are sharp: the first later times go wrong *)
Theorem C69_later_refuted :
  (datetime64_to_datetime Microseconds (2 ^ 33 * 1000000 + 1) = Ok (2 ^ 33 * 1000000 + 2)) /\
  (datetime64_to_datetime Milliseconds (2 ^ 33 * 1000 + 1) = Ok (2 ^ 33 * 1000000 + 999)) /\
  (datetime64_to_datetime Nanoseconds (2 ^ 32 * 1000000000 + 7000) = Ok (2 ^ 32 * 1000000 + 8)).
Proof. exact later_times. Qed.
Print Assumptions C69_later_refuted.

(** not a time *)
Theorem C69_not_a_time : forall u, datetime64_to_datetime u (- 2 ^ 63) = Err ValueError.
Proof. exact not_a_time. Qed.
Print Assumptions C69_not_a_time.

(** dates keep their order, however late *)
Theorem C70_order : forall u k k' us us', Z.abs k <= 2 ^ 63 -> Z.abs k' <= 2 ^ 63 -> k <= k' ->
  datetime64_to_datetime u k = Ok us -> datetime64_to_datetime u k' = Ok us' -> us <= us'.
Proof. exact order_kept. Qed.
Print Assumptions C70_order.
Example C70_example : datetime64_to_datetime Milliseconds 253402300799998 = Ok 253402300799997986 /\
  datetime64_to_datetime Milliseconds 253402300799999 = Ok 253402300799998993.
Proof. apply conj; vm_compute; reflexivity. Qed.
