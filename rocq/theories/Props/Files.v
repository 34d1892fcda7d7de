(** C66-C68: states in files. *)
From Coq Require Import Permutation.
From Verif.Base Require Import Base.
From Verif.Model Require Import Consts Partitioner Numpy Quantity Collective ScatterGather Restart StateIO.
From Verif.Spec Require Import Grid Views Files.
From Verif.Proofs Require Import FileProofs FileExamples.
Local Open Scope string_scope.

(** a state is written or refused *)
Theorem C66_written : forall V T (time_number : T -> V) time_attrs arrange, (forall vars, Permutation (arrange vars) vars) ->
  forall fs (st : state V T) filename, sound_state st ->
  (fits st /\ exists vars, write_state V T time_number time_attrs arrange fs st filename = (dset filename vars fs, Ok tt) /\
     sound_file vars /\ forall n, In n (dkeys vars) <-> n = "time" \/ In n (dkeys (st_vars st))) \/
  (~ fits st /\ write_state V T time_number time_attrs arrange fs st filename = (fs, Err ValueError)).
Proof. exact @written_or_not. Qed.
Print Assumptions C66_written.

(** what is written is read again *)
Theorem C66_round_trip : forall V T (time_number : T -> V) time_attrs arrange, (forall vars, Permutation (arrange vars) vars) ->
  forall times_of fs (st : state V T) filename, dates_kept time_number time_attrs times_of -> sound_state st -> fits st ->
  (forall n q, In (n, q) (st_vars st) -> ~ dates (q_units q) /\ (~ a_dimension st n -> ~ durations (q_units q))) ->
  exists fs' st', write_state V T time_number time_attrs arrange fs st filename = (fs', Ok tt) /\
    (forall g, g <> filename -> dget g fs' = dget g fs) /\
    read_state V T times_of fs' filename = Ok st' /\ restored_state st st'.
Proof. exact @round_trip. Qed.
Print Assumptions C66_round_trip.

(** two fields with different halos, listed backwards in the file *)
Example C66_example :
  dates_kept ex_number ex_attrs ex_times /\ sound_state ex_state /\ fits ex_state /\
  (forall n q, In (n, q) (st_vars ex_state) -> ~ dates (q_units q) /\ (~ a_dimension ex_state n -> ~ durations (q_units q))) /\
  ex_written ex_state = Ok tt /\
  ex_read ex_state = Ok ([("w", ["z"], "m/s", [0], [2], [8; 9]); ("t", ["y"; "x"], "K", [0; 0], [2; 2], [11; 12; 21; 22])], Some 77)%Z.
Proof. exact ex_round_trip. Qed.

(** a state without time, and one with two sizes of a dimension *)
Example C66_refused : sound_state ex_timeless /\ ~ fits ex_timeless /\ ex_written ex_timeless = Err ValueError /\
  sound_state ex_unequal /\ ~ fits ex_unequal /\ ex_written ex_unequal = Err ValueError.
Proof. exact ex_refused. Qed.

(** a quantity with the name of a dimension is written but not read *)
Theorem C67_lost : forall V T (time_number : T -> V) time_attrs arrange, (forall vars, Permutation (arrange vars) vars) ->
  forall times_of fs (st : state V T) filename name q, dates_kept time_number time_attrs times_of -> sound_state st -> fits st ->
  (forall n q, In (n, q) (st_vars st) -> ~ dates (q_units q) /\ (~ a_dimension st n -> ~ durations (q_units q))) ->
  In (name, q) (st_vars st) -> a_dimension st name ->
  exists fs' st', write_state V T time_number time_attrs arrange fs st filename = (fs', Ok tt) /\
    (exists vars, dget filename fs' = Some vars /\ In name (dkeys vars)) /\
    read_state V T times_of fs' filename = Ok st' /\ ~ In name (dkeys (st_vars st')).
Proof. exact @name_lost. Qed.
Print Assumptions C67_lost.

(** a state with a duration or a date is written but cannot be read *)
Theorem C67_units : forall V T (time_number : T -> V) time_attrs arrange, (forall vars, Permutation (arrange vars) vars) ->
  forall times_of fs (st : state V T) filename n q, sound_state st -> fits st -> In (n, q) (st_vars st) -> ~ a_dimension st n ->
  dates (q_units q) \/ durations (q_units q) ->
  exists fs', write_state V T time_number time_attrs arrange fs st filename = (fs', Ok tt) /\ read_state V T times_of fs' filename = Err ValueError.
Proof. exact @units_lost. Qed.
Print Assumptions C67_units.

(** a field and its coordinate; a field and a time step *)
Example C67_example :
  sound_state ex_coordinate /\ fits ex_coordinate /\ a_dimension ex_coordinate "x" /\ ex_written ex_coordinate = Ok tt /\
  ex_read ex_coordinate = Ok ([("t", ["y"; "x"], "K", [0; 0], [2; 2], [11; 12; 21; 22])], Some 77)%Z /\
  sound_state ex_duration /\ fits ex_duration /\ ~ a_dimension ex_duration "dt" /\ ex_written ex_duration = Ok tt /\ ex_read ex_duration = Err ValueError.
Proof. exact ex_lost. Qed.

(** any file *)
Theorem C68_read : forall V T (times_of : dict string -> arr V -> option (arr T)) fs filename vars,
  dget filename fs = Some vars -> sound_file vars ->
  (readable times_of vars /\ exists st, read_state V T times_of fs filename = Ok st /\ contents_of times_of vars st) \/
  (~ readable times_of vars /\ read_state V T times_of fs filename = Err ValueError).
Proof. exact @read_any. Qed.
Print Assumptions C68_read.
Theorem C68_missing : forall V T (times_of : dict string -> arr V -> option (arr T)) fs filename,
  dget filename fs = None -> read_state V T times_of fs filename = Err OSError.
Proof. exact @read_missing. Qed.
Print Assumptions C68_missing.

(** a file without a time; one with a list of times; one with a field without units *)
Example C68_example :
  sound_file ex_no_time /\ ex_open ex_no_time = Ok ([("t", ["x"], "K", [0], [3], [5; 6; 7])], None)%Z /\
  sound_file ex_times_file /\ ex_open ex_times_file = Err ValueError /\ sound_file ex_no_units /\ ex_open ex_no_units = Err ValueError.
Proof. exact ex_files. Qed.
