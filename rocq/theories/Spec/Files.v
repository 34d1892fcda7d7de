(** What writing a state to a file and reading it again should do. *)
From Verif.Base Require Import Base.
From Verif.Model Require Import Consts Partitioner Numpy Quantity Collective ScatterGather Restart.
From Verif.Spec Require Import Grid Views.
Local Open Scope string_scope.

(** units of dates and of durations *)
Definition dates (u : string) : Prop := exists a b, u = a ++ "since" ++ b.
Definition durations (u : string) : Prop := In u ["days"; "hours"; "minutes"; "seconds"; "milliseconds"; "microseconds"; "nanoseconds"].

Section Files.
Context {V T : Type}.

(** ** files *)
Definition units_of (da : data_array V) : option string := dget "units" (da_attrs da).
Definition sound_file (vars : dict (data_array V)) : Prop :=
  NoDup (dkeys vars) /\ forall n da, In (n, da) vars -> length (da_dims da) = length (shp (da_data da)).
Definition file_dimension (vars : dict (data_array V)) (d : string) : Prop := exists n da, In (n, da) vars /\ In d (da_dims da).

(** all dates are dates, all variables which are not coordinates have units of numbers, and the time is a single date *)
Definition readable (times_of : dict string -> arr V -> option (arr T)) (vars : dict (data_array V)) : Prop :=
  (forall n da u, In (n, da) vars -> units_of da = Some u -> dates u -> times_of (da_attrs da) (da_data da) <> None) /\
  (forall n da, In (n, da) vars -> ~ file_dimension vars n -> n <> "time" -> exists u, units_of da = Some u /\ ~ dates u /\ ~ durations u) /\
  (forall da, In ("time", da) vars -> ~ file_dimension vars "time" -> da_dims da = [] /\ exists u, units_of da = Some u /\ dates u).

(** a quantity without halo which has the values, dimensions and units of the variable *)
Definition holds (da : data_array V) (q : quantity V) : Prop :=
  q_data q = da_data da /\ q_dims q = da_dims da /\ units_of da = Some (q_units q) /\
  q_origin q = map (fun _ => 0%Z) (da_dims da) /\ q_extent q = shp (da_data da).

(** the state has the variables which are not coordinates *)
Definition contents_of (times_of : dict string -> arr V -> option (arr T)) (vars : dict (data_array V)) (st : state V T) : Prop :=
  NoDup (dkeys (st_vars st)) /\
  (forall n q, In (n, q) (st_vars st) -> exists da, In (n, da) vars /\ holds da q) /\
  (forall n, In n (dkeys (st_vars st)) <-> n <> "time" /\ ~ file_dimension vars n /\ In n (dkeys vars)) /\
  (forall t, st_time st = Some t <-> exists da a, In ("time", da) vars /\ ~ file_dimension vars "time" /\ times_of (da_attrs da) (da_data da) = Some a /\ t = at_ a []).

(** ** states *)
(** dates are read as they were written *)
Definition dates_kept (time_number : T -> V) (time_attrs : T -> dict string) (times_of : dict string -> arr V -> option (arr T)) : Prop :=
  forall t, (exists u, dget "units" (time_attrs t) = Some u /\ dates u) /\
    exists a, times_of (time_attrs t) (mkA [] (fun _ => time_number t)) = Some a /\ at_ a [] = t.
Definition sound_state (st : state V T) : Prop :=
  NoDup (dkeys (st_vars st)) /\ ~ In "time" (dkeys (st_vars st)) /\ forall n q, In (n, q) (st_vars st) -> well_formed (q_meta q) /\ NoDup (q_dims q).
(** the compute domain of [q] has [s] points in dimension [d] *)
Definition has_size (q : quantity V) (d : string) (s : Z) : Prop := exists i, nth_error (q_dims q) i = Some d /\ nth_error (q_extent q) i = Some s.
Definition a_dimension (st : state V T) (d : string) : Prop := exists n q, In (n, q) (st_vars st) /\ In d (q_dims q).

(** there is a time, every dimension has one size, a variable with the name of a dimension is not a scalar and has no other dimensions if this one is its own, and
    "time" is not a dimension *)
Definition fits (st : state V T) : Prop :=
  st_time st <> None /\
  (forall n q n' q' d s s', In (n, q) (st_vars st) -> In (n', q') (st_vars st) -> has_size q d s -> has_size q' d s' -> s = s') /\
  (forall n q, In (n, q) (st_vars st) -> In n (q_dims q) -> q_dims q = [n]) /\
  (forall n q, In (n, q) (st_vars st) -> a_dimension st n -> q_dims q <> []) /\
  ~ a_dimension st "time".

(** the compute domain as a quantity of its own *)
Definition restored (q q' : quantity V) : Prop :=
  same (q_data q') (domain_of q) /\ q_dims q' = q_dims q /\ q_units q' = q_units q /\ q_origin q' = map (fun _ => 0%Z) (q_dims q) /\ q_extent q' = q_extent q.

(** [st'] is [st] without halos and without the quantities which have the name of a dimension *)
Definition restored_state (st st' : state V T) : Prop :=
  st_time st' = st_time st /\
  (forall n, In n (dkeys (st_vars st')) <-> In n (dkeys (st_vars st)) /\ ~ a_dimension st n) /\
  NoDup (dkeys (st_vars st')) /\ (forall n q', In (n, q') (st_vars st') -> exists q, In (n, q) (st_vars st) /\ restored q q').
End Files.
