(** Model of write_state and read_state (fv3gfs/util/io.py 9-55) and to_dataset (_xarray.py 15-21).
    Simplifications: the file system maps paths to netCDF files, and opening fails only for reading a path which is not there; a
    netCDF file is a list of variables, each an array with named dimensions and attributes which are strings; types of the elements, missing values and
    compression are left out, and so are quantities with a dimension twice or of length 0; of xarray are modelled which datasets it refuses to
    make, which variables are coordinates, and which units it decodes when it opens a file (xarray/coding/times.py: units with "since" are
    dates, units in TIME_UNITS are durations, and both lose the attribute units). *)
From Verif.Base Require Import Base.
From Verif.Model Require Import Consts Partitioner Numpy Quantity Collective ScatterGather Restart.
Local Open Scope string_scope.

Fixpoint contains (s u : string) : bool :=
  prefix s u || match u with EmptyString => false | String _ u' => contains s u' end.
(** xarray/coding/times.py: TIME_UNITS *)
Definition TIME_UNITS : list string := ["days"; "hours"; "minutes"; "seconds"; "milliseconds"; "microseconds"; "nanoseconds"].

Section StateIO.
Variables V T : Type.
(** how a date is written: a number, and the attributes units and calendar; and how numbers with units "... since ..." are
    read: None if they are not dates *)
Variable time_number : T -> V.
Variable time_attrs : T -> dict string.
Variable times_of : dict string -> arr V -> option (arr T).
(** the order in which variables come in a file *)
Variable arrange : dict (data_array V) -> dict (data_array V).

Definition file_system := dict (dict (data_array V)).

(** name is a dimension of one of the variables *)
Definition is_dimension (vars : dict (data_array V)) (name : string) : bool := existsb (fun v => sin name (da_dims (snd v))) vars.
(** sizes of all dimensions, as often as they occur *)
Definition sizes (vars : dict (data_array V)) : list (string * Z) := flat_map (fun v => combine (da_dims (snd v)) (shp (da_data (snd v)))) vars.
Fixpoint sizes_agree (l : list (string * Z)) : bool :=
  match l with
  | [] => true
  | (d, n) :: l' => forallb (fun e => negb (String.eqb d (fst e)) || Z.eqb n (snd e)) l' && sizes_agree l'
  end.
(** xarray.Dataset(data_vars): a variable which has the name of one of its dimensions must have this dimension only; one which has the name of a
    dimension of another must not be a scalar; sizes must agree *)
Definition xr_dataset (vars : dict (data_array V)) : res (dict (data_array V)) :=
  if forallb (fun v => negb (sin (fst v) (da_dims (snd v))) || Nat.eqb (length (da_dims (snd v))) 1) vars &&
     forallb (fun v => negb (is_dimension vars (fst v)) || negb (Nat.eqb (length (da_dims (snd v))) 0)) vars &&
     sizes_agree (sizes vars)
  then Ok vars else Err ValueError.

(** _xarray.py 15-21; the date is given in the form in which it will be written *)
Definition to_dataset (st : state V T) : res (dict (data_array V)) :=
  do vars <- rmapM (fun nq => do da <- to_data_array V (snd nq); Ok (fst nq, da)) (st_vars st);
  xr_dataset (vars ++ match st_time st with Some t => [("time", mkDA (mkA [] (fun _ => time_number t)) [] (time_attrs t))] | None => [] end)%list.

(** io.py 9-20; the file is opened, and emptied, only after the dataset has been made *)
Definition write_state (fs : file_system) (st : state V T) (filename : string) : file_system * res unit :=
  match st_time st with
  | None => (fs, Err ValueError)
  | Some _ => match to_dataset st with
              | Err e => (fs, Err e)
              | Ok ds => (dset filename (arrange ds) fs, Ok tt)
              end
  end.

(** xarray.open_dataset, for one variable *)
Inductive decoded := DNumbers (da : data_array V) | DDates (a : arr T) | DDurations.
Definition decode (da : data_array V) : res decoded :=
  match dget "units" (da_attrs da) with
  | None => Ok (DNumbers da)
  | Some u => if contains "since" u then match times_of (da_attrs da) (da_data da) with Some a => Ok (DDates a) | None => Err ValueError end
              else if sin u TIME_UNITS then Ok DDurations else Ok (DNumbers da)
  end.

(** io.py 23-35 *)
Definition extract_time (dims : list string) (d : decoded) : res T :=
  match dims with
  | _ :: _ => Err ValueError
  | [] => match d with DDates a => Ok (at_ a []) | _ => Err ValueError end
  end.

(** io.py 51-54 *)
Definition read_variable (st : state V T) (v : string * (data_array V * decoded)) : res (state V T) :=
  let '(name, (da, d)) := v in
  if String.eqb name "time" then do t <- extract_time (da_dims da) d; Ok (mkSt (st_vars st) (Some t))
  else match d with
       | DNumbers da => do q <- from_data_array V da; Ok (mkSt (dset name q (st_vars st)) (st_time st))
       | _ => Err ValueError
       end.
(** io.py 38-55: all variables are decoded, and those which are not coordinates are read *)
Definition read_state (fs : file_system) (filename : string) : res (state V T) :=
  match dget filename fs with
  | None => Err OSError
  | Some vars =>
      do ds <- rmapM (fun v => do d <- decode (snd v); Ok (fst v, (snd v, d))) vars;
      rfold read_variable (filter (fun v => negb (is_dimension vars (fst v))) ds) (mkSt [] None)
  end.
End StateIO.
