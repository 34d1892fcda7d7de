(** Model of fv3gfs/util/_legacy_restart.py, of get_current_date_from_coupler_res (io.py) and of the conversions between quantities
    and data arrays (quantity.py).
    Simplifications: attributes of variables are strings; a netCDF file gives a dataset (variables which are not coordinates, in
    order, and the length of the coordinate Time if there is one); coordinates other than Time are left out; renaming
    dimensions so that two get the same name is not refused; deepcopy and load change nothing; a line of a text file is
    the list of its tokens, each of which int() accepts or not. *)
From Coq Require Import NArith Ascii DecimalString.
From Verif.Base Require Import Base.
From Verif.Model Require Import Consts Partitioner Numpy Quantity Collective ScatterGather Sizer Properties.
Local Open Scope string_scope.

Section Restart.
Variable V : Type.
Variable Date : Type.
(** the cftime classes: calendar, year, month, day, hour, minute, second; ValueError if there is no such date *)
Variable cftime : Z -> list Z -> res Date.

(** xarray.DataArray *)
Record data_array := mkDA { da_data : arr V; da_dims : list string; da_attrs : dict string }.

(** quantity.py 441-443; the other attributes of a quantity are empty *)
Definition to_data_array (q : quantity V) : res data_array :=
  do a <- view_get q (PSingle IALL); Ok (mkDA a (q_dims q) [("units", q_units q)]).
(** quantity.py 329-357 *)
Definition from_data_array (da : data_array) : res (quantity V) :=
  match dget "units" (da_attrs da) with
  | None => Err ValueError
  | Some u => new_quantity (DArray (da_data da)) (da_dims da) u None None
  end.

(** ** names *)
(** _legacy_restart.py 160-168 *)
Definition get_restart_standard_names (properties : dict property) : dict string :=
  fold_left (fun d np => dset (p_restart (snd np)) (fst np) d) properties [].

(** _legacy_restart.py 123-130; [order] gives the order in which the elements of a set are visited *)
Definition map_keys {A} (order : list string -> list string) (old_dict : dict A) (old_keys_to_new : dict string) : dict A :=
  let new_dict := fold_left (fun d on => match dget (fst on) old_dict with Some a => dset (snd on) a d | None => d end) old_keys_to_new [] in
  fold_left (fun d o => match dget o old_dict with Some a => dset o a d | None => d end)
    (order (filter (fun o => negb (dmem o old_keys_to_new)) (dkeys old_dict))) new_dict.

(** _legacy_restart.py 105-107: dims[-n:], with -0 = 0; zip; xarray's rename *)
Definition last_dims (n : nat) (dims : list string) : list string := match n with O => dims | _ => skipn (length dims - n) dims end.
Definition apply_dims (da : data_array) (new_dims : list string) : data_array :=
  let names := combine (last_dims (length new_dims) (da_dims da)) new_dims in
  mkDA (da_data da) (map (fun d => match dget d names with Some d' => d' | None => d end) (da_dims da)) (da_attrs da).

(** _legacy_restart.py 110-120 *)
Definition apply_restart_metadata (state : dict data_array) (properties : dict property) : dict data_array :=
  map (fun nd => match dget (fst nd) properties with
                 | Some p => let da := apply_dims (snd nd) (p_dims p) in
                             (fst nd, mkDA (da_data da) (da_dims da) (dset "units" (p_units p) (da_attrs da)))
                 | None => nd
                 end) state.

(** ** reading a file *)
Record dataset := mkDS { ds_vars : dict data_array; ds_time : option Z }.

(** isel(Time=0) for one variable *)
Definition isel_time (da : data_array) : res data_array :=
  do v <- v_index (v_whole (shp (da_data da))) (map (fun d => if String.eqb d "Time" then IInt 0 else IALL) (da_dims da));
  Ok (mkDA (v_read (da_data da) v) (filter (fun d => negb (String.eqb d "Time")) (da_dims da)) (da_attrs da)).
(** _legacy_restart.py 143, after opening: isel raises ValueError without a dimension Time, drop_vars without a variable Time *)
Definition select_time (ds : dataset) : res (dict data_array) :=
  match ds_time ds with
  | None => Err ValueError
  | Some n => if (n <? 1)%Z then Err IndexError
              else rmapM (fun nd => do da <- isel_time (snd nd); Ok (fst nd, da)) (ds_vars ds)
  end.

(** only_names: None, a collection, or an iterator, which "in" advances past the name found *)
Inductive names_arg := AllNames | Names (l : list string) | Iterator (l : list string).
Fixpoint after (name : string) (l : list string) : bool * list string :=
  match l with [] => (false, []) | n :: l' => if String.eqb name n then (true, l') else after name l' end.
Definition py_in (name : string) (a : names_arg) : bool * names_arg :=
  match a with
  | AllNames => (true, AllNames)
  | Names l => (sin name l, Names l)
  | Iterator l => let '(b, l') := after name l in (b, Iterator l')
  end.

(** _legacy_restart.py 148-152 *)
Fixpoint select_names (state : dict data_array) (only : names_arg) : dict data_array * names_arg :=
  match state with
  | [] => ([], only)
  | (name, da) :: state' =>
      if String.eqb name "time" || dmem "units" (da_attrs da) then
        let '(b, only) := py_in name only in
        let '(r, only) := select_names state' only in
        ((if b then (name, da) :: r else r), only)
      else select_names state' only
  end.

(** values of a loaded state: quantities, and a variable "time" as it is in the file *)
Inductive entry := EQuantity (q : quantity V) | EArray (da : data_array).
(** _legacy_restart.py 153-156 *)
Definition convert (name : string) (da : data_array) : res entry :=
  if String.eqb name "time" then Ok (EArray da) else do q <- from_data_array da; Ok (EQuantity q).

(** _legacy_restart.py 140-157; None as names_arg stands for the keys of the state *)
Definition load_partial_state (order : list string -> list string) (ds : dataset) (properties : dict property) (only : names_arg)
    : names_arg * res (dict entry) :=
  match select_time ds with
  | Err e => (only, Err e)
  | Ok vars =>
      let state := map_keys order vars (get_restart_standard_names properties) in
      let state := apply_restart_metadata state properties in
      let '(state, only) := select_names state only in
      (only, rmapM (fun nd => do e <- convert (fst nd) (snd nd); Ok (fst nd, e)) state)
  end.

(** ** files *)
Inductive token := TInt (z : Z) | TOther.
Inductive file := NetCDF (ds : dataset) | Text (lines : list (list token)).
Inductive node := Missing | Directory | File (f : file).

(** os.path.join (posix) *)
Definition ends_with_slash (s : string) : bool := match String.get (String.length s - 1) s with Some c => Ascii.eqb c "/" | None => false end.
Definition path_join (a b : string) : string :=
  match String.get 0 b with
  | Some c => if Ascii.eqb c "/" then b
              else if String.eqb a "" || ends_with_slash a then a ++ b else a ++ "/" ++ b
  | None => if String.eqb a "" || ends_with_slash a then a ++ b else a ++ "/" ++ b
  end.
(** _legacy_restart.py 133-137 *)
Definition prepend_label (filename label : string) : string := if String.eqb label "" then filename else label ++ "." ++ filename.

(** decimal representation of a natural number, python's str *)
Definition str_of_N (n : N) : string := DecimalString.NilZero.string_of_uint (N.to_uint n).
Definition str_of_Z (z : Z) : string := if (z <? 0)%Z then "-" ++ str_of_N (Z.to_N (- z)) else str_of_N (Z.to_N z).

(** _legacy_restart.py 14-16 *)
Definition RESTART_NAMES := ["fv_core.res"; "fv_srf_wnd.res"; "fv_tracer.res"].
Definition RESTART_OPTIONAL_NAMES := ["sfc_data"; "phy_data"].
Definition COUPLER_RES_NAME := "coupler.res".
(** _legacy_restart.py 66-67 *)
Definition coupler_res_filename (dirname label : string) : string := path_join dirname (prepend_label COUPLER_RES_NAME label).

Variable fs : string -> node.
Definition is_file (name : string) : bool := match fs name with File _ => true | _ => false end.
Definition exists_ (name : string) : bool := match fs name with Missing => false | _ => true end.
(** filesystem.open *)
Definition open_ (name : string) : res file := match fs name with File f => Ok f | _ => Err OSError end.

(** _legacy_restart.py 76-87 *)
Definition restart_filename (dirname : string) (tile_index : Z) (label name : string) : string :=
  path_join dirname (prepend_label name label ++ (".tile" ++ str_of_Z (tile_index + 1) ++ ".nc")).
Definition restart_filenames (dirname : string) (tile_index : Z) (label : string) : list string :=
  flat_map (fun name => let filename := restart_filename dirname tile_index label name in
                        if sin name RESTART_NAMES || is_file filename || exists_ filename then [filename] else [])
    (RESTART_NAMES ++ RESTART_OPTIONAL_NAMES).

(** io.py 58-60 *)
Definition integer_tokens (line : list token) (n : nat) : res (list Z) :=
  rmapM (fun t => match t with TInt z => Ok z | TOther => Err ValueError end) (firstn n line).
(** time.py 9-18 *)
Definition FMS_CALENDARS : list Z := [1; 2; 3; 4]%Z.
(** io.py 63-67; reading past the end of the file gives empty lines *)
Definition current_date_from_coupler_res (lines : list (list token)) : res Date :=
  do cal <- integer_tokens (nth 0 lines []) 1;
  match cal with
  | [calendar] =>
      do date <- integer_tokens (nth 2 lines []) 6;
      match date with
      | [_; _; _; _; _; _] => if existsb (Z.eqb calendar) FMS_CALENDARS then cftime calendar date else Err KeyError
      | _ => Err ValueError
      end
  | _ => Err ValueError
  end.

(** opening something which is no netCDF file as one raises ValueError in xarray, reading a netCDF file as text a UnicodeDecodeError,
    also a ValueError *)
Definition open_dataset (name : string) : res dataset := do f <- open_ name; match f with NetCDF ds => Ok ds | Text _ => Err ValueError end.
Definition open_text (name : string) : res (list (list token)) := do f <- open_ name; match f with Text l => Ok l | NetCDF _ => Err ValueError end.

(** _legacy_restart.py 48-53 *)
Fixpoint load_files (order : list string -> list string) (filenames : list string) (properties : dict property) (only : names_arg) (state : dict entry)
    : names_arg * res (dict entry) :=
  match filenames with
  | [] => (only, Ok state)
  | name :: filenames' =>
      match open_dataset name with
      | Err e => (only, Err e)
      | Ok ds => match load_partial_state order ds properties only with
                 | (only, Err e) => (only, Err e)
                 | (only, Ok part) => load_files order filenames' properties only (dupdate state part)
                 end
      end
  end.

(** what is found under "time": the date of coupler.res or a variable of a file *)
Inductive time_value := TDate (d : Date) | TArray (da : data_array).

(** a loaded dictionary as a state *)
Definition quantities_of (d : dict entry) : dict (quantity V) := flat_map (fun ne => match snd ne with EQuantity q => [(fst ne, q)] | EArray _ => [] end) d.
Definition array_time (d : dict entry) : option time_value := match dget "time" d with Some (EArray da) => Some (TArray da) | _ => None end.

(** _legacy_restart.py 46-58, on the root of a tile *)
Definition load_tile (order : list string -> list string) (dirname label : string) (tile_index : Z) (properties : dict property) (only : names_arg)
    : res (state V time_value) :=
  match load_files order (restart_filenames dirname tile_index label) properties only [] with
  | (_, Err e) => Err e
  | (only, Ok d) =>
      let coupler := coupler_res_filename dirname label in
      if is_file coupler && fst (py_in "time" only) then
        do lines <- open_text coupler;
        do date <- current_date_from_coupler_res lines;
        Ok (mkSt (quantities_of d) (Some (TDate date)))
      else Ok (mkSt (quantities_of d) (array_time d))
  end.

(** _legacy_restart.py 40-43: {**tracer_properties, **RESTART_PROPERTIES} *)
Definition merged_properties (tracer_properties : option (dict property)) : dict property :=
  match tracer_properties with None => RESTART_PROPERTIES | Some t => dupdate t RESTART_PROPERTIES end.

(** _legacy_restart.py 19-63; [tile_rank] is the rank in the communicator of the tile *)
Definition open_restart (order : list string -> list string) (dirname : string) (layout : layout_t) (rank tile_rank : Z) (label : string) (only : names_arg)
    (junk : string -> nat -> idx -> V) (to_state : option (state V time_value)) (tracer_properties : option (dict property))
    : program V time_value (state V time_value) :=
  let properties := merged_properties tracer_properties in
  pbind (plift (tile_index layout rank)) (fun tile_index =>
  pbind (plift (if (tile_rank =? ROOT_RANK)%Z then load_tile order dirname label tile_index properties only else Ok (mkSt [] None))) (fun st =>
  scatter_state V time_value (TilePart layout) tile_rank junk (Some st) to_state)).

(** _legacy_restart.py 90-102; {count:04} pads with zeros on the left *)
Definition pad4 (s : string) : string :=
  match String.length s with 1%nat => "000" ++ s | 2%nat => "00" ++ s | 3%nat => "0" ++ s | _ => s end.
Definition get_rank_suffix (rank total_ranks : Z) : res string :=
  if negb (total_ranks mod 6 =? 0)%Z then Err ValueError
  else
    let ranks_per_tile := (total_ranks / 6)%Z in
    do ti <- get_tile_index rank total_ranks;
    let tile := (ti + 1)%Z in
    let count := (rank mod ranks_per_tile)%Z in
    Ok (if (6 <? total_ranks)%Z then ".tile" ++ str_of_Z tile ++ ".nc." ++ pad4 (str_of_Z count) else ".tile" ++ str_of_Z tile ++ ".nc").
End Restart.
Arguments mkDA {V}. Arguments da_data {V}. Arguments da_dims {V}. Arguments da_attrs {V}.
Arguments EQuantity {V}. Arguments EArray {V}. Arguments mkDS {V}. Arguments ds_vars {V}. Arguments ds_time {V}.
Arguments NetCDF {V}. Arguments Text {V}. Arguments Missing {V}. Arguments Directory {V}. Arguments File {V}.
Arguments TDate {V Date}. Arguments TArray {V Date}.
