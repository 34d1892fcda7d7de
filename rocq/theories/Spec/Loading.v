(** What loading restart files should give. *)
From Verif.Base Require Import Base.
From Verif.Model Require Import Consts Numpy Quantity Properties Restart.
From Verif.Spec Require Import Grid Views.
Local Open Scope string_scope.

(** the name under which the value named [o] is kept *)
Definition stored_under (names : dict string) (o k : string) : Prop := match dget o names with Some n => k = n | None => k = o end.
(** no two values are to be kept under one name *)
Definition no_collision (names : dict string) (present : list string) : Prop :=
  forall o1 o2 k, In o1 present -> In o2 present -> stored_under names o1 k -> stored_under names o2 k -> o1 = o2.

(** the last of the names present which is renamed to [k] *)
Definition last_named (names : dict string) (present : list string) (k : string) : option string :=
  option_map fst (find (fun on => String.eqb (snd on) k && sin (fst on) present) (rev names)).

(** is the name asked for? *)
Definition requested (only : names_arg) (k : string) : Prop := match only with AllNames => True | Names l => In k l | Iterator _ => False end.
(** None, or a collection that can be searched again and again *)
Definition reusable (only : names_arg) : Prop := match only with Iterator _ => False | _ => True end.

(** dimensions named anew from the end; if there are more new names than dimensions, from the start *)
Definition renamed (dims new : list string) : list string :=
  match new with
  | [] => dims
  | _ => if Nat.leb (length new) (length dims) then (firstn (length dims - length new) dims ++ new)%list else firstn (length dims) new
  end.

Section Loading.
Context {V : Type}.
Definition without_time (dims : list string) : list string := filter (fun d => negb (String.eqb d "Time")) dims.
(** index 0 along Time, everything along the other dimensions *)
Definition time_picks (da : data_array V) : list pick := map2 (fun d n => if String.eqb d "Time" then Point 0 else Span 0 n) (da_dims da) (shp (da_data da)).
Definition first_time (da : data_array V) (a : arr V) : Prop :=
  shp a = pick_shape (time_picks da) /\ forall p, in_shape (shp a) p -> at_ a p = at_ (da_data da) (pick_place (time_picks da) p).
(** a variable of a file *)
Definition sound (da : data_array V) : Prop := NoDup (da_dims da) /\ Forall2 (fun d n => 0 <= n /\ (d = "Time" -> 1 <= n))%Z (da_dims da) (shp (da_data da)).

(** dims and units a variable gets under the name [k] *)
Definition dims_under (props : dict property) (k : string) (da : data_array V) : list string :=
  match dget k props with Some p => renamed (without_time (da_dims da)) (p_dims p) | None => without_time (da_dims da) end.
Definition units_under (props : dict property) (k : string) (da : data_array V) : option string :=
  match dget k props with Some p => Some (p_units p) | None => dget "units" (da_attrs da) end.

(** what is loaded from the variable [da] under the name [k]; "time" stays a data array *)
Definition loaded_as (props : dict property) (k : string) (da : data_array V) (e : entry V) : Prop :=
  exists a, first_time da a /\
    if String.eqb k "time" then exists attrs, e = EArray (mkDA a (dims_under props k da) attrs) /\ dget "units" attrs = units_under props k da
    else exists u, units_under props k da = Some u /\
      e = EQuantity (mkQ a (dims_under props k da) u (map (fun _ => 0%Z) (dims_under props k da)) (shp a)).

(** the file [name] can be read and [part] is what is loaded from it *)
Definition gives (fs : string -> node V) (order : list string -> list string) (props : dict property) (only : names_arg) (name : string) (part : dict (entry V)) : Prop :=
  NoDup (dkeys part) /\ exists ds, fs name = File (NetCDF ds) /\ load_partial_state V order ds props only = (only, Ok part).

(** the entry of the last of several dictionaries which has one *)
Definition last_loaded {A} (parts : list (dict A)) (k : string) : option A :=
  fold_left (fun acc d => match dget k d with Some e => Some e | None => acc end) parts None.
End Loading.
