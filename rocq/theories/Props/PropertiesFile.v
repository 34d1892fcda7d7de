(** C91: the table of restart properties in the code and the file of properties shipped beside it. *)
From Verif.Base Require Import Base.
From Verif.Model Require Import Consts Properties Restart.
From Verif.Spec Require Import PropertiesFile.
From Verif.Proofs Require Import PropertiesFileProofs.
Local Open Scope string_scope.

(** the table has the entries of the file, in its order, with its dimensions, restart names and units *)
Theorem C91_same : map (fun np => (fst np, (p_dims (snd np), p_restart (snd np), p_units (snd np)))) RESTART_PROPERTIES = properties_file.
Proof. exact table_is_file. Qed.
Print Assumptions C91_same.

(** so looking up any name, known or not, gives what the file says *)
Theorem C91_lookup : forall n, option_map (fun p => (p_dims p, p_restart p, p_units p)) (dget n RESTART_PROPERTIES) =
  option_map snd (find (fun e => String.eqb (fst e) n) properties_file).
Proof. exact lookup_is_file. Qed.
Print Assumptions C91_lookup.
Example C91_known : option_map (fun p => (p_dims p, p_restart p, p_units p)) (dget "x_wind" RESTART_PROPERTIES) = Some (["z"; "y_interface"; "x"], "u", "m/s") /\
  dget "wind" RESTART_PROPERTIES = None.
Proof. split; reflexivity. Qed.

(** and the standard name which loading gives to a restart name is that of the last entry of the file having it *)
Theorem C91_standard_names : forall r, dget r (get_restart_standard_names RESTART_PROPERTIES) =
  option_map fst (find (fun e => String.eqb (snd (fst (snd e))) r) (rev properties_file)).
Proof. exact standard_names_of_file. Qed.
Print Assumptions C91_standard_names.
Example C91_standard : dget "phis" (get_restart_standard_names RESTART_PROPERTIES) = Some "surface_geopotential".
Proof. reflexivity. Qed.

(** no entry has a dimension twice, or one which the package does not know *)
Theorem C91_dims : forall n ds r u, In (n, (ds, r, u)) properties_file ->
  NoDup ds /\ incl ds ["x"; "x_interface"; "y"; "y_interface"; "z"; "z_interface"; "z_soil"].
Proof. exact file_dims. Qed.
Print Assumptions C91_dims.
Example C91_dims_case : In ("x_wind", (["z"; "y_interface"; "x"], "u", "m/s")) properties_file.
Proof. vm_compute. repeat (first [left; reflexivity | right]). Qed.
