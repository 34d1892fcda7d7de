(** The table of the code against the file of properties. *)
From Verif.Base Require Import Base.
From Verif.Model Require Import Consts Properties Restart.
From Verif.Spec Require Import PropertiesFile.
From Verif.Proofs Require RestartProofs OpenRestartProofs.

Lemma table_is_file : map (fun np => (fst np, (p_dims (snd np), p_restart (snd np), p_units (snd np)))) RESTART_PROPERTIES = properties_file.
Proof. reflexivity. Qed.

Lemma lookup_is_file : forall n, option_map (fun p => (p_dims p, p_restart p, p_units p)) (dget n RESTART_PROPERTIES) =
  option_map snd (find (fun e => String.eqb (fst e) n) properties_file).
Proof.
  rewrite <- table_is_file. intros n. induction RESTART_PROPERTIES as [|[k p] d IH]; [reflexivity|].
  cbn [dget map find fst snd]. rewrite (String.eqb_sym k n). destruct (String.eqb n k); [reflexivity|exact IH].
Qed.

(** a table with the same last entry for each restart name gives the same standard names *)
Lemma standard_names_of_file : forall r, dget r (get_restart_standard_names RESTART_PROPERTIES) =
  option_map fst (find (fun e => String.eqb (snd (fst (snd e))) r) (rev properties_file)).
Proof.
  intros r. rewrite OpenRestartProofs.standard_name_last, <- table_is_file, <- map_rev. induction (rev RESTART_PROPERTIES) as [|[k p] d IH]; [reflexivity|].
  cbn [map find fst snd]. destruct (String.eqb (p_restart p) r); [reflexivity|exact IH].
Qed.

Lemma file_dims : forall n ds r u, In (n, (ds, r, u)) properties_file -> NoDup ds /\ incl ds ["x"; "x_interface"; "y"; "y_interface"; "z"; "z_interface"; "z_soil"]%string.
Proof.
  assert (H : forallb (fun e => let ds := fst (fst (snd e)) in if list_eq_dec string_dec (nodup string_dec ds) ds then forallb (fun d => if in_dec string_dec d ["x"; "x_interface"; "y"; "y_interface"; "z"; "z_interface"; "z_soil"]%string then true else false) ds else false) properties_file = true) by (vm_compute; reflexivity).
  intros n ds r u I. rewrite forallb_forall in H. specialize (H _ I). cbn [fst snd] in H. destruct (list_eq_dec string_dec (nodup string_dec ds) ds) as [N|]; [|discriminate].
  split; [rewrite <- N; apply NoDup_nodup|]. intros d D. rewrite forallb_forall in H. specialize (H d D). destruct (in_dec string_dec d _) as [Q|]; [exact Q|discriminate].
Qed.
