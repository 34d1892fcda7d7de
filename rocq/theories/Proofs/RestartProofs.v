From Coq Require Import Permutation.
From Verif.Base Require Import Base Lemmas.
From Verif.Model Require Import Consts Partitioner Numpy Quantity Collective ScatterGather Sizer Properties Restart.
From Verif.Spec Require Import Grid Views Loading.
From Verif.Proofs Require Import NumpyProofs NudgeProofs CornerProofs RotationProofs.
Local Open Scope string_scope.

Lemma sin_In s l : sin s l = true <-> In s l.
Proof.
  unfold sin. rewrite existsb_exists. split.
  - intros (x & I & E). apply String.eqb_eq in E. now subst.
  - intros I. exists s. split; auto. apply String.eqb_refl.
Qed.
Lemma dmem_In {A} k (d : dict A) : dmem k d = true <-> In k (dkeys d).
Proof.
  unfold dmem. destruct (dget k d) eqn:E; split; try easy.
  - intros _. apply dget_In in E. unfold dkeys. now apply (in_map fst) in E.
  - intros I. apply dget_None in E. tauto.
Qed.
Lemma dmem_sin {A} k (d : dict A) : dmem k d = sin k (dkeys d).
Proof. apply eq_true_iff_eq. now rewrite dmem_In, sin_In. Qed.
Lemma dget_some_in {A} k (d : dict A) : (exists a, dget k d = Some a) <-> In k (dkeys d).
Proof. rewrite <- dmem_In. unfold dmem. destruct (dget k d); split; eauto; try easy. intros (a & E). discriminate. Qed.

(** ** map_keys *)
Section Keys.
Context {A : Type}.
Implicit Types old : dict A.

Lemma find_app {B} (f : B -> bool) l l' : find f (l ++ l') = match find f l with Some b => Some b | None => find f l' end.
Proof. induction l as [|b l IH]; auto. cbn. destruct (f b); auto. Qed.

Lemma named_fold old names : forall d k, dget k (fold_left (fun d on => match dget (fst on) old with Some a => dset (snd on) a d | None => d end) names d) =
  match last_named names (dkeys old) k with Some o => dget o old | None => dget k d end.
Proof.
  unfold last_named. induction names as [|[o n] names IH]; intros d k; auto. cbn [fold_left fst snd rev]. rewrite IH, find_app.
  destruct (find _ (rev names)) as [on|]; auto. cbn [find fst snd]. rewrite <- dmem_sin. unfold dmem.
  destruct (dget o old) as [a|] eqn:E.
  - rewrite dget_dset, String.eqb_sym. destruct (String.eqb n k); cbn [andb option_map fst]; auto.
  - rewrite andb_false_r. reflexivity.
Qed.

Lemma kept_fold old os : forall d k, dget k (fold_left (fun d o => match dget o old with Some a => dset o a d | None => d end) os d) =
  if sin k os then match dget k old with Some a => Some a | None => dget k d end else dget k d.
Proof.
  induction os as [|o os IH]; intros d k; auto. cbn [fold_left sin existsb]. rewrite IH. unfold sin in *.
  destruct (String.eqb_spec k o) as [<-|N]; cbn [orb].
  - destruct (dget k old) as [a|] eqn:E; [|destruct (existsb _ os); auto]. rewrite dget_dset, String.eqb_refl. destruct (existsb _ os); auto.
  - destruct (dget o old) as [a|]; auto. rewrite dget_dset. destruct (String.eqb_spec k o); [contradiction|]. auto.
Qed.

Lemma map_keys_get order old names k : (forall l, Permutation (order l) l) ->
  dget k (map_keys order old names) =
    if sin k (dkeys old) && negb (sin k (dkeys names)) then dget k old
    else match last_named names (dkeys old) k with Some o => dget o old | None => None end.
Proof.
  intros P. unfold map_keys. rewrite kept_fold, named_fold. cbn [dget].
  set (os := order _). assert (E : sin k os = sin k (dkeys old) && negb (sin k (dkeys names))).
  { apply eq_true_iff_eq. rewrite sin_In. unfold os. split.
    - intros I. apply (Permutation_in _ (P _)) in I. apply filter_In in I. destruct I as (I & N). apply sin_In in I. rewrite I. now rewrite dmem_sin in N.
    - intros H. apply andb_prop in H. destruct H as (H & N). apply (Permutation_in _ (Permutation_sym (P _))). apply filter_In. rewrite <- sin_In, dmem_sin. auto. }
  rewrite E. destruct (sin k (dkeys old)) eqn:I; cbn [andb]; auto. destruct (negb _); auto.
  apply sin_In, dget_some_in in I. destruct I as (a & ->). reflexivity.
Qed.

Lemma last_named_In names present k o : last_named names present k = Some o -> In (o, k) names /\ In o present.
Proof.
  unfold last_named. destruct (find _ _) as [on|] eqn:F; [|discriminate]. apply find_some in F. destruct F as (I & F). apply andb_prop in F. destruct F as (F1 & F2).
  apply String.eqb_eq in F1. apply sin_In in F2. cbn. intros X. injection X as <-. rewrite <- in_rev in I. destruct on; cbn in *. subst. auto.
Qed.
Lemma last_named_None names present k : last_named names present k = None -> forall o, In (o, k) names -> ~ In o present.
Proof.
  unfold last_named. destruct (find _ _) as [on|] eqn:F; [discriminate|]. intros _ o I J. rewrite in_rev in I. pose proof (find_none _ _ F _ I) as X. cbn in X.
  rewrite String.eqb_refl in X. cbn in X. apply sin_In in J. congruence.
Qed.

Lemma names_get (names : dict string) o n : NoDup (dkeys names) -> In (o, n) names -> dget o names = Some n.
Proof. intros N I. now apply dget_NoDup. Qed.

Theorem map_keys_lossless order old names : (forall l, Permutation (order l) l) -> NoDup (dkeys names) -> no_collision names (dkeys old) ->
  forall k v, dget k (map_keys order old names) = Some v <-> exists o, dget o old = Some v /\ stored_under names o k.
Proof.
  intros P N C k v. rewrite map_keys_get by auto. split.
  - destruct (sin k (dkeys old) && negb (sin k (dkeys names))) eqn:B.
    + intros E. exists k. split; auto. unfold stored_under. apply andb_prop in B. destruct B as (_ & B). apply negb_true_iff in B.
      destruct (dget k names) eqn:D; auto. assert (I : In k (dkeys names)) by (apply dget_some_in; eauto). apply sin_In in I. congruence.
    + destruct (last_named names (dkeys old) k) as [o|] eqn:L; [|discriminate]. intros E. exists o. split; auto.
      apply last_named_In in L. destruct L as (I & _). unfold stored_under. now rewrite (names_get _ _ _ N I).
  - intros (o & E & S). assert (Io : In o (dkeys old)) by (apply dget_some_in; eauto).
    destruct (sin k (dkeys old) && negb (sin k (dkeys names))) eqn:B.
    + apply andb_prop in B. destruct B as (B1 & B2). apply sin_In in B1. apply negb_true_iff in B2.
      assert (D : dget k names = None). { destruct (dget k names) eqn:D; auto. assert (I : In k (dkeys names)) by (apply dget_some_in; eauto). apply sin_In in I. congruence. }
      assert (o = k) as <-; auto. apply (C o k k); auto. unfold stored_under. now rewrite D.
    + destruct (last_named names (dkeys old) k) as [o'|] eqn:L.
      * apply last_named_In in L. destruct L as (I & J). assert (o = o') as <-; auto. apply (C o o' k); auto. unfold stored_under. now rewrite (names_get _ _ _ N I).
      * exfalso. unfold stored_under in S. destruct (dget o names) as [n|] eqn:D.
        -- subst n. apply dget_In in D. exact (last_named_None _ _ _ L _ D Io).
        -- subst k. apply sin_In in Io. rewrite Io in B. cbn in B. apply negb_false_iff, sin_In, dget_some_in in B. destruct B. congruence.
Qed.

Lemma NoDup_named old names : forall d : dict A, NoDup (dkeys d) -> NoDup (dkeys (fold_left (fun d on => match dget (fst on) old with Some a => dset (snd on) a d | None => d end) names d)).
Proof. induction names as [|[o n] names IH]; intros d N; auto. cbn. apply IH. destruct (dget o old); auto. now apply NoDup_dset. Qed.
Lemma NoDup_kept old os : forall d : dict A, NoDup (dkeys d) -> NoDup (dkeys (fold_left (fun d o => match dget o old with Some a => dset o a d | None => d end) os d)).
Proof. induction os as [|o os IH]; intros d N; auto. cbn. apply IH. destruct (dget o old); auto. now apply NoDup_dset. Qed.
Lemma map_keys_NoDup order old names : NoDup (dkeys (map_keys order old names)).
Proof. unfold map_keys. apply NoDup_kept, NoDup_named. constructor. Qed.
End Keys.

Lemma dset_keys_NoDup {A B} (f : A -> string) (g : A -> B) l : forall d, NoDup (dkeys d) -> NoDup (dkeys (fold_left (fun d a => dset (f a) (g a) d) l d)).
Proof. induction l as [|a l IH]; intros d N; auto. cbn. apply IH. now apply NoDup_dset. Qed.
Lemma standard_names_NoDup props : NoDup (dkeys (get_restart_standard_names props)).
Proof. unfold get_restart_standard_names. apply (dset_keys_NoDup (fun np : string * property => p_restart (snd np)) fst). constructor. Qed.

(** the standard name found for a restart name is that of the last entry with it *)
Lemma standard_names_get (props : dict property) r : forall d : dict string, dget r (fold_left (fun d np => dset (p_restart (snd np)) (fst np) d) props d) =
  match find (fun np => String.eqb (p_restart (snd np)) r) (rev props) with Some np => Some (fst np) | None => dget r d end.
Proof.
  induction props as [|[n p] props IH]; intros d; auto. cbn [fold_left fst snd rev]. rewrite IH, find_app. destruct (find _ (rev props)); auto.
  cbn [find snd]. rewrite dget_dset, String.eqb_sym. destruct (String.eqb (p_restart p) r); auto.
Qed.

(** ** dictionaries mapped and filtered *)
Section Dicts.
Context {A B : Type}.
Definition mapped (f : string -> A -> res B) (d : dict A) : res (dict B) := rmapM (fun nd => do b <- f (fst nd) (snd nd); Ok (fst nd, b)) d.
Lemma mapped_ok f : forall d, (forall k a, In (k, a) d -> exists b, f k a = Ok b) -> exists d', mapped f d = Ok d'.
Proof.
  induction d as [|[k a] d IH]; intros H; [now eexists|]. destruct (H k a) as (b & E); [now left|]. destruct IH as (d' & E'); [intros; apply H; now right|].
  unfold mapped in *. cbn [rmapM fst snd]. rewrite E. cbn [bind]. rewrite E'. cbn. eauto.
Qed.
Lemma mapped_get f : forall d d', mapped f d = Ok d' -> dkeys d' = dkeys d /\
  forall k, match dget k d with Some a => exists b, f k a = Ok b /\ dget k d' = Some b | None => dget k d' = None end.
Proof.
  unfold mapped. induction d as [|[k a] d IH]; intros d' E; cbn [rmapM fst snd] in E.
  - injection E as <-. split; [reflexivity|intros k; reflexivity].
  - destruct (f k a) as [b|] eqn:F; [|discriminate]. cbn [bind] in E. destruct (rmapM _ d) as [d1|]; [|discriminate]. cbn [bind] in E. injection E as <-.
    destruct (IH _ eq_refl) as (K & G). split; [cbn; now f_equal|]. intros k'. cbn [dget]. destruct (String.eqb_spec k' k) as [->|N]; [eauto|]. apply G.
Qed.
End Dicts.
Lemma dget_filter {A} (g : string * A -> bool) (d : dict A) k : NoDup (dkeys d) ->
  dget k (filter g d) = match dget k d with Some a => if g (k, a) then Some a else None | None => None end.
Proof.
  induction d as [|[k' a] d IH]; intros N; auto. cbn in N. inversion_clear N as [|? ? N1 N2]. cbn [filter dget]. destruct (String.eqb_spec k k') as [->|D].
  - destruct (g (k', a)); cbn [dget]; [now rewrite String.eqb_refl|]. rewrite IH by auto. destruct (dget k' d) eqn:E; auto. exfalso. apply N1. apply dget_some_in. eauto.
  - destruct (g (k', a)); cbn [dget]; [|now apply IH]. destruct (String.eqb_spec k k'); [contradiction|]. now apply IH.
Qed.
Lemma NoDup_filter_keys {A} (g : string * A -> bool) (d : dict A) : NoDup (dkeys d) -> NoDup (dkeys (filter g d)).
Proof.
  induction d as [|[k a] d IH]; intros N; auto. cbn in N. inversion_clear N as [|? ? N1 N2]. cbn [filter]. destruct (g (k, a)); auto. cbn. constructor; auto.
  intros I. apply N1. unfold dkeys in *. apply in_map_iff in I. destruct I as (x & E & I). apply filter_In in I. apply in_map_iff. exists x. tauto.
Qed.

Section Load.
Context {V : Type}.
Implicit Types da : data_array V.

(** ** one variable *)

Lemma isel_index dims : forall s, Forall2 (fun d n => 0 <= n /\ (d = "Time" -> 1 <= n))%Z dims s ->
  let ks := map2 (fun d n => if String.eqb d "Time" then Point 0 else Span 0 n) dims s in
  exists f, index_apply (map (fun d => if String.eqb d "Time" then IInt 0 else IALL) dims) s = Ok (pick_shape ks, f) /\
    forall p, in_shape (pick_shape ks) p -> f p = pick_place ks p.
Proof.
  induction dims as [|d dims IH]; intros s F; inversion_clear F as [|? n ? s0 (H1 & H2) F']; cbn zeta.
  - exists (fun p => p). split; [reflexivity|]. intros p P. inversion P. reflexivity.
  - destruct (IH _ F') as (f & E & G). cbn [map map2 index_apply]. destruct (String.eqb_spec d "Time") as [T|T].
    + replace ((- n <=? 0) && (0 <? n))%Z with true by (specialize (H2 T); lia). rewrite E. cbn [bind]. eexists. split; [reflexivity|].
      intros p P. cbn. f_equal. now apply G.
    + unfold IALL in E |- *. rewrite slice_all by auto. cbn [bind]. rewrite E. cbn [bind pick_shape]. rewrite Z.sub_0_r. eexists. split; [reflexivity|].
      intros p P. inversion P; subst. cbn [pick_place hd tl]. rewrite G by auto. f_equal. lia.
Qed.

Lemma isel_time_ok da : sound da -> exists a, isel_time V da = Ok (mkDA a (without_time (da_dims da)) (da_attrs da)) /\ first_time da a.
Proof.
  intros (_ & F). destruct (isel_index _ _ F) as (f & E & G). unfold isel_time, v_index, v_whole. cbn [vshp vmap]. rewrite E. cbn [bind].
  eexists. split; [reflexivity|]. split; [reflexivity|]. cbn [shp at_ v_read vshp vmap]. intros p P. now rewrite G.
Qed.

Lemma without_time_length dims : forall s, length dims = length s ->
  length (without_time dims) = length (pick_shape (map2 (fun d n => if String.eqb d "Time" then Point 0 else Span 0 n) dims s)).
Proof.
  induction dims as [|d dims IH]; intros [|n s] L; try discriminate; auto. cbn. injection L as L. destruct (String.eqb d "Time"); cbn; auto.
Qed.
Lemma without_time_NoDup dims : NoDup dims -> NoDup (without_time dims).
Proof. apply NoDup_filter. Qed.

(** ** names of dimensions *)
Lemma renames_app l : forall old new, NoDup (l ++ old) -> length old = length new ->
  map (fun d => match dget d (combine old new) with Some d' => d' | None => d end) (l ++ old) = (l ++ new)%list.
Proof.
  intros old new N L. rewrite map_app. f_equal.
  - transitivity (map (fun d : string => d) l); [|apply map_id]. apply map_ext_in. intros d I. destruct (dget d _) as [d'|] eqn:E; auto.
    exfalso. apply dget_In in E. apply in_combine_l in E. clear - N I E. induction l as [|x l IH]; [easy|]. cbn in N. inversion_clear N as [|? ? N1 N2].
    destruct I as [->|I]; auto. apply N1. apply in_or_app. now right.
  - assert (N' : NoDup old). { clear - N. induction l as [|x l IH]; auto. cbn in N. inversion_clear N. auto. }
    clear N l. revert new L. induction old as [|o old IH]; intros [|n new] L; try discriminate; auto. inversion_clear N' as [|? ? N1 N2]. cbn [map combine dget].
    rewrite String.eqb_refl. f_equal. injection L as L. etransitivity; [|exact (IH N2 new L)]. apply map_ext_in. intros d I. destruct (String.eqb_spec d o) as [->|]; [contradiction|]. reflexivity.
Qed.
Lemma combine_short {A B} (l : list A) : forall l' : list B, combine l l' = combine l (firstn (length l) l').
Proof. induction l as [|a l IH]; intros [|b l']; auto. cbn. now f_equal. Qed.
Lemma apply_dims_ok da new : NoDup (da_dims da) -> da_dims (apply_dims V da new) = renamed (da_dims da) new.
Proof.
  intros N. unfold apply_dims. cbn [da_dims]. set (dims := da_dims da) in *. clearbody dims. unfold renamed. destruct new as [|n new].
  - destruct (last_dims _ dims); cbn; transitivity (map (fun d : string => d) dims); auto using map_id.
  - cbn [last_dims]. change (length (n :: new)) with (S (length new)). cbn [last_dims]. set (k := S (length new)) in *. destruct (Nat.leb_spec k (length dims)) as [H|H].
    + rewrite <- (renames_app (firstn (length dims - k) dims) (skipn (length dims - k) dims) (n :: new)); [now rewrite firstn_skipn|now rewrite firstn_skipn|].
      rewrite skipn_length. unfold k in *. cbn [length]. lia.
    + replace (length dims - k)%nat with 0%nat by lia. rewrite skipn_O, combine_short. 
      apply (renames_app []); auto. rewrite firstn_length. unfold k in *. cbn [length]. lia.
Qed.
Lemma renamed_length dims new : length (renamed dims new) = length dims.
Proof.
  unfold renamed. destruct new as [|n new]; auto. destruct (Nat.leb_spec (length (n :: new)) (length dims)) as [H|H].
  - rewrite app_length, firstn_length. lia.
  - rewrite firstn_length. lia.
Qed.

(** metadata of one variable *)
Definition with_metadata (props : dict property) (k : string) da : data_array V :=
  match dget k props with
  | Some p => let da' := apply_dims V da (p_dims p) in mkDA (da_data da') (da_dims da') (dset "units" (p_units p) (da_attrs da'))
  | None => da
  end.
Lemma metadata_get props st k : dget k (apply_restart_metadata V st props) = option_map (with_metadata props k) (dget k st) /\ dkeys (apply_restart_metadata V st props) = dkeys st.
Proof.
  unfold apply_restart_metadata. induction st as [|[k' da] st (IH & K)]; auto. cbn [map fst snd]. split.
  - unfold with_metadata. destruct (dget k' props) as [p|] eqn:E; cbn [dget]; (destruct (String.eqb_spec k k') as [->|]; [cbn [option_map]; now rewrite E|apply IH]).
  - unfold dkeys in *. cbn [map fst]. f_equal; auto. now destruct (dget k' props).
Qed.

(** ** choosing *)
Definition wanted (only : names_arg) (nd : string * data_array V) : bool :=
  (String.eqb (fst nd) "time" || dmem "units" (da_attrs (snd nd))) && match only with AllNames => true | Names l => sin (fst nd) l | Iterator _ => false end.
Lemma select_names_filter only : reusable only -> forall st, select_names V st only = (filter (wanted only) st, only).
Proof.
  intros R st. induction st as [|[k da] st IH]; auto. cbn [select_names filter]. unfold wanted at 1. cbn [fst snd]. destruct (_ || _); cbn [andb]; [|exact IH].
  destruct only as [|l|l]; cbn [py_in]; [..|destruct R]; rewrite IH; auto.
Qed.
Lemma wanted_spec only k da : wanted only (k, da) = true -> (k = "time" \/ dmem "units" (da_attrs da) = true) /\ requested only k.
Proof.
  unfold wanted. cbn [fst snd]. intros H. apply andb_prop in H. destruct H as (H1 & H2). apply orb_prop in H1. split.
  - destruct H1 as [H1|H1]; auto. apply String.eqb_eq in H1. auto.
  - destruct only as [|l|l]; cbn; auto; [now apply sin_In|discriminate].
Qed.
Lemma wanted_yes only k da : reusable only -> (k = "time" \/ dmem "units" (da_attrs da) = true) -> requested only k -> wanted only (k, da) = true.
Proof.
  unfold wanted. cbn [fst snd]. intros R H1 H2. apply andb_true_intro. split.
  - destruct H1 as [->| ->]; [reflexivity|apply orb_true_r].
  - destruct only as [|l|l]; cbn in *; auto. now apply sin_In.
Qed.

Lemma metadata_loaded props k da a : sound da -> first_time da a ->
  let da' := with_metadata props k (mkDA a (without_time (da_dims da)) (da_attrs da)) in
  dget "units" (da_attrs da') = units_under props k da /\
  ((k = "time" \/ units_under props k da <> None) -> exists e, convert V k da' = Ok e /\ loaded_as props k da e).
Proof.
  intros (N & F) FT. cbn zeta. set (da1 := mkDA a (without_time (da_dims da)) (da_attrs da)).
  assert (D : da_dims (with_metadata props k da1) = dims_under props k da /\ da_data (with_metadata props k da1) = a /\ dget "units" (da_attrs (with_metadata props k da1)) = units_under props k da).
  { unfold with_metadata, dims_under, units_under. destruct (dget k props) as [p|]; cbn zeta; cbn [da_dims da_data da_attrs]; auto. split; [|split; auto].
    - rewrite apply_dims_ok; auto. now apply without_time_NoDup.
    - now rewrite dget_dset. }
  destruct D as (D1 & D2 & D3). split; auto. intros H. unfold convert. destruct (String.eqb_spec k "time") as [T|T].
  - eexists. split; [reflexivity|]. exists a. split; auto. apply String.eqb_eq in T. rewrite T. exists (da_attrs (with_metadata props k da1)). split; auto. rewrite <- D1, <- D2 at 1. now destruct (with_metadata _ _ _).
  - destruct H as [H|H]; [contradiction|]. unfold from_data_array. rewrite D3. destruct (units_under props k da) as [u|] eqn:U; [|contradiction]. rewrite D1, D2.
    assert (L : length (dims_under props k da) = length (shp a)).
    { destruct FT as (-> & _). unfold time_picks. rewrite <- without_time_length by (now apply Forall2_length in F).
      unfold dims_under. destruct (dget k props); auto. apply renamed_length. }
    cbn [new_quantity shp bind]. rewrite sub_zeros by auto. unfold validate_lengths. rewrite map_length, L, Nat.eqb_refl. cbn [negb bind].
    eexists. split; [reflexivity|]. exists a. split; auto. apply String.eqb_neq in T. rewrite T. exists u. auto.
Qed.

Theorem load_partial order (ds : dataset V) props only n : (forall l, Permutation (order l) l) -> ds_time ds = Some n -> (1 <= n)%Z ->
  (forall o da, dget o (ds_vars ds) = Some da -> sound da) -> NoDup (dkeys (ds_vars ds)) -> reusable only ->
  let names := get_restart_standard_names props in
  no_collision names (dkeys (ds_vars ds)) ->
  exists loaded, load_partial_state V order ds props only = (only, Ok loaded) /\ NoDup (dkeys loaded) /\
    (forall k e, dget k loaded = Some e -> requested only k /\ exists o da, dget o (ds_vars ds) = Some da /\ stored_under names o k /\ loaded_as props k da e) /\
    (forall o da k, dget o (ds_vars ds) = Some da -> stored_under names o k -> requested only k -> k = "time" \/ units_under props k da <> None ->
       exists e, dget k loaded = Some e).
Proof.
  intros P T Hn S N R names C. unfold load_partial_state, select_time. rewrite T. replace (n <? 1)%Z with false by lia.
  destruct (mapped_ok (fun _ => isel_time V) (ds_vars ds)) as (vars & EV).
  { intros k a I. destruct (isel_time_ok a) as (b & E & _); [|eauto]. apply (S k). now apply dget_NoDup. }
  unfold mapped in EV. rewrite EV. destruct (mapped_get (fun _ => isel_time V) _ _ EV) as (KV & GV). fold names. set (st := map_keys order vars names).
  rewrite select_names_filter by auto.
  assert (ND : NoDup (dkeys (apply_restart_metadata V st props))). { destruct (metadata_get props st "") as (_ & ->). apply map_keys_NoDup. }
  assert (G : forall k da', dget k (apply_restart_metadata V st props) = Some da' <-> exists o da a, dget o (ds_vars ds) = Some da /\ stored_under names o k /\ first_time da a /\
      sound da /\ isel_time V da = Ok (mkDA a (without_time (da_dims da)) (da_attrs da)) /\ da' = with_metadata props k (mkDA a (without_time (da_dims da)) (da_attrs da))).
  { intros k da'. rewrite (proj1 (metadata_get props st k)). unfold st.
    assert (ML := map_keys_lossless order vars names P (standard_names_NoDup props)). rewrite KV in ML. specialize (ML C k). split.
    - destruct (dget k (map_keys order vars names)) as [da1|] eqn:E; [|discriminate]. intros X. cbn in X. injection X as <-.
      destruct (proj1 (ML da1) eq_refl) as (o & Eo & So).
      specialize (GV o). destruct (dget o (ds_vars ds)) as [da|] eqn:ED; [|congruence]. destruct GV as (b & EI & Eb). assert (b = da1) as -> by congruence.
      destruct (isel_time_ok da) as (a & EI' & FT); [eauto|]. assert (da1 = mkDA a (without_time (da_dims da)) (da_attrs da)) as -> by congruence.
      exists o, da, a. repeat (split; eauto).
    - intros (o & da & a & ED & So & FT & SD & EI & ->). specialize (GV o). rewrite ED in GV. destruct GV as (b & EI' & Eb). rewrite EI in EI'. injection EI' as <-.
      rewrite (proj2 (ML (mkDA a (without_time (da_dims da)) (da_attrs da)))); [reflexivity|]. eauto. }
  assert (conv : forall k da', In (k, da') (filter (wanted only) (apply_restart_metadata V st props)) -> exists e, convert V k da' = Ok e).
  { intros k da' I. apply filter_In in I. destruct I as (I & W). apply wanted_spec in W. destruct W as (W & _). apply dget_NoDup in I; auto. apply G in I.
    destruct I as (o & da & a & _ & _ & FT & SD & _ & ->). destruct (metadata_loaded props k da a SD FT) as (U & L). destruct L as (e & L & _); eauto.
    destruct W as [W|W]; auto. right. rewrite <- U. unfold dmem in W. now destruct (dget _ _). }
  destruct (mapped_ok (convert V) _ conv) as (loaded & EL). unfold mapped in EL. rewrite EL. destruct (mapped_get (convert V) _ _ EL) as (KL & GL).
  exists loaded. split; auto. split; [rewrite KL; now apply NoDup_filter_keys|]. split.
  - intros k e E. specialize (GL k). rewrite dget_filter in GL by auto. destruct (dget k (apply_restart_metadata V st props)) as [da'|] eqn:ED; [|congruence].
    destruct (wanted only (k, da')) eqn:W; [|congruence]. destruct GL as (e' & EC & EL'). apply wanted_spec in W. destruct W as (W & RQ). split; auto.
    apply G in ED. destruct ED as (o & da & a & ED & So & FT & SD & _ & ->). destruct (metadata_loaded props k da a SD FT) as (U & L).
    destruct L as (e2 & L & LA). { destruct W as [W|W]; auto. right. rewrite <- U. unfold dmem in W. intros X; rewrite X in W; discriminate. }
    exists o, da. split; auto. split; auto. congruence.
  - intros o da k ED So RQ W. destruct (isel_time_ok da) as (a & EI & FT); [eauto|]. pose proof (S _ _ ED) as SD.
    specialize (GL k). rewrite dget_filter in GL by auto. rewrite (proj2 (G k (with_metadata props k (mkDA a (without_time (da_dims da)) (da_attrs da))))) in GL by (exists o, da, a; repeat (split; eauto)).
    rewrite wanted_yes in GL; auto; [destruct GL as (e & _ & ->); eauto|].
    destruct (metadata_loaded props k da a SD FT) as (U & _). destruct W as [W|W]; auto. right. unfold dmem. rewrite U. now destruct (units_under _ _ _).
Qed.
End Load.
