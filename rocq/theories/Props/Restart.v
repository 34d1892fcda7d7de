(** C46-C48, C60-C65: loading restart files. *)
From Coq Require Import Permutation Ascii.
From Verif.Base Require Import Base.
From Verif.Model Require Import Consts Numpy Quantity Collective ScatterGather Properties Restart.
From Verif.Spec Require Import Grid Views Together Distribute Loading Decimal.
From Verif.Proofs Require Import RestartProofs OpenRestartProofs DecimalProofs.
Local Open Scope string_scope.

(** C46: without collisions every value is found under its new name, or its own if it has no new one, and there is nothing else *)
Theorem C46_no_loss : forall A order (old : dict A) names, (forall l, Permutation (order l) l) -> NoDup (dkeys names) -> no_collision names (dkeys old) ->
  forall k v, dget k (map_keys order old names) = Some v <-> exists o, dget o old = Some v /\ stored_under names o k.
Proof. exact @map_keys_lossless. Qed.
Print Assumptions C46_no_loss.

(** with collisions: a value keeping its name wins over all which are given that name, and of those the last in the map of names *)
Theorem C46_precedence : forall A order (old : dict A) names k, (forall l, Permutation (order l) l) ->
  dget k (map_keys order old names) =
    if sin k (dkeys old) && negb (sin k (dkeys names)) then dget k old
    else match last_named names (dkeys old) k with Some o => dget o old | None => None end.
Proof. exact @map_keys_get. Qed.
Print Assumptions C46_precedence.

(** the order in which python visits a set does not matter *)
Theorem C46_order : forall A order order' (old : dict A) names k, (forall l, Permutation (order l) l) -> (forall l, Permutation (order' l) l) ->
  dget k (map_keys order old names) = dget k (map_keys order' old names).
Proof. exact @order_irrelevant. Qed.
Print Assumptions C46_order.

Example C46_example : no_collision [("a", "b"); ("c", "d")] ["a"; "d"; "e"] /\
  map_keys (@rev string) [("a", 1); ("d", 2); ("e", 3)] [("a", "b"); ("c", "d")] = [("b", 1); ("e", 3); ("d", 2)]%Z.
Proof.
  split; [|reflexivity]. intros o1 o2 k I1 I2 S1 S2. unfold stored_under in *. cbn in I1, I2.
  destruct I1 as [<-|[<-|[<-|[]]]], I2 as [<-|[<-|[<-|[]]]]; cbn in S1, S2; congruence.
Qed.
(** two values, one name: one is lost *)
Example C46_collision : map_keys (fun l => l) [("T", 1); ("air_temperature", 2)]%Z [("T", "air_temperature")] = [("air_temperature", 2)]%Z.
Proof. reflexivity. Qed.

(** C47: the standard names of the table which loading never produces from their restart name *)
Definition never_produced : list string :=
  ["clear_sky_downward_longwave_flux_at_surface"; "clear_sky_downward_shortwave_flux_at_surface"; "clear_sky_upward_longwave_flux_at_surface";
   "clear_sky_upward_longwave_flux_at_top_of_atmosphere"; "clear_sky_upward_shortwave_flux_at_surface"; "clear_sky_upward_shortwave_flux_at_top_of_atmosphere";
   "total_sky_downward_longwave_flux_at_surface"; "total_sky_downward_shortwave_flux_at_surface"; "total_sky_downward_shortwave_flux_at_top_of_atmosphere"].
Theorem C47_table : forall n p, In (n, p) RESTART_PROPERTIES ->
  (dget (p_restart p) (get_restart_standard_names RESTART_PROPERTIES) = Some n <-> ~ In n never_produced).
Proof. exact (table_names never_produced eq_refl). Qed.
Print Assumptions C47_table.

(** in any table the standard name of a restart name is that of the last entry having it *)
Theorem C47_last : forall props r, dget r (get_restart_standard_names props) = option_map fst (find (fun np => String.eqb (p_restart (snd np)) r) (rev props)).
Proof. exact standard_name_last. Qed.
Print Assumptions C47_last.

(** two names collide only if the file has a variable under a standard name which another variable is to get *)
Theorem C47_collisions : forall props present, NoDup (dkeys props) -> let names := get_restart_standard_names props in
  no_collision names present <-> forall o o', In o present -> In o' present -> dget o names = None -> dget o' names <> Some o.
Proof. exact no_collision_iff. Qed.
Print Assumptions C47_collisions.
Example C47_example : NoDup (dkeys RESTART_PROPERTIES) /\ length RESTART_PROPERTIES = 87%nat /\
  dget "sfcflw" (get_restart_standard_names RESTART_PROPERTIES) = Some "total_sky_upward_longwave_flux_at_surface".
Proof. split; [exact table_NoDup|]. vm_compute. split; reflexivity. Qed.

(** C48: what is loaded from a file: everything asked for which has units by the table or the file, at the first time, with dims and units of the table *)
Theorem C48_loaded : forall V order (ds : dataset V) props only n, (forall l, Permutation (order l) l) -> ds_time ds = Some n -> (1 <= n)%Z ->
  (forall o da, dget o (ds_vars ds) = Some da -> sound da) -> NoDup (dkeys (ds_vars ds)) -> reusable only ->
  let names := get_restart_standard_names props in
  no_collision names (dkeys (ds_vars ds)) ->
  exists loaded, load_partial_state V order ds props only = (only, Ok loaded) /\ NoDup (dkeys loaded) /\
    (forall k e, dget k loaded = Some e -> requested only k /\ exists o da, dget o (ds_vars ds) = Some da /\ stored_under names o k /\ loaded_as props k da e) /\
    (forall o da k, dget o (ds_vars ds) = Some da -> stored_under names o k -> requested only k -> k = "time" \/ units_under props k da <> None ->
       exists e, dget k loaded = Some e).
Proof. exact @load_partial. Qed.
Print Assumptions C48_loaded.

(** all files of a tile: of several files with one variable the last counts; the time is that of coupler.res if that exists and time is asked for *)
Theorem C48_tile : forall V Date (cftime : Z -> list Z -> res Date) (fs : string -> node V) order dirname label t props only parts, reusable only ->
  Forall2 (gives fs order props only) (restart_filenames V fs dirname t label) parts ->
  let coupler := coupler_res_filename dirname label in
  let holds st := forall k q, dget k (st_vars st) = Some q <-> last_loaded parts k = Some (EQuantity q) in
  let load := load_tile V Date cftime fs order dirname label t props only in
  (forall lines, requested only "time" -> fs coupler = File (Text lines) ->
     match current_date_from_coupler_res Date cftime lines with
     | Ok date => exists st, load = Ok st /\ holds st /\ st_time st = Some (TDate date)
     | Err e => load = Err e
     end) /\
  ((~ requested only "time" \/ forall f, fs coupler <> File f) ->
     exists st, load = Ok st /\ holds st /\ st_time st = match last_loaded parts "time" with Some (EArray da) => Some (TArray da) | _ => None end).
Proof. exact @load_tile_ok. Qed.
Print Assumptions C48_tile.

(** a file with temperature (given new dims and units), a variable without units and one with units of its own *)
Definition ex_values (k : Z) : arr Z := mkA [2; 1; 2; 2]%Z (fun p => k + 100 * nth 0 p 0 + 10 * nth 2 p 0 + nth 3 p 0)%Z.
Definition ex_dims := ["Time"; "zaxis_1"; "yaxis_1"; "xaxis_1"].
Definition ex_file : dataset Z :=
  mkDS [("T", mkDA (ex_values 0) ex_dims []); ("plain", mkDA (ex_values 1000) ex_dims []); ("foo", mkDA (ex_values 2000) ex_dims [("units", "m")])] (Some 2%Z).
Definition ex_show (e : entry Z) := match e with EQuantity q => (q_dims q, q_units q, q_extent q, ravel (q_data q)) | EArray _ => ([], "", [], []) end.
Example C48_example :
  ((forall o da, dget o (ds_vars ex_file) = Some da -> sound da) /\ no_collision (get_restart_standard_names RESTART_PROPERTIES) (dkeys (ds_vars ex_file))) /\
  match snd (load_partial_state Z (fun l => l) ex_file RESTART_PROPERTIES AllNames) with Ok d => map (fun ke => (fst ke, ex_show (snd ke))) d | Err _ => [] end =
    [("air_temperature", (["z"; "y"; "x"], "degK", [1; 2; 2], [0; 1; 10; 11]));
     ("foo", (["zaxis_1"; "yaxis_1"; "xaxis_1"], "m", [1; 2; 2], [2000; 2001; 2010; 2011]))]%Z /\
  match snd (load_partial_state Z (fun l => l) ex_file RESTART_PROPERTIES (Names ["foo"; "bar"])) with Ok d => dkeys d | Err _ => [] end = ["foo"].
Proof.
  split; [|vm_compute; split; reflexivity]. split.
  - assert (X : forall k attrs, @sound Z (mkDA (ex_values k) ex_dims attrs)).
    { intros k attrs. split; [repeat constructor; cbn; intuition congruence|]. unfold ex_dims. repeat constructor; try easy; discriminate. }
    intros o da E. apply dget_in_values in E. cbn in E. destruct E as [<-|[<-|[<-|[]]]]; apply X.
  - apply no_collision_iff; [exact table_NoDup|]. intros o o' I I' E E'. cbn in I, I'.
    destruct I as [<-|[<-|[<-|[]]]], I' as [<-|[<-|[<-|[]]]]; vm_compute in E, E'; congruence.
Qed.

(** C60: file suffixes of ranks *)
Theorem C60_suffixes_distinct : forall r1 r2 total, (0 < total)%Z -> (total mod 6 = 0)%Z -> (0 <= r1 < total)%Z -> (0 <= r2 < total)%Z ->
  get_rank_suffix r1 total = get_rank_suffix r2 total -> r1 = r2.
Proof. exact rank_suffix_inj. Qed.
Print Assumptions C60_suffixes_distinct.
(** the tile counted from 1, and the rank within the tile with at least four digits *)
Theorem C60_suffix_defined : forall rank total, (0 < total)%Z -> (total mod 6 = 0)%Z -> (0 <= rank < total)%Z ->
  exists t c, decimal 1 t (rank / (total / 6) + 1) /\ decimal 4 c (rank mod (total / 6)) /\
    get_rank_suffix rank total = Ok (if (6 <? total)%Z then ".tile" ++ t ++ ".nc." ++ c else ".tile" ++ t ++ ".nc").
Proof. exact suffix_written. Qed.
Print Assumptions C60_suffix_defined.
(** there is one way of writing a number with a given least number of digits *)
Theorem C60_notation : forall w s s' n, decimal w s n -> decimal w s' n -> s = s'.
Proof. exact decimal_unique. Qed.
Print Assumptions C60_notation.
Example C60_example : get_rank_suffix 27 54 = Ok ".tile4.nc.0000" /\ get_rank_suffix 5 6 = Ok ".tile6.nc" /\ get_rank_suffix 90005 120000 = Ok ".tile5.nc.10005".
Proof. vm_compute. repeat split; reflexivity. Qed.

(** C61: every rank of tile [t] gets its part of what the root of the tile loaded, in its own quantities if it has them *)
Theorem C61_open_restart : forall V Date (cftime : Z -> list Z -> res Date) (fs : string -> node V) order dirname (layout : Z * Z) t label only tp junk
    (recvs : nat -> option (state V (time_value V Date))) st (D : string -> list string) (E : string -> list Z),
  (1 <= fst layout)%Z -> (1 <= snd layout)%Z ->
  load_tile V Date cftime fs order dirname label t (merged_properties tp) only = Ok st ->
  let p := TilePart layout in
  let vars r := match recvs r with Some s => st_vars s | None => [] end in
  (forall name q, dget name (st_vars st) = Some q -> fits layout (D name) (E name) /\ global_sized p (D name) (E name) q /\
     forall r, (r < ranks p)%nat -> given (rank_sized (E name)) (dget name (vars r))) ->
  exists outs, always_ends (ranks p)
      (fun r => open_restart V Date cftime fs order dirname layout (t * (fst layout * snd layout) + Z.of_nat r) (Z.of_nat r) label only (junk r) (recvs r) tp) (fun r => Ok (outs r)) /\
    forall r, (r < ranks p)%nat -> st_time (outs r) = st_time st /\
      (forall name q, dget name (st_vars st) = Some q -> exists q', dget name (st_vars (outs r)) = Some q' /\
         written (or_blank (dget name (vars r)) (blank (D name) (q_units q) (E name) (junk r name 0%nat))) q' (part_of p r (D name) (E name) (domain_of q))) /\
      (forall name, dget name (st_vars st) = None -> dget name (st_vars (outs r)) = dget name (vars r)).
Proof. exact @open_restart_result. Qed.
Print Assumptions C61_open_restart.

(** the files of a tile, which are counted from 1 in their names *)
Theorem C61_file_names : forall dirname label t name, (0 <= t)%Z ->
  exists d, decimal 1 d (t + 1) /\ joined dirname ((if String.eqb label "" then "" else label ++ ".") ++ name ++ ".tile" ++ d ++ ".nc") (restart_filename dirname t label name).
Proof. exact filename_written. Qed.
Print Assumptions C61_file_names.
Theorem C61_coupler_name : forall dirname label, joined dirname ((if String.eqb label "" then "" else label ++ ".") ++ "coupler.res") (coupler_res_filename dirname label).
Proof. exact coupler_written. Qed.
Print Assumptions C61_coupler_name.
Example C61_names_example : restart_filename "dir" 2 "20160801.001500" "sfc_data" = "dir/20160801.001500.sfc_data.tile3.nc" /\
  restart_filename "dir/" 2 "" "sfc_data" = "dir/sfc_data.tile3.nc" /\ restart_filename "" 2 "" "sfc_data" = "sfc_data.tile3.nc" /\
  restart_filename "dir" 2 "/tmp/a" "sfc_data" = "/tmp/a.sfc_data.tile3.nc" /\ coupler_res_filename "dir" "a" = "dir/a.coupler.res".
Proof. vm_compute. auto. Qed.
Definition ex_empty : dataset Z := mkDS [] (Some 1%Z).
Definition ex_fs (name : string) : node Z :=
  if String.eqb name "dir/fv_core.res.tile3.nc" then File (NetCDF ex_file)
  else if sin name ["dir/fv_srf_wnd.res.tile3.nc"; "dir/fv_tracer.res.tile3.nc"] then File (NetCDF ex_empty)
  else if String.eqb name "dir/coupler.res" then File (Text [[TInt 2; TOther]; []; [TInt 2016; TInt 8; TInt 1; TInt 0; TInt 15; TInt 0; TOther]])
  else Missing.
Definition ex_cftime (cal : Z) (l : list Z) : res (Z * list Z) := Ok (cal, l).
(** rank 2 of tile 3 on a 2 by 2 layout *)
Example C61_example :
  option_map (fun s => match nth_error s 2 with
                       | Some c => match outcome_of c with
                                   | Some (Ok st) => (map (fun kq => (fst kq, q_dims (snd kq), q_units (snd kq), ravel (q_data (snd kq)))) (st_vars st), match st_time st with Some (TDate d) => Some d | _ => None end)
                                   | _ => ([], None) end
                       | None => ([], None)
                       end)
    (crun (fun _ _ => false) [0; 1; 2; 3; 0; 1; 2; 3; 0; 1; 2; 3; 0; 1; 2; 3; 0; 1; 2; 3; 0; 1; 2; 3; 0; 1; 2; 3; 0; 1; 2; 3]%nat
       (cstart 4 (fun r => open_restart Z (Z * list Z) ex_cftime ex_fs (fun l => l) "dir" (2, 2)%Z (8 + Z.of_nat r) (Z.of_nat r) "" (Names ["air_temperature"; "time"]) (fun _ _ _ => 0%Z) None None))) =
    Some ([("air_temperature", ["z"; "y"; "x"], "degK", [10])], Some (2, [2016; 8; 1; 0; 15; 0]))%Z.
Proof. vm_compute. reflexivity. Qed.

(** C62: if loading fails on the root of a tile, the other ranks of the tile wait forever *)
Theorem C62_failure_hangs : forall V Date (cftime : Z -> list Z -> res Date) (fs : string -> node V) order dirname (layout : Z * Z) t label (only : nat -> names_arg) tp junk
    (recvs : nat -> option (state V (time_value V Date))) e,
  (1 <= fst layout)%Z -> (1 <= snd layout)%Z ->
  load_tile V Date cftime fs order dirname label t (merged_properties tp) (only O) = Err e ->
  let size := ranks (TilePart layout) in
  forall delayed sched s,
  crun delayed sched (cstart size (fun r => open_restart V Date cftime fs order dirname layout (t * (fst layout * snd layout) + Z.of_nat r) (Z.of_nat r) label (only r) (junk r) (recvs r) tp)) = Some s ->
  (exists c, nth_error s 0 = Some c /\ outcome_of c = Some (Err e)) /\ forall r, (0 < r < size)%nat -> exists c, nth_error s r = Some c /\ outcome_of c = None.
Proof. exact @open_restart_fails. Qed.
Print Assumptions C62_failure_hangs.
Theorem C62_required : forall V Date (cftime : Z -> list Z -> res Date) (fs : string -> node V) order dirname label t props only name, In name RESTART_NAMES ->
  (forall ds, fs (restart_filename dirname t label name) <> File (NetCDF ds)) ->
  exists e, load_tile V Date cftime fs order dirname label t props only = Err e.
Proof. exact @missing_file. Qed.
Print Assumptions C62_required.
(** the files read: the required ones in any case, the optional ones if there is something of that name *)
Theorem C62_optional : forall V (fs : string -> node V) dirname label t f, In f (restart_filenames V fs dirname t label) <->
  exists name, f = restart_filename dirname t label name /\ (In name ["fv_core.res"; "fv_srf_wnd.res"; "fv_tracer.res"] \/ In name ["sfc_data"; "phy_data"] /\ fs f <> Missing).
Proof. exact @files_read. Qed.
Print Assumptions C62_optional.
Example C62_example : load_tile Z _ ex_cftime ex_fs (fun l => l) "dir" "" 1 RESTART_PROPERTIES AllNames = Err OSError.
Proof. vm_compute. reflexivity. Qed.

(** C63: the names asked for as an iterator: variables are lost which the same names in a list would load *)
Definition loaded_names (only : names_arg) : list string :=
  match load_files Z ex_fs (fun l => l) (restart_filenames Z ex_fs "dir" 2 "") RESTART_PROPERTIES only [] with (_, Ok d) => dkeys d | _ => [] end.
Theorem C63_iterator_refuted : loaded_names (Names ["foo"; "air_temperature"]) = ["air_temperature"; "foo"] /\ loaded_names (Iterator ["foo"; "air_temperature"]) = ["air_temperature"].
Proof. vm_compute. split; reflexivity. Qed.
Print Assumptions C63_iterator_refuted.
(** what is loaded with an iterator is among what is loaded with a list *)
Theorem C63_subset : forall V (st : dict (data_array V)) l nd, In nd (fst (select_names V st (Iterator l))) -> In nd (fst (select_names V st (Names l))).
Proof. exact @iterator_subset. Qed.
Print Assumptions C63_subset.

(** C64: the date in coupler.res: calendar in the first line, six numbers in the third; everything else is ignored *)
Theorem C64_coupler_date : forall Date (cftime : Z -> list Z -> res Date) lines date, current_date_from_coupler_res Date cftime lines = Ok date <->
  exists cal rest0 y mo d h mi s rest2, nth 0 lines [] = TInt cal :: rest0 /\ nth 2 lines [] = TInt y :: TInt mo :: TInt d :: TInt h :: TInt mi :: TInt s :: rest2 /\
    (1 <= cal <= 4)%Z /\ cftime cal [y; mo; d; h; mi; s] = Ok date.
Proof. exact @coupler_date. Qed.
Print Assumptions C64_coupler_date.
Example C64_example : current_date_from_coupler_res _ ex_cftime [[TInt 2; TOther]; []; [TInt 2016; TInt 8; TInt 1; TInt 0; TInt 15; TInt 0; TOther]] = Ok (2, [2016; 8; 1; 0; 15; 0])%Z /\
  current_date_from_coupler_res _ ex_cftime [[TInt 5]; []; [TInt 2016; TInt 8; TInt 1; TInt 0; TInt 15; TInt 0]] = Err KeyError.
Proof. split; reflexivity. Qed.

(** C65: properties of tracers are added to the table and never replace an entry of it *)
Theorem C65_tracers : forall t k, dget k (merged_properties (Some t)) = match dget k RESTART_PROPERTIES with Some p => Some p | None => dget k t end.
Proof. exact merged_get. Qed.
Print Assumptions C65_tracers.
(** a restart name of the table keeps its standard name; only others are looked up among the tracers *)
Theorem C65_names : forall t r, (forall k, In k (dkeys t) -> ~ In k (dkeys RESTART_PROPERTIES)) ->
  dget r (get_restart_standard_names (merged_properties (Some t))) =
    match dget r (get_restart_standard_names RESTART_PROPERTIES) with Some n => Some n | None => dget r (get_restart_standard_names t) end.
Proof. exact merged_names. Qed.
Print Assumptions C65_names.
Definition ex_tracers := [("mine", mkProp ["z"; "y"; "x"] "T" "K"); ("ozone", mkProp ["z"; "y"; "x"] "o3" "kg/kg")].
Example C65_example : (forall k, In k (dkeys ex_tracers) -> ~ In k (dkeys RESTART_PROPERTIES)) /\
  let names := get_restart_standard_names (merged_properties (Some ex_tracers)) in dget "T" names = Some "air_temperature" /\ dget "o3" names = Some "ozone".
Proof.
  split; [|vm_compute; split; reflexivity]. intros k I J. cbn in I. destruct I as [<-|[<-|[]]]; vm_compute in J; intuition discriminate.
Qed.
(** the hypothesis is needed: after an entry which repeats a built-in name, a tracer can take over its restart name *)
Example C65_repeated : dget "T" (get_restart_standard_names (merged_properties (Some (("air_temperature", mkProp [] "T" "K") :: ex_tracers)))) = Some "mine".
Proof. vm_compute. reflexivity. Qed.
