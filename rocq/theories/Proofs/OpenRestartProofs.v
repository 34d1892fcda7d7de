From Coq Require Import Permutation NArith Ascii Decimal DecimalString DecimalPos DecimalN.
From Verif.Base Require Import Base Lemmas.
From Verif.Model Require Import Consts Partitioner Numpy Quantity Collective ScatterGather Sizer Properties Restart.
From Verif.Spec Require Import Grid Layouts Views Together Distribute Loading.
From Verif.Proofs Require Import Partition CollectiveProofs StateProofs RestartProofs.
Local Open Scope string_scope.

(** ** updates *)
Lemma dupdate_get {A} (e : dict A) : forall d k, NoDup (dkeys e) -> dget k (dupdate d e) = match dget k e with Some a => Some a | None => dget k d end.
Proof.
  unfold dupdate. induction e as [|[k' a] e IH]; intros d k N; auto. inversion_clear N as [|? ? N1 N2]. cbn [fold_left fst snd dget]. rewrite IH, dget_dset by auto.
  destruct (String.eqb_spec k k') as [->|]; auto. destruct (dget k' e) eqn:E; auto. exfalso. apply N1. apply dget_some_in. eauto.
Qed.
Lemma dupdate_NoDup {A} (e : dict A) : forall d, NoDup (dkeys d) -> NoDup (dkeys (dupdate d e)).
Proof. unfold dupdate. intros d N. now apply (dset_keys_NoDup fst snd). Qed.

(** ** the table of properties *)
Lemma standard_name_of props r n : dget r (get_restart_standard_names props) = Some n -> exists p, In (n, p) props /\ p_restart p = r.
Proof.
  unfold get_restart_standard_names. rewrite standard_names_get. destruct (find _ _) as [[n' p]|] eqn:F; [|discriminate]. intros X. injection X as <-.
  apply find_some in F. destruct F as (I & E). apply String.eqb_eq in E. rewrite <- in_rev in I. eauto.
Qed.
Lemma standard_name_none props r : dget r (get_restart_standard_names props) = None -> forall n p, In (n, p) props -> p_restart p <> r.
Proof.
  unfold get_restart_standard_names. rewrite standard_names_get. destruct (find _ _) as [[n' p]|] eqn:F; [discriminate|]. intros _ n p I E.
  apply in_rev in I. pose proof (find_none _ _ F _ I) as X. cbn in X. subst r. rewrite String.eqb_refl in X. discriminate.
Qed.

Theorem no_collision_iff props present : NoDup (dkeys props) -> let names := get_restart_standard_names props in
  no_collision names present <-> forall o o', In o present -> In o' present -> dget o names = None -> dget o' names <> Some o.
Proof.
  intros N names. split.
  - intros C o o' I I' E E'. assert (o = o') as <-. { apply (C o o' o); auto; unfold stored_under; [rewrite E|rewrite E']; reflexivity. } congruence.
  - intros H o1 o2 k I1 I2 S1 S2. unfold stored_under in *. destruct (dget o1 names) as [n1|] eqn:E1, (dget o2 names) as [n2|] eqn:E2; subst; auto.
    + apply standard_name_of in E1, E2. destruct E1 as (p1 & J1 & <-), E2 as (p2 & J2 & <-). apply dget_NoDup in J1, J2; auto. congruence.
    + exfalso. exact (H _ _ I2 I1 E2 E1).
    + exfalso. exact (H _ _ I1 I2 E1 E2).
Qed.

Lemma table_NoDup : NoDup (dkeys RESTART_PROPERTIES).
Proof.
  assert (E : nodup string_dec (dkeys RESTART_PROPERTIES) = dkeys RESTART_PROPERTIES) by (vm_compute; reflexivity). rewrite <- E. apply NoDup_nodup.
Qed.
Theorem merged_get t k : dget k (merged_properties (Some t)) = match dget k RESTART_PROPERTIES with Some p => Some p | None => dget k t end.
Proof. unfold merged_properties. apply dupdate_get. apply table_NoDup. Qed.
Lemma merged_NoDup tp : (forall t, tp = Some t -> NoDup (dkeys t)) -> NoDup (dkeys (merged_properties tp)).
Proof. destruct tp as [t|]; intros H; [apply dupdate_NoDup; auto|apply table_NoDup]. Qed.

(** ** file names *)
Definition parse (s : string) : option N := option_map N.of_uint (NilZero.uint_of_string s).
Lemma parse_str n : parse (str_of_N n) = Some n.
Proof.
  unfold parse, str_of_N. rewrite NilZero.usu by (destruct n; [discriminate|apply DecimalPos.Unsigned.to_uint_nonnil]). cbn [option_map]. now rewrite DecimalN.Unsigned.of_to.
Qed.
Lemma parse_zero s : s <> "" -> parse ("0" ++ s) = parse s.
Proof.
  intros N. unfold parse. destruct s as [|a s]; [contradiction|]. cbn [append NilZero.uint_of_string].
  change (NilEmpty.uint_of_string (String "0" (String a s))) with (option_map D0 (NilEmpty.uint_of_string (String a s))).
  destruct (NilEmpty.uint_of_string (String a s)); reflexivity.
Qed.
Lemma parse_nonempty s n : parse s = Some n -> s <> "".
Proof. intros E ->. discriminate. Qed.
Lemma parse_pad4 s n : parse s = Some n -> parse (pad4 s) = Some n.
Proof.
  intros E. pose proof (parse_nonempty _ _ E) as N. assert (S : forall x, s <> "" -> String x s <> "") by easy. unfold pad4.
  destruct (String.length s) as [|[|[|[|]]]]; auto.
  - change ("000" ++ s) with ("0" ++ ("0" ++ ("0" ++ s))). rewrite !parse_zero; auto; easy.
  - change ("00" ++ s) with ("0" ++ ("0" ++ s)). rewrite !parse_zero; auto; easy.
  - rewrite parse_zero; auto.
Qed.
Lemma pad4_inj a b : (0 <= a)%Z -> (0 <= b)%Z -> pad4 (str_of_Z a) = pad4 (str_of_Z b) -> a = b.
Proof.
  intros Ha Hb E. unfold str_of_Z in E. replace (a <? 0)%Z with false in E by lia. replace (b <? 0)%Z with false in E by lia.
  pose proof (parse_pad4 _ _ (parse_str (Z.to_N a))) as Pa. pose proof (parse_pad4 _ _ (parse_str (Z.to_N b))) as Pb. rewrite E in Pa. rewrite Pa in Pb. injection Pb as X. lia.
Qed.

Lemma tile_digit t : (0 <= t < 6)%Z -> t = 0%Z \/ t = 1%Z \/ t = 2%Z \/ t = 3%Z \/ t = 4%Z \/ t = 5%Z.
Proof. lia. Qed.

Lemma rank_suffix_ok rank total : (0 < total)%Z -> (total mod 6 = 0)%Z ->
  get_rank_suffix rank total = Ok (if (6 <? total)%Z then ".tile" ++ str_of_Z (rank / (total / 6) + 1) ++ ".nc." ++ pad4 (str_of_Z (rank mod (total / 6)))
                                   else ".tile" ++ str_of_Z (rank / (total / 6) + 1) ++ ".nc").
Proof.
  intros H M. unfold get_rank_suffix, get_tile_index. replace (total mod 6 =? 0)%Z with true by lia. cbn [negb]. 
  replace (total / 6 =? 0)%Z with false by (symmetry; apply Z.eqb_neq; intros X; assert (total = 6 * (total / 6) + total mod 6)%Z by (apply Z.div_mod; lia); lia). reflexivity.
Qed.
Theorem rank_suffix_inj r1 r2 total : (0 < total)%Z -> (total mod 6 = 0)%Z -> (0 <= r1 < total)%Z -> (0 <= r2 < total)%Z ->
  get_rank_suffix r1 total = get_rank_suffix r2 total -> r1 = r2.
Proof.
  intros H M H1 H2. rewrite !rank_suffix_ok by auto. set (n := (total / 6)%Z). assert (N : (total = 6 * n)%Z) by (unfold n; rewrite (Z.div_mod total 6) at 1 by lia; lia). clearbody n.
  assert (T1 : (0 <= r1 / n < 6)%Z) by (split; [apply Z.div_pos; lia|apply Z.div_lt_upper_bound; lia]).
  assert (T2 : (0 <= r2 / n < 6)%Z) by (split; [apply Z.div_pos; lia|apply Z.div_lt_upper_bound; lia]).
  assert (M1 := Z.mod_pos_bound r1 n ltac:(lia)). assert (M2 := Z.mod_pos_bound r2 n ltac:(lia)).
  intros E. injection E as E. assert (X : (r1 / n = r2 / n /\ r1 mod n = r2 mod n)%Z).
  { destruct (Z.ltb_spec 6 total).
    - set (c1 := (r1 mod n)%Z) in *. set (c2 := (r2 mod n)%Z) in *. set (t1 := (r1 / n)%Z) in *. set (t2 := (r2 / n)%Z) in *. clearbody t1 t2 c1 c2.
      destruct (tile_digit _ T1) as [->|[->|[->|[->|[->| ->]]]]]; destruct (tile_digit _ T2) as [->|[->|[->|[->|[->| ->]]]]]; try (split; [reflexivity|]; apply pad4_inj; try lia; cbn in E; injection E as E; exact E); exfalso; revert E; cbn; intros E; discriminate E.
    - assert (n = 1)%Z by lia. split; [|lia]. set (t1 := (r1 / n)%Z) in *. set (t2 := (r2 / n)%Z) in *. clearbody t1 t2.
      destruct (tile_digit _ T1) as [->|[->|[->|[->|[->| ->]]]]]; destruct (tile_digit _ T2) as [->|[->|[->|[->|[->| ->]]]]]; try reflexivity; exfalso; revert E; cbn; intros E; discriminate E. }
  rewrite (Z.div_mod r1 n), (Z.div_mod r2 n) by lia. destruct X as (-> & ->). reflexivity.
Qed.

(** ** files of a tile *)
Section Tile.
Context {V Date : Type}.
Variable cftime : Z -> list Z -> res Date.
Variable fs : string -> node V.
Variable order : list string -> list string.

Lemma load_files_ok props only files parts : Forall2 (gives fs order props only) files parts -> forall state, load_files V fs order files props only state = (only, Ok (fold_left dupdate parts state)).
Proof.
  induction 1 as [|name part files parts (_ & ds & E & L) F IH]; intros state; auto. cbn [load_files fold_left]. unfold open_dataset, open_. rewrite E. cbn [bind]. rewrite L. apply IH.
Qed.
Lemma updated_get (parts : list (dict (entry V))) : Forall (fun d => NoDup (dkeys d)) parts -> forall state k acc, dget k state = acc ->
  dget k (fold_left dupdate parts state) = fold_left (fun acc d => match dget k d with Some e => Some e | None => acc end) parts acc.
Proof.
  induction 1 as [|d parts N F IH]; intros state k acc E; auto. cbn [fold_left]. apply IH. rewrite dupdate_get by auto. destruct (dget k d); auto.
Qed.

Lemma quantities_keys (d : dict (entry V)) k : In k (dkeys (quantities_of V d)) -> In k (dkeys d).
Proof.
  unfold quantities_of, dkeys. induction d as [|[k' [q|da]] d IH]; cbn; auto. intros [->|I]; auto.
Qed.
Lemma quantities_get (d : dict (entry V)) : NoDup (dkeys d) -> NoDup (dkeys (quantities_of V d)) /\
  forall k q, dget k (quantities_of V d) = Some q <-> dget k d = Some (EQuantity q).
Proof.
  induction d as [|[k' e] d IH]; intros N; [cbn; split; [constructor|easy]|]. inversion_clear N as [|? ? N1 N2]. destruct (IH N2) as (IH1 & IH2).
  assert (X : forall q, dget k' d <> Some q) by (intros q X; apply N1; apply dget_some_in; eauto).
  destruct e as [q'|da]; cbn [quantities_of flat_map fst snd app].
  - change (flat_map _ d) with (quantities_of V d). split; [cbn; constructor; auto; intros I; apply quantities_keys in I; contradiction|].
    intros k q. cbn [dget]. destruct (String.eqb_spec k k') as [->|]; [|apply IH2]. split; intros Y; injection Y as ->; reflexivity.
  - change (flat_map _ d) with (quantities_of V d). split; auto. intros k q. cbn [dget]. destruct (String.eqb_spec k k') as [->|]; [|apply IH2].
    rewrite IH2. split; [intros Y; now apply X in Y|discriminate].
Qed.

Lemma load_files_NoDup props files : forall only state only' d, NoDup (dkeys state) -> load_files V fs order files props only state = (only', Ok d) -> NoDup (dkeys d).
Proof.
  induction files as [|name files IH]; intros only state only' d N; cbn [load_files]; [intros E; injection E as <- <-; auto|].
  destruct (open_dataset V fs name) as [ds|]; [|discriminate]. destruct (load_partial_state V order ds props only) as (only1 & [part|]); [|discriminate].
  apply IH. now apply dupdate_NoDup.
Qed.
Lemma load_tile_NoDup dirname label t props only st : load_tile V Date cftime fs order dirname label t props only = Ok st -> NoDup (dkeys (st_vars st)).
Proof.
  unfold load_tile. destruct (load_files _ _ _ _ _ _ _) as (only' & [d|]) eqn:E; [|discriminate]. apply load_files_NoDup in E; [|constructor].
  destruct (quantities_get d E) as (N & _). destruct (_ && _).
  - destruct (open_text V fs _) as [lines|]; [|discriminate]. cbn [bind]. destruct (current_date_from_coupler_res _ _ _); [|discriminate]. cbn [bind]. intros X. injection X as <-. exact N.
  - intros X. injection X as <-. exact N.
Qed.

Lemma py_in_requested only : reusable only -> (fst (py_in "time" only) = true <-> requested only "time").
Proof. destruct only as [|l|l]; cbn; intros R; [easy| |easy]. apply sin_In. Qed.

Theorem load_tile_ok dirname label t props only parts : reusable only -> Forall2 (gives fs order props only) (restart_filenames V fs dirname t label) parts ->
  let coupler := coupler_res_filename dirname label in
  let holds st := forall k q, dget k (st_vars st) = Some q <-> last_loaded parts k = Some (EQuantity q) in
  let load := load_tile V Date cftime fs order dirname label t props only in
  (forall lines, requested only "time" -> fs coupler = File (Text lines) ->
     match current_date_from_coupler_res Date cftime lines with
     | Ok date => exists st, load = Ok st /\ holds st /\ st_time st = Some (TDate date)
     | Err e => load = Err e
     end) /\
  ((~ requested only "time" \/ forall f, fs coupler <> File f) ->
     exists st, load = Ok st /\ holds st /\ st_time st = match last_loaded parts "time" with Some (EArray da) => Some (TArray da) | _ => None end).
Proof.
  intros R F coupler holds load. unfold load, load_tile. rewrite (load_files_ok _ _ _ _ F). fold coupler. set (d := fold_left dupdate parts []).
  assert (N : Forall (fun x => NoDup (dkeys x)) parts). { clear - F. induction F as [|? ? ? ? (N & _)]; constructor; auto. }
  assert (G : forall k, dget k d = last_loaded parts k) by (intros k; now apply updated_get).
  assert (ND : NoDup (dkeys d)). { unfold d. clear. assert (X : NoDup (dkeys ([] : dict (entry V)))) by constructor. revert X. generalize ([] : dict (entry V)). induction parts as [|p parts IH]; intros s X; auto. cbn. apply IH. now apply dupdate_NoDup. }
  destruct (quantities_get d ND) as (_ & Q). assert (H : forall time, holds (mkSt (quantities_of V d) time : state V (time_value V Date))). { intros time k q. cbn [st_vars]. rewrite Q, G. reflexivity. }
  pose proof (py_in_requested only R) as PR. split.
  - intros lines RQ E. rewrite (proj2 PR RQ). unfold is_file, open_text, open_. rewrite E. cbn [andb bind]. destruct (current_date_from_coupler_res _ _ _); cbn [bind]; eauto.
  - intros C. assert (X : is_file V fs coupler && fst (py_in "time" only) = false).
    { destruct C as [C|C]; [apply andb_false_intro2; apply not_true_is_false; tauto|]. apply andb_false_intro1. unfold is_file. destruct (fs coupler) as [| |f] eqn:E; auto. destruct (C f eq_refl). }
    rewrite X. eexists. split; [reflexivity|]. split; [apply H|]. cbn [st_time]. unfold array_time. now rewrite G.
Qed.

Lemma load_files_bad props files name : In name files -> (forall ds, fs name <> File (NetCDF ds)) -> forall only state, exists only' e, load_files V fs order files props only state = (only', Err e).
Proof.
  intros I B. induction files as [|f files IH]; [easy|]. intros only state. cbn [load_files]. destruct (open_dataset V fs f) as [ds|] eqn:E; [|eauto].
  destruct I as [->|I].
  - exfalso. unfold open_dataset, open_ in E. destruct (fs name) as [| |[ds'|]] eqn:X; try discriminate. exact (B ds' eq_refl).
  - destruct (load_partial_state V order ds props only) as (only1 & [part|]); eauto.
Qed.
Theorem missing_file dirname label t props only name : In name RESTART_NAMES -> (forall ds, fs (restart_filename dirname t label name) <> File (NetCDF ds)) ->
  exists e, load_tile V Date cftime fs order dirname label t props only = Err e.
Proof.
  intros I B. unfold load_tile. destruct (load_files_bad props (restart_filenames V fs dirname t label) (restart_filename dirname t label name)) with (only := only) (state := @nil (string * entry V)) as (only' & e & ->); eauto.
  unfold restart_filenames. apply in_flat_map. exists name. split; [apply in_or_app; now left|]. cbn zeta. apply sin_In in I. rewrite I. now left.
Qed.
(** ** distribution *)
Lemma always_ends_ext {Ob W A} size (ps ps' : nat -> proc Ob W A) out : (forall r, (r < size)%nat -> ps r = ps' r) -> always_ends size ps' out -> always_ends size ps out.
Proof.
  intros E. unfold always_ends. assert (X : cstart size ps = cstart size ps'). { unfold cstart. apply map_ext_in. intros r I. apply in_seq in I. now rewrite E by lia. }
  now rewrite X.
Qed.
Lemma own_tile layout t r : (1 <= fst layout)%Z -> (1 <= snd layout)%Z -> (0 <= r < fst layout * snd layout)%Z -> tile_index layout (t * (fst layout * snd layout) + r) = Ok t.
Proof. intros H1 H2 Hr. rewrite tile_index_eq by auto. f_equal. rewrite Z.add_comm, Z.div_add by lia. rewrite Z.div_small by lia. lia. Qed.

Lemma open_restart_tog dirname (layout : Z * Z) t label only tp junk (recvs : nat -> option (state V (time_value V Date))) st (D : string -> list string) (E : string -> list Z) :
  (1 <= fst layout)%Z -> (1 <= snd layout)%Z ->
  load_tile V Date cftime fs order dirname label t (merged_properties tp) only = Ok st ->
  let p := TilePart layout in
  let vars r := match recvs r with Some s => st_vars s | None => [] end in
  (forall name q, dget name (st_vars st) = Some q -> fits layout (D name) (E name) /\ global_sized p (D name) (E name) q /\
     forall r, (r < ranks p)%nat -> given (rank_sized (E name)) (dget name (vars r))) ->
  exists outs, together (ranks p)
      (fun r => open_restart V Date cftime fs order dirname layout (t * (fst layout * snd layout) + Z.of_nat r) (Z.of_nat r) label only (junk r) (recvs r) tp) (fun r => Ok (outs r)) /\
    forall r, (r < ranks p)%nat -> st_time (outs r) = st_time st /\
      (forall name q, dget name (st_vars st) = Some q -> exists q', dget name (st_vars (outs r)) = Some q' /\
         written (or_blank (dget name (vars r)) (blank (D name) (q_units q) (E name) (junk r name 0%nat))) q' (part_of p r (D name) (E name) (domain_of q))) /\
      (forall name, dget name (st_vars st) = None -> dget name (st_vars (outs r)) = dget name (vars r)).
Proof.
  intros H1 H2 L p vars H. assert (RP : (0 < ranks p)%nat) by (cbn; nia).
  destruct (scatter_state_tog p D E st (fun r => Some (match r with O => st | _ => mkSt [] None end)) recvs junk eq_refl (load_tile_NoDup _ _ _ _ _ _ L) RP H) as (outs & A & B).
  exists outs. split; auto. eapply together_ext; [|exact A]. intros r Hr. unfold open_restart. rewrite own_tile; auto; [|cbn in Hr; lia]. cbn [plift pbind].
  destruct r as [|r].
  - change (Z.of_nat 0 =? ROOT_RANK)%Z with true. cbv iota. rewrite L. reflexivity.
  - rewrite not_root by lia. reflexivity.
Qed.
Theorem open_restart_result dirname (layout : Z * Z) t label only tp junk (recvs : nat -> option (state V (time_value V Date))) st (D : string -> list string) (E : string -> list Z) :
  (1 <= fst layout)%Z -> (1 <= snd layout)%Z ->
  load_tile V Date cftime fs order dirname label t (merged_properties tp) only = Ok st ->
  let p := TilePart layout in
  let vars r := match recvs r with Some s => st_vars s | None => [] end in
  (forall name q, dget name (st_vars st) = Some q -> fits layout (D name) (E name) /\ global_sized p (D name) (E name) q /\
     forall r, (r < ranks p)%nat -> given (rank_sized (E name)) (dget name (vars r))) ->
  exists outs, always_ends (ranks p)
      (fun r => open_restart V Date cftime fs order dirname layout (t * (fst layout * snd layout) + Z.of_nat r) (Z.of_nat r) label only (junk r) (recvs r) tp) (fun r => Ok (outs r)) /\
    forall r, (r < ranks p)%nat -> st_time (outs r) = st_time st /\
      (forall name q, dget name (st_vars st) = Some q -> exists q', dget name (st_vars (outs r)) = Some q' /\
         written (or_blank (dget name (vars r)) (blank (D name) (q_units q) (E name) (junk r name 0%nat))) q' (part_of p r (D name) (E name) (domain_of q))) /\
      (forall name, dget name (st_vars st) = None -> dget name (st_vars (outs r)) = dget name (vars r)).
Proof.
  intros H1 H2 L p vars H. destruct (open_restart_tog dirname layout t label only tp junk recvs st D E H1 H2 L H) as (outs & TG & W). exists outs. split; auto. now apply together_always.
Qed.

Theorem open_restart_fails dirname (layout : Z * Z) t label (only : nat -> names_arg) tp junk (recvs : nat -> option (state V (time_value V Date))) e :
  (1 <= fst layout)%Z -> (1 <= snd layout)%Z ->
  load_tile V Date cftime fs order dirname label t (merged_properties tp) (only O) = Err e ->
  let size := ranks (TilePart layout) in
  forall delayed sched s,
  crun delayed sched (cstart size (fun r => open_restart V Date cftime fs order dirname layout (t * (fst layout * snd layout) + Z.of_nat r) (Z.of_nat r) label (only r) (junk r) (recvs r) tp)) = Some s ->
  (exists c, nth_error s 0 = Some c /\ outcome_of c = Some (Err e)) /\ forall r, (0 < r < size)%nat -> exists c, nth_error s r = Some c /\ outcome_of c = None.
Proof.
  intros H1 H2 L size delayed sched s. assert (RP : (0 < size)%nat) by (unfold size; cbn; nia). apply root_raises; auto.
  - unfold open_restart. rewrite own_tile by lia. cbn [plift pbind]. change (Z.of_nat 0 =? ROOT_RANK)%Z with true. cbv iota. rewrite L. reflexivity.
  - intros r Hr. unfold open_restart. rewrite own_tile; auto; [|unfold size in Hr; cbn in Hr; lia]. cbn [plift pbind]. rewrite not_root by lia. cbn [plift pbind]. unfold scatter_state. rewrite not_root by lia. eauto.
Qed.
End Tile.

(** optional files which do not exist are left out *)
(** ** the date of coupler.res *)
Theorem coupler_date {Date} (cftime : Z -> list Z -> res Date) lines date : current_date_from_coupler_res Date cftime lines = Ok date <->
  exists cal rest0 y mo d h mi s rest2, nth 0 lines [] = TInt cal :: rest0 /\ nth 2 lines [] = TInt y :: TInt mo :: TInt d :: TInt h :: TInt mi :: TInt s :: rest2 /\
    (1 <= cal <= 4)%Z /\ cftime cal [y; mo; d; h; mi; s] = Ok date.
Proof.
  unfold current_date_from_coupler_res, integer_tokens. split.
  - destruct (nth 0 lines []) as [|[cal|] l0]; cbn [firstn rmapM bind]; try discriminate. 
    destruct (nth 2 lines []) as [|[y|] [|[mo|] [|[d|] [|[h|] [|[mi|] [|[s|] l2]]]]]]; cbn [firstn rmapM bind]; try discriminate.
    destruct (existsb (Z.eqb cal) FMS_CALENDARS) eqn:X; [|discriminate]. intros E. exists cal, l0, y, mo, d, h, mi, s, l2. repeat (split; auto).
    all: unfold FMS_CALENDARS in X; cbn [existsb] in X; lia.
  - intros (cal & l0 & y & mo & d & h & mi & s & l2 & -> & -> & C & E). cbn [firstn rmapM bind]. replace (existsb (Z.eqb cal) FMS_CALENDARS) with true; auto.
    unfold FMS_CALENDARS. cbn [existsb]. lia.
Qed.

Theorem order_irrelevant {A} order order' (old : dict A) names k : (forall l, Permutation (order l) l) -> (forall l, Permutation (order' l) l) ->
  dget k (map_keys order old names) = dget k (map_keys order' old names).
Proof. intros P P'. now rewrite !map_keys_get. Qed.

Lemma dupdate_app {A} (e : dict A) : forall d, NoDup (dkeys e) -> (forall k, In k (dkeys d) -> ~ In k (dkeys e)) -> dupdate d e = (d ++ e)%list.
Proof.
  unfold dupdate. induction e as [|[k a] e IH]; intros d N H; [cbn; now rewrite app_nil_r|]. inversion_clear N as [|? ? N1 N2]. cbn [fold_left fst snd].
  assert (X : dset k a d = (d ++ [(k, a)])%list). { apply NudgeProofs.dset_new. intros I. apply (H k I). now left. }
  rewrite X, IH, <- app_assoc; auto. intros k' I J. unfold dkeys in I. rewrite map_app in I. apply in_app_or in I. destruct I as [I|[<-|[]]]; [|contradiction].
  apply (H k' I). now right.
Qed.
Theorem standard_name_last props r : dget r (get_restart_standard_names props) = option_map fst (find (fun np => String.eqb (p_restart (snd np)) r) (rev props)).
Proof. unfold get_restart_standard_names. rewrite standard_names_get. now destruct (find _ _). Qed.
Theorem merged_names t r : (forall k, In k (dkeys t) -> ~ In k (dkeys RESTART_PROPERTIES)) ->
  dget r (get_restart_standard_names (merged_properties (Some t))) =
    match dget r (get_restart_standard_names RESTART_PROPERTIES) with Some n => Some n | None => dget r (get_restart_standard_names t) end.
Proof.
  intros H. unfold merged_properties. rewrite dupdate_app; auto using table_NoDup. rewrite !standard_name_last, rev_app_distr, find_app. now destruct (find _ (rev RESTART_PROPERTIES)).
Qed.

Lemma dget_in_values {A} k (d : dict A) a : dget k d = Some a -> In a (map snd d).
Proof. intros E. apply dget_In in E. now apply (in_map snd) in E. Qed.

Definition names_checked (lost : list string) : bool :=
  forallb (fun np => Bool.eqb (match dget (p_restart (snd np)) (get_restart_standard_names RESTART_PROPERTIES) with Some n => String.eqb n (fst np) | None => false end) (negb (sin (fst np) lost))) RESTART_PROPERTIES.
Theorem table_names lost : names_checked lost = true -> forall n p, In (n, p) RESTART_PROPERTIES ->
  (dget (p_restart p) (get_restart_standard_names RESTART_PROPERTIES) = Some n <-> ~ In n lost).
Proof.
  intros C n p I. unfold names_checked in C. rewrite forallb_forall in C. specialize (C _ I). cbn [fst snd] in C. apply eqb_prop in C. rewrite <- sin_In. split.
  - intros E. rewrite E, String.eqb_refl in C. symmetry in C. apply negb_true_iff in C. congruence.
  - intros N. apply not_true_is_false in N. rewrite N in C. destruct (dget _ _) as [n'|]; [|discriminate]. apply String.eqb_eq in C. now subst.
Qed.

Lemma after_spec name : forall l b l', after name l = (b, l') -> (b = true -> In name l) /\ forall x, In x l' -> In x l.
Proof.
  induction l as [|n l IH]; cbn; intros b l' E; [injection E as <- <-; easy|]. destruct (String.eqb_spec name n) as [->|].
  - injection E as <- <-. auto.
  - destruct (IH _ _ E) as (A & B). auto.
Qed.
Lemma names_mono {V} (st : dict (data_array V)) l l' nd : (forall x, In x l' -> In x l) -> In nd (fst (select_names V st (Names l'))) -> In nd (fst (select_names V st (Names l))).
Proof.
  intros H. rewrite !select_names_filter by easy. cbn [fst]. rewrite !filter_In. unfold wanted. intros (I & W). split; auto. apply andb_prop in W. destruct W as (W1 & W2). rewrite W1. cbn [andb].
  apply sin_In. apply H. now apply sin_In.
Qed.
Theorem iterator_subset {V} (st : dict (data_array V)) : forall l nd, In nd (fst (select_names V st (Iterator l))) -> In nd (fst (select_names V st (Names l))).
Proof.
  induction st as [|[name da] st IH]; intros l nd; auto. cbn [select_names]. destruct (_ || _); [|apply IH]. cbn [py_in]. destruct (after name l) as (b & l') eqn:E. destruct (after_spec _ _ _ _ E) as (A & B).
  specialize (IH l' nd). destruct (select_names V st (Iterator l')) as (r & o). assert (X : forall nd, In nd (fst (select_names V st (Names l'))) -> In nd (fst (select_names V st (Names l)))) by (intros ? Y; eapply names_mono; eauto).
  specialize (X nd). destruct (select_names V st (Names l)) as (r' & o'). cbn [fst] in *. destruct b.
  - specialize (A eq_refl). apply sin_In in A. rewrite A. intros [<-|I]; [now left|right; auto].
  - intros I. destruct (sin name l); [right|]; auto.
Qed.
