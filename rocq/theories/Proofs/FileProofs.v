(** Proofs about writing states to files and reading them. *)
From Coq Require Import Permutation.
From Verif.Base Require Import Base Lemmas.
From Verif.Model Require Import Consts Partitioner Numpy Quantity Collective ScatterGather Restart StateIO.
From Verif.Spec Require Import Grid Views Files.
From Verif.Proofs Require Import NumpyProofs ViewProofs NudgeProofs RestartProofs.
Local Open Scope string_scope.

Lemma prefix_split s : forall u, prefix s u = true <-> exists b, u = s ++ b.
Proof.
  induction s as [|c s IH]; intros u; [split; [intros _; exists u; reflexivity|intros _; destruct u; reflexivity]|].
  destruct u as [|c' u]; cbn [prefix append].
  - split; [discriminate|intros (b & E); discriminate E].
  - destruct (Ascii.ascii_dec c c') as [<-|N].
    + rewrite IH. split; intros (b & E); exists b; congruence.
    + split; [discriminate|intros (b & E); congruence].
Qed.
Lemma contains_dates u : contains "since" u = true <-> dates u.
Proof.
  unfold dates. generalize "since". intros s. induction u as [|c u IH].
  - cbn [contains]. rewrite orb_false_r, prefix_split. split.
    + intros (b & E). exists "", b. exact E.
    + intros (a & b & E). destruct a; [|discriminate E]. now exists b.
  - cbn [contains]. rewrite orb_true_iff, prefix_split, IH. split.
    + intros [(b & E)|(a & b & E)]; [exists "", b; exact E|exists (String c a), b; cbn [append]; congruence].
    + intros (a & b & E). destruct a as [|c' a]; [left; now exists b|right; exists a, b; cbn [append] in E; congruence].
Qed.
Lemma durations_sin u : sin u TIME_UNITS = true <-> durations u.
Proof. apply sin_In. Qed.

Section Reading.
Context {V T : Type}.
Variable times_of : dict string -> arr V -> option (arr T).
Notation decode := (decode V T times_of).
Notation read_variable := (read_variable V T).
Notation read_state := (read_state V T times_of).

Lemma is_dimension_spec vars d : is_dimension V vars d = true <-> file_dimension vars d.
Proof.
  unfold is_dimension. rewrite existsb_exists. split.
  - intros ([n da] & I & E). apply sin_In in E. now exists n, da.
  - intros (n & da & I & E). exists (n, da). split; [auto|]. now apply sin_In.
Qed.
Lemma not_dimension vars d : is_dimension V vars d = false <-> ~ file_dimension vars d.
Proof. rewrite <- is_dimension_spec. destruct (is_dimension V vars d); split; congruence. Qed.

Definition decodable (da : data_array V) : Prop := forall u, units_of da = Some u -> dates u -> times_of (da_attrs da) (da_data da) <> None.
Lemma decode_cases da : (exists d, decode da = Ok d /\ decodable da) \/ (decode da = Err ValueError /\ ~ decodable da).
Proof.
  unfold StateIO.decode, decodable, units_of. destruct (dget "units" (da_attrs da)) as [u|]; [|left; eexists; split; [reflexivity|discriminate]].
  destruct (contains "since" u) eqn:C.
  - apply contains_dates in C. destruct (times_of (da_attrs da) (da_data da)) eqn:E.
    + left. eexists. split; [reflexivity|]. discriminate.
    + right. split; [reflexivity|]. intros H. now apply (H u).
  - left. assert (N : ~ dates u) by (rewrite <- contains_dates; congruence).
    destruct (sin u TIME_UNITS); eexists; (split; [reflexivity|]); intros u' E; injection E as <-; tauto.
Qed.
Definition dec (da : data_array V) : decoded V T := match decode da with Ok d => d | Err _ => DDurations V T end.
Definition tagged (v : string * data_array V) : string * (data_array V * decoded V T) := (fst v, (snd v, dec (snd v))).
Lemma decode_all vars :
  (Forall (fun v => decodable (snd v)) vars /\ rmapM (fun v => do d <- decode (snd v); Ok (fst v, (snd v, d))) vars = Ok (map tagged vars)) \/
  (~ Forall (fun v => decodable (snd v)) vars /\ rmapM (fun v => do d <- decode (snd v); Ok (fst v, (snd v, d))) vars = Err ValueError).
Proof.
  induction vars as [|[n da] vars IH]; [left; split; [constructor|reflexivity]|]. cbn [rmapM fst snd map tagged].
  destruct (decode_cases da) as [(d & E & H)|(E & H)].
  - rewrite E. cbn [bind]. destruct IH as [(F & ->)|(F & ->)]; [left|right].
    + split; [now constructor|]. cbn [bind]. unfold tagged, dec. cbn [fst snd]. now rewrite E.
    + split; [|reflexivity]. intros X. apply F. now inversion X.
  - right. rewrite E. split; [|reflexivity]. intros X. apply H. now inversion X.
Qed.

Lemma filter_tagged (f : string -> bool) vars : filter (fun v => f (fst v)) (map tagged vars) = map tagged (filter (fun v => f (fst v)) vars).
Proof. induction vars as [|v vars IH]; [reflexivity|]. cbn [map filter tagged fst]. destruct (f (fst v)); cbn [map]; now rewrite IH. Qed.

(** one variable *)
Definition sized (v : string * data_array V) : Prop := length (da_dims (snd v)) = length (shp (da_data (snd v))).
Definition fine (v : string * data_array V) : Prop :=
  if String.eqb (fst v) "time" then da_dims (snd v) = [] /\ exists u, units_of (snd v) = Some u /\ dates u
  else exists u, units_of (snd v) = Some u /\ ~ dates u /\ ~ durations u.
Lemma from_fine da u : length (da_dims da) = length (shp (da_data da)) -> units_of da = Some u ->
  exists q, from_data_array V da = Ok q /\ holds da q.
Proof.
  intros L E. unfold from_data_array, units_of in *. rewrite E. unfold new_quantity. cbn [bind]. unfold validate_lengths.
  assert (M : map2 Z.sub (shp (da_data da)) (map (fun _ => 0%Z) (da_dims da)) = shp (da_data da)).
  { revert L. generalize (shp (da_data da)). induction (da_dims da) as [|d0 l0 IHl]; intros [|s l]; cbn [length map map2]; intros X; try discriminate X; [reflexivity|].
    rewrite IHl by lia. f_equal. lia. }
  rewrite M, map_length, L, !Nat.eqb_refl. cbn [negb andb orb bind].
  eexists. split; [reflexivity|]. unfold holds, units_of. cbn. auto.
Qed.
Lemma dec_numbers da u : units_of da = Some u -> ~ dates u -> ~ durations u -> dec da = DNumbers V T da.
Proof.
  intros E N N'. unfold dec, StateIO.decode, units_of in *. rewrite E.
  destruct (contains "since" u) eqn:C; [apply contains_dates in C; tauto|].
  destruct (sin u TIME_UNITS) eqn:C'; [apply durations_sin in C'; tauto|]. reflexivity.
Qed.
Lemma dec_dates da u : units_of da = Some u -> dates u -> forall a, times_of (da_attrs da) (da_data da) = Some a -> dec da = DDates V T a.
Proof. intros E N a A. unfold dec, StateIO.decode, units_of in *. rewrite E. apply contains_dates in N. now rewrite N, A. Qed.
Lemma dec_not_numbers da : decodable da -> ~ (exists u, units_of da = Some u /\ ~ dates u /\ ~ durations u) ->
  units_of da = None /\ dec da = DNumbers V T da \/ (exists a, dec da = DDates V T a) \/ dec da = DDurations V T.
Proof.
  intros D N. unfold dec, StateIO.decode, decodable, units_of in *. destruct (dget "units" (da_attrs da)) as [u|]; [|auto].
  right. destruct (contains "since" u) eqn:C.
  - destruct (times_of (da_attrs da) (da_data da)); eauto.
  - destruct (sin u TIME_UNITS) eqn:C'; [auto|]. exfalso. apply N. exists u. split; [auto|]. rewrite <- contains_dates, <- durations_sin. rewrite C, C'. split; congruence.
Qed.
Lemma dec_not_dates da : decodable da -> ~ (exists u, units_of da = Some u /\ dates u) -> forall a, dec da <> DDates V T a.
Proof.
  intros D N a. unfold dec, StateIO.decode, decodable, units_of in *. destruct (dget "units" (da_attrs da)) as [u|]; [|discriminate].
  destruct (contains "since" u) eqn:C; [|destruct (sin u TIME_UNITS); discriminate].
  exfalso. apply N. exists u. split; [auto|]. now apply contains_dates.
Qed.

Lemma read_one st v : sized v -> decodable (snd v) ->
  (fine v /\ exists st', read_variable st (tagged v) = Ok st' /\
     ((fst v = "time" /\ st_vars st' = st_vars st /\ exists a, times_of (da_attrs (snd v)) (da_data (snd v)) = Some a /\ st_time st' = Some (at_ a [])) \/
      (fst v <> "time" /\ st_time st' = st_time st /\ exists q, holds (snd v) q /\ st_vars st' = dset (fst v) q (st_vars st)))) \/
  (~ fine v /\ read_variable st (tagged v) = Err ValueError).
Proof.
  destruct v as [n da]. unfold sized, fine, tagged. cbn [fst snd]. intros L D. unfold StateIO.read_variable.
  destruct (String.eqb n "time") eqn:E.
  - apply String.eqb_eq in E. unfold extract_time. destruct (da_dims da) as [|d dims] eqn:ED.
    + unfold dec at 1 2. destruct (decode_cases da) as [(x & Ex & _)|(Ex & N)]; [|tauto]. rewrite Ex.
      assert (Edec : dec da = x) by (unfold dec; now rewrite Ex).
      destruct x as [da'|a|].
      * right. split; [|reflexivity]. intros (_ & u & U & X). pose proof X as X'. apply contains_dates in X. unfold StateIO.decode, units_of in *. rewrite U, X in Ex. destruct (times_of _ _); discriminate.
      * left. assert (A : times_of (da_attrs da) (da_data da) = Some a /\ exists u, units_of da = Some u /\ dates u).
        { unfold StateIO.decode, units_of in *. destruct (dget "units" (da_attrs da)) as [u|]; [|discriminate]. destruct (contains "since" u) eqn:C; [|destruct (sin u TIME_UNITS); discriminate].
          destruct (times_of (da_attrs da) (da_data da)); [|discriminate]. injection Ex as <-. split; [auto|]. exists u. split; [auto|]. now apply contains_dates. }
        destruct A as [A U]. split; [auto|]. cbn [bind]. eexists. split; [reflexivity|]. left. cbn [st_vars st_time]. repeat split; auto. exists a. auto.
      * right. split; [|reflexivity]. intros (_ & u & U & X). apply contains_dates in X. unfold StateIO.decode, units_of in *. rewrite U, X in Ex. destruct (times_of _ _); discriminate.
    + right. split; [|reflexivity]. intros (X & _). discriminate.
  - apply String.eqb_neq in E.
    assert (Cl : (exists u, units_of da = Some u /\ ~ dates u /\ ~ durations u) \/ ~ (exists u, units_of da = Some u /\ ~ dates u /\ ~ durations u)).
    { destruct (units_of da) as [u|]; [|right; intros (u & X & _); discriminate].
      destruct (contains "since" u) eqn:C1; [right; intros (u' & X & Y & _); injection X as <-; apply Y; now apply contains_dates|].
      destruct (sin u TIME_UNITS) eqn:C2; [right; intros (u' & X & _ & Y); injection X as <-; apply Y; now apply durations_sin|].
      left. exists u. rewrite <- contains_dates, <- durations_sin. rewrite C1, C2. repeat split; congruence. }
    destruct Cl as [(u & U & N & N')|N].
    + left. split; [now exists u|]. rewrite (dec_numbers da u U N N'). destruct (from_fine da u L U) as (q & -> & H). cbn [bind].
      eexists. split; [reflexivity|]. right. cbn [st_vars st_time]. repeat split; auto. now exists q.
    + right. split; [exact N|]. destruct (dec_not_numbers da D N) as [(U & ->)|[(a & ->)| ->]]; [|reflexivity|reflexivity].
      unfold from_data_array, units_of in *. now rewrite U.
Qed.

Lemma read_all l : forall st, Forall sized l -> Forall (fun v => decodable (snd v)) l -> NoDup (dkeys l) -> (forall n, In n (dkeys l) -> ~ In n (dkeys (st_vars st))) -> NoDup (dkeys (st_vars st)) ->
  (Forall fine l /\ exists st', rfold read_variable (map tagged l) st = Ok st' /\ NoDup (dkeys (st_vars st')) /\
     (forall n q, In (n, q) (st_vars st') -> In (n, q) (st_vars st) \/ n <> "time" /\ exists da, In (n, da) l /\ holds da q) /\
     (forall n, In n (dkeys (st_vars st')) <-> In n (dkeys (st_vars st)) \/ n <> "time" /\ In n (dkeys l)) /\
     (forall t, st_time st' = Some t <-> (exists da a, In ("time", da) l /\ times_of (da_attrs da) (da_data da) = Some a /\ t = at_ a []) \/ ~ In "time" (dkeys l) /\ st_time st = Some t)) \/
  (~ Forall fine l /\ rfold read_variable (map tagged l) st = Err ValueError).
Proof.
  induction l as [|v l IH]; intros st Sz De Nd Dj Ns.
  - left. split; [constructor|]. exists st. cbn [map rfold dkeys]. split; [reflexivity|]. split; [exact Ns|]. split; [auto|split].
    + intros n. split; [auto|]. intros [X|(_ & [])]; exact X.
    + intros t. split; [intros X; right; split; [intros []|exact X]|]. intros [(da & a & [] & _)|(_ & X)]; exact X.
  - inversion Sz as [|? ? S1 Sl]. inversion De as [|? ? D1 Dl]. subst. cbn [dkeys map] in Nd. inversion Nd as [|? ? Nn Nl]. subst.
    cbn [map rfold]. destruct (read_one st v S1 D1) as [(F & st1 & -> & H)|(F & ->)].
    2: { right. split; [|reflexivity]. intros X. now inversion X. }
    cbn [bind].
    assert (K1 : NoDup (dkeys (st_vars st1)) /\ (forall n, In n (dkeys l) -> ~ In n (dkeys (st_vars st1)))).
    { destruct H as [(_ & -> & _)|(_ & _ & q & _ & ->)].
      - split; [auto|]. intros n I. apply Dj. now right.
      - split; [now apply NoDup_dset|]. intros n I X. apply in_dkeys_dset in X. destruct X as [->|X]; [tauto|]. apply (Dj n); [now right|auto]. }
    destruct K1 as [K1 K2]. destruct (IH st1 Sl Dl Nl K2 K1) as [(Fl & st' & E & N' & Q & K & Tm)|(Fl & E)].
    2: { right. split; [intros X; apply Fl; now inversion X|exact E]. }
    left. split; [now constructor|]. exists st'. split; [exact E|]. split; [exact N'|]. destruct v as [n0 da0]. cbn [fst snd] in *.
    destruct H as [(-> & Ev & a & A & Et)|(Nt & Et & q0 & H0 & Ev)].
    + rewrite Ev in *. split; [|split].
      * intros n q I. destruct (Q n q I) as [X|(X & da & I' & Hd)]; [auto|]. right. split; [auto|]. exists da. split; [now right|auto].
      * intros n. rewrite K. cbn [dkeys map fst In]. split; intros [X|(X & Y)]; auto. destruct Y as [Y|Y]; [congruence|auto].
      * intros t. rewrite Tm. cbn [dkeys map fst In]. rewrite Et. split.
        -- intros [(da & a' & I & A' & ->)|(_ & X)].
           ++ left. exists da, a'. auto.
           ++ left. exists da0, a. repeat split; auto. congruence.
        -- intros [(da & a' & [I|I] & A' & ->)|(X & _)]; [| |tauto].
           ++ right. injection I as <-. split; [exact Nn|congruence].
           ++ left. exists da, a'. auto.
    + rewrite Ev in *. split; [|split].
      * intros n q I. destruct (Q n q I) as [X|(X & da & I' & Hd)].
        -- apply dget_NoDup in X; [|now apply NoDup_dset]. rewrite dget_dset in X. destruct (String.eqb n n0) eqn:C.
           ++ apply String.eqb_eq in C as ->. injection X as <-. right. split; [auto|]. exists da0. split; [now left|auto].
           ++ left. now apply dget_In.
        -- right. split; [auto|]. exists da. split; [now right|auto].
      * intros n. rewrite K, in_dkeys_dset. cbn [dkeys map fst In]. split.
        -- intros [[->|X]|(X & Y)]; auto.
        -- intros [X|(X & [->|Y])]; auto.
      * intros t. rewrite Tm. cbn [dkeys map fst In]. rewrite Et. split.
        -- intros [(da & a' & I & A' & ->)|(X & Y)]; [left; exists da, a'; auto|right; split; [intros [Z'|Z']; [congruence|tauto]|auto]].
        -- intros [(da & a' & [I|I] & A' & ->)|(X & Y)]; [congruence|left; exists da, a'; auto|right; tauto].
Qed.

Lemma readable_fine vars : readable times_of vars <->
  Forall (fun v => decodable (snd v)) vars /\ Forall fine (filter (fun v => negb (is_dimension V vars (fst v))) vars).
Proof.
  rewrite !Forall_forall. unfold readable, decodable, fine. split.
  - intros (A & B & C). split; [intros [n da] I; cbn [snd]; intros u; apply (A n da u I)|].
    intros [n da] I. apply filter_In in I. cbn [fst snd] in *. destruct I as [I X]. apply negb_true_iff, not_dimension in X.
    destruct (String.eqb n "time") eqn:E; [apply String.eqb_eq in E as ->; auto|apply String.eqb_neq in E; eauto].
  - intros (A & B). split; [intros n da u I; apply (A (n, da) I)|]. split.
    + intros n da I X N. assert (J : In (n, da) (filter (fun v => negb (is_dimension V vars (fst v))) vars)).
      { apply filter_In. split; [auto|]. cbn [fst]. apply negb_true_iff. now apply not_dimension. }
      specialize (B _ J). cbn [fst snd] in B. apply String.eqb_neq in N. now rewrite N in B.
    + intros da I X. assert (J : In ("time", da) (filter (fun v => negb (is_dimension V vars (fst v))) vars)).
      { apply filter_In. split; [auto|]. cbn [fst]. apply negb_true_iff. now apply not_dimension. }
      exact (B _ J).
Qed.

Theorem read_any fs filename vars : dget filename fs = Some vars -> sound_file vars ->
  (readable times_of vars /\ exists st, read_state fs filename = Ok st /\ contents_of times_of vars st) \/
  (~ readable times_of vars /\ read_state fs filename = Err ValueError).
Proof.
  intros E [Nd Sz]. unfold StateIO.read_state. rewrite E, readable_fine.
  destruct (decode_all vars) as [(D & ->)|(D & ->)]; [|right; split; [tauto|reflexivity]]. cbn [bind].
  rewrite (filter_tagged (fun n => negb (is_dimension V vars n))).
  set (l := filter (fun v => negb (is_dimension V vars (fst v))) vars).
  assert (I0 : forall v, In v l <-> In v vars /\ ~ file_dimension vars (fst v)).
  { intros v. unfold l. rewrite filter_In, negb_true_iff, not_dimension. tauto. }
  destruct (read_all l (mkSt [] None)) as [(F & st & -> & N' & Q & K & Tm)|(F & ->)].
  - apply Forall_forall. intros [n da] I. apply I0 in I. apply (Sz n da). tauto.
  - rewrite Forall_forall in D |- *. intros v I. apply D. now apply I0.
  - now apply NoDup_filter_keys.
  - intros n _ [].
  - constructor.
  - left. split; [tauto|]. exists st. split; [reflexivity|]. unfold contents_of. split; [exact N'|].
    split; [|split].
    + intros n q I. destruct (Q n q I) as [[]|(_ & da & J & H)]. exists da. split; [|auto]. apply I0 in J. tauto.
    + intros n. rewrite K. cbn [st_vars dkeys map In]. split.
      * intros [[]|(X & Y)]. apply in_map_iff in Y. destruct Y as (v & <- & Y). apply I0 in Y. repeat split; try tauto. apply in_map. tauto.
      * intros (X & Y & Z'). right. split; [auto|]. apply in_map_iff in Z'. destruct Z' as (v & <- & Z'). apply in_map. apply I0. tauto.
    + intros t. rewrite Tm. cbn [st_time]. split.
      * intros [(da & a & J & A & ->)|(_ & X)]; [|discriminate]. apply I0 in J. exists da, a. tauto.
      * intros (da & a & J & X & A & ->). left. exists da, a. split; [|auto]. now apply I0.
  - right. split; [tauto|reflexivity].
Qed.
End Reading.

Lemma sizes_agree_spec l : sizes_agree l = true <-> forall d n n', In (d, n) l -> In (d, n') l -> n = n'.
Proof.
  induction l as [|[d n] l IH]; cbn [sizes_agree]; [split; [intros _ ? ? ? []|reflexivity]|].
  rewrite andb_true_iff, IH, forallb_forall. split.
  - intros (A & B) d' m m' [E|I] [E'|I'].
    + congruence.
    + injection E as -> ->. specialize (A _ I'). cbn [fst snd] in A. rewrite String.eqb_refl in A. cbn in A. lia.
    + injection E' as -> ->. specialize (A _ I). cbn [fst snd] in A. rewrite String.eqb_refl in A. cbn in A. lia.
    + eauto.
  - intros H. split; [|intros d' m m' I I'; apply (H d'); now right].
    intros [d' m] I. cbn [fst snd]. destruct (String.eqb d d') eqn:E; [|reflexivity]. apply String.eqb_eq in E as <-. cbn. apply Z.eqb_eq. apply (H d); [now left|now right].
Qed.
Lemma in_combine_nth {A B} (l : list A) : forall (l' : list B) a b, In (a, b) (combine l l') <-> exists i, nth_error l i = Some a /\ nth_error l' i = Some b.
Proof.
  induction l as [|x l IH]; intros [|y l'] a b; cbn [combine In].
  - split; [intros []|intros (i & X & _); destruct i; discriminate].
  - split; [intros []|intros (i & X & _); destruct i; discriminate].
  - split; [intros []|intros (i & _ & X); destruct i; discriminate].
  - rewrite IH. split.
    + intros [E|(i & X)]; [exists 0%nat; cbn; split; congruence|exists (S i); exact X].
    + intros ([|i] & X & Y); [left; cbn in *; congruence|right; exists i; auto].
Qed.
Lemma rmapM_pairs {A B} (f : A -> res B) (P : A -> B -> Prop) l : (forall n a, In (n, a) l -> exists b, f a = Ok b /\ P a b) ->
  exists l', rmapM (fun na => do b <- f (snd na); Ok (fst na, b)) l = Ok l' /\ Forall2 (fun na nb => fst na = fst nb /\ P (snd na) (snd nb)) l l' (A := string * A) (B := string * B).
Proof.
  induction l as [|[n a] l IH]; intros H; [exists []; split; [reflexivity|constructor]|].
  destruct (H n a) as (b & E & Hb); [now left|]. destruct IH as (l' & El & F); [intros n' a' I; apply (H n'); now right|].
  exists ((n, b) :: l'). split; [cbn [rmapM fst snd]; rewrite E; cbn [bind]; rewrite El; reflexivity|]. constructor; auto.
Qed.
Lemma pairs_keys {A B} (P : A -> B -> Prop) (l : dict A) (l' : dict B) : Forall2 (fun na nb => fst na = fst nb /\ P (snd na) (snd nb)) l l' -> dkeys l = dkeys l'.
Proof. unfold dkeys. induction 1 as [|? ? ? ? [E _] ? IH]; [reflexivity|]. cbn [map]. now rewrite E, IH. Qed.
Lemma pairs_left {A B} (P : A -> B -> Prop) (l : dict A) (l' : dict B) n a : Forall2 (fun na nb => fst na = fst nb /\ P (snd na) (snd nb)) l l' -> In (n, a) l -> exists b, In (n, b) l' /\ P a b.
Proof.
  induction 1 as [|[n0 a0] [n1 b1] ? ? [E H] F IH]; intros []; cbn [fst snd] in *.
  - injection H0 as -> ->. exists b1. subst. split; [now left|auto].
  - destruct (IH H0) as (b & I & Hb). exists b. split; [now right|auto].
Qed.
Lemma pairs_right {A B} (P : A -> B -> Prop) (l : dict A) (l' : dict B) n b : Forall2 (fun na nb => fst na = fst nb /\ P (snd na) (snd nb)) l l' -> In (n, b) l' -> exists a, In (n, a) l /\ P a b.
Proof.
  induction 1 as [|[n0 a0] [n1 b1] ? ? [E H] F IH]; intros []; cbn [fst snd] in *.
  - injection H0 as -> ->. exists a0. subst. split; [now left|auto].
  - destruct (IH H0) as (a & I & Hb). exists a. split; [now right|auto].
Qed.

Section Writing.
Context {V T : Type}.
Variable time_number : T -> V.
Variable time_attrs : T -> dict string.
Variable arrange : dict (data_array V) -> dict (data_array V).
Hypothesis arranged : forall vars, Permutation (arrange vars) vars.
Notation to_dataset := (to_dataset V T time_number time_attrs).
Notation write_state := (write_state V T time_number time_attrs arrange).

Definition stored (q : quantity V) (da : data_array V) : Prop :=
  da_dims da = q_dims q /\ da_attrs da = [("units", q_units q)] /\ same (da_data da) (domain_of q).
Lemma stored_array q : well_formed (q_meta q) -> exists da, to_data_array V q = Ok da /\ stored q da.
Proof.
  intros W. unfold to_data_array. destruct (q_extent q) as [|e es] eqn:E.
  - pose proof W as [_ A]. cbn [q_meta m_origin m_extent m_shape] in A. rewrite E in A.
    assert (O : q_origin q = []) by (inversion A; auto). assert (Sh : shp (q_data q) = []) by (inversion A; auto).
    unfold view_get, view_index. cbn [q_meta m_origin]. rewrite O. cbn [zero_dim_index IALL is_full_slice bind rmap].
    eexists. split; [reflexivity|]. split; [reflexivity|]. split; [reflexivity|]. unfold same, domain_of. cbn [da_data v_read v_whole shp vshp vmap m_shape q_meta at_]. rewrite Sh, E. split; [reflexivity|].
    intros p I. destruct p; [|inversion I]. now rewrite O.
  - destruct (get_single q W) as (a & -> & Sh & H); [congruence|]. cbn [bind]. eexists. split; [reflexivity|]. split; [reflexivity|]. split; [reflexivity|].
    split; [exact Sh|]. intros p I. cbn [da_data] in I. rewrite Sh in I. now apply H.
Qed.
Definition time_array (t : T) : data_array V := mkDA (mkA [] (fun _ => time_number t)) [] (time_attrs t).

Section State.
Variable st : state V T.
Hypothesis Snd : sound_state st.
Variable l : dict (data_array V).
Hypothesis F : Forall2 (fun nq nd => fst nq = fst nd /\ stored (snd nq) (snd nd)) (st_vars st) l.
Variable t : T.
Notation all := (l ++ [("time", time_array t)])%list.

Lemma all_dimension d : file_dimension all d <-> a_dimension st d.
Proof.
  split.
  - intros (n & da & I & X). apply in_app_or in I. destruct I as [I|[I|[]]].
    + destruct (pairs_right _ _ _ _ _ F I) as (q & Iq & S1 & _). exists n, q. split; [auto|congruence].
    + injection I as <- <-. destruct X.
  - intros (n & q & I & X). destruct (pairs_left _ _ _ _ _ F I) as (da & Id & S1 & _). exists n, da. split; [apply in_or_app; now left|congruence].
Qed.
Lemma all_sizes d s : In (d, s) (sizes V all) <-> exists n q, In (n, q) (st_vars st) /\ has_size q d s.
Proof.
  unfold sizes. rewrite in_flat_map. split.
  - intros ([n da] & I & X). apply in_app_or in I. destruct I as [I|[I|[]]].
    + destruct (pairs_right _ _ _ _ _ F I) as (q & Iq & S1 & _ & S3 & _). exists n, q. split; [auto|]. apply in_combine_nth in X. cbn [snd] in X. rewrite S1, S3 in X. exact X.
    + injection I as <- <-. destruct X.
  - intros (n & q & I & X). destruct (pairs_left _ _ _ _ _ F I) as (da & Id & S1 & _ & S3 & _). exists (n, da). split; [apply in_or_app; now left|].
    apply in_combine_nth. cbn [snd]. rewrite S1, S3. exact X.
Qed.
Lemma dataset_fits : st_time st = Some t -> (fits st /\ xr_dataset V all = Ok all) \/ (~ fits st /\ xr_dataset V all = Err ValueError).
Proof.
  intros Et. unfold xr_dataset. match goal with |- context [if ?b then _ else _] => assert (X : b = true <-> fits st) end.
  2: { match goal with |- context [if ?b then _ else _] => destruct b end; [left|right]; (split; [|reflexivity]); [tauto|]. intros Y. apply X in Y. discriminate. }
  rewrite !andb_true_iff, !forallb_forall, sizes_agree_spec. unfold fits. split.
  - intros ((A & B) & C). split; [congruence|]. split; [|split; [|split]].
    + intros n q n' q' d s s' I I' H H'. apply (C d); apply all_sizes; eauto.
    + intros n q I Id. destruct (pairs_left _ _ _ _ _ F I) as (da & Ia & S1 & _). specialize (A (n, da) (in_or_app _ _ _ (or_introl Ia))). cbn [fst snd] in A. rewrite S1 in A.
      apply sin_In in Id as Id'. rewrite Id' in A. cbn [negb orb] in A. apply Nat.eqb_eq in A. destruct (q_dims q) as [|d [|]]; try discriminate. destruct Id as [->|[]]. reflexivity.
    + intros n q I Id E. destruct (pairs_left _ _ _ _ _ F I) as (da & Ia & S1 & _). specialize (B (n, da) (in_or_app _ _ _ (or_introl Ia))). cbn [fst snd] in B.
      apply all_dimension, is_dimension_spec in Id. rewrite Id, S1, E in B. discriminate.
    + intros Id. specialize (B ("time", time_array t) ltac:(apply in_or_app; right; left; reflexivity)). cbn [fst snd] in B. apply all_dimension, is_dimension_spec in Id. rewrite Id in B. discriminate.
  - intros (_ & A & B & C & D). split; [split|].
    + intros [n da] I. cbn [fst snd]. apply in_app_or in I. destruct I as [I|[I|[]]]; [|injection I as <- <-; reflexivity].
      destruct (pairs_right _ _ _ _ _ F I) as (q & Iq & S1 & _). rewrite S1. destruct (sin n (q_dims q)) eqn:Sn; [|reflexivity]. apply sin_In in Sn. now rewrite (B n q Iq Sn).
    + intros [n da] I. cbn [fst snd]. destruct (is_dimension V all n) eqn:Id; [|reflexivity]. apply is_dimension_spec, all_dimension in Id. cbn [negb orb].
      apply in_app_or in I. destruct I as [I|[I|[]]]; [|injection I as <- <-; tauto].
      destruct (pairs_right _ _ _ _ _ F I) as (q & Iq & S1 & _). rewrite S1. specialize (C n q Iq Id). destruct (q_dims q); [congruence|reflexivity].
    + intros d s s' I I'. apply all_sizes in I, I'. destruct I as (n & q & I & H), I' as (n' & q' & I' & H'). eauto.
Qed.
Lemma all_keys : dkeys all = (dkeys (st_vars st) ++ ["time"])%list.
Proof. rewrite (pairs_keys _ _ _ F). unfold dkeys. now rewrite map_app. Qed.
Lemma arranged_dimension d : file_dimension (arrange all) d <-> a_dimension st d.
Proof.
  rewrite <- all_dimension. split; intros (n & da & I & X); exists n, da; (split; [|auto]).
  - eapply Permutation_in; [apply arranged|exact I].
  - eapply Permutation_in; [apply Permutation_sym, arranged|exact I].
Qed.
Lemma arranged_in v : In v (arrange all) <-> In v l \/ v = ("time", time_array t).
Proof.
  split.
  - intros I. apply (Permutation_in _ (arranged all)), in_app_or in I. destruct I as [I|[I|[]]]; auto.
  - intros I. eapply Permutation_in; [apply Permutation_sym, arranged|]. apply in_or_app. destruct I as [I| ->]; [now left|right; now left].
Qed.
Lemma arranged_sound : sound_file (arrange all).
Proof.
  destruct Snd as (Nd & Nt & W). split.
  - eapply Permutation_NoDup; [apply Permutation_sym, Permutation_map, arranged|]. fold (dkeys all). rewrite all_keys.
    apply NoDup_app; auto. + constructor; [intros []|constructor]. + intros a I [<-|[]]. tauto.
  - intros n da I. apply arranged_in in I. destruct I as [I|I]; [|injection I as -> ->; reflexivity].
    destruct (pairs_right _ _ _ _ _ F I) as (q & Iq & S1 & _ & S3 & _). destruct (W n q Iq) as [[L A] _]. rewrite S1, S3. cbn [domain_of shp].
    cbn [q_meta m_dims m_shape m_origin m_extent] in *. rewrite L. clear -A. induction A; cbn [length]; lia.
Qed.
End State.

Theorem written_or_not fs st filename : sound_state st ->
  (fits st /\ exists vars, write_state fs st filename = (dset filename vars fs, Ok tt) /\ sound_file vars /\ forall n, In n (dkeys vars) <-> n = "time" \/ In n (dkeys (st_vars st))) \/
  (~ fits st /\ write_state fs st filename = (fs, Err ValueError)).
Proof.
  intros Snd. unfold StateIO.write_state. destruct (st_time st) as [t|] eqn:Et; [|right; split; [intros (X & _); congruence|reflexivity]].
  destruct (rmapM_pairs (to_data_array V) stored (st_vars st)) as (l & E & F).
  { intros n q I. apply stored_array. destruct Snd as (_ & _ & W). apply (W n q I). }
  unfold StateIO.to_dataset. rewrite E. cbn [bind]. rewrite Et. fold (time_array t).
  destruct (dataset_fits st l F t Et) as [(H & ->)|(H & ->)]; [left|right; auto].
  split; [exact H|]. eexists. split; [reflexivity|]. split; [now apply (arranged_sound st Snd)|].
  intros n. unfold dkeys at 1. rewrite in_map_iff. rewrite <- (map_id (dkeys (st_vars st))), (pairs_keys _ _ _ F), map_id. unfold dkeys. split.
  - intros (v & <- & I). apply (arranged_in l) in I. destruct I as [I| ->]; [right; now apply in_map|now left].
  - intros [->|I]; [exists ("time", time_array t); split; [reflexivity|apply (arranged_in l); now right]|].
    apply in_map_iff in I. destruct I as (v & <- & I). exists v. split; [reflexivity|]. apply (arranged_in l). now left.
Qed.

Variable times_of : dict string -> arr V -> option (arr T).
Notation read_state := (read_state V T times_of).
Lemma holds_restored q da q' : stored q da -> holds da q' -> restored q q'.
Proof.
  intros (A & B & C & C') (D & E & E' & G & K). unfold restored, units_of in *. rewrite B in E'. cbn in E'. injection E' as E'. rewrite D, K, G, E, A, C. cbn [domain_of shp] in *.
  repeat split; auto. 
Qed.

Theorem round_trip fs st filename : dates_kept time_number time_attrs times_of -> sound_state st -> fits st ->
  (forall n q, In (n, q) (st_vars st) -> ~ dates (q_units q) /\ (~ a_dimension st n -> ~ durations (q_units q))) ->
  exists fs' st', write_state fs st filename = (fs', Ok tt) /\ (forall g, g <> filename -> dget g fs' = dget g fs) /\
    read_state fs' filename = Ok st' /\ restored_state st st'.
Proof.
  intros DK Snd Fit Un. unfold StateIO.write_state. destruct (st_time st) as [t|] eqn:Et; [|destruct Fit; congruence].
  destruct (rmapM_pairs (to_data_array V) stored (st_vars st)) as (l & E & F).
  { intros n q I. apply stored_array. destruct Snd as (_ & _ & W). apply (W n q I). }
  unfold StateIO.to_dataset. rewrite E. cbn [bind]. rewrite Et. fold (time_array t).
  destruct (dataset_fits st l F t Et) as [(H & ->)|(H & _)]; [|tauto].
  set (vars := arrange (l ++ [("time", time_array t)])%list).
  pose proof (arranged_sound st Snd l F t) as So. fold vars in So.
  assert (Nt : ~ a_dimension st "time") by apply Fit.
  assert (Dm : forall d, file_dimension vars d <-> a_dimension st d) by (intros d; now apply arranged_dimension).
  assert (In' : forall v, In v vars <-> In v l \/ v = ("time", time_array t)) by (intros v; apply arranged_in).
  destruct (DK t) as ((u & U & Du) & a & A & At).
  assert (NotTime : forall da, ~ In ("time", da) l).
  { intros da I. destruct (pairs_right _ _ _ _ _ F I) as (q & Iq & _). destruct Snd as (_ & X & _). apply X. apply in_map_iff. exists ("time", q). auto. }
  destruct (read_any times_of (dset filename vars fs) filename vars) as [(_ & st' & R & Nd & C1 & C2 & C3)|(N & _)].
  - rewrite dget_dset, String.eqb_refl. reflexivity.
  - exact So.
  - exists (dset filename vars fs), st'. split; [reflexivity|]. split; [|split; [exact R|]].
    { intros g Ng. rewrite dget_dset. apply String.eqb_neq in Ng. now rewrite Ng. }
    split; [|split; [|split]].
    + rewrite Et. apply C3. exists (time_array t), a. split; [apply In'; now right|]. rewrite Dm. auto.
    + intros n. rewrite C2, Dm. split.
      * intros (X & Y & Z'). split; [|exact Y]. apply in_map_iff in Z'. destruct Z' as (v & <- & I). apply In' in I. destruct I as [I| ->]; [|cbn [fst] in X; congruence].
        rewrite (pairs_keys _ _ _ F). now apply in_map.
      * intros (X & Y). split; [|split; [exact Y|]].
        -- intros ->. destruct Snd as (_ & Z' & _). tauto.
        -- rewrite (pairs_keys _ _ _ F) in X. apply in_map_iff in X. destruct X as (v & <- & I). apply in_map. apply In'. now left.
    + exact Nd.
    + intros n q' I. destruct (C1 n q' I) as (da & J & Hd). apply In' in J. destruct J as [J|J].
      * destruct (pairs_right _ _ _ _ _ F J) as (q & Iq & Sq). exists q. split; [auto|]. eapply holds_restored; eauto.
      * injection J as -> ->. exfalso. assert (K : In "time" (dkeys (st_vars st'))) by (apply in_map_iff; exists ("time", q'); auto). apply C2 in K. tauto.
  - exfalso. apply N. split; [|split].
    + intros n da u' I Eu Dd. apply In' in I. destruct I as [I|I].
      * destruct (pairs_right _ _ _ _ _ F I) as (q & Iq & _ & Sa & _). unfold units_of in Eu. rewrite Sa in Eu. cbn in Eu. injection Eu as <-. destruct (Un n q Iq). tauto.
      * injection I as -> ->. unfold time_array. cbn [da_attrs da_data]. rewrite A. discriminate.
    + intros n da I Nn Ne. apply In' in I. destruct I as [I|I]; [|injection I as -> ->; congruence].
      destruct (pairs_right _ _ _ _ _ F I) as (q & Iq & _ & Sa & _). unfold units_of. rewrite Sa. exists (q_units q). split; [reflexivity|]. destruct (Un n q Iq) as [X Y]. split; [exact X|]. apply Y. now rewrite <- Dm.
    + intros da I _. apply In' in I. destruct I as [I|I]; [now apply NotTime in I|]. injection I as ->. split; [reflexivity|]. exists u. auto.
Qed.

Theorem units_lost fs st filename n q : sound_state st -> fits st ->
  In (n, q) (st_vars st) -> ~ a_dimension st n -> dates (q_units q) \/ durations (q_units q) ->
  exists fs', write_state fs st filename = (fs', Ok tt) /\ read_state fs' filename = Err ValueError.
Proof.
  intros Snd Fit Iq Nn Un. unfold StateIO.write_state. destruct (st_time st) as [t|] eqn:Et; [|destruct Fit; congruence].
  destruct (rmapM_pairs (to_data_array V) stored (st_vars st)) as (l & E & F).
  { intros n' q' I. apply stored_array. destruct Snd as (_ & _ & W). apply (W n' q' I). }
  unfold StateIO.to_dataset. rewrite E. cbn [bind]. rewrite Et. fold (time_array t).
  destruct (dataset_fits st l F t Et) as [(H & ->)|(H & _)]; [|tauto].
  set (vars := arrange (l ++ [("time", time_array t)])%list).
  exists (dset filename vars fs). split; [reflexivity|].
  destruct (read_any times_of (dset filename vars fs) filename vars) as [((_ & N & _) & _)|(_ & R)].
  - rewrite dget_dset, String.eqb_refl. reflexivity.
  - exact (arranged_sound st Snd l F t).
  - exfalso. destruct (pairs_left _ _ _ _ _ F Iq) as (da & I & _ & Sa & _). destruct (N n da) as (u & Eu & X & Y).
    + apply (arranged_in l). now left.
    + unfold vars. rewrite (arranged_dimension st l F). exact Nn.
    + intros ->. destruct Snd as (_ & Z' & _). apply Z'. apply in_map_iff. exists ("time", q). auto.
    + unfold units_of in Eu. rewrite Sa in Eu. cbn in Eu. injection Eu as <-. tauto.
  - exact R.
Qed.
End Writing.

Lemma read_missing V T (times_of : dict string -> arr V -> option (arr T)) fs filename : dget filename fs = None -> read_state V T times_of fs filename = Err OSError.
Proof. intros E. unfold read_state. now rewrite E. Qed.
