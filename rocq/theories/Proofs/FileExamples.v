(** Examples of states in files. *)
From Coq Require Import Permutation.
From Verif.Base Require Import Base Lemmas.
From Verif.Model Require Import Consts Partitioner Numpy Quantity Collective ScatterGather Restart StateIO.
From Verif.Spec Require Import Grid Views Files.
From Verif.Proofs Require Import RestartProofs FileProofs.
Local Open Scope string_scope.

Theorem name_lost {V T} (time_number : T -> V) time_attrs arrange (arranged : forall vars, Permutation (arrange vars) vars)
  times_of fs (st : state V T) filename name q : dates_kept time_number time_attrs times_of -> sound_state st -> fits st ->
  (forall n q, In (n, q) (st_vars st) -> ~ dates (q_units q) /\ (~ a_dimension st n -> ~ durations (q_units q))) ->
  In (name, q) (st_vars st) -> a_dimension st name ->
  exists fs' st', write_state V T time_number time_attrs arrange fs st filename = (fs', Ok tt) /\
    (exists vars, dget filename fs' = Some vars /\ In name (dkeys vars)) /\
    read_state V T times_of fs' filename = Ok st' /\ ~ In name (dkeys (st_vars st')).
Proof.
  intros D So Fi U I A. destruct (round_trip time_number time_attrs arrange arranged times_of fs st filename D So Fi U) as (fs' & st' & W & _ & R & _ & K & _).
  exists fs', st'. split; [exact W|]. split; [|split; [exact R|]].
  - destruct (written_or_not time_number time_attrs arrange arranged fs st filename So) as [(_ & vars & W' & _ & Kv)|(N & _)]; [|tauto].
    rewrite W in W'. injection W' as ->. exists vars. split; [now rewrite dget_dset, String.eqb_refl|]. apply Kv. right. apply in_map_iff. exists (name, q). auto.
  - intros X. apply K in X. tauto.
Qed.

Definition ex_number (t : Z) : Z := t.
Definition ex_attrs (t : Z) : dict string := [("units", "seconds since 1970-01-01"); ("calendar", "julian")].
Definition ex_times (attrs : dict string) (a : arr Z) : option (arr Z) := Some a.
Definition ex_t : quantity Z := mkQ (mkA [4; 4]%Z (fun p => nth 0 p 0 * 10 + nth 1 p 0)%Z) ["y"; "x"] "K" [1; 1]%Z [2; 2]%Z.
Definition ex_w : quantity Z := mkQ (mkA [3]%Z (fun p => nth 0 p 0 + 7)%Z) ["z"] "m/s" [1]%Z [2]%Z.
Definition ex_x : quantity Z := mkQ (mkA [2]%Z (fun p => nth 0 p 0)%Z) ["x"] "m" [0]%Z [2]%Z.
Definition ex_dt : quantity Z := mkQ (mkA [] (fun _ => 900%Z)) [] "seconds" [] [].
Definition ex_state : state Z Z := mkSt [("t", ex_t); ("w", ex_w)] (Some 77%Z).
Definition ex_timeless : state Z Z := mkSt [("t", ex_t)] None.
Definition ex_unequal : state Z Z := mkSt [("t", ex_t); ("s", mkQ (mkA [3]%Z (fun p => nth 0 p 0)%Z) ["x"] "m" [0]%Z [3]%Z)] (Some 77%Z).
Definition ex_coordinate : state Z Z := mkSt [("t", ex_t); ("x", ex_x)] (Some 77%Z).
Definition ex_duration : state Z Z := mkSt [("t", ex_t); ("dt", ex_dt)] (Some 77%Z).

Definition shown (q : quantity Z) := (q_dims q, q_units q, q_origin q, q_extent q, ravel (q_data q)).
Definition shown_state (st : state Z Z) := (map (fun nq => let '(d, u, o, e, r) := shown (snd nq) in (fst nq, d, u, o, e, r)) (st_vars st), st_time st).
Definition ex_write (st : state Z Z) := write_state Z Z ex_number ex_attrs (@rev _) [] st "a.nc".
Definition ex_written (st : state Z Z) := snd (ex_write st).
Definition ex_read (st : state Z Z) := rmap shown_state (read_state Z Z ex_times (fst (ex_write st)) "a.nc").
Definition ex_open (vars : dict (data_array Z)) := rmap shown_state (read_state Z Z ex_times [("a.nc", vars)] "a.nc").
Definition ex_field (attrs : dict string) : data_array Z := mkDA (mkA [3]%Z (fun p => nth 0 p 0 + 5)%Z) ["x"] attrs.
Definition ex_no_time : dict (data_array Z) := [("x", ex_field []); ("t", ex_field [("units", "K")])].
Definition ex_times_file : dict (data_array Z) := [("t", ex_field [("units", "K")]); ("time", ex_field (ex_attrs 0))].
Definition ex_no_units : dict (data_array Z) := [("t", ex_field [("long_name", "temperature")]); ("time", mkDA (mkA [] (fun _ => 3%Z)) [] (ex_attrs 0))].

Lemma ex_dates : dates_kept ex_number ex_attrs ex_times.
Proof.
  intros t. split.
  - exists "seconds since 1970-01-01". split; [reflexivity|]. exists "seconds ", " 1970-01-01". reflexivity.
  - eexists. split; [reflexivity|]. reflexivity.
Qed.
Lemma not_dates u : contains "since" u = false -> ~ dates u.
Proof. rewrite <- contains_dates. congruence. Qed.
Lemma not_durations u : sin u TIME_UNITS = false -> ~ durations u.
Proof. rewrite <- durations_sin. congruence. Qed.
Lemma ex_arranged (vars : dict (data_array Z)) : Permutation (rev vars) vars.
Proof. apply Permutation_sym, Permutation_rev. Qed.
Lemma refused_not st : sound_state st -> ex_written st = Err ValueError -> ~ fits st.
Proof.
  intros So E Fi. destruct (written_or_not ex_number ex_attrs (@rev _) ex_arranged [] st "a.nc" So) as [(_ & vars & W & _)|(N & _)]; [|tauto].
  unfold ex_written, ex_write in E. rewrite W in E. discriminate.
Qed.
Lemma accepted st : sound_state st -> ex_written st = Ok tt -> fits st.
Proof.
  intros So E. destruct (written_or_not ex_number ex_attrs (@rev _) ex_arranged [] st "a.nc" So) as [(Fi & _)|(_ & W)]; [exact Fi|].
  unfold ex_written, ex_write in E. rewrite W in E. discriminate.
Qed.
Ltac nodup_tac := solve [repeat constructor; cbn; intuition discriminate].
Ltac one_tac I := injection I as <- <-; split; [split; [reflexivity|solve [repeat constructor; cbn; lia]]|nodup_tac].
Ltac sound_tac := split; [nodup_tac|split; [cbn; intuition discriminate|let n := fresh in let q := fresh in let I := fresh in
  intros n q I; cbn in I; repeat (destruct I as [I|I]; [one_tac I|]); contradiction]].
Lemma ex_state_sound : sound_state ex_state. Proof. sound_tac. Qed.
Lemma ex_timeless_sound : sound_state ex_timeless. Proof. sound_tac. Qed.
Lemma ex_unequal_sound : sound_state ex_unequal. Proof. sound_tac. Qed.
Lemma ex_coordinate_sound : sound_state ex_coordinate. Proof. sound_tac. Qed.
Lemma ex_duration_sound : sound_state ex_duration. Proof. sound_tac. Qed.

Lemma ex_round_trip :
  dates_kept ex_number ex_attrs ex_times /\ sound_state ex_state /\ fits ex_state /\
  (forall n q, In (n, q) (st_vars ex_state) -> ~ dates (q_units q) /\ (~ a_dimension ex_state n -> ~ durations (q_units q))) /\
  ex_written ex_state = Ok tt /\
  ex_read ex_state = Ok ([("w", ["z"], "m/s", [0], [2], [8; 9]); ("t", ["y"; "x"], "K", [0; 0], [2; 2], [11; 12; 21; 22])], Some 77)%Z.
Proof.
  assert (W : ex_written ex_state = Ok tt) by reflexivity.
  split; [apply ex_dates|]. split; [apply ex_state_sound|]. split; [apply accepted; [apply ex_state_sound|exact W]|]. split; [|split; [exact W|reflexivity]].
  intros n q [H|[H|[]]]; injection H as <- <-; (split; [apply not_dates; reflexivity|intros _; apply not_durations; reflexivity]).
Qed.
Lemma ex_refused : sound_state ex_timeless /\ ~ fits ex_timeless /\ ex_written ex_timeless = Err ValueError /\
  sound_state ex_unequal /\ ~ fits ex_unequal /\ ex_written ex_unequal = Err ValueError.
Proof.
  split; [apply ex_timeless_sound|]. split; [apply refused_not; [apply ex_timeless_sound|reflexivity]|]. split; [reflexivity|].
  split; [apply ex_unequal_sound|]. split; [apply refused_not; [apply ex_unequal_sound|reflexivity]|]. reflexivity.
Qed.
Lemma ex_lost :
  sound_state ex_coordinate /\ fits ex_coordinate /\ a_dimension ex_coordinate "x" /\ ex_written ex_coordinate = Ok tt /\
  ex_read ex_coordinate = Ok ([("t", ["y"; "x"], "K", [0; 0], [2; 2], [11; 12; 21; 22])], Some 77)%Z /\
  sound_state ex_duration /\ fits ex_duration /\ ~ a_dimension ex_duration "dt" /\ ex_written ex_duration = Ok tt /\ ex_read ex_duration = Err ValueError.
Proof.
  split; [apply ex_coordinate_sound|]. split; [apply accepted; [apply ex_coordinate_sound|reflexivity]|]. split; [exists "x", ex_x; cbn; auto|].
  split; [reflexivity|]. split; [reflexivity|]. split; [apply ex_duration_sound|]. split; [apply accepted; [apply ex_duration_sound|reflexivity]|].
  split; [|split; reflexivity]. intros (n & q & I & X). cbn in I. destruct I as [I|[I|[]]]; injection I as <- <-; cbn in X; intuition discriminate.
Qed.
Ltac file_tac := split; [nodup_tac|let n := fresh in let da := fresh in let I := fresh in
  intros n da I; cbn in I; repeat (destruct I as [I|I]; [injection I as <- <-; reflexivity|]); contradiction].
Lemma ex_files :
  sound_file ex_no_time /\ ex_open ex_no_time = Ok ([("t", ["x"], "K", [0], [3], [5; 6; 7])], None)%Z /\
  sound_file ex_times_file /\ ex_open ex_times_file = Err ValueError /\ sound_file ex_no_units /\ ex_open ex_no_units = Err ValueError.
Proof. split; [file_tac|]. split; [reflexivity|]. split; [file_tac|]. split; [reflexivity|]. split; [file_tac|]. reflexivity. Qed.
