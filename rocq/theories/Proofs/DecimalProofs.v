From Coq Require Import NArith Ascii Decimal DecimalFacts DecimalString DecimalPos DecimalN.
From Verif.Base Require Import Base Lemmas.
From Verif.Model Require Import Consts Partitioner Restart.
From Verif.Spec Require Import Decimal.
From Verif.Proofs Require Import RestartProofs OpenRestartProofs.
Local Open Scope string_scope.

Lemma digits_acc d : forall p, digits (Zpos p) (NilEmpty.string_of_uint d) = Some (Zpos (Pos.of_uint_acc d p)).
Proof.
  induction d; intros p; cbn [NilEmpty.string_of_uint Pos.of_uint_acc]; [reflexivity|..];
    match goal with |- digits _ (String ?c ?s) = Some (Zpos (Pos.of_uint_acc _ ?q)) =>
      let x := eval compute in (Z.of_nat (nat_of_ascii c) - 48)%Z in change (digits (10 * Zpos p + x) s = Some (Zpos (Pos.of_uint_acc d q))) end;
    rewrite <- IHd; f_equal; lia.
Qed.
Lemma digits_uint d : digits 0 (NilEmpty.string_of_uint d) = Some (Z.of_N (Pos.of_uint d)).
Proof.
  induction d; cbn [NilEmpty.string_of_uint Pos.of_uint]; [reflexivity|exact IHd|..];
    match goal with |- digits _ (String ?c ?s) = Some (Z.of_N (Npos (Pos.of_uint_acc _ ?p))) => change (digits (Zpos p) s = Some (Zpos (Pos.of_uint_acc d p))) end; apply digits_acc.
Qed.
Lemma str_digits n : digits 0 (str_of_N n) = Some (Z.of_N n).
Proof.
  unfold str_of_N. rewrite <- (DecimalN.Unsigned.of_to n) at 2. assert (X : N.to_uint n <> Nil) by (destruct n; [discriminate|apply DecimalPos.Unsigned.to_uint_nonnil]).
  unfold N.of_uint. rewrite <- digits_uint. destruct (N.to_uint n); first [reflexivity|contradiction].
Qed.
Lemma str_head n : (1 < String.length (str_of_N n))%nat -> String.get 0 (str_of_N n) <> Some "0"%char.
Proof.
  unfold str_of_N. pose proof (DecimalN.Unsigned.to_of (N.to_uint n)) as U. rewrite DecimalN.Unsigned.of_to in U. rewrite U. unfold unorm.
  pose proof (nzhead_nonzero (N.to_uint n)) as Z. destruct (nzhead (N.to_uint n)) as [|u|u|u|u|u|u|u|u|u|u]; cbn; try discriminate; [lia|]. now elim (Z u).
Qed.
Lemma str_positive n : (1 <= String.length (str_of_N n))%nat.
Proof. pose proof (parse_nonempty _ _ (parse_str n)) as H. destruct (str_of_N n); [contradiction|cbn; lia]. Qed.
Lemma str_decimal z : (0 <= z)%Z -> decimal 1 (str_of_Z z) z.
Proof.
  intros H. unfold str_of_Z. replace (z <? 0)%Z with false by lia. split; [|split]; [rewrite str_digits; f_equal; lia|apply str_positive|apply str_head].
Qed.
Lemma digits_zero s : digits 0 (String "0" s) = digits 0 s.
Proof. reflexivity. Qed.
Lemma pad_decimal z : (0 <= z)%Z -> decimal 4 (pad4 (str_of_Z z)) z.
Proof.
  intros H. destruct (str_decimal z H) as (D & L & Z0). unfold decimal, pad4. destruct (String.length (str_of_Z z)) as [|[|[|[|n]]]] eqn:E; cbn [append];
    rewrite ?digits_zero; cbn [String.length]; rewrite ?E; (split; [exact D|]); split; try lia. intros _. apply Z0. lia.
Qed.

(** the notation is unique *)
Lemma digits_bounds s : forall a n, (0 <= a)%Z -> digits a s = Some n -> (a * 10 ^ Z.of_nat (String.length s) <= n < (a + 1) * 10 ^ Z.of_nat (String.length s))%Z.
Proof.
  induction s as [|c s IH]; intros a n A E; cbn [digits String.length] in *.
  - injection E as <-. cbn. lia.
  - destruct (_ && _) eqn:B; [|discriminate]. apply andb_true_iff in B. destruct B as (B1 & B2). apply Z.leb_le in B1, B2. apply IH in E; [|lia].
    rewrite Nat2Z.inj_succ, Z.pow_succ_r by lia. set (p := (10 ^ Z.of_nat (String.length s))%Z) in *. assert (0 < p)%Z by (unfold p; apply Z.pow_pos_nonneg; lia). nia.
Qed.
Lemma digits_inj s : forall s' a a' n, (0 <= a)%Z -> (0 <= a')%Z -> String.length s = String.length s' -> digits a s = Some n -> digits a' s' = Some n -> a = a' /\ s = s'.
Proof.
  induction s as [|c s IH]; intros [|c' s'] a a' n A A' L E E'; try discriminate; cbn [digits] in *.
  - split; congruence.
  - destruct ((0 <=? Z.of_nat (nat_of_ascii c) - 48) && _)%Z eqn:B; [|discriminate]. destruct ((0 <=? Z.of_nat (nat_of_ascii c') - 48) && _)%Z eqn:B'; [|discriminate].
    apply andb_true_iff in B, B'. destruct B as (B1 & B2), B' as (B1' & B2'). apply Z.leb_le in B1, B2, B1', B2'. injection L as L.
    set (d := (Z.of_nat (nat_of_ascii c) - 48)%Z) in *. set (d' := (Z.of_nat (nat_of_ascii c') - 48)%Z) in *.
    assert (X : (10 * a + d = 10 * a' + d')%Z /\ s = s') by (apply (IH s' _ _ n); auto; lia). unfold d, d' in *. destruct X as (X & <-). split; [lia|]. f_equal. rewrite <- (ascii_nat_embedding c), <- (ascii_nat_embedding c'). f_equal. lia.
Qed.
Lemma head_bound s n : digits 0 s = Some n -> String.get 0 s <> Some "0"%char -> s <> "" -> (10 ^ Z.of_nat (String.length s - 1) <= n)%Z.
Proof.
  intros E H N. destruct s as [|c s]; [contradiction|]. cbn [digits String.length] in *. destruct (_ && _) eqn:B; [|discriminate].
  apply andb_true_iff in B. destruct B as (B1 & B2). apply Z.leb_le in B1, B2. apply digits_bounds in E; [|lia]. replace (S (String.length s) - 1)%nat with (String.length s) by lia.
  assert (X : (Z.of_nat (nat_of_ascii c) - 48 <> 0)%Z). { intros X. apply H. cbn. f_equal. rewrite <- (ascii_nat_embedding c). replace (nat_of_ascii c) with 48%nat by lia. reflexivity. }
  assert (0 < 10 ^ Z.of_nat (String.length s))%Z by (apply Z.pow_pos_nonneg; lia). nia.
Qed.
Theorem decimal_unique w s s' n : decimal w s n -> decimal w s' n -> s = s'.
Proof.
  assert (W : forall s s', decimal w s n -> decimal w s' n -> ~ (String.length s < String.length s')%nat).
  { clear. intros s s' (D & L & _) (D' & L' & Z') X. specialize (Z' ltac:(lia)). apply (head_bound s' n) in Z'; auto; [|destruct s'; [cbn in X; lia|easy]]. apply digits_bounds in D; [|lia].
    assert (10 ^ Z.of_nat (String.length s) <= 10 ^ Z.of_nat (String.length s' - 1))%Z by (apply Z.pow_le_mono_r; lia). lia. }
  intros H H'. pose proof (W _ _ H H'). pose proof (W _ _ H' H). destruct H as (D & _), H' as (D' & _). apply (digits_inj s s' 0%Z 0%Z n); auto; lia.
Qed.

(** ** file names *)
Theorem suffix_written rank total : (0 < total)%Z -> (total mod 6 = 0)%Z -> (0 <= rank < total)%Z -> exists t c, decimal 1 t (rank / (total / 6) + 1) /\ decimal 4 c (rank mod (total / 6)) /\
  get_rank_suffix rank total = Ok (if (6 <? total)%Z then ".tile" ++ t ++ ".nc." ++ c else ".tile" ++ t ++ ".nc").
Proof.
  intros H M R. exists (str_of_Z (rank / (total / 6) + 1)), (pad4 (str_of_Z (rank mod (total / 6)))). assert (0 < total / 6)%Z by (rewrite (Z.div_mod total 6) in H by lia; lia).
  split; [apply str_decimal|split; [apply pad_decimal|now apply rank_suffix_ok]].
  - assert (0 <= rank / (total / 6))%Z by (apply Z.div_pos; lia). lia.
  - apply Z.mod_pos_bound. lia.
Qed.

Definition all_names := (RESTART_NAMES ++ RESTART_OPTIONAL_NAMES)%list.
Lemma append_assoc (a b c : string) : (a ++ b) ++ c = a ++ (b ++ c).
Proof. induction a as [|x a IH]; cbn; [reflexivity|now rewrite IH]. Qed.
Lemma ends_iff (s : string) : ends_with_slash s = true <-> exists start, s = start ++ "/".
Proof.
  unfold ends_with_slash. split.
  - intros H. destruct s as [|c s]; [discriminate|]. revert c H. induction s as [|c' s IH]; intros c H.
    + exists "". cbn in H. apply Ascii.eqb_eq in H. now subst.
    + destruct (IH c') as (st & E). { cbn [String.length] in *. replace (S (S (String.length s)) - 1)%nat with (S (S (String.length s) - 1)) in H by lia. exact H. }
      exists (String c st). cbn. now rewrite E.
  - intros (st & ->). induction st as [|c st IH]; [reflexivity|]. cbn [append String.length].
    replace (S (String.length (st ++ "/")) - 1)%nat with (S (String.length (st ++ "/") - 1)); [exact IH|]. destruct st; cbn; lia.
Qed.
Lemma join_ok directory path : joined directory path (path_join directory path).
Proof.
  unfold joined, path_join. assert (D : (directory = "" \/ exists start, directory = start ++ "/") \/ directory <> "" /\ forall start, directory <> start ++ "/").
  { destruct (String.eqb_spec directory ""); [auto|]. destruct (ends_with_slash directory) eqn:E; [apply ends_iff in E; auto|].
    right. split; auto. intros st X. assert (ends_with_slash directory = true) by (apply ends_iff; eauto). congruence. }
  assert (Y : (directory = "" \/ (exists start, directory = start ++ "/")) /\ (String.eqb directory "" || ends_with_slash directory)%bool = true \/
    (directory <> "" /\ forall start, directory <> start ++ "/") /\ (String.eqb directory "" || ends_with_slash directory)%bool = false).
  { destruct D as [D|D]; [left|right]; (split; [exact D|]).
    - destruct D as [-> | D]; [reflexivity|]. apply ends_iff in D. rewrite D. now rewrite Bool.orb_true_r.
    - destruct D as (D & D'). apply String.eqb_neq in D. rewrite D. cbn. destruct (ends_with_slash directory) eqn:E; auto. apply ends_iff in E. destruct E as (st & E). now apply D' in E. }
  destruct path as [|c path]; cbn [String.get].
  - right. split; [discriminate|]. destruct Y as [(Y & ->)|(Y & ->)]; [left|right]; intuition.
  - destruct (Ascii.eqb_spec c "/") as [->|N].
    + left. split; auto. now exists path.
    + right. split; [intros rest [=]; congruence|]. destruct Y as [(Y & ->)|(Y & ->)]; [left|right]; intuition.
Qed.
Theorem filename_written dirname label t name : (0 <= t)%Z ->
  exists d, decimal 1 d (t + 1) /\ joined dirname ((if String.eqb label "" then "" else label ++ ".") ++ name ++ ".tile" ++ d ++ ".nc") (restart_filename dirname t label name).
Proof.
  intros T. exists (str_of_Z (t + 1)). split; [apply str_decimal; lia|]. unfold restart_filename.
  replace ((if String.eqb label "" then "" else label ++ ".") ++ name ++ ".tile" ++ str_of_Z (t + 1) ++ ".nc") with (prepend_label name label ++ ".tile" ++ str_of_Z (t + 1) ++ ".nc"); [apply join_ok|].
  unfold prepend_label. destruct (String.eqb label ""); [reflexivity|]. now rewrite !append_assoc.
Qed.
Theorem coupler_written dirname label : joined dirname ((if String.eqb label "" then "" else label ++ ".") ++ "coupler.res") (coupler_res_filename dirname label).
Proof.
  unfold coupler_res_filename. replace ((if String.eqb label "" then "" else label ++ ".") ++ "coupler.res") with (prepend_label COUPLER_RES_NAME label); [apply join_ok|].
  unfold prepend_label. destruct (String.eqb label ""); [reflexivity|]. now rewrite !append_assoc.
Qed.
Theorem files_read {V} (fs : string -> node V) dirname label t f : In f (restart_filenames V fs dirname t label) <->
  exists name, f = restart_filename dirname t label name /\ (In name ["fv_core.res"; "fv_srf_wnd.res"; "fv_tracer.res"] \/ In name ["sfc_data"; "phy_data"] /\ fs f <> Missing).
Proof.
  unfold restart_filenames. rewrite in_flat_map. split.
  - intros (name & I & J). cbn zeta in J. destruct (_ || _) eqn:B; [|easy]. destruct J as [<-|[]]. exists name. split; [reflexivity|]. apply in_app_or in I. destruct I as [I|I]; [now left|].
    destruct (sin name RESTART_NAMES) eqn:S; [left; now apply sin_In in S|]. right. split; [exact I|]. intros X. unfold is_file, exists_ in B. rewrite X in B. discriminate.
  - intros (name & -> & H). exists name. cbn zeta. destruct H as [H|(H & X)].
    + split; [apply in_or_app; now left|]. apply sin_In in H. unfold RESTART_NAMES. rewrite H. now left.
    + split; [apply in_or_app; now right|]. unfold is_file, exists_. destruct (fs _); try contradiction; rewrite ?orb_true_r; now left.
Qed.
