(** Programs which use one communicator for updates and collective operations. *)
From Verif.Base Require Import Base Lemmas.
From Verif.Model Require Import Consts Numpy Quantity Partitioner Network Communicator Collective Cluster TileComm.
From Verif.Spec Require Import Grid Cube Halo Lockstep Sync Client Together Mixed.
From Verif.Proofs Require Import NetworkProofs CollectiveProofs Phases Scripts Delivery HaloOps HaloEffect SyncEffect ClientProofs ClusterProofs ClusterLift.
From Coq Require Import ZifyBool ZifyNat.
Ltac Zify.zify_post_hook ::= Z.to_euclidean_division_equations.

(** ** from one schedule to all *)
Section Ends.
Context {Ob V A : Type}.

Lemma react_mono bf dl r (s : cluster Ob V A) x : react (fun _ _ => false) (fun _ _ _ => true) r s = Some x -> react bf dl r s = Some x.
Proof.
  unfold react. destruct (nth_error (cl_ranks s) r) as [k|]; auto. destruct (k_proc k) as [| |dst tag body p|src tag p|j p|g c p]; auto.
  - destruct (nth_error (cl_sent s) r) as [l|]; auto. destruct (nth_error l j) as [m|]; auto. rewrite orb_false_r. destruct (ms_taken m); auto. discriminate.
  - destruct (k_pending k); auto. cbv zeta. cbn [andb]. destruct (everyone_posted _ _ _); cbn [negb]; [|discriminate]. rewrite andb_false_r. auto.
Qed.
Lemma run_mono bf dl sched : forall s s' : cluster Ob V A, cl_run (fun _ _ => false) (fun _ _ _ => true) sched s = Some s' -> cl_run bf dl sched s = Some s'.
Proof.
  induction sched as [|r sched IH]; cbn; auto. intros s s'. unfold cl_step. destruct (react (fun _ _ => false) _ r s) as [x|] eqn:E; [|discriminate].
  rewrite (react_mono bf dl _ _ _ E). destruct x. apply IH.
Qed.

Lemma halts_of_schedule size (ps : nat -> rproc Ob V A) out F :
  creaches (fun _ _ => false) (fun _ _ _ => true) (cst size ps (fun _ => []) (fun _ => [])) F -> (forall bf dl r, cl_step bf dl r F = None) ->
  (forall r k, nth_error (cl_ranks F) r = Some k -> (r < size)%nat /\ rank_outcome k = out r) -> (forall r, (r < size)%nat -> nth_error (cl_ranks F) r <> None) -> cluster_halts size ps out.
Proof.
  intros (sched0 & R0) ST OF NN. exists (length sched0). intros bf dl sched s R. apply (run_mono bf dl) in R0.
  destruct (cl_complete_run bf dl _ _ _ _ _ R0 (ST bf dl) R) as (sched' & R' & LE). split; [lia|]. split.
  - intros STUCK r Hr. destruct sched' as [|r0 sched'].
    + cbn in R'. injection R' as ->. specialize (NN r Hr). destruct (nth_error (cl_ranks F) r) as [k|] eqn:N; [|congruence]. exists k. split; auto. now apply OF.
    + cbn in R'. rewrite STUCK in R'. discriminate.
  - intros r k x N O. pose proof (outcome_persists _ _ _ _ _ _ _ _ R' N O) as N'. destruct (OF r k N') as (_ & E). congruence.
Qed.

Lemma ends_of_schedule size (ps : nat -> rproc Ob V A) out posted q :
  creaches (fun _ _ => false) (fun _ _ _ => true) (cst size ps (fun _ => []) (fun _ => [])) (cst size (fun r => resumed RRet (out r)) posted q) -> cluster_ends size ps out.
Proof.
  intros C. set (F := cst size (fun r => resumed RRet (out r)) posted q) in *.
  assert (OF : forall r k, nth_error (cl_ranks F) r = Some k -> (r < size)%nat /\ rank_outcome k = Some (out r)).
  { intros r k N. assert (Hr : (r < size)%nat).
    { assert (X : (r < length (cl_ranks F))%nat) by (apply nth_error_Some; congruence). unfold F, cst, cstp, tab in X. cbn [cl_ranks] in X. now rewrite map_length, seq_length in X. }
    split; auto. unfold F, cst, cstp in N. cbn [cl_ranks] in N. rewrite nth_error_tab in N by auto. injection N as <-. unfold rank_outcome. cbn [k_proc]. now destruct (out r). }
  assert (EF : ended F).
  { apply Forall_forall. intros k I. apply In_nth_error in I. destruct I as (r & N). destruct (OF r k N) as (_ & ->). discriminate. }
  destruct (halts_of_schedule size ps (fun r => Some (out r)) F C) as (bound & H); auto.
  { intros bf dl r. now apply ended_stuck. }
  { intros r Hr. unfold F, cst, cstp. cbn [cl_ranks]. rewrite nth_error_tab by auto. discriminate. }
  exists bound. intros bf dl sched s R. destruct (H bf dl sched s R) as (LE & ST & OU). split; auto. split.
  - destruct (existsb (fun r => match cl_step bf dl r s with Some _ => true | None => false end) (seq 0 (length (cl_ranks s)))) eqn:X.
    + right. apply existsb_exists in X. destruct X as (r & _ & X). destruct (cl_step bf dl r s) as [s'|] eqn:E; [eauto|discriminate].
    + left. apply ST. intros r. destruct (cl_step bf dl r s) as [s'|] eqn:E; auto. exfalso.
      assert (L : (r < length (cl_ranks s))%nat). { apply nth_error_Some. intros N. unfold cl_step, react in E. rewrite N in E. discriminate. }
      assert (Y : existsb (fun r => match cl_step bf dl r s with Some _ => true | None => false end) (seq 0 (length (cl_ranks s))) = true); [|congruence].
      apply existsb_exists. exists r. split; [apply in_seq; lia|]. now rewrite E.
  - intros r k x N O. specialize (OU r k x N O). congruence.
Qed.
End Ends.

(** ** the communicators of tiles *)
Lemma rank_in_seq r a b : rank_in r (seq a b) = if (a <=? r)%nat && (r <? a + b)%nat then Some (r - a)%nat else None.
Proof.
  revert a. induction b as [|b IH]; intros a; cbn [seq rank_in].
  - destruct (Nat.leb_spec a r), (Nat.ltb_spec r (a + 0)); try reflexivity. lia.
  - destruct (Nat.eqb_spec a r) as [->|NE].
    + destruct (Nat.leb_spec r r), (Nat.ltb_spec r (r + S b)); try lia. cbn. f_equal. lia.
    + rewrite IH. destruct (Nat.leb_spec (S a) r), (Nat.leb_spec a r), (Nat.ltb_spec r (S a + b)), (Nat.ltb_spec r (a + S b)); try lia; cbn; auto. f_equal. lia.
Qed.

Section Tiles.
Context {Ob V A : Type}.
Variable T : nat.
Hypothesis HT : (0 < T)%nat.
Notation size := (6 * T)%nat.

Definition tgroup (j t : nat) : group := mkG [(j, Z.of_nat t)] (seq (t * T) T).

Lemma tgroup_members j t r : In r (g_members (tgroup j t)) <-> (r / T = t)%nat.
Proof. cbn. rewrite in_seq. split; intros H; [symmetry; apply Nat.div_unique with (r - t * T)%nat; lia|subst t; pose proof (Nat.div_mod r T); pose proof (Nat.mod_upper_bound r T); lia]. Qed.

Lemma tgroup_rank j r : rank_in r (g_members (tgroup j (r / T))) = Some (r mod T)%nat.
Proof.
  cbn. rewrite rank_in_seq. pose proof (Nat.div_mod r T). pose proof (Nat.mod_upper_bound r T).
  destruct (Nat.leb_spec (r / T * T) r), (Nat.ltb_spec r (r / T * T + T)); try lia. cbn. f_equal. lia.
Qed.

(** Split with the tile as colour *)
Lemma same_colour_all (f : nat -> option (gcall Ob V)) color b : forall a, (forall r, (a <= r < a + b)%nat -> f r = Some (GSplit (Z.of_nat (r / T)) (Z.of_nat r))) ->
  same_colour f color (seq a b) a = Some (map (fun r => (Z.of_nat r, r)) (filter (fun r => Z.of_nat (r / T) =? color) (seq a b))).
Proof.
  induction b as [|b IH]; intros a H; cbn [seq same_colour filter]; auto. rewrite H by lia. rewrite IH by (intros; apply H; lia).
  destruct (Z.of_nat (a / T) =? color); reflexivity.
Qed.

Lemma sort_ascending l : (forall i j x y, (i < j)%nat -> nth_error l i = Some x -> nth_error l j = Some y -> fst x <= fst y) -> sort_by_key l = l.
Proof.
  induction l as [|x l IH]; auto. intros H. change (sort_by_key (x :: l)) with (insert_by_key x (sort_by_key l)). rewrite IH by (intros i j a b L E1 E2; apply (H (S i) (S j)); auto; lia).
  destruct l as [|y l]; auto. cbn. assert (fst x <= fst y) by (apply (H 0%nat 1%nat); auto). destruct (Z.leb_spec (fst x) (fst y)); [auto|lia].
Qed.

Lemma filter_seq (P : nat -> bool) lo hi : forall b a, (forall r, P r = true <-> (lo <= r < hi)%nat) -> filter P (seq a b) = seq (max a lo) (min (a + b) hi - max a lo).
Proof.
  induction b as [|b IH]; intros a H; cbn [seq filter].
  - replace (min (a + 0) hi - max a lo)%nat with 0%nat by lia. reflexivity.
  - rewrite IH by auto. destruct (P a) eqn:E.
    + apply H in E. replace (max a lo) with a by lia. replace (max (S a) lo) with (S a) by lia. replace (min (a + S b) hi - a)%nat with (S (min (S a + b) hi - S a)) by lia. reflexivity.
    + assert (~ (lo <= a < hi)%nat) by (intros X; apply H in X; congruence). destruct (Nat.lt_ge_cases a lo).
      * replace (max (S a) lo) with lo by lia. replace (max a lo) with lo by lia. f_equal. lia.
      * replace (min (S a + b) hi - max (S a) lo)%nat with 0%nat by lia. replace (min (a + S b) hi - max a lo)%nat with 0%nat by lia. reflexivity.
Qed.

Lemma split_answer (ks : list (rank Ob V A)) N : (forall i r, nth_error (seq 0 size) i = Some r -> posted_by ks (all_ranks size) N i = Some (GSplit (Z.of_nat (r / T)) (Z.of_nat r))) ->
  forall r, (r < size)%nat -> ganswered ks (all_ranks size) N r (GSplit (Z.of_nat (r / T)) (Z.of_nat r)) = Some (GGroup (tgroup N (r / T))).
Proof.
  intros H r Hr. cbn [ganswered all_ranks g_members g_ctx]. rewrite same_colour_all.
  2:{ intros i Hi. apply H. rewrite nth_error_nth' with (d := 0%nat) by (rewrite seq_length; lia). now rewrite seq_nth by lia. }
  assert (Ht : (r / T < 6)%nat) by (apply Nat.div_lt_upper_bound; lia). set (t := (r / T)%nat) in *.
  rewrite (filter_seq _ (t * T) (t * T + T)).
  2:{ intros x. rewrite Z.eqb_eq, Nat2Z.inj_iff. pose proof (tgroup_members 0 t x) as M. cbn in M. rewrite in_seq in M. now rewrite M. }
  assert (t * T + T <= 6 * T)%nat by nia. replace (max 0 (t * T)) with (t * T)%nat by lia. replace (min (0 + 6 * T) (t * T + T) - t * T)%nat with T by lia.
  rewrite sort_ascending.
  - rewrite map_map. cbn [snd]. rewrite map_id. reflexivity.
  - intros i j x y L E1 E2. rewrite nth_error_map in E1, E2. destruct (nth_error (seq (t * T) T) i) as [a|] eqn:F1; [|discriminate]. destruct (nth_error (seq (t * T) T) j) as [b|] eqn:F2; [|discriminate].
    injection E1 as <-. injection E2 as <-. cbn [fst].
    assert (j < T)%nat by (rewrite <- (seq_length T (t * T)); apply nth_error_Some; congruence).
    rewrite nth_error_nth' with (d := 0%nat) in F1, F2 by (rewrite seq_length; lia). rewrite seq_nth in F1, F2 by lia. injection F1 as <-. injection F2 as <-. lia.
Qed.

(** programs on some tiles, one tile after the other *)
Lemma tiles_reach {B} bf dl j (good : nat -> bool) (ps : nat -> nat -> proc Ob V B) (out : nat -> res B) (K : nat -> B -> rproc Ob V A) pp posted q Nw Nt :
  (forall t, (t < 6)%nat -> good t = true -> together T (fun i => ps t i) (fun i => out (t * T + i)%nat)) ->
  (forall r, (r < size)%nat -> pp r = rbind (on_group (tgroup j (r / T)) (ps (r / T)%nat (r mod T)%nat)) (K r)) ->
  aligned (all_ranks size) Nw posted -> (forall t, (t < 6)%nat -> aligned (tgroup j t) (Nt t) posted) ->
  exists posted' Nt', creaches bf dl (cst size pp posted q) (cst size (fun r => if good (r / T)%nat then resumed (K r) (out r) else pp r) posted' q) /\
    aligned (all_ranks size) Nw posted' /\ (forall t, (t < 6)%nat -> aligned (tgroup j t) (Nt' t) posted').
Proof.
  intros TG PP AW AT.
  assert (G : forall m, (m <= 6)%nat -> exists posted' Nt', creaches bf dl (cst size pp posted q) (cst size (fun r => if (r / T <? m)%nat && good (r / T)%nat then resumed (K r) (out r) else pp r) posted' q) /\
    aligned (all_ranks size) Nw posted' /\ (forall t, (t < 6)%nat -> aligned (tgroup j t) (Nt' t) posted')).
  { induction m as [|m IH]; intros Hm.
    - exists posted, Nt. split; [|auto]. exists []. reflexivity.
    - destruct IH as (po & Nt1 & C1 & AW1 & AT1); [lia|]. destruct (good m) eqn:GM.
      2:{ exists po, Nt1. split; [|auto]. match type of C1 with creaches _ _ _ ?a => match goal with |- creaches _ _ _ ?b => replace b with a; [exact C1|] end end.
          apply cstp_ext; auto. intros r Hr. destruct (Nat.ltb_spec (r / T) m), (Nat.ltb_spec (r / T) (S m)); try lia; auto. replace (r / T)%nat with m by lia. now rewrite GM. }
      destruct (together_reaches (A := A) bf dl size (tgroup j m) (fun i => ps m i) (fun i => out (m * T + i)%nat)) with (K := K) (pp := fun r => if (r / T <? m)%nat && good (r / T)%nat then resumed (K r) (out r) else pp r)
        (posted := po) (q := q) (N := Nt1 m) as (M & po' & GR & C2).
      + intros r I. apply tgroup_members in I. pose proof (Nat.div_mod r T). pose proof (Nat.mod_upper_bound r T). nia.
      + apply seq_NoDup.
      + cbn [tgroup g_members]. rewrite seq_length. apply TG; auto; lia.
      + intros i r E. assert (I := nth_error_In _ _ E). apply tgroup_members in I. apply rank_in_nth in E; [|apply seq_NoDup].
        assert (E2 := tgroup_rank j r). rewrite I in E2. rewrite E2 in E. injection E as <-.
        destruct (Nat.ltb_spec (r / T) m); [lia|]. cbn [andb]. rewrite PP; [now rewrite I|]. pose proof (Nat.div_mod r T). pose proof (Nat.mod_upper_bound r T). nia.
      + apply AT1. lia.
      + exists po', (fun t => if Nat.eqb t m then (Nt1 m + M)%nat else Nt1 t). split; [|split].
        * eapply creaches_trans; [exact C1|].
          match type of C2 with creaches _ _ _ ?a => match goal with |- creaches _ _ _ ?b => replace b with a; [exact C2|] end end.
          apply cstp_ext; auto. intros r Hr. destruct (rank_in r (g_members (tgroup j m))) as [i|] eqn:P.
          -- apply rank_in_nth in P; [|apply seq_NoDup]. assert (I := nth_error_In _ _ P). apply tgroup_members in I. apply rank_in_nth in P; [|apply seq_NoDup].
             assert (E2 := tgroup_rank j r). rewrite I in E2. rewrite E2 in P. injection P as <-. destruct (Nat.ltb_spec (r / T) (S m)); [|lia]. rewrite I, GM. cbn [andb].
             f_equal. f_equal. pose proof (Nat.div_mod r T). subst m. lia.
          -- assert (r / T <> m)%nat. { intros X. assert (E2 := tgroup_rank j r). rewrite X in E2. congruence. }
             destruct (Nat.ltb_spec (r / T) m), (Nat.ltb_spec (r / T) (S m)); try lia; reflexivity.
        * intros r I. rewrite (grown_other _ _ _ _ r (g_ctx (all_ranks size)) GR); [now apply AW1|]. discriminate.
        * intros t Ht r I. destruct (Nat.eqb_spec t m) as [->|NE].
          -- rewrite (grown_calls _ _ _ _ r GR), AT1 by (auto; lia). destruct (inb_spec r (g_members (tgroup j m))); [reflexivity|contradiction].
          -- rewrite (grown_other _ _ _ _ r (g_ctx (tgroup j t)) GR); [now apply AT1|]. cbn. intros X. injection X as X. lia. }
  destruct (G 6%nat (Nat.le_refl _)) as (po & Nt' & C & AW' & AT'). exists po, Nt'. split; auto.
  match type of C with creaches _ _ _ ?a => match goal with |- creaches _ _ _ ?b => replace b with a; [exact C|] end end.
  apply cstp_ext; auto. intros r Hr. destruct (Nat.ltb_spec (r / T) 6) as [|X]; auto. exfalso. assert (r / T < 6)%nat by (apply Nat.div_lt_upper_bound; lia). lia.
Qed.
End Tiles.

(** ** collective operations, between all ranks and between those of tiles *)
Section Layout.
Variables Ob V : Type.
Variable layout : layout_t.
Hypothesis Hy : 1 <= fst layout.
Hypothesis Hx : 1 <= snd layout.
Notation size := (Mixed.size layout).
Notation T := (per_tile layout).

Lemma size_eq : size = (6 * T)%nat.
Proof. unfold Mixed.size, per_tile. rewrite Z2Nat.inj_mul by nia. reflexivity. Qed.
Lemma T_pos : (0 < T)%nat.
Proof. unfold per_tile. nia. Qed.

Lemma tile_index_of r : tile_index layout (Z.of_nat r) = Ok (Z.of_nat (r / T)).
Proof.
  unfold tile_index, get_tile_index, total_ranks, tile_total_ranks. rewrite Z.mul_comm at 1. rewrite Z.mod_mul by lia. cbn [negb Z.eqb].
  rewrite Z.mul_comm, Z.div_mul by lia. destruct (Z.eqb_spec (fst layout * snd layout) 0); [nia|]. f_equal. rewrite Nat2Z.inj_div. unfold per_tile. rewrite Z2Nat.id by nia. reflexivity.
Qed.

(** logs of calls before and after the communicators of tiles exist *)
Definition logs (posted : nat -> list (ctx * gcall Ob V)) (tcs : nat -> option group) (Nw : nat) : Prop :=
  aligned (all_ranks size) Nw posted /\
  ((forall r, (r < size)%nat -> tcs r = None /\ Forall (fun x => fst x = []) (posted r)) \/
   exists j Nt, (forall r, (r < size)%nat -> tcs r = Some (tgroup T j (r / T))) /\ forall t, (t < 6)%nat -> aligned (tgroup T j t) (Nt t) posted).

Lemma logs_grown posted posted' tcs Nw M : logs posted tcs Nw -> grown (all_ranks size) M posted posted' -> logs posted' tcs (Nw + M).
Proof.
  intros (AL & L) G. split.
  - intros r I. rewrite (grown_calls _ _ _ _ r G), AL by auto. destruct (inb_spec r (g_members (all_ranks size))); [reflexivity|contradiction].
  - destruct L as [L|(j & Nt & TC & L)].
    + left. intros r Hr. destruct (L r Hr) as (A & B). split; auto. destruct (G r) as (l & -> & F & _). apply Forall_app. split; auto.
    + right. exists j, Nt. split; auto. intros t Ht r I. rewrite (grown_other _ _ _ _ r (g_ctx (tgroup T j t)) G); [now apply L|discriminate].
Qed.

Lemma nth_error_seq a b i : nth_error (seq a b) i = if (i <? b)%nat then Some (a + i)%nat else None.
Proof.
  destruct (Nat.ltb_spec i b); [|apply nth_error_None; rewrite seq_length; lia]. rewrite nth_error_nth' with (d := 0%nat) by (rewrite seq_length; lia). now rewrite seq_nth.
Qed.

Section Reach.
Context {A : Type}.
Variable bf : nat -> nat -> bool.
Variable dl : nat -> ctx -> nat -> bool.
Notation creaches := (@creaches Ob V A bf dl).
Notation cst := (@cst Ob V A size).

(** collective operations between all ranks *)
Lemma world_reaches {B} (ps : nat -> proc Ob V B) (out : nat -> B) K pp posted q tcs Nw :
  together size ps (fun r => Ok (out r)) -> (forall r, (r < size)%nat -> pp r = rbind (on_group (all_ranks size) (ps r)) (K r)) -> logs posted tcs Nw ->
  exists posted' Nw', creaches (cst pp posted q) (cst (fun r => K r (out r)) posted' q) /\ logs posted' tcs Nw'.
Proof.
  intros TG PP L. destruct (together_reaches (A := A) bf dl size (all_ranks size) ps (fun r => Ok (out r))) with (K := K) (pp := pp) (posted := posted) (q := q) (N := Nw) as (M & po & G & C).
  - intros r I. cbn in I. apply in_seq in I. lia.
  - apply seq_NoDup.
  - cbn [all_ranks g_members]. now rewrite seq_length.
  - intros i r E. cbn in E. rewrite nth_error_seq in E. destruct (Nat.ltb_spec i size); [|discriminate]. injection E as <-. cbn. now apply PP.
  - apply L.
  - exists po, (Nw + M)%nat. split; [|eapply logs_grown; eauto].
    match type of C with creaches _ ?a => match goal with |- creaches _ ?b => replace b with a; [exact C|] end end.
    apply cstp_ext; auto. intros r Hr. cbn [all_ranks g_members]. rewrite rank_in_seq. destruct (Nat.leb_spec 0 r), (Nat.ltb_spec r (0 + size)); try lia. cbn [andb resumed]. now rewrite Nat.sub_0_r.
Qed.

(** Split *)
Lemma split_reaches {B} (ps : nat -> nat -> proc Ob V B) K pp posted q tcs Nw :
  (forall r, (r < size)%nat -> pp r = tile layout r (all_ranks size) (tcs r) (fun g => with_rank r g (fun i => rbind (on_group g (ps r i)) (K r (Some g))))) -> logs posted tcs Nw ->
  exists posted' j Nt Nw', creaches (cst pp posted q)
       (cst (fun r => let g := tgroup T j (r / T) in rbind (on_group g (ps r (r mod T)%nat)) (K r (Some g))) posted' q) /\
       aligned (all_ranks size) Nw' posted' /\ forall t, (t < 6)%nat -> aligned (tgroup T j t) (Nt t) posted'.
Proof.
  intros PP L.
  destruct L as (AL & [L|(j & Nt & TC & L)]).
    - set (c := fun r : nat => GSplit (Z.of_nat (r / T)) (Z.of_nat r) : gcall Ob V).
      set (kk := fun r => match pp r with RCall _ _ k => k | _ => fun _ => RErr TypeError end).
      set (po := fun r => if inb r (g_members (all_ranks size)) then (posted r ++ [(g_ctx (all_ranks size), c r)])%list else posted r).
      assert (IN : forall r, (r < size)%nat -> inb r (g_members (all_ranks size)) = true).
      { intros r Hr. destruct (inb_spec r (g_members (all_ranks size))) as [|X]; auto. exfalso. apply X. cbn. apply in_seq. lia. }
      assert (C : creaches (cst pp posted q) (cst (fun r => if inb r (g_members (all_ranks size)) then kk r (GGroup (tgroup T Nw (r / T))) else pp r) po q)).
      { apply (round_reaches bf dl size (all_ranks size) c kk Nw (fun r => GGroup (tgroup T Nw (r / T)))); auto.
        - intros r I. cbn in I. apply in_seq in I. lia.
        - apply seq_NoDup.
        - intros r I. cbn in I. apply in_seq in I. unfold kk. rewrite PP by lia. destruct (L r) as (-> & _); [lia|]. unfold tile. now rewrite tile_index_of.
        - intros ks PB r I. cbn in I. apply in_seq in I. rewrite size_eq in *. apply split_answer; try apply T_pos; try lia. exact PB. }
      exists po, Nw, (fun _ => 0%nat), (S Nw). split; [|split].
      + match type of C with creaches _ ?a => match goal with |- creaches _ ?b => replace b with a; [exact C|] end end.
        apply cstp_ext; auto. intros r Hr. cbv zeta. rewrite IN by auto. unfold kk. rewrite PP by auto. destruct (L r Hr) as (-> & _). unfold tile. rewrite tile_index_of.
        unfold with_rank. now rewrite tgroup_rank by apply T_pos.
      + intros r I. cbn in I. apply in_seq in I. unfold po. rewrite IN by lia. rewrite calls_on_app, calls_on_one, app_length, AL by (cbn; apply in_seq; lia). cbn. lia.
      + intros t Ht r I. assert (Hr : (r < size)%nat). { apply tgroup_members in I; [|apply T_pos]. rewrite size_eq. pose proof T_pos. pose proof (Nat.div_mod r T). pose proof (Nat.mod_upper_bound r T). nia. }
        unfold po. rewrite IN by auto. destruct (L r Hr) as (_ & F). rewrite calls_on_app, app_length.
        assert (Z0 : forall l : list (ctx * gcall Ob V), Forall (fun x => fst x = []) l -> calls_on (g_ctx (tgroup T Nw t)) l = []).
        { clear. induction 1 as [|[y b] l E F IH]; auto. cbn in E. subst y. unfold calls_on in *. cbn. exact IH. }
        rewrite !Z0; auto.
    - exists posted, j, Nt, Nw. split; [|auto]. match goal with |- creaches ?a ?b => replace b with a; [exists []; reflexivity|] end.
      apply cstp_ext; auto. intros r Hr. cbv zeta. rewrite PP, TC by auto. cbn [tile]. unfold with_rank. now rewrite tgroup_rank by apply T_pos.
Qed.

(** of the ranks of each tile *)
Lemma tile_reaches {B} (ps : nat -> nat -> proc Ob V B) (out : nat -> res B) K pp posted q tcs Nw :
  (forall t, (t < 6)%nat -> let first := (t * T)%nat in together T (fun i => ps (first + i)%nat i) (fun i => out (first + i)%nat)) ->
  (forall r, (r < size)%nat -> pp r = tile layout r (all_ranks size) (tcs r) (fun g => with_rank r g (fun i => rbind (on_group g (ps r i)) (K r (Some g))))) -> logs posted tcs Nw ->
  exists posted' tcs' Nw', creaches (cst pp posted q) (cst (fun r => resumed (K r (tcs' r)) (out r)) posted' q) /\ logs posted' tcs' Nw'.
Proof.
  intros TG PP L. destruct (split_reaches ps K pp posted q tcs Nw PP L) as (po & j & Nt & Nw' & C1 & AW & AT).
  pose proof (tiles_reach (A := A) T T_pos bf dl j (fun _ => true) (fun t i => ps (t * T + i)%nat i) out (fun r => K r (Some (tgroup T j (r / T))))
    (fun r => let g := tgroup T j (r / T) in rbind (on_group g (ps r (r mod T)%nat)) (K r (Some g))) po q Nw' Nt (fun t Ht _ => TG t Ht)) as X.
  rewrite <- size_eq in X. destruct X as (po' & Nt' & C2 & AW' & AT'); auto.
  { intros r Hr. cbv zeta. replace (r / T * T + r mod T)%nat with r; [reflexivity|]. pose proof T_pos. pose proof (Nat.div_mod r T). lia. }
  exists po', (fun r => Some (tgroup T j (r / T))), Nw'. split.
  - eapply creaches_trans; [exact C1|exact C2].
  - split; auto. right. exists j, Nt'. auto.
Qed.
End Reach.
End Layout.

(** ** programs *)
Section Mixed.
Variables Ob V St : Type.
Variable neg : V -> V.
Variable layout : layout_t.
Variable d : V.
Variable n : Z.
Variable k : nat.
Hypothesis Hy : 1 <= fst layout.
Hypothesis Hx : 1 <= snd layout.
Notation size := (Mixed.size layout).
Notation T := (per_tile layout).
Notation mixed := (mixed Ob V St neg layout).
Notation stands := (stands V neg n k).
Notation req_of := (req_of V).

Lemma starting r c calls reqs cm tc (s : rank_state V St) : layout = (n, n) -> call_ok V n k c -> starts V c = true -> (r < size)%nat -> idle n r cm ->
  let e := exch V neg n (c_tag cm) c in
  mixed r (MUpdate c :: calls) reqs cm tc s = rbind (on_memory (send_ops (x_sends e r)) (fst s))
    (fun m => mixed r calls (reqs ++ [req_of r (e, c_nsent cm)]) (after_send n r cm (length (x_sends e r)) (next_tag V (c_tag cm) c)) tc (m, snd s)).
Proof.
  intros HL OK ST Hr ID e. destruct (start_ok V neg d n k c r (c_tag cm) cm OK ST) as (m0 & E); [now rewrite HL in Hr|auto|reflexivity|]. fold e in E.
  destruct c; try discriminate; cbn [Mixed.mixed]; unfold issue; rewrite HL, E; reflexivity.
Qed.

Section Programs.
Variable bf : nat -> nat -> bool.
Variable dl : nat -> ctx -> nat -> bool.
Notation creaches := (@creaches Ob V (rank_state V St) bf dl).
Notation cst := (@cst Ob V (rank_state V St) size).
Notation reqs_of r st := (map (fun x => req_of r (st_x x, st_off x r)) st).

Lemma mixed_reaches Q calls : forall sc st done m o q posted cms tcs t Nw,
  (updates Ob V St calls = [] \/ layout = (n, n)) -> Forall (call_ok V n k) (updates Ob V St calls) -> waits_ok V (updates Ob V St calls) (length sc) done ->
  Forall2 stands sc (map (fun x => (st_x x, st_snap x)) st) -> inv size st done q -> (forall i, In i done -> (i < length st)%nat) ->
  (forall x u, In x st -> uses_tag size (st_x x) u -> u <= t) ->
  (forall r, (r < size)%nat -> idle n r (cms r) /\ c_tag (cms r) = t /\ c_nsent (cms r) = length (q r)) ->
  (forall r, (r < size)%nat -> length (m r) = k) -> logs Ob V layout posted tcs Nw ->
  achieves Ob V St neg layout d n k calls sc m o Q ->
  exists m' o' posted' q', Q m' o' /\ creaches (cst (fun r => mixed r calls (reqs_of r st) (cms r) (tcs r) (m r, o r)) posted q) (cst (fun r => RRet (m' r, o' r)) posted' q').
Proof.
  induction calls as [|c0 calls IH]; intros sc st done m o q posted cms tcs t Nw HL OK W ST II HD HT CM LEN LG AC.
  { exists m, o, posted, q. split; auto. exists []. reflexivity. }
  destruct c0 as [c|p|p].
  - cbn [updates] in HL, OK, W. destruct HL as [HL|HL]; [discriminate|]. assert (SZ : size = ranks n) by (unfold Mixed.size; now rewrite HL).
    inversion_clear OK as [|? ? O1 O2].
    assert (START : starts V c = true -> achieves Ob V St neg layout d n k calls (sc ++ [(c, m)]) m o Q -> waits_ok V (updates Ob V St calls) (S (length sc)) done ->
      exists m' o' posted' q', Q m' o' /\ creaches (cst (fun r => mixed r (MUpdate c :: calls) (reqs_of r st) (cms r) (tcs r) (m r, o r)) posted q) (cst (fun r => RRet (m' r, o' r)) posted' q')).
    { intros SC AC' W'. set (e := exch V neg n t c). set (q1 := fun r => (q r ++ sent_msgs (x_sends e r) (m r))%list).
      assert (ME : matched size e) by (rewrite SZ; eapply exch_matched; eauto).
      assert (TG : forall u, uses_tag size e u -> t < u <= next_tag V t c) by (intros u U; rewrite SZ in U; eapply exch_tags; eauto).
      assert (LT : t <= next_tag V t c) by (destruct c; cbn; lia).
      destruct (IH (sc ++ [(c, m)])%list (st ++ [mkSt e (fun r => length (q r)) m])%list done m o q1 posted
          (fun r => after_send n r (cms r) (length (x_sends e r)) (next_tag V t c)) tcs (next_tag V t c) Nw) as (m' & o' & po' & q' & HQ & C); auto.
      - rewrite app_length. cbn [length]. now replace (length sc + 1)%nat with (S (length sc)) by lia.
      - rewrite map_app. apply Forall2_app; auto. constructor; [|constructor]. cbn [st_x st_snap]. repeat split; cbn [fst snd]; auto. exists t. reflexivity.
        intros r Hr. apply LEN. now rewrite SZ.
      - apply inv_start; auto. intros x u I U U'. apply TG in U. apply (HT x u I) in U'. lia.
      - intros i I. rewrite app_length. apply HD in I. lia.
      - intros x u I U. apply in_app_iff in I. destruct I as [I|[<-|[]]]; [specialize (HT x u I U); lia|]. cbn [st_x] in U. apply TG in U. lia.
      - intros r Hr. destruct (CM r Hr) as (ID & TA & NS). split; [apply idle_after|]. split; [reflexivity|]. cbn [after_send c_nsent]. unfold q1. rewrite app_length, NS. unfold sent_msgs. now rewrite map_length.
      - exists m', o', po', q'. split; auto. eapply creaches_trans; [|exact C].
        match goal with |- creaches (cst ?a _ _) (cst ?b _ _) =>
          pose proof (lift_reaches bf dl size (fun r mm => mixed r calls (reqs_of r st ++ [req_of r (e, length (q r))]) (after_send n r (cms r) (length (x_sends e r)) (next_tag V t c)) (tcs r) (mm, o r)) posted
            (fun r => send_ops (x_sends e r)) m q m q1) as X end.
        assert (R : reaches bf (net_of size (fun r => send_ops (x_sends e r)) m q) (net_of size (fun _ => []) m q1)).
        { pose proof (send_phase bf size (x_sends e) (fun _ => []) m q) as R. rewrite (net_of_ext size (fun r => send_ops (x_sends e r)) (fun r => send_ops (x_sends e r) ++ [])%list m m q q); auto. intros r _. now rewrite app_nil_r. }
        specialize (X R).
        match type of X with creaches ?a ?b => match goal with |- creaches ?a' ?b' => replace a' with a; [replace b' with b; [exact X|]|] end end.
        + apply cstp_ext; auto. intros r Hr. rewrite map_app. cbn [map st_x st_off]. reflexivity.
        + apply cstp_ext; auto. intros r Hr. destruct (CM r Hr) as (ID & TA & NS). rewrite starting by auto. cbv zeta. rewrite TA, NS. reflexivity. }
    destruct c; try (apply START; [reflexivity|exact AC|exact W]); clear START.
    + (* wait *)
      cbn [waits_ok] in W. destruct W as (ND & Hi & W). cbn [achieves] in AC.
      destruct (nth_error sc i) as [[c snap]|] eqn:E; [|apply nth_error_None in E; lia].
      destruct (Forall2_nth_error _ _ _ _ _ ST E) as ([e snap'] & E' & (C1 & C2 & (t' & C3) & C4 & C5)). cbn [fst snd] in *. subst e snap'.
      rewrite nth_error_map in E'. destruct (nth_error st i) as [x|] eqn:NS; [|discriminate]. cbn in E'. injection E' as EX ES.
      destruct (exch_effect V neg d n k t' c snap m C1 C2 C5) as (D & EF); [intros r Hr; apply LEN; now rewrite SZ|]. cbv zeta in D. set (m1 := delivered V (exch V neg n t' c) snap m) in *.
      destruct (finish_phase size bf st done m m1 q i x (fun _ => []) II ND NS) as (q1 & R1 & II1 & LQ).
      { intros r Hr. rewrite EX, ES. rewrite SZ in Hr. now apply D. }
      destruct (IH sc st (i :: done) m1 o q1 posted cms tcs t Nw) as (m' & o' & po' & q' & HQ & C); auto.
      * intros j [<-|I]; auto. apply nth_error_Some. congruence.
      * intros r Hr. rewrite LQ. auto.
      * intros r Hr. cbn [fst]. rewrite SZ in Hr. now apply D.
      * apply (AC c snap m1); auto.
      * exists m', o', po', q'. split; auto. eapply creaches_trans; [|exact C].
        pose proof (lift_reaches bf dl size (fun r mm => mixed r calls (reqs_of r st) (cms r) (tcs r) (mm, o r)) posted _ m q m1 q1 R1) as X.
        match type of X with creaches ?a ?b => match goal with |- creaches ?a' ?b' => replace a' with a; [exact X|] end end.
        apply cstp_ext; auto. intros r Hr. cbn [Mixed.mixed]. rewrite nth_error_map, NS. cbn [option_map]. unfold issue, wait_request. cbn [ClientProofs.req_of rq_recvs rq_sends fst snd].
        now rewrite app_nil_r.
    + (* local *)
      cbn [achieves Mixed.mixed waits_ok] in *. destruct (IH sc st done (fun r => f r (m r)) o q posted cms tcs t Nw) as (m' & o' & po' & q' & HQ & C); auto.
      * intros r Hr. cbn [fst]. apply O1; [now rewrite <- SZ|auto].
      * exists m', o', po', q'. auto.
  - cbn [updates achieves Mixed.mixed] in *. destruct AC as (m1 & o1 & TG & L1 & AC).
    destruct (world_reaches Ob V layout bf dl (fun r => p r (m r, o r)) (fun r => (m1 r, o1 r)) (fun r => mixed r calls (reqs_of r st) (cms r) (tcs r)) (fun r => rbind (on_group (all_ranks size) (p r (m r, o r))) (mixed r calls (reqs_of r st) (cms r) (tcs r))) posted q tcs Nw) as (po & Nw' & C1 & LG'); auto.
    destruct (IH sc st done m1 o1 q po cms tcs t Nw') as (m' & o' & po' & q' & HQ & C); auto. exists m', o', po', q'. split; auto. eapply creaches_trans; eauto.
  - cbn [updates achieves Mixed.mixed] in *. destruct AC as (m1 & o1 & TG & L1 & AC).
    edestruct (tile_reaches Ob V layout Hy Hx bf dl (fun r i => p r i (m r, o r)) (fun r => Ok (m1 r, o1 r)) (fun r tc => mixed r calls (reqs_of r st) (cms r) tc)) as (po & tcs' & Nw' & C1 & LG'); [exact TG|reflexivity|exact LG|].
    destruct (IH sc st done m1 o1 q po cms tcs' t Nw') as (m' & o' & po' & q' & HQ & C); auto. exists m', o', po', q'. split; auto. eapply creaches_trans; eauto.
Qed.
End Programs.

Theorem mixed_correct calls m o (Q : (nat -> mem V) -> (nat -> St) -> Prop) : mixed_ok Ob V St layout n k calls -> (forall r, (r < size)%nat -> length (m r) = k) ->
  achieves Ob V St neg layout d n k calls [] m o Q ->
  exists m' o', Q m' o' /\ cluster_ends size (mixed_program Ob V St neg layout calls m o) (fun r => Ok (m' r, o' r)).
Proof.
  intros (HL & OK & W) LEN AC.
  destruct (mixed_reaches (fun _ _ => false) (fun _ _ _ => true) Q calls [] [] [] m o (fun _ => []) (fun _ => []) (fun _ => new_comm) (fun _ => None) 0 0) as (m' & o' & po & q & HQ & C); auto.
  - constructor.
  - apply inv_nil.
  - intros i [].
  - intros x u [].
  - intros r Hr. split; [split; cbn; auto|]. auto.
  - split; [intros r I; reflexivity|]. left. intros r Hr. split; constructor.
  - exists m', o'. split; auto. eapply ends_of_schedule. exact C.
Qed.
End Mixed.
