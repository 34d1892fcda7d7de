(** Nudging towards references of another extent *)
From Verif.Base Require Import Base Lemmas.
From Verif.Model Require Import Consts Numpy Quantity ScatterGather Nudging.
From Verif.Spec Require Import Grid Views Relaxation Spread.
From Verif.Proofs Require Import NumpyProofs ViewProofs CornerProofs ScatterProofs NudgeProofs.
From Coq Require Import ZifyBool.
Ltac Zify.zify_post_hook ::= idtac.

Definition Rel (a b : Z) : Prop := a = b \/ a = 1.

Lemma Forall2_rev {A B} (R : A -> B -> Prop) l l' : Forall2 R l l' -> Forall2 R (rev l) (rev l').
Proof. induction 1; cbn; auto. apply Forall2_app; auto. Qed.

(** with the axes reversed *)
Lemma bshape_below s : forall t, (length s <= length t)%nat -> Forall2 Rel s (firstn (length s) t) -> bshape_rev s t = Some t.
Proof.
  induction s as [|a s IH]; intros [|b t] L F; cbn in *; try lia; auto. inversion F as [|? ? ? ? R F']; subst. rewrite IH by (auto; lia).
  destruct (Z.eqb_spec a b) as [->|N]; auto. destruct (Z.eqb_spec a 1); auto. destruct R; congruence.
Qed.
Lemma bshape_length s : forall t u, bshape_rev s t = Some u -> length u = Nat.max (length s) (length t).
Proof.
  induction s as [|a s IH]; intros [|b t] u E; cbn in *; try (injection E as <-; cbn; lia).
  destruct (bshape_rev s t) as [r|] eqn:B; [|discriminate]. specialize (IH t r B).
  destruct (a =? b); [injection E as <-; cbn; lia|]. destruct (a =? 1); [injection E as <-; cbn; lia|]. destruct (b =? 1); [injection E as <-; cbn; lia|discriminate].
Qed.
Lemma bshape_above s : forall t u, (length s <= length t)%nat -> bshape_rev s t = Some u -> Forall2 Rel u t -> Forall2 Rel s (firstn (length s) t).
Proof.
  induction s as [|a s IH]; intros [|b t] u L E F; cbn in *; try lia; auto.
  destruct (bshape_rev s t) as [r|] eqn:B; [|discriminate]. specialize (IH t r).
  destruct (Z.eqb_spec a b) as [->|N]; [injection E as <-; inversion F; subst; constructor; [now left|apply IH; auto; lia]|].
  destruct (Z.eqb_spec a 1) as [->|N1]; [injection E as <-; inversion F; subst; constructor; [now right|apply IH; auto; lia]|].
  destruct (Z.eqb_spec b 1) as [->|N2]; [|discriminate]. injection E as <-. inversion F as [|? ? ? ? [X|X] F']; subst; congruence.
Qed.

Lemma bshape_spreads s t : spreads s t -> bshape s t = Some t.
Proof.
  intros (L & F). unfold bshape. rewrite (bshape_below (rev s) (rev t)); [cbn; now rewrite rev_involutive|now rewrite !rev_length|].
  rewrite rev_length, firstn_rev. now apply Forall2_rev.
Qed.
Lemma spreads_bshape s t u : (length s <= length t)%nat -> bshape s t = Some u -> Forall2 Rel u t -> spreads s t.
Proof.
  unfold bshape. intros L E F. destruct (bshape_rev (rev s) (rev t)) as [w|] eqn:B; [|discriminate]. cbn in E. injection E as <-.
  split; auto. apply Forall2_rev in F. rewrite rev_involutive in F.
  pose proof (bshape_above (rev s) (rev t) w) as X. rewrite !rev_length in X. specialize (X L B F). rewrite firstn_rev in X. apply Forall2_rev in X.
  now rewrite !rev_involutive in X.
Qed.

Lemma all_related u : forall t, Forall2 Rel u t -> forallb (fun st : Z * Z => (fst st =? snd st) || (fst st =? 1)) (combine u t) = true.
Proof. intros t F. induction F as [|a b u t [-> | ->] F IH]; cbn; auto; rewrite IH; lia. Qed.
Lemma related_all u : forall t, length u = length t -> forallb (fun st : Z * Z => (fst st =? snd st) || (fst st =? 1)) (combine u t) = true -> Forall2 Rel u t.
Proof.
  induction u as [|a u IH]; intros [|b t] L H; try discriminate; constructor; cbn in *; [|apply IH; [lia|]]; destruct (forallb _ _); try lia. unfold Rel. lia.
Qed.

Lemma bcast_spreads s t : spreads s t -> exists f, bcast t s = Some f /\ forall p, in_shape t p -> f p = spread_index s (skipn (length t - length s) p).
Proof.
  intros (L & F). unfold bcast. replace (length s - length t)%nat with 0%nat by lia. cbn [firstn skipn forallb map app andb].
  rewrite (all_related s _ F). eexists. split; [reflexivity|]. intros p _. cbv beta. clear.
  generalize (skipn (length t - length s) p). induction s as [|a s IH]; intros [|x l]; cbn; auto. unfold bcast1. now rewrite IH.
Qed.
Lemma bcast_refused t u : length u = length t -> ~ Forall2 Rel u t -> bcast t u = None.
Proof.
  intros L N. unfold bcast. rewrite L, Nat.sub_diag. cbn [firstn skipn forallb andb]. destruct (forallb _ _) eqn:H; auto. destruct N. now apply related_all.
Qed.

Lemma spread_in s : forall t, Forall2 Rel s t -> forall p, in_shape t p -> in_shape s (spread_index s p).
Proof.
  intros t F. induction F as [|a b s t R F IH]; intros p P; inversion P; subst; cbn [spread_index]; constructor; [|now apply IH].
  destruct (Z.eqb_spec a 1); [lia|]. destruct R; [lia|congruence].
Qed.

Lemma dset_same {A} name (a : A) d : dget name d = Some a -> dset name a d = d.
Proof.
  induction d as [|[k b] d IH]; cbn; [discriminate|]. destruct (String.eqb_spec name k) as [->|]; intros E; [congruence|]. now rewrite IH.
Qed.

Section Nudge.
Context {V T : Type}.
Variables (sub add : V -> V -> V) (div mul : V -> T -> V).
Implicit Types q r : quantity V.

Lemma in_skipn n : forall t p, in_shape t p -> in_shape (skipn n t) (skipn n p).
Proof. induction n as [|n IH]; intros t p P; auto. inversion P; subst; cbn [skipn]; [constructor|]. now apply IH. Qed.

Lemma comparable_spread q r : well_formed (q_meta q) -> q_dims q <> [] -> comparable q (spread_to q r).
Proof.
  intros W N. split; auto. split; [|split; auto]. destruct W as (L & AX). destruct (axes_ok_lengths _ _ _ AX) as (L1 & L2). destruct (axes_ok_extent _ _ _ AX) as (P & _).
  cbn in *. split; cbn; [congruence|]. apply axes_self; auto. congruence.
Qed.

Lemma lengths q : well_formed (q_meta q) -> length (q_dims q) = length (q_extent q).
Proof. intros (L & A). destruct (axes_ok_lengths _ _ _ A) as (L1 & L2). cbn in *. congruence. Qed.

Lemma np_spread f (a b : arr V) : spreads (shp a) (shp b) -> exists c, np_binary f a b = Ok c /\ shp c = shp b /\
  forall p, in_shape (shp b) p -> at_ c p = f (at_ a (spread_index (shp a) (skipn (length (shp b) - length (shp a)) p))) (at_ b p).
Proof.
  intros S. unfold np_binary. rewrite bshape_spreads by auto. destruct (bcast_spreads _ _ S) as (g & -> & G). destruct (bcast_same (shp b)) as (h & -> & H).
  eexists. split; [reflexivity|]. split; auto. intros p P. cbn. now rewrite G, H.
Qed.

Lemma tendency_spread q r tau : well_formed (q_meta q) -> well_formed (q_meta r) -> q_dims q <> [] -> q_dims r <> [] -> spreads (q_extent r) (q_extent q) ->
  exists t, tendency_of sub div q r tau = Ok t /\ is_rate sub div q (spread_to q r) tau t.
Proof.
  intros W W' N N' SP. pose proof (dims_extent q W N) as NE. pose proof (dims_extent r W' N') as NE'.
  destruct (get_single r W' NE') as (ra & Er & Sr & Mr). destruct (get_single q W NE) as (sa & Es & Ss & Ms).
  destruct (np_spread sub ra sa) as (d & Ed & Sd & Md); [now rewrite Sr, Ss|].
  unfold tendency_of. rewrite Er, Es. cbn [bind]. rewrite Ed. cbn [bind]. unfold operation_result, np_map. cbn [shp]. rewrite Sd, Ss.
  destruct (q_extent q) as [|e extent] eqn:X; [congruence|]. rewrite <- X in *.
  pose proof (lengths q W) as L.
  cbn [new_quantity shp bind]. rewrite sub_zeros by auto. unfold validate_lengths. rewrite map_length, L, Nat.eqb_refl. cbn [negb bind].
  eexists. split; [reflexivity|]. unfold is_rate. cbn [q_data q_extent q_origin q_dims q_units shp at_]. repeat (split; auto).
  intros p P. rewrite Md by (now rewrite Ss). unfold rate. rewrite Ms by auto. rewrite Sr, Ss. rewrite Mr.
  - f_equal. f_equal. unfold spread_to. cbn [domain_of at_ q_data q_origin q_extent]. rewrite shifted_zeros; [reflexivity|]. apply in_shape_length in P. congruence.
  - destruct SP as (SL & F). eapply spread_in; [exact F|]. now apply in_skipn.
Qed.

Theorem nudged_spread state reference_state name tau dt q r : dget name state = Some q -> dget name reference_state = Some r -> well_formed (q_meta q) -> well_formed (q_meta r) ->
  q_dims q <> [] -> q_dims r <> [] -> spreads (q_extent r) (q_extent q) ->
  exists q' t, apply_nudging sub add div mul state reference_state [(name, tau)] dt = (dset name q' state, Ok [(name, t)]) /\
    is_rate sub div q (spread_to q r) tau t /\ is_relaxed sub add div mul q (spread_to q r) tau dt q'.
Proof.
  intros Q R W W' N N' SP. destruct (tendency_spread q r tau W W' N N' SP) as (t & E & IR).
  destruct (add_ok sub add div mul q (spread_to q r) tau dt t (comparable_spread q r W N) IR) as (q' & A & RX). exists q', t. split; [|auto].
  unfold apply_nudging, get_nudging_tendencies. cbn [rfold fst snd]. unfold Nudging.lookup. rewrite Q, R. cbn [bind]. rewrite E. cbn [bind rfold dset apply_tendencies].
  now rewrite Q, A.
Qed.

(** any other extent is refused *)
Theorem nudging_refused state reference_state name tau dt q r : dget name state = Some q -> dget name reference_state = Some r -> well_formed (q_meta q) -> well_formed (q_meta r) ->
  q_dims q <> [] -> q_dims r <> [] -> ~ spreads (q_extent r) (q_extent q) ->
  apply_nudging sub add div mul state reference_state [(name, tau)] dt = (state, Err ValueError).
Proof.
  intros Q R W W' N N' SP. pose proof (dims_extent q W N) as NE. pose proof (dims_extent r W' N') as NE'.
  destruct (get_single r W' NE') as (ra & Er & Sr & Mr). destruct (get_single q W NE) as (sa & Es & Ss & Ms). pose proof (lengths q W) as LQ.
  unfold apply_nudging, get_nudging_tendencies. cbn [rfold fst snd]. unfold Nudging.lookup. rewrite Q, R. cbn [bind]. unfold tendency_of. rewrite Er, Es. cbn [bind].
  unfold np_binary. rewrite Sr, Ss. destruct (bshape (q_extent r) (q_extent q)) as [u|] eqn:B; [|reflexivity].
  assert (LU : length u = Nat.max (length (q_extent r)) (length (q_extent q))).
  { unfold bshape in B. destruct (bshape_rev _ _) as [w|] eqn:B'; [|discriminate]. cbn in B. injection B as <-. apply bshape_length in B'. rewrite rev_length, B', !rev_length. reflexivity. }
  destruct (bcast u (q_extent r)) as [fr|]; [|reflexivity]. destruct (bcast u (q_extent q)) as [fq|]; [|reflexivity]. cbn [bind]. unfold operation_result, np_map. cbn [shp].
  destruct u as [|e u0] eqn:X. { cbn in LU. destruct (q_extent q); [congruence|]. cbn in LU. lia. } rewrite <- X in *.
  cbn [new_quantity shp bind at_]. unfold validate_lengths. 
  destruct (Nat.eqb_spec (length (q_dims q)) (length u)) as [L|L]; [|reflexivity]. cbn [negb]. rewrite map_length, L, Nat.eqb_refl. cbn [negb]. rewrite sub_zeros by auto. rewrite Nat.eqb_refl. cbn [negb bind dset rfold].
  cbn [apply_tendencies]. rewrite Q. unfold add_tendency. destruct (view_single q W NE) as (v & Ev & Sv & Mv). rewrite Ev. cbn [bind].
  set (t := mkQ _ (q_dims q) _ _ u).
  assert (FU : Forall (Z.le 0) u).
  { destruct W as (_ & AX). destruct (axes_ok_extent _ _ _ AX) as (P & _). destruct W' as (_ & AX'). destruct (axes_ok_extent _ _ _ AX') as (P' & _). cbn in P, P'.
    unfold bshape in B. destruct (bshape_rev _ _) as [w|] eqn:B'; [|discriminate]. cbn in B. injection B as <-. apply Forall_rev.
    apply Forall_rev in P. apply Forall_rev in P'. revert B'. generalize dependent (rev (q_extent q)). generalize dependent (rev (q_extent r)). clear. intros s PS t PT. revert t PT w.
    induction PS as [|a s A PS IH]; intros t PT w; destruct PT as [|b t B PT]; cbn; try (intros E; injection E as <-; auto; fail).
    destruct (bshape_rev s t) as [w'|] eqn:E'; [|discriminate]. specialize (IH t PT w' E').
    destruct (a =? b); [intros E; injection E as <-; auto|]. destruct (a =? 1); [intros E; injection E as <-; auto|]. destruct (b =? 1); [intros E; injection E as <-; auto|discriminate]. }
  assert (WT : well_formed (q_meta t)). { split; cbn; [congruence|]. apply axes_self; auto. }
  assert (NT : q_extent t <> []) by (unfold t; cbn; congruence).
  destruct (get_single t WT NT) as (ta & -> & St & _). cbn [bind]. unfold np_iadd, np_map. cbn [shp]. rewrite Sv, St. unfold t at 1. cbn [q_extent].
  rewrite bcast_refused; [now rewrite dset_same|congruence|].
  intros F. apply SP. eapply spreads_bshape; eauto. lia.
Qed.
(** ** many variables: as if the references had been spread before *)
Lemma spread_references state reference_state (timescales : dict T) : Forall (spread_matched state reference_state) timescales ->
  exists spread, forall name tau q r, In (name, tau) timescales -> dget name state = Some q -> dget name reference_state = Some r -> dget name spread = Some (spread_to q r).
Proof.
  induction 1 as [|[name tau] l (q & r & Q & R & _) F (spread & IH)]; [exists []; intros ? ? ? ? []|].
  exists (dset name (spread_to q r) spread). intros n u q1 r1 I Q1 R1. rewrite dget_dset. cbn [fst] in *.
  destruct (String.eqb_spec n name) as [->|N]; [congruence|]. destruct I as [X|I]; [injection X; congruence|]. eapply IH; eauto.
Qed.

Lemma spread_rates state reference_state spread (timescales : dict T) :
  (forall name tau q r, In (name, tau) timescales -> dget name state = Some q -> dget name reference_state = Some r -> dget name spread = Some (spread_to q r)) ->
  forall acc, NoDup (dkeys acc ++ dkeys timescales) -> Forall (spread_matched state reference_state) timescales ->
  exists tendencies, rfold (fun return_dict nt => do quantity <- Nudging.lookup (fst nt) state; do reference <- Nudging.lookup (fst nt) reference_state;
    do t <- tendency_of sub div quantity reference (snd nt); Ok (dset (fst nt) t return_dict)) timescales acc = Ok (acc ++ tendencies) /\
    rates sub div state spread timescales tendencies.
Proof.
  induction timescales as [|[name tau] timescales IH]; intros HS acc ND F; cbn [rfold]; [exists []; rewrite app_nil_r; split; [auto|constructor]|].
  inversion F as [|? ? (q & r & Q & R & W & W' & N & N' & SP) F']; subst. cbn [fst snd] in *. unfold Nudging.lookup. rewrite Q, R. cbn [bind].
  destruct (tendency_spread q r tau W W' N N' SP) as (t & -> & IR). cbn [bind].
  assert (NI : ~ In name (dkeys acc)). { cbn in ND. apply NoDup_remove_2 in ND. intros I. apply ND. apply in_or_app. auto. }
  rewrite dset_new by auto. destruct (IH (fun n u q r I => HS n u q r (or_intror I)) (acc ++ [(name, t)])) as (tend & E & RT); auto.
  { unfold dkeys in *. rewrite map_app, <- app_assoc. exact ND. }
  unfold Nudging.lookup in E. rewrite E. exists ((name, t) :: tend). rewrite <- app_assoc. split; [reflexivity|]. constructor; auto. split; auto. cbn [fst snd].
  exists q, (spread_to q r). split; auto. split; auto. apply (HS name tau); auto. now left.
Qed.

Theorem nudged_spread_state state reference_state timescales dt : NoDup (dkeys timescales) -> Forall (spread_matched state reference_state) timescales ->
  exists state' tendencies, apply_nudging sub add div mul state reference_state timescales dt = (state', Ok tendencies) /\
    dkeys state' = dkeys state /\ dkeys tendencies = dkeys timescales /\
    (forall name tau, In (name, tau) timescales -> exists q r t q', dget name state = Some q /\ dget name reference_state = Some r /\
       dget name tendencies = Some t /\ is_rate sub div q (spread_to q r) tau t /\ dget name state' = Some q' /\ is_relaxed sub add div mul q (spread_to q r) tau dt q') /\
    (forall name, ~ In name (dkeys timescales) -> dget name state' = dget name state).
Proof.
  intros ND F. destruct (spread_references state reference_state timescales F) as (spread & HS).
  assert (FM : Forall (matched state spread) timescales).
  { rewrite Forall_forall in *. intros [name tau] I. destruct (F _ I) as (q & r & Q & R & W & W' & N & N' & SP). exists q, (spread_to q r). cbn [fst] in *.
    split; auto. split; [eapply HS; eauto|]. now apply comparable_spread. }
  destruct (spread_rates state reference_state spread timescales HS [] ND F) as (tend & E & RT).
  unfold apply_nudging, get_nudging_tendencies. rewrite E. cbn [app].
  destruct (apply_ok sub add div mul spread dt timescales state state tend) as (state' & -> & K & G & O); auto.
  assert (KT : dkeys tend = dkeys timescales). { clear - RT. unfold dkeys. induction RT as [|? ? ? ? (X & _)]; cbn; congruence. }
  exists state', tend. split; auto. split; auto. split; auto. split; auto.
  intros name tau I. destruct (G name tau I) as (q & s & q' & Q & Rf & Q' & RX). rewrite Forall_forall in F. destruct (F _ I) as (q1 & r & Q1 & R & _). cbn [fst] in *.
  assert (q1 = q) by congruence. subst q1. pose proof (HS name tau q r I Q R) as H1. assert (s = spread_to q r) by congruence. subst s.
  assert (X : exists t, In (name, t) tend /\ is_rate sub div q (spread_to q r) tau t).
  { clear - RT I Q Rf. induction RT as [|[n u] [n' t] ts tend (X & q1 & r1 & Q1 & R1 & IR) RT IH]; [destruct I|]. cbn [fst snd] in *. destruct I as [X'|I].
    - injection X' as -> ->. assert (q1 = q) by congruence. assert (r1 = spread_to q r) by congruence. subst. exists t. split; [now left|auto].
    - destruct (IH I) as (t' & I' & IR'). exists t'. split; [now right|auto]. }
  destruct X as (t & It & IR). exists q, r, t, q'. split; auto. split; auto. split; auto. apply dget_NoDup; auto. now rewrite KT.
Qed.
End Nudge.
