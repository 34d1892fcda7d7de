From Verif.Base Require Import Base Lemmas.
From Verif.Model Require Import Consts Numpy Quantity ScatterGather Nudging.
From Verif.Spec Require Import Grid Views Relaxation.
From Verif.Proofs Require Import NumpyProofs ViewProofs CornerProofs ScatterProofs.

Lemma bshape_same s : bshape s s = Some s.
Proof.
  unfold bshape. assert (E : forall l, bshape_rev l l = Some l). { induction l as [|a l IH]; auto. cbn. rewrite IH, Z.eqb_refl. reflexivity. }
  rewrite E. cbn. now rewrite rev_involutive.
Qed.

Section Nudge.
Context {V T : Type}.
Variables (sub add : V -> V -> V) (div mul : V -> T -> V).
Implicit Types q r : quantity V.

Lemma np_binary_same f (a b : arr V) : shp a = shp b -> exists c, np_binary f a b = Ok c /\ shp c = shp a /\ forall p, in_shape (shp a) p -> at_ c p = f (at_ a p) (at_ b p).
Proof.
  intros E. unfold np_binary. rewrite <- E, bshape_same. destruct (bcast_same (shp a)) as (g & -> & G). eexists. split; [reflexivity|]. split; auto. intros p P. cbn. now rewrite G.
Qed.

Lemma view_single q : well_formed (q_meta q) -> q_extent q <> [] -> exists v, view_index (q_meta q) (PSingle IALL) = Ok v /\ vshp v = q_extent q /\
  forall p, in_shape (q_extent q) p -> vmap v p = shifted (q_origin q) p.
Proof.
  intros W N. exact (view_all_ok q W N).
Qed.

Lemma dims_extent q : well_formed (q_meta q) -> q_dims q <> [] -> q_extent q <> [].
Proof. intros (L & A) N E. destruct (axes_ok_lengths _ _ _ A) as (L1 & L2). cbn in *. destruct (q_dims q); [congruence|]. rewrite E in L2. cbn in *. lia. Qed.

Lemma get_single q : well_formed (q_meta q) -> q_extent q <> [] -> exists a, view_get q (PSingle IALL) = Ok a /\ shp a = q_extent q /\ forall p, in_shape (q_extent q) p -> at_ a p = at_ (domain_of q) p.
Proof.
  intros W N. destruct (view_single q W N) as (v & E & S & M). unfold view_get. rewrite E. cbn. eexists. split; [reflexivity|]. split; auto. intros p P. cbn. now rewrite M.
Qed.

Lemma sub_zeros l : forall k : list string, length k = length l -> Numpy.map2 Z.sub l (map (fun _ => 0) k) = l.
Proof. induction l as [|a l IH]; intros [|s k] L; try discriminate; auto. cbn. rewrite IH by (cbn in L; lia). f_equal. lia. Qed.

Lemma tendency_ok q r tau : comparable q r -> exists t, tendency_of sub div q r tau = Ok t /\ is_rate sub div q r tau t.
Proof.
  intros (W & W' & E & N). pose proof (dims_extent q W N) as NE. assert (NE' : q_extent r <> []) by congruence.
  destruct (get_single r W' NE') as (ra & Er & Sr & Mr). destruct (get_single q W NE) as (sa & Es & Ss & Ms).
  destruct (np_binary_same sub ra sa) as (d & Ed & Sd & Md); [congruence|].
  unfold tendency_of. rewrite Er, Es. cbn [bind]. rewrite Ed. cbn [bind]. unfold operation_result, np_map. cbn [shp]. rewrite Sd, Sr, <- E.
  destruct (q_extent q) as [|e extent] eqn:X; [congruence|]. rewrite <- X in *.
  assert (L : length (q_dims q) = length (q_extent q)). { destruct W as (L & A). destruct (axes_ok_lengths _ _ _ A) as (L1 & L2). cbn in *. congruence. }
  cbn [new_quantity shp bind]. rewrite sub_zeros by auto. unfold validate_lengths. rewrite map_length, L, Nat.eqb_refl. cbn [negb bind].
  eexists. split; [reflexivity|]. unfold is_rate. cbn [q_data q_extent q_origin q_dims q_units shp at_]. repeat (split; auto).
  intros p P. rewrite Md by (rewrite Sr, <- E; auto). unfold rate. now rewrite Mr, Ms by (auto; congruence).
Qed.

Lemma axes_self l : Forall (Z.le 0) l -> forall k : list string, length k = length l -> axes_ok (map (fun _ => 0) k) l l.
Proof. induction 1 as [|a l A F IH]; intros [|s k] L; try discriminate; cbn; constructor; auto; try lia. Qed.

Lemma rate_wf q r tau t : comparable q r -> is_rate sub div q r tau t -> well_formed (q_meta t) /\ q_extent t <> [].
Proof.
  intros (W & W' & E & N) (A & B & C & D & _). pose proof (dims_extent q W N) as NE. split; [|congruence]. destruct W as (L & AX). destruct (axes_ok_lengths _ _ _ AX) as (L1 & L2). destruct (axes_ok_extent _ _ _ AX) as (P & _).
  split; cbn in *; [congruence|]. rewrite A, B, C. apply axes_self; auto. congruence.
Qed.

Lemma shifted_zeros k : forall p, length p = length k -> shifted (map (fun _ : string => 0) k) p = p.
Proof. induction k as [|s k IH]; intros [|a p] L; try discriminate; auto. cbn. unfold shifted in IH. rewrite IH by (cbn in L; lia). f_equal. Qed.

Lemma add_ok q r tau dt t : comparable q r -> is_rate sub div q r tau t ->
  exists q', add_tendency add mul q t dt = (q', Ok tt) /\ is_relaxed sub add div mul q r tau dt q'.
Proof.
  intros C R. pose proof C as (W & W' & E & N). pose proof (dims_extent q W N) as NE. destruct (rate_wf q r tau t C R) as (Wt & NEt).
  destruct (view_single q W NE) as (v & Ev & Sv & Mv). destruct (get_single t Wt NEt) as (ta & Et & St & Mt).
  unfold add_tendency. rewrite Ev. cbn [bind]. rewrite Et. cbn [bind]. destruct R as (R1 & R2 & R3 & R4 & R5 & R6).
  unfold np_iadd, np_map. cbn [shp at_]. rewrite Sv, St, R2. destruct (bcast_same (q_extent q)) as (f & -> & F).
  set (a' := a_write _ (q_data q)).
  assert (J : inj_view v). { intros p p' P P' X. rewrite Sv in *. rewrite !Mv in X by auto. destruct W as (L & A). destruct (axes_ok_lengths _ _ _ A) as (L1 & L2). cbn in L1, L2. apply in_shape_length in P, P'. apply shifted_inj in X; auto; lia. }
  set (q1 := q_with_data q a').
  assert (M1 : q_meta q1 = q_meta q) by (unfold q_meta, q1, q_with_data, a'; cbn; now rewrite shp_a_write).
  assert (Wr : is_relaxed sub add div mul q r tau dt q1).
  { unfold is_relaxed, written. split; [|split; [exact M1|split; [reflexivity|]]].
    - split; auto. cbn [domain_of shp q_extent q1 q_with_data at_ q_data q_origin]. intros p P. rewrite <- Mv by auto.
      unfold a'. rewrite <- Sv. rewrite (write_view_in (q_data q) v (fun p => add (at_ (q_data q) (vmap v p)) (mul (at_ ta (f p)) dt)) p J) by (now rewrite Sv).
      rewrite F by auto. rewrite Mt by (now rewrite R2). unfold relaxed. rewrite Mv by auto. f_equal. f_equal. cbn [domain_of at_]. rewrite R3.
      rewrite shifted_zeros. { rewrite R6 by auto. reflexivity. }
      apply in_shape_length in P. destruct W as (L & A). destruct (axes_ok_lengths _ _ _ A) as (L1 & L2). cbn in *. congruence.
    - intros i _ H. cbn [q1 q_with_data q_data]. unfold a'. rewrite <- Sv. apply (write_view_frame (q_data q) v (fun p => add (at_ (q_data q) (vmap v p)) (mul (at_ ta (f p)) dt)) i).
      intros p P. rewrite Sv in P. rewrite Mv by auto. intros X. now apply (H p P). }
  assert (W1 : well_formed (q_meta q1)) by now rewrite M1. assert (NE1 : q_extent q1 <> []) by exact NE.
  destruct (view_single q1 W1 NE1) as (w & Ew & Sw & Mw). unfold view_get at 1. rewrite Ew. cbn [rmap bind].
  (* assigning the view to itself *)
  assert (X : exists q2, view_set q1 (PSingle IALL) (v_read (q_data q1) w) = Ok q2 /\ q_meta q2 = q_meta q1 /\ q_units q2 = q_units q1 /\ forall i, at_ (q_data q2) i = at_ (q_data q1) i).
  { unfold view_set, setitem. assert (Ew' : (do es <- get_compute_index (q_meta q1) (PSingle IALL); v_index (v_whole (shp (q_data q1))) es) = Ok w).
    { unfold view_index in Ew. destruct (m_origin (q_meta q1)) eqn:O; auto. destruct W1 as (_ & A). rewrite O in A. inversion A as [E1 E2 E3|]. cbn in E2. congruence. }
    destruct (get_compute_index (q_meta q1) (PSingle IALL)) as [es|]; [|discriminate]. cbn [bind] in *. rewrite Ew'. cbn [bind]. unfold a_assign. cbn [v_read shp].
    destruct (bcast_same (vshp w)) as (g & -> & G). cbn [bind]. eexists. split; [reflexivity|]. cbn [q_with_data q_data q_units]. split; [unfold q_meta; cbn; now rewrite shp_a_write|]. split; [reflexivity|].
    intros i. set (ws := map _ _). 
    assert (H : forall l (a : arr V), (forall iv, In iv l -> snd iv = at_ a (fst iv)) -> forall i, at_ (a_write l a) i = at_ a i).
    { clear. induction l as [|[j x] l IH]; intros a H i; auto. pose proof (H (j, x) (or_introl eq_refl)) as K. cbn in K. rewrite a_write_cons. rewrite IH.
      - cbn. destruct (idx_eqb_spec i j) as [->|]; congruence.
      - intros iv I. cbn. destruct (idx_eqb_spec (fst iv) j) as [E|]; [|apply H; now right]. rewrite (H iv) by now right. rewrite E. congruence. }
    apply H. intros iv I. unfold ws in I. apply in_map_iff in I. destruct I as (p & <- & I). cbn. apply in_all_idx in I. now rewrite G. }
  destruct X as (q2 & -> & M2 & U2 & D2). exists q2. split; [reflexivity|].
  destruct Wr as ((B1 & B2) & B3 & B4 & B5). split; [|split; [congruence|split; [congruence|]]].
  - assert (O2 : q_origin q2 = q_origin q1) by (unfold q_meta in M2; congruence). assert (E2 : q_extent q2 = q_extent q1) by (unfold q_meta in M2; congruence).
    split; [cbn [domain_of shp]; rewrite E2; exact B1|]. cbn [domain_of shp at_]. rewrite E2, O2. intros p P. rewrite D2. now apply B2.
  - intros i P H. rewrite D2. now apply B5.
Qed.

Section Dict.
Variables (state reference_state : dict (quantity V)) (dt : T).
Definition rates (timescales : dict T) (tendencies : dict (quantity V)) : Prop :=
  Forall2 (fun nt ntend => fst ntend = fst nt /\ exists q r, dget (fst nt) state = Some q /\ dget (fst nt) reference_state = Some r /\ is_rate sub div q r (snd nt) (snd ntend)) timescales tendencies.

Lemma dset_new {A} name (a : A) d : ~ In name (dkeys d) -> dset name a d = d ++ [(name, a)].
Proof.
  induction d as [|[k b] d IH]; cbn; auto. intros N. destruct (String.eqb_spec name k); [exfalso; apply N; left; congruence|]. rewrite IH; auto.
Qed.

Lemma tendencies_ok timescales : forall acc, NoDup (dkeys acc ++ dkeys timescales) -> Forall (matched state reference_state) timescales ->
  exists tendencies, rfold (fun return_dict nt => do quantity <- Nudging.lookup (fst nt) state; do reference <- Nudging.lookup (fst nt) reference_state;
    do t <- tendency_of sub div quantity reference (snd nt); Ok (dset (fst nt) t return_dict)) timescales acc = Ok (acc ++ tendencies) /\ rates timescales tendencies.
Proof.
  induction timescales as [|[name tau] timescales IH]; intros acc ND F; cbn [rfold]; [exists []; rewrite app_nil_r; split; [auto|constructor]|].
  inversion F as [|? ? (q & r & Q & R & C) F']; subst. cbn [fst snd] in *. unfold Nudging.lookup. rewrite Q, R. cbn [bind]. destruct (tendency_ok q r tau C) as (t & -> & IR). cbn [bind].
  assert (NI : ~ In name (dkeys acc)). { cbn in ND. apply NoDup_remove_2 in ND. intros I. apply ND. apply in_or_app. auto. }
  rewrite dset_new by auto. destruct (IH (acc ++ [(name, t)])) as (tend & E & RT); auto.
  { unfold dkeys in *. rewrite map_app, <- app_assoc. exact ND. }
  unfold Nudging.lookup in E. rewrite E. exists ((name, t) :: tend). rewrite <- app_assoc. split; [reflexivity|]. constructor; auto. split; auto. cbn. eauto.
Qed.
End Dict.

Lemma dkeys_dset {A} name (a : A) d : dget name d <> None -> dkeys (dset name a d) = dkeys d.
Proof.
  unfold dkeys. induction d as [|[k b] d IH]; cbn; [congruence|]. intros N. destruct (String.eqb_spec name k) as [->|]; cbn; auto. now rewrite IH.
Qed.

Lemma apply_ok reference_state dt timescales : forall state state0 tendencies, NoDup (dkeys timescales) ->
  (forall name, In name (dkeys timescales) -> dget name state = dget name state0) -> Forall (matched state0 reference_state) timescales -> rates state0 reference_state timescales tendencies ->
  exists state', apply_tendencies add mul state tendencies dt = (state', Ok tt) /\ dkeys state' = dkeys state /\
    (forall name tau, In (name, tau) timescales -> exists q r q', dget name state0 = Some q /\ dget name reference_state = Some r /\ dget name state' = Some q' /\ is_relaxed sub add div mul q r tau dt q') /\
    (forall name, ~ In name (dkeys timescales) -> dget name state' = dget name state).
Proof.
  induction timescales as [|[name tau] timescales IH]; intros state state0 tendencies ND S F R; inversion R as [|? [name' t] ? tend (E & q & r & Q & Rf & IR) R']; subst; cbn [apply_tendencies].
  { exists state. split; [reflexivity|]. split; [reflexivity|]. split; [intros ? ? []|auto]. }
  cbn [fst snd] in *. subst name'. inversion F as [|? ? (q1 & r1 & Q1 & R1 & C) F']; subst. cbn [fst] in *. assert (q1 = q) by congruence. assert (r1 = r) by congruence. subst q1 r1.
  inversion ND as [|? ? NI ND']; subst. rewrite S, Q by now left. destruct (add_ok q r tau dt t C IR) as (q' & -> & RX).
  destruct (IH (dset name q' state) state0 tend) as (state' & E & K & G & O); auto.
  { intros n I. rewrite dget_dset. destruct (String.eqb_spec n name) as [->|]; [contradiction|]. apply S. now right. }
  exists state'. split; auto. split. { rewrite K. apply dkeys_dset. rewrite S by now left. congruence. } split.
  - intros n u [X|I]; [|now apply G]. injection X as <- <-. exists q, r, q'. split; auto. split; auto. split; auto. rewrite O by auto. rewrite dget_dset, String.eqb_refl. reflexivity.
  - intros n N. rewrite O by (intros I; apply N; now right). rewrite dget_dset. destruct (String.eqb_spec n name) as [->|]; auto. exfalso. apply N. now left.
Qed.

(** C45 *)
Theorem nudged state reference_state timescales dt : NoDup (dkeys timescales) -> Forall (matched state reference_state) timescales ->
  exists state' tendencies, apply_nudging sub add div mul state reference_state timescales dt = (state', Ok tendencies) /\
    dkeys state' = dkeys state /\ dkeys tendencies = dkeys timescales /\
    (forall name tau, In (name, tau) timescales -> exists q r t q', dget name state = Some q /\ dget name reference_state = Some r /\
       dget name tendencies = Some t /\ is_rate sub div q r tau t /\ dget name state' = Some q' /\ is_relaxed sub add div mul q r tau dt q') /\
    (forall name, ~ In name (dkeys timescales) -> dget name state' = dget name state).
Proof.
  intros ND F. unfold apply_nudging, get_nudging_tendencies. destruct (tendencies_ok state reference_state timescales []) as (tend & E & R); auto. rewrite E. cbn [app].
  destruct (apply_ok reference_state dt timescales state state tend) as (state' & -> & K & G & O); auto.
  assert (KT : dkeys tend = dkeys timescales). { clear - R. unfold dkeys. induction R as [|? ? ? ? (X & _)]; cbn; congruence. }
  exists state', tend. split; auto. split; auto. split; auto. split; auto.
  intros name tau I. destruct (G name tau I) as (q & r & q' & Q & Rf & Q' & RX).
  assert (X : exists t, In (name, t) tend /\ is_rate sub div q r tau t).
  { clear - R I Q Rf. induction R as [|[n u] [n' t] ts tend (X & q1 & r1 & Q1 & R1 & IR) R IH]; [destruct I|]. cbn [fst snd] in *. destruct I as [X'|I].
    - injection X' as -> ->. assert (q1 = q) by congruence. assert (r1 = r) by congruence. subst. exists t. split; [now left|auto].
    - destruct (IH I) as (t' & I' & IR'). exists t'. split; [now right|auto]. }
  destruct X as (t & It & IR). exists q, r, t, q'. split; auto. split; auto. split; auto. apply dget_NoDup; auto. now rewrite KT.
Qed.

(** zero-dimensional quantities cannot be nudged *)
Theorem nudging_zero_dims state reference_state name tau dt q r : dget name state = Some q -> dget name reference_state = Some r ->
  well_formed (q_meta q) -> well_formed (q_meta r) -> q_dims q = [] -> q_dims r = [] ->
  apply_nudging sub add div mul state reference_state [(name, tau)] dt = (state, Err AttributeError).
Proof.
  intros Q R (L & A) (L' & A') D D'. cbn in L, A, L', A'. rewrite D in L. rewrite D' in L'. cbn in L, L'. unfold apply_nudging, get_nudging_tendencies. cbn [rfold fst snd].
  unfold Nudging.lookup. rewrite Q, R. cbn [bind]. unfold tendency_of, view_get, view_index. cbn [q_meta m_origin m_shape].
  inversion A as [E1 E2 E3|? ? ? ? ? ? ? ? ? ? E1 E2 E3]; [|rewrite <- E3 in L; discriminate]. inversion A' as [E1' E2' E3'|? ? ? ? ? ? ? ? ? ? E1' E2' E3']; [|rewrite <- E3' in L'; discriminate].
  cbn [zero_dim_index IALL is_full_slice bind rmap]. unfold np_binary. cbn [v_read v_whole shp vshp]. reflexivity.
Qed.

(** a variable missing in state or reference: nothing is changed *)
Theorem nudging_missing state reference_state timescales dt name : In name (dkeys timescales) -> dget name state = None \/ dget name reference_state = None ->
  exists e, apply_nudging sub add div mul state reference_state timescales dt = (state, Err e).
Proof.
  intros I M. unfold apply_nudging, get_nudging_tendencies.
  assert (X : forall ts acc, In name (dkeys ts) -> exists e, rfold (fun return_dict nt => do quantity <- Nudging.lookup (fst nt) state; do reference <- Nudging.lookup (fst nt) reference_state;
    do t <- tendency_of sub div quantity reference (snd nt); Ok (dset (fst nt) t return_dict)) ts acc = Err e).
  { clear I timescales. induction ts as [|[n tau] ts IH]; intros acc I; [destruct I|]. cbn [rfold fst snd]. unfold Nudging.lookup. cbn in I. destruct I as [->|I].
    - destruct M as [-> | M]; [eexists; reflexivity|]. destruct (dget name state); [|eexists; reflexivity]. cbn [bind]. rewrite M. eexists; reflexivity.
    - destruct (dget n state) as [q|]; [|eexists; reflexivity]. cbn [bind]. destruct (dget n reference_state) as [r|]; [|eexists; reflexivity]. cbn [bind].
      destruct (tendency_of sub div q r tau) as [t|]; [|eexists; reflexivity]. cbn [bind]. apply IH. exact I. }
  destruct (X timescales [] I) as (e & ->). exists e. reflexivity.
Qed.
End Nudge.

(** exact arithmetic: the distance to the reference shrinks by the factor 1 - dt/tau *)
From Coq Require Import QArith Qabs.
Local Open Scope Q_scope.
Theorem relaxed_distance s r tau dt : ~ tau == 0 -> relaxed Qminus Qplus Qdiv Qmult s r tau dt - r == (s - r) * (1 - dt / tau).
Proof. intros N. unfold relaxed, rate. field. exact N. Qed.
Theorem relaxed_closer s r tau dt : 0 < tau -> 0 <= dt -> dt <= tau -> Qabs (relaxed Qminus Qplus Qdiv Qmult s r tau dt - r) <= Qabs (s - r).
Proof.
  intros P D1 D2. rewrite relaxed_distance by (intros E; rewrite E in P; now apply Qlt_irrefl in P). rewrite Qabs_Qmult.
  rewrite <- (Qmult_1_r (Qabs (s - r))) at 2. rewrite !(Qmult_comm (Qabs (s - r))). apply Qmult_le_compat_r; [|apply Qabs_nonneg].
  assert (A : 0 <= dt / tau) by (apply Qle_shift_div_l; [auto|]; now rewrite Qmult_0_l).
  assert (B : dt / tau <= 1) by (apply Qle_shift_div_r; [auto|]; now rewrite Qmult_1_l).
  apply Qabs_Qle_condition. split.
  - apply (Qle_trans _ 0); [discriminate|]. apply (Qplus_le_l _ _ (dt / tau)). ring_simplify. exact B.
  - apply (Qplus_le_l _ _ (dt / tau)). ring_simplify. rewrite <- (Qplus_0_l 1) at 1. apply Qplus_le_compat; [exact A|apply Qle_refl].
Qed.
