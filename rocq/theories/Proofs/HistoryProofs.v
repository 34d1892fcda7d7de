(** Storing the states of a model. *)
From Verif.Base Require Import Base Lemmas.
From Verif.Model Require Import Consts Numpy Quantity Partitioner Network Communicator Collective ScatterGather Shared Zarr Cluster.
From Verif.Spec Require Import Grid Cube Halo Lockstep Sync Client Updates Steps Layouts Views Together Distribute Storage Mixed Prognostic ModelRun History.
From Verif.Proofs Require Import Slices CollectiveProofs GatherProofs StateProofs ClientProofs StepsProofs WholeProofs MixedProofs OneProgramProofs PrognosticProofs ModelRunProofs ZarrStores OrderProofs.
From Coq Require Import ZifyBool Permutation.

Section Snapshots.
Variables (V T : Type) (d : V).
Variables (n N h : Z) (es : list entry) (st : Prognostic.state).
Hypothesis Hn : 1 <= n.
Hypothesis HN : 1 <= N.
Notation k := (length es).
Notation ks := (kinds st).
Notation p := (CubePart (n, n)).
Hypothesis OK : state_ok n N h k st.
Hypothesis CAT : catalogue ks es.
Variable local : nat -> list (quantity V).
Hypothesis AR : arranged n es st local.

(** the value of a rank at a point of the sphere *)
Lemma held_at F m r j e q a f pt t y x lev : state_held n N st d F m -> (r < Halo.ranks n)%nat -> nth_error es j = Some e -> nth_error (local r) j = Some q -> nth_error (m r) j = Some a ->
  part ks (e_var e) (e_comp e) f -> in_shape (q_extent q) pt -> Distribute.place p r (q_dims q) (q_extent q) pt = t :: tile_index (f_len f) (f_ix f) (f_iy f) y x lev ->
  level (f_len f) (f_ix f) (f_iy f) (f_ext f) lev ->
  at_ (domain_of (with_array q a)) pt = F (e_var e) (spot (n * N) (stag_y f (e_comp e)) (stag_x f (e_comp e)) t y x) lev (bearing (n * N) (stag_y f (e_comp e)) (stag_x f (e_comp e)) (e_comp e) t y x).
Proof.
  intros HF Hr EJ QJ Y2 PT P PL LV.
  destruct (entry_at V n N h es st OK CAT local AR r j e Hr EJ) as (v1 & f1 & q1 & C1 & Q1' & Q2' & Q3' & F1' & X1' & PT1 & _ & EE1). assert (f1 = f) by (eapply part_unique; eauto). subst f1.
  assert (q1 = q) by congruence. subst q1. unfold domain_of, with_array. cbn [at_ q_data q_origin].
  change (q_extent q) with (m_extent (q_meta q)) in P, PL. change (q_dims q) with (m_dims (q_meta q)) in PL. change (q_origin q) with (m_origin (q_meta q)).
  pose proof (s_shifted_in N h _ _ _ _ _ _ _ F1' pt P) as ID. assert (LP : length pt = f_len f) by (apply Forall2_length in P; now rewrite (fit_extent F1') in P).
  specialize (HF (e_var e) (e_comp e) v1 f r (shifted (m_origin (q_meta q)) pt) C1 Hr). rewrite Q2' in HF. cbn [h_meta] in HF. specialize (HF ID). unfold content in HF. rewrite Q2' in HF. cbn [h_id] in HF. rewrite Y2 in HF. rewrite HF. clear HF.
  pose proof (s_place n N h _ _ _ _ _ _ _ Hn F1' r pt Hr LP) as PS. pose proof (g_place_point n N h _ _ _ _ _ _ _ F1' r (shifted (m_origin (q_meta q)) pt)) as GP.
  pose proof (g_dir_point n N h _ _ _ _ _ _ _ F1' (e_comp e) r (shifted (m_origin (q_meta q)) pt)) as GD. rewrite (s_column N h _ _ _ _ _ _ _ F1'), (s_relative_shifted N h _ _ _ _ _ _ _ F1') by auto.
  destruct (Cube.place n (Z.of_nat r)) as [[t' J] K] eqn:PE. rewrite GP, GD. rewrite <- !relative_nth with (len := f_len f) by (apply (fit_ix F1') || apply (fit_iy F1')). rewrite (s_relative_shifted N h _ _ _ _ _ _ _ F1') by auto.
  rewrite PL in PS. assert (t' = t /\ tile_index (f_len f) (f_ix f) (f_iy f) y x lev = tile_index (f_len f) (f_ix f) (f_iy f) (J * N + xat pt (f_iy f)) (K * N + xat pt (f_ix f)) (horizontal (f_len f) (f_ix f) (f_iy f) pt)) as (-> & TI) by (split; congruence).
  assert (AT : forall i, (i < f_len f)%nat -> (if Nat.eqb i (f_ix f) then x else if Nat.eqb i (f_iy f) then y else xat lev i) =
     if Nat.eqb i (f_ix f) then K * N + xat pt (f_ix f) else if Nat.eqb i (f_iy f) then J * N + xat pt (f_iy f) else xat pt i).
  { intros i Hi. apply (f_equal (fun l => nth i l 0)) in TI. unfold tile_index in TI. rewrite !nth_map_seq in TI by auto. rewrite TI. unfold horizontal, xat. rewrite nth_map_seq by auto.
    destruct (Nat.eqb_spec i (f_ix f)), (Nat.eqb_spec i (f_iy f)); reflexivity. }
  pose proof (AT (f_ix f) (fit_ix F1')) as AX1. rewrite Nat.eqb_refl in AX1. pose proof (AT (f_iy f) (fit_iy F1')) as AY1. rewrite Nat.eqb_refl in AY1. pose proof (fit_xy F1') as XY.
  replace (Nat.eqb (f_iy f) (f_ix f)) with false in AY1 by (symmetry; apply Nat.eqb_neq; congruence). rewrite <- AX1, <- AY1. f_equal.
  destruct LV as (LL & LV). apply nth_ext with (d := 0) (d' := 0); unfold horizontal; rewrite map_length, seq_length; auto. intros i Hi. rewrite nth_map_seq by auto. specialize (LV i Hi). specialize (AT i Hi).
  change (nth i lev 0) with (xat lev i). destruct (Nat.eqb_spec i (f_ix f)), (Nat.eqb_spec i (f_iy f)); cbn [orb] in *; congruence.
Qed.

Variable units : entry -> string.
Hypothesis UN : forall r j e q, (r < Halo.ranks n)%nat -> nth_error es j = Some e -> nth_error (local r) j = Some q -> q_units q = units e.
Hypothesis FT : forall e f, In e es -> part ks (e_var e) (e_comp e) f ->
  Distribute.fits (n, n) (e_dims e) (extent_on f (e_comp e) N) /\ Forall2 (fun dm x => 1 <= x - stag dm) (e_dims e) (extent_on f (e_comp e) N).
Hypothesis LO : layouts_ok (n, n).
Hypothesis NT : ~ In "time"%string (map e_name es).

Definition var_of (name : string) : vspec :=
  mkVS (D es name) (match named es name with Some e => units e | None => EmptyString end) (E N es st name).

Definition shaped (m : nat -> mem V) : Prop := forall r j q, (r < Halo.ranks n)%nat -> nth_error (local r) j = Some q -> exists a, nth_error (m r) j = Some a /\ shp a = shp (q_data q).

(** the quantity with a name *)
Lemma dictionary_at m r name q : arrays n k m -> shaped m -> (r < Halo.ranks n)%nat -> dget name (dictionary es (local r) (m r)) = Some q ->
  exists j e q0 a, nth_error es j = Some e /\ name = e_name e /\ nth_error (local r) j = Some q0 /\ nth_error (m r) j = Some a /\ shp a = shp (q_data q0) /\ q = with_array q0 a.
Proof.
  intros A SH Hr X. unfold dictionary in X. pose proof CAT as (ND & _). pose proof (dget_combine_in _ _ _ _ X) as I. apply in_map_iff in I. destruct I as (e & <- & I). apply In_nth_error in I. destruct I as (j & EJ).
  destruct (entry_at V n N h es st OK CAT local AR r j e Hr EJ) as (v & f & q0 & _ & Q1 & _). destruct (SH r j q0 Hr Q1) as (a & Y & SA). exists j, e, q0, a. repeat (split; auto).
  pose proof (dget_combine (map e_name es) (map2 with_array (local r) (m r)) j (e_name e) (with_array q0 a) ND (names_nth es j e EJ) (nth_error_map2 _ _ _ _ _ _ Q1 Y)) as X'. congruence.
Qed.

Lemma snapshot_described m time r : arrays n k m -> shaped m -> (r < Halo.ranks n)%nat -> described (map e_name es) var_of time (snapshot (T := T) es local m time r).
Proof.
  intros A SH Hr. split; [|split; [reflexivity|]].
  - cbn [snapshot st_vars]. unfold dkeys, dictionary. rewrite combine_fst; [apply Permutation_refl|]. destruct (AR r Hr) as (L & _). rewrite map_length, map2_len; [auto|]. rewrite L. symmetry. now apply A.
  - intros name q X. cbn [snapshot st_vars] in X. destruct (dictionary_at m r name q A SH Hr X) as (j & e & q0 & a & EJ & -> & Q1 & Y & SA & ->).
    destruct (entry_at V n N h es st OK CAT local AR r j e Hr EJ) as (v & f & q1 & C & Q1' & Q2 & Q3 & F1 & X1 & PT & DE & EE). assert (q1 = q0) by congruence. subst q1.
    assert (MM : q_meta (with_array q0 a) = q_meta q0) by (unfold q_meta, with_array; cbn [q_dims q_origin q_extent q_data]; now rewrite SA).
    cbn [var_of vs_dims vs_units vs_ext]. rewrite DE, EE, (named_entry es st CAT e (nth_error_In _ _ EJ)). split; [rewrite MM; exact (s_formed N h _ _ _ _ _ _ _ F1)|].
    split; [exact Q3|]. split; [exact (UN r j e q0 Hr EJ Q1)|reflexivity].
Qed.

Lemma var_divided name : In name (map e_name es) -> divided (n, n) (var_of name).
Proof.
  intros I. apply in_map_iff in I. destruct I as (e & <- & I). apply In_nth_error in I. destruct I as (j & EJ).
  destruct (entry_at V n N h es st OK CAT local AR 0%nat j e ltac:(unfold Halo.ranks; nia) EJ) as (v & f & q & C & Q1 & Q2 & Q3 & F1 & X1 & PT & DE & EE).
  destruct (FT e f (nth_error_In _ _ EJ) PT) as (F2 & F3). destruct (s_axes N h _ _ _ _ _ _ _ F1) as (AX & AY). cbn [q_meta m_dims] in AX, AY.
  unfold divided, var_of. cbn [vs_dims vs_ext]. rewrite DE, EE, X1. rewrite Q3 in AX, AY. split; [exact F2|]. split; [|exact F3]. split; auto.
Qed.

Lemma records_of calendar_of text_of encode (Fs : nat -> sphere V) (ms : nat -> nat -> mem V) (times : nat -> T) K s :
  (forall i, (i < K)%nat -> arrays n k (ms i) /\ shaped (ms i) /\ state_held n N st d (Fs i) (ms i)) ->
  holds (n, n) (map e_name es) var_of calendar_of text_of encode (fun r i => snapshot es local (ms i) (times i) r) (fun _ i => times i) K s ->
  records (n * N) ks es units calendar_of text_of encode Fs times K s.
Proof.
  intros MS. intros (H1 & H2 & H3). split; [|split; [exact H2|exact H3]].
  intros e f I PT c. destruct (H1 (e_name e) (in_map e_name _ _ I)) as (M1 & EL). apply In_nth_error in I. destruct I as (j & EJ).
  destruct (entry_at V n N h es st OK CAT local AR 0%nat j e ltac:(unfold Halo.ranks; nia) EJ) as (v & f' & q & C & Q1 & Q2 & Q3 & F1 & X1 & PT' & DE & EE).
  assert (f' = f) by (eapply part_unique; eauto). subst f'. fold c in C, Q2, F1, X1, PT'.
  assert (TS : tile_size (n, n) (vs_dims (var_of (e_name e))) (vs_ext (var_of (e_name e))) = extent_on f c (n * N)).
  { cbn [var_of vs_dims vs_ext]. rewrite DE, EE, <- Q3. pose proof (s_tile_size n N h _ _ _ _ _ _ _ F1) as TS. cbn [q_meta m_dims m_extent] in TS. rewrite TS. reflexivity. }
  assert (NE : named es (e_name e) = Some e) by exact (named_entry es st CAT e (nth_error_In _ _ EJ)).
  rewrite TS in M1, EL. split.
  { eexists. rewrite M1. cbn [var_of vs_dims vs_units vs_ext]. rewrite DE, NE. reflexivity. }
  intros i t y x lev Hi Ht Hy Hx LV. set (g := t :: tile_index (f_len f) (f_ix f) (f_iy f) y x lev). assert (IG : in_shape (6 :: extent_on f c (n * N)) g).
  { constructor; [exact Ht|]. apply (Forall2_nth _ _ _ 0 0). unfold tile_index, extent_on. rewrite !map_length, !seq_length. split; auto. intros l Hl. rewrite !nth_map_seq by auto.
    destruct LV as (_ & LV). specialize (LV l Hl). destruct (Nat.eqb_spec l (f_ix f)); [exact Hx|]. destruct (Nat.eqb_spec l (f_iy f)); [exact Hy|]. cbn [orb] in LV. exact LV. }
  destruct (EL i g Hi IG) as (r & pt & q' & (Hr & P & PL) & _ & DQ & ->). f_equal. destruct (MS i Hi) as (A & SH & SHELD).
  cbn [snapshot st_vars] in DQ. destruct (dictionary_at (ms i) r (e_name e) q' A SH Hr DQ) as (j' & e' & q0 & a & EJ' & NM & Q1' & Y & SA & ->).
  assert (e' = e) by (assert (X : named es (e_name e') = Some e') by exact (named_entry es st CAT e' (nth_error_In _ _ EJ')); rewrite <- NM in X; congruence). subst e'.
  destruct (entry_at V n N h es st OK CAT local AR r j' e Hr EJ') as (v1 & f1 & q1 & C1 & Q1'' & Q2' & Q3' & F1' & X1' & PT1 & _ & EE1). assert (q1 = q0) by congruence. subst q1.
  apply (held_at (Fs i) (ms i) r j' e q0 a f pt t y x lev SHELD Hr EJ' Q1' Y PT); auto.
  - cbn [var_of vs_ext] in P. rewrite EE1 in P. exact P.
  - cbn [var_of vs_dims vs_ext] in PL. rewrite DE, EE1, <- Q3' in PL. exact PL.
Qed.

Lemma stores_record (junk : list Z -> V) calendar_of text_of encode (Fs : nat -> sphere V) (ms : nat -> nat -> mem V) (times : nat -> T) K :
  (0 < K)%nat -> (forall i, (i < K)%nat -> arrays n k (ms i) /\ shaped (ms i) /\ state_held n N st d (Fs i) (ms i)) ->
  (forall i, (i < K)%nat -> calendar_of (times i) = calendar_of (times 0%nat)) ->
  ends_with zexec (Halo.ranks n)
    (fun r => store_all V T junk calendar_of text_of encode (n, n) (Z.of_nat r) None (map (fun i => snapshot es local (ms i) (times i) r) (seq 0 K))) empty_store
    (fun s out => (forall r, (r < Halo.ranks n)%nat -> snd (out r) = Ok tt) /\ records (n * N) ks es units calendar_of text_of encode Fs times K s).
Proof.
  intros HK MS CAL. pose proof CAT as (ND & _).
  destruct (@stores_hold V T junk calendar_of text_of encode (n, n) (map e_name es) var_of (fun r i => snapshot es local (ms i) (times i) r) (fun _ i => times i) K) as (b & R); auto.
  { intros name I. now apply var_divided. }
  { intros r i Hr Hi. destruct (MS i Hi) as (A & SH & _). now apply snapshot_described. }
  exists b. intros delayed sched s rs RUN. destruct (R delayed sched s rs RUN) as (B & [(out & O & OKS & H)|PR]); split; auto. left. exists out. split; [exact O|]. split; [exact OKS|].
  apply (records_of calendar_of text_of encode Fs ms times K s MS). exact (H HK).
Qed.
End Snapshots.

Lemma evolution_of V (neg : V -> V) M ks syn gs : forall F F', proper neg ks F -> develops neg M ks syn gs F F' -> exists Fs, evolution neg M ks syn gs F Fs.
Proof.
  induction gs as [|g gs IH]; intros F F' P DV; cbn [develops] in DV.
  - exists (fun _ => F). split; auto. intros [|i] g X; discriminate.
  - destruct DV as (F1 & P1 & FO & DV). destruct (IH F1 F' P1 DV) as (Fs & Z0 & ST). exists (fun i => match i with O => F | S i => Fs i end). split; auto.
    intros [|i] g' X; cbn [nth_error] in X; [injection X as <-; rewrite Z0; auto|exact (ST i g' X)].
Qed.
Lemma evolution_develops V (neg : V -> V) M ks syn gs : forall F Fs i, evolution neg M ks syn gs F Fs -> (i <= length gs)%nat -> develops neg M ks syn (firstn i gs) F (Fs i).
Proof.
  induction gs as [|g gs IH]; intros F Fs i (Z0 & ST) Hi; cbn [length] in Hi.
  - replace i with 0%nat by lia. exact Z0. 
  - destruct i as [|i]; [exact Z0|]. cbn [firstn develops]. exists (Fs 1%nat). destruct (ST 0%nat g eq_refl) as (P1 & FO). rewrite Z0 in FO. split; auto. split; auto.
    apply (IH (Fs 1%nat) (fun i => Fs (S i)) i); [|lia]. split; [reflexivity|]. intros i' g' X. exact (ST (S i') g' X).
Qed.
Lemma forall2_firstn {A B} (R : A -> B -> Prop) l l' : Forall2 R l l' -> forall i, Forall2 R (firstn i l) (firstn i l').
Proof. induction 1 as [|a b l l' H _ IH]; intros [|i]; cbn [firstn]; constructor; auto. Qed.

(** ** copies of the arrays, in one execution *)
Lemma achieves_steps Ob V St (neg : V -> V) layout d n k rest (Q : (nat -> mem V) -> (nat -> St) -> Prop) calls : forall started m o,
  (forall started' m', length started' = (length started + length (filter (starts V) calls))%nat -> (Forall (fun c => starts V (fst c) = true) started -> Forall (fun c => starts V (fst c) = true) started') ->
     meaning V neg d n calls started m m' -> achieves Ob V St neg layout d n k rest started' m' o Q) ->
  achieves Ob V St neg layout d n k (map MUpdate calls ++ rest) started m o Q.
Proof.
  induction calls as [|c calls IH]; intros started m o H; cbn [map app].
  - apply H; [cbn; lia|auto|]. cbn. auto.
  - destruct c; cbn [Mixed.achieves]; cbn [filter starts length] in H.
    1-3: apply IH; intros started' m' L S ME; apply H; [rewrite L, app_length; cbn [length]; lia| |exact ME]; intros S0; apply S, Forall_app; split; [exact S0|repeat constructor].
    + intros c sent m' E EF. apply IH. intros started' m2 L S M. apply H; auto. cbn [meaning]. eauto 6.
    + apply IH. intros started' m2 L S M. apply H; auto.
Qed.
Lemma updates_recorded Ob V (st : Prognostic.state) syn h (fs : list (nat -> mem V -> mem V)) : forall b, updates Ob V (list (mem V)) (recorded_steps st syn h fs b) = model_steps st syn h fs b.
Proof.
  induction fs as [|f fs IH]; intros b; [reflexivity|]. cbn [recorded_steps model_steps]. rewrite updates_map. cbn [updates copy_arrays]. rewrite IH. cbv zeta.
  rewrite app_nil_r, <- !app_assoc. f_equal. f_equal. cbn [app]. f_equal. rewrite <- app_assoc. reflexivity.
Qed.
Lemma starts_one V (st : Prognostic.state) syn h (f : nat -> mem V -> mem V) b : length (filter (starts V) (model_steps st syn h [f] b)) = (length st + length (synced syn 0 st))%nat.
Proof.
  assert (W : forall b l, filter (starts V) (waits b l) = []) by (intros b0 l; unfold waits; induction (seq 0 l) as [|i s IH]; [reflexivity|exact IH]).
  assert (U : filter (starts V) (map (fun vf => update_of h (fst vf)) st) = map (fun vf => update_of h (fst vf)) st) by (clear; induction st as [|[[q|x y] fm] s IH]; cbn; congruence).
  assert (Y : forall s : Prognostic.state, filter (starts V) (map (fun vf => sync_of (fst vf)) s) = map (fun vf => sync_of (fst vf)) s) by (clear; induction s as [|[v fm] s IH]; cbn; congruence).
  cbn [model_steps]. cbv zeta. rewrite app_nil_r, !filter_app. cbn [filter starts]. rewrite filter_app, !W, U, Y, app_nil_r. cbn [app]. rewrite app_length, !map_length. reflexivity.
Qed.

Lemma cluster_ext Ob V A size (ps : nat -> rproc Ob V A) out out' : (forall r, out r = out' r) -> cluster_ends size ps out -> cluster_ends size ps out'.
Proof.
  intros E (b & H). exists b. intros buffered delayed sched s R. destruct (H buffered delayed sched s R) as (B & O & U). split; auto. split.
  - destruct O as [O|O]; [left|right; exact O]. intros r Hr. destruct (O r Hr) as (k & X & Y). exists k. split; auto. now rewrite <- E.
  - intros r k x X Y. rewrite <- E. eauto.
Qed.

Section Recorded.
Variables (Ob V : Type) (neg : V -> V) (d : V) (n N h : Z) (es : list entry) (st : Prognostic.state) (local : nat -> list (quantity V)) (syn : nat -> bool).
Hypothesis Hn : 1 <= n.
Hypothesis HN : 1 <= N.
Hypothesis Hh : 1 <= h <= N.
Notation k := (length es).
Hypothesis OK : state_ok n N h k st.
Hypothesis CAT : catalogue (kinds st) es.
Hypothesis AR : arranged n es st local.
Hypothesis SY : syn_ok (kinds st) syn.

Lemma step_shaped g f started m m' : computes n N k st g f -> Forall (fun c => starts V (fst c) = true) started -> arrays n k m -> shaped V n local m ->
  meaning V neg d n (model_steps st syn h [f] (length started)) started m m' -> shaped V n local m'.
Proof.
  intros (C1 & C2) S L SH ME r j q Hr Q1. destruct (SH r j q Hr Q1) as (a & X & SA).
  destruct (meaning_shapes V neg d n k r j (model_steps st syn h [f] (length started)) Hr) with (started := started) (m := m) (m' := m') (a := a) as (a' & X' & S2); auto; [|exists a'; split; congruence].
  intros f' I. apply local_of_steps in I. destruct I as [<-|[]]. split; [intros mm; now apply C1|]. intros mm b LM E1.
  destruct (nth_error es j) as [e|] eqn:EJ; [|exfalso; apply nth_error_None in EJ; destruct (AR r Hr) as (L1 & _); assert (X2 : nth_error (local r) j <> None) by congruence; apply nth_error_Some in X2; lia].
  destruct (entry_at V n N h es st OK CAT local AR r j e Hr EJ) as (v & f0 & q0 & CC & _ & Q2 & _).
  destruct (C2 r mm (fun i' c' dy dx lev' => match nth_error st i' with Some (v', fm') => match nth_error mm (h_id (handles v' c' r)) with Some b => at_ b (Steps.element (h_meta (handles v' c' r)) (f_ix fm') (f_iy fm') dy dx lev') | None => d end | None => d end)
    Hr LM _ _ _ _ b CC) as (b' & E2 & S3 & _); [now rewrite Q2|]. rewrite Q2 in E2. eauto.
Qed.

Definition good (F : sphere V) (m : nat -> mem V) : Prop := arrays n k m /\ shaped V n local m /\ state_held n N st d F m.

Lemma recorded_achieves gs : forall fs started m o F Fs (Q : (nat -> mem V) -> (nat -> list (mem V)) -> Prop), Forall2 (computes n N k st) gs fs -> Forall (looks_near h (kinds st)) gs ->
  proper neg (kinds st) F -> evolution neg (n * N) (kinds st) syn gs F Fs -> good F m -> Forall (fun c => starts V (fst c) = true) started ->
  (forall ms m' o', (forall i, (i < length gs)%nat -> good (Fs (S i)) (ms i)) -> (forall r, o' r = o r ++ map (fun i => ms i r) (seq 0 (length gs)))%list -> Q m' o') ->
  achieves Ob V (list (mem V)) neg (n, n) d n k (recorded_steps st syn h fs (length started)) started m o Q.
Proof.
  induction gs as [|g gs IH]; intros fs started m o F Fs Q CO LN P (E0 & EV) GO S HQ.
  - inversion CO; subst. cbn [recorded_steps achieves]. apply (HQ (fun _ => m)); [intros i Hi; cbn in Hi; lia|]. intros r. now rewrite app_nil_r.
  - inversion CO as [|g0 f gs0 fs' CG CO']; subst. cbn [recorded_steps]. apply achieves_steps. intros started' m' LS ST ME. rewrite starts_one, Nat.add_assoc in LS. cbn [achieves copy_arrays].
    destruct GO as (A & SH & HF). destruct (EV 0%nat g eq_refl) as (P1 & FO). inversion LN as [|? ? LN1 LN']; subst.
    assert (CO1 : Forall2 (computes n N k st) [g] [f]) by (constructor; [exact CG|constructor]). assert (LN0 : Forall (looks_near h (kinds st)) [g]) by (constructor; [exact LN1|constructor]).
    destruct (meaning_model V neg d n N h k st Hn HN Hh OK syn SY [g] [f] CO1 LN0 started m m' (Fs 0%nat) (Fs 1%nat) P) as (HM & AM); auto.
    { cbn [develops]. exists (Fs 1%nat). auto. }
    exists m', (fun r => o r ++ [m' r])%list. split; [|split].
    + apply tg_end. intros r Hr. reflexivity.
    + intros r Hr. now apply AM.
    + rewrite <- LS. apply (IH fs' started' m' _ (Fs 1%nat) (fun i => Fs (Datatypes.S i))); auto.
      * split; [reflexivity|]. intros i g' X. exact (EV (Datatypes.S i) g' X).
      * split; [exact AM|]. split; [|exact HM]. exact (step_shaped g f started m m' CG S A SH ME).
      * intros ms m2 o2 GM O2. apply (HQ (fun i => match i with O => m' | Datatypes.S i => ms i end)).
        { intros [|i] Hi; [split; [exact AM|]; split; [exact (step_shaped g f started m m' CG S A SH ME)|exact HM]|]. apply GM. cbn in Hi. lia. }
        intros r. rewrite O2. cbn [length seq map]. rewrite <- seq_shift, map_map, <- app_assoc. reflexivity.
Qed.

Theorem run_recorded gs fs F Fs : Forall2 (computes n N k st) gs fs -> Forall (looks_near h (kinds st)) gs -> proper neg (kinds st) F -> evolution neg (n * N) (kinds st) syn gs F Fs ->
  let m := fun r => map (fun q => q_data q) (local r) in state_held n N st d F m ->
  exists ms m', (forall i, (i <= length gs)%nat -> good (Fs i) (ms i)) /\
    cluster_ends (Mixed.size (n, n)) (mixed_program Ob V (list (mem V)) neg (n, n) (recorded_run st syn h fs) m (fun _ => []))
      (fun r => Ok (m' r, map (fun i => ms i r) (seq 0 (S (length gs))))).
Proof.
  intros CO LN P EV m HF. assert (A : arrays n k m) by (intros r Hr; unfold m; rewrite map_length; now apply AR).
  destruct (mixed_correct Ob V (list (mem V)) neg (n, n) d n k Hn Hn (recorded_run st syn h fs) m (fun _ => [])
    (fun m' o => exists ms, (forall i, (i <= length gs)%nat -> good (Fs i) (ms i)) /\ forall r, o r = map (fun i => ms i r) (seq 0 (S (length gs))))) as (m' & o & (ms & GM & O) & C).
  - unfold mixed_ok, recorded_run. cbn [updates copy_arrays]. rewrite updates_recorded. split; [auto|]. split; [exact (model_calls V n N h k st Hn HN Hh OK syn SY gs fs CO 0)|]. apply model_waits. easy.
  - exact A.
  - unfold recorded_run. cbn [achieves copy_arrays]. exists m, (fun r => [m r]). split; [apply tg_end; intros r Hr; reflexivity|]. split; [exact A|].
    destruct EV as (E0 & EV). assert (GO : good F m) by (split; [exact A|]; split; [|exact HF]; intros r j q Hr Q1; exists (q_data q); split; [unfold m; now rewrite nth_error_map, Q1|reflexivity]).
    apply (recorded_achieves gs fs [] m (fun r => [m r]) F Fs); auto; [split; auto|]. intros ms m' o GM O. exists (fun i => match i with O => m | S i => ms i end). split.
    + intros [|i] Hi; [now rewrite E0|]. apply GM. lia.
    + intros r. rewrite O. cbn [seq map app]. f_equal. rewrite <- seq_shift, map_map. reflexivity.
  - exists ms, m'. split; [exact GM|]. eapply cluster_ext; [|exact C]. intros r. cbn beta. now rewrite O.
Qed.
End Recorded.

Theorem history_recorded V T (neg : V -> V) (d : V) M h ks es syn (gs : list (mrule V)) : (forall x, neg (neg x) = x) -> catalogue ks es -> ~ In "time"%string (map e_name es) -> syn_ok ks syn ->
  Forall (fun g => looks_near h ks g /\ forall i vector f, nth_error ks i = Some (vector, f) -> f_sy f = 0 /\ f_sx f = 0 \/ syn i = true \/ keeps g i) gs ->
  forall F, proper neg ks F -> exists Fs, evolution neg M ks syn gs F Fs /\
    forall n N st fs local units (junk : list Z -> V) (calendar_of text_of : T -> string) encode times, 1 <= n -> layouts_ok (n, n) -> n * N = M -> 1 <= h <= N -> kinds st = ks ->
      state_ok n N h (length es) st -> arranged n es st local ->
      (forall r j e q, (r < Halo.ranks n)%nat -> nth_error es j = Some e -> nth_error (local r) j = Some q -> q_units q = units e) ->
      (forall e f, In e es -> part ks (e_var e) (e_comp e) f ->
         Distribute.fits (n, n) (e_dims e) (extent_on f (e_comp e) N) /\ Forall2 (fun dm x => 1 <= x - stag dm) (e_dims e) (extent_on f (e_comp e) N)) ->
      (forall i, (i <= length gs)%nat -> calendar_of (times i) = calendar_of (times 0%nat)) ->
      Forall2 (computes n N (length es) st) gs fs -> state_held n N st d F (fun r => map (fun q => q_data q) (local r)) ->
      exists ms m',
        cluster_ends (Mixed.size (n, n)) (mixed_program (obj T) V (list (mem V)) neg (n, n) (recorded_run st syn h fs) (fun r => map (fun q => q_data q) (local r)) (fun _ => []))
          (fun r => Ok (m' r, map (fun i => ms i r) (seq 0 (S (length gs))))) /\
        ends_with zexec (Mixed.size (n, n))
          (fun r => store_all V T junk calendar_of text_of encode (n, n) (Z.of_nat r) None (map (fun i => snapshot es local (ms i) (times i) r) (seq 0 (S (length gs))))) empty_store
          (fun s out => (forall r, (r < Mixed.size (n, n))%nat -> snd (out r) = Ok tt) /\ records M ks es units calendar_of text_of encode Fs times (S (length gs)) s).
Proof.
  intros NN CAT NT SY G F PF. destruct (development_exists V neg d M h ks NN syn SY gs G F PF) as (F' & DV). destruct (evolution_of V neg M ks syn gs F F' PF DV) as (Fs & EV). exists Fs. split; [exact EV|].
  intros n N st fs local units junk calendar_of text_of encode times Hn LO <- Hh <- OK AR UN FT CAL CO HF. assert (HN : 1 <= N) by lia.
  assert (LN : Forall (looks_near h (kinds st)) gs) by (eapply Forall_impl; [|exact G]; now intros g (X & _)).
  destruct (run_recorded (obj T) V neg d n N h es st local syn Hn HN Hh OK CAT AR SY gs fs F Fs CO LN PF EV HF) as (ms & m' & MS & C). exists ms, m'. split; [exact C|].
  apply (stores_record V T d n N h es st Hn OK CAT local AR units UN FT LO NT junk calendar_of text_of encode Fs ms times); [lia| |intros i Hi; apply CAL; lia].
  intros i Hi. apply MS. lia.
Qed.
