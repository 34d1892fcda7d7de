(** Scatter a state, advance a model, gather the state. *)
From Verif.Base Require Import Base Lemmas.
From Verif.Model Require Import Consts Numpy Quantity Partitioner Network Communicator Collective ScatterGather Cluster.
From Verif.Spec Require Import Grid Cube Halo Lockstep Sync Client Updates Steps Layouts Views Together Distribute Whole Mixed Prognostic ModelRun.
From Verif.Proofs Require Import Slices CollectiveProofs GatherProofs StateProofs ClientProofs StepsProofs WholeProofs MixedProofs OneProgramProofs PrognosticProofs.
From Coq Require Import ZifyBool.

(** ** places of the points of staggered quantities *)
Definition horizontal (len ix iy : nat) (pt : list Z) : list Z := map (fun i => if Nat.eqb i ix || Nat.eqb i iy then 0 else xat pt i) (seq 0 len).

Lemma t_len s : forall ds es p, length es = length ds -> length p = length ds -> length (in_tile s ds es p) = length ds.
Proof. induction ds as [|d ds IH]; intros [|e es] [|x p] L1 L2; cbn in *; try lia; rewrite ?IH; auto; lia. Qed.
Lemma t_nth s : forall ds es p i, length es = length ds -> length p = length ds -> (i < length ds)%nat ->
  xat (in_tile s ds es p) i = along (nth i ds EmptyString) s 0 * (xat es i - stag (nth i ds EmptyString)) + xat p i.
Proof. induction ds as [|d ds IH]; intros [|e es] [|x p] [|i] L1 L2 Hi; cbn in *; auto; try lia. apply IH; lia. Qed.

Section Points.
Variables (n N h : Z) (len ix iy : nat) (sy sx : Z) (ext : nat -> Z) (m : meta).
Hypothesis Hn : 1 <= n.
Hypothesis F : Halo.fits N h len ix iy sy sx ext m.

Lemma s_place r pt : (r < Halo.ranks n)%nat -> length pt = len -> let '(t, J, K) := Cube.place n (Z.of_nat r) in
  Distribute.place (CubePart (n, n)) r (m_dims m) (m_extent m) pt = t :: tile_index len ix iy (J * N + xat pt iy) (K * N + xat pt ix) (horizontal len ix iy pt).
Proof.
  intros Hr L. rewrite seat_place by auto. cbn [Distribute.place layout_of fst snd]. f_equal. destruct (seat (n, n) (Z.of_nat r)) as [J K]. cbn [fst snd].
  pose proof (fit_dims F) as LD. pose proof (fit_extent F) as LE.
  apply nth_ext with (d := 0) (d' := 0); [unfold tile_index; rewrite t_len, map_length, seq_length by lia; lia|].
  rewrite t_len by lia. rewrite LD. intros i Hi. change (xat (in_tile (J, K) (m_dims m) (m_extent m) pt) i = nth i (tile_index len ix iy (J * N + xat pt iy) (K * N + xat pt ix) (horizontal len ix iy pt)) 0).
  rewrite t_nth by lia. unfold tile_index. rewrite nth_map_seq by auto. rewrite (fit_ext F) by auto. unfold along. rewrite (fit_axis F) by auto.
  destruct (Nat.eqb_spec i ix) as [->|]; [rewrite (fit_sx F); cbn [snd]; nia|]. destruct (Nat.eqb_spec i iy) as [->|]; [rewrite (fit_sy F); cbn [fst]; nia|].
  unfold horizontal, xat. rewrite nth_map_seq by auto. replace (Nat.eqb i ix || Nat.eqb i iy) with false by lia. unfold xat. lia.
Qed.
Lemma s_axes : one_axis AxX (m_dims m) /\ one_axis AxY (m_dims m).
Proof.
  pose proof (fit_dims F) as LD. pose proof (fit_axis F) as AX. pose proof (fit_xy F) as XY.
  pose proof (fit_ix F) as X. pose proof (fit_iy F) as Y.
  split; [apply (one_axis_at len ix iy (m_dims m) XY X Y LD AxX ix)|apply (one_axis_at len ix iy (m_dims m) XY X Y LD AxY iy)]; auto; intros i Hi; rewrite AX by auto;
    destruct (Nat.eqb_spec i ix), (Nat.eqb_spec i iy); subst; split; congruence.
Qed.
Lemma s_tile_size : tile_size (n, n) (m_dims m) (m_extent m) = map (fun i => if Nat.eqb i ix then n * N + sx else if Nat.eqb i iy then n * N + sy else ext i) (seq 0 len).
Proof.
  pose proof (fit_dims F) as LD. pose proof (fit_extent F) as LE. unfold tile_size. apply nth_ext with (d := 0) (d' := 0); rewrite map2_len by lia; [rewrite map_length, seq_length; lia|].
  rewrite LD. intros i Hi. rewrite nth_map2 with (a := EmptyString) (b := 0) by lia. change (nth i (m_extent m) 0) with (xat (m_extent m) i). rewrite nth_map_seq by auto.
  rewrite (fit_ext F) by auto. unfold along. rewrite (fit_axis F) by auto.
  destruct (Nat.eqb_spec i ix) as [->|]; cbn [fst snd]; [rewrite (fit_sx F); nia|]. destruct (Nat.eqb_spec i iy) as [->|]; cbn [fst snd]; [rewrite (fit_sy F); nia|].
  lia.
Qed.
Lemma s_shifted_relative p : length p = len -> shifted (m_origin m) (relative len m p) = p.
Proof.
  intros L. pose proof (fit_origin F) as LO. apply nth_ext with (d := 0) (d' := 0); unfold shifted; rewrite map2_len by (rewrite relative_len; lia); [lia|]. intros i Hi.
  rewrite nth_map2 with (a := 0) (b := 0) by (rewrite ?relative_len; lia). change (nth i (relative len m p) 0) with (xat (relative len m p) i). rewrite relative_nth by lia. unfold rel, xat. lia.
Qed.
Lemma s_relative_in p : in_domain m p -> in_shape (m_extent m) (relative len m p).
Proof.
  intros (L & D). rewrite (fit_dims F) in *. apply (Forall2_nth _ _ _ 0 0). split; [now rewrite relative_len, (fit_extent F)|]. rewrite (fit_extent F). intros i Hi.
  change (0 <= xat (relative len m p) i < xat (m_extent m) i). rewrite relative_nth by auto. now apply D.
Qed.
Lemma s_shifted_len pt : length pt = len -> length (shifted (m_origin m) pt) = len.
Proof. intros L. unfold shifted. rewrite map2_len; rewrite (fit_origin F); auto. Qed.
Lemma s_relative_shifted pt : length pt = len -> relative len m (shifted (m_origin m) pt) = pt.
Proof.
  intros L. apply nth_ext with (d := 0) (d' := 0); rewrite relative_len; auto. intros i Hi. change (xat (relative len m (shifted (m_origin m) pt)) i = nth i pt 0). rewrite relative_nth by auto.
  unfold rel, xat at 1, shifted. rewrite nth_map2 with (a := 0) (b := 0) by (rewrite (fit_origin F); auto). unfold xat. lia.
Qed.
Lemma s_shifted_in pt : in_shape (m_extent m) pt -> in_domain m (shifted (m_origin m) pt).
Proof.
  intros I. pose proof (Forall2_length _ _ _ I) as L. rewrite (fit_extent F) in L. split; [rewrite s_shifted_len, (fit_dims F); auto|]. rewrite (fit_dims F). intros i Hi.
  rewrite <- relative_nth with (len := len), s_relative_shifted by auto. apply (Forall2_nth _ _ _ 0 0) in I. destruct I as (_ & I). apply I. now rewrite (fit_extent F).
Qed.
Lemma s_formed : well_formed m.
Proof.
  split; [now rewrite (fit_dims F), (fit_shape F)|]. apply axes_from; rewrite ?(fit_extent F), ?(fit_origin F), ?(fit_shape F); auto. apply (fit_dom F).
Qed.
Lemma s_column p : column m ix iy p = horizontal len ix iy (relative len m p).
Proof. unfold column, horizontal. rewrite (fit_dims F). apply map_ext_in. intros i I. apply in_seq in I. now rewrite relative_nth by lia. Qed.
End Points.

(** ** arrays keep their shapes *)
Lemma meaning_shapes V (neg : V -> V) (d : V) n k r j calls : (r < Halo.ranks n)%nat ->
  (forall f, In (CLocal V f) calls -> (forall m, length m = k -> length (f r m) = k) /\ forall m a, length m = k -> nth_error m j = Some a -> exists a', nth_error (f r m) j = Some a' /\ shp a' = shp a) ->
  forall started m m', Forall (fun c => starts V (fst c) = true) started -> length (m r) = k -> meaning V neg d n calls started m m' ->
  forall a, nth_error (m r) j = Some a -> exists a', nth_error (m' r) j = Some a' /\ shp a' = shp a.
Proof.
  intros Hr. induction calls as [|c calls IH]; intros LC started m m' S L M a E.
  - cbn [meaning] in M. rewrite M by auto. eauto.
  - assert (LC' : forall f, In (CLocal V f) calls -> (forall m, length m = k -> length (f r m) = k) /\ forall m a, length m = k -> nth_error m j = Some a -> exists a', nth_error (f r m) j = Some a' /\ shp a' = shp a)
      by (intros f I; apply LC; now right).
    destruct c; cbn [meaning] in M.
    1-3: eapply (IH LC' _ m m' _ L M a E). 
    + destruct M as (c & sent & m1 & E1 & EF & M). assert (SC : starts V c = true) by (apply nth_error_In in E1; rewrite Forall_forall in S; exact (S _ E1)).
      assert (OC : exists hs, only_changed V n hs m m1) by (destruct c; try discriminate SC; destruct EF as (OC & _); eauto).
      destruct OC as (hs & OC). destruct (OC r Hr) as (L1 & X). destruct (X j a E) as (a1 & E2 & S2 & _).
      destruct (IH LC' started m1 m' S ltac:(congruence) M a1 E2) as (a2 & E3 & S3). exists a2. split; auto. congruence.
    + destruct (LC f (or_introl eq_refl)) as (LN & SH). destruct (SH (m r) a L E) as (a1 & E2 & S2).
      destruct (IH LC' started (fun r => f r (m r)) m' S (LN _ L) M a1 E2) as (a2 & E3 & S3). exists a2. split; auto. congruence.
  Unshelve. all: apply Forall_app; split; auto; repeat constructor.
Qed.
Lemma local_of_steps V (st : state) syn h (fs : list (nat -> mem V -> mem V)) f : forall b, In (CLocal V f) (model_steps st syn h fs b) -> In f fs.
Proof.
  induction fs as [|f0 fs IH]; intros b I; cbn [model_steps] in I; [destruct I|]. cbv zeta in I. apply in_app_or in I. destruct I as [I|I].
  { exfalso. apply in_map_iff in I. destruct I as ([[q|x y] fm] & E & _); discriminate E. }
  apply in_app_or in I. destruct I as [I|I]; [exfalso; unfold waits in I; apply in_map_iff in I; destruct I as (i & E & _); discriminate E|].
  destruct I as [I|I]; [injection I as <-; now left|]. apply in_app_or in I. destruct I as [I|I].
  { exfalso. apply in_map_iff in I. destruct I as ([v fm] & E & _). discriminate E. }
  apply in_app_or in I. destruct I as [I|I]; [exfalso; unfold waits in I; apply in_map_iff in I; destruct I as (i & E & _); discriminate E|]. right. eauto.
Qed.

(** ** dictionaries *)
Lemma dget_combine {A} (names : list string) (qs : list A) j name q : NoDup names -> nth_error names j = Some name -> nth_error qs j = Some q -> dget name (combine names qs) = Some q.
Proof.
  revert qs j. induction names as [|nm names IH]; intros [|q0 qs] [|j] ND E1 E2; try discriminate; cbn [combine dget].
  - injection E1 as <-. injection E2 as <-. rewrite String.eqb_refl. reflexivity.
  - inversion_clear ND as [|? ? NI ND']. cbn [nth_error] in E1, E2. destruct (String.eqb_spec name nm) as [->|_]; [exfalso; exact (NI (nth_error_In _ _ E1))|]. exact (IH qs j ND' E1 E2).
Qed.
Lemma dget_combine_in {A} (names : list string) (qs : list A) name q : dget name (combine names qs) = Some q -> In name names.
Proof. intros E. apply dget_In in E. now apply in_combine_l in E. Qed.
Lemma nth_error_map2 {A B C} (f : A -> B -> C) : forall l l' i a b, nth_error l i = Some a -> nth_error l' i = Some b -> nth_error (map2 f l l') i = Some (f a b).
Proof. induction l as [|x l IH]; intros [|x' l'] [|i] a b E1 E2; try discriminate; cbn in *; [injection E1 as ->; injection E2 as ->; reflexivity|auto]. Qed.
Lemma with_own V (qs : list (quantity V)) : map2 with_array qs (map (fun q => q_data q) qs) = qs.
Proof. induction qs as [|q qs IH]; cbn; auto. rewrite IH. now destruct q. Qed.
Lemma combine_fst {A B} : forall (l : list A) (l' : list B), length l = length l' -> map fst (combine l l') = l.
Proof. induction l as [|a l IH]; intros [|b l'] L; cbn in *; try discriminate; auto. f_equal. auto. Qed.
Lemma combine_snd {A B} : forall (l : list A) (l' : list B), length l = length l' -> map snd (combine l l') = l'.
Proof. induction l as [|a l IH]; intros [|b l'] L; cbn in *; try discriminate; auto. f_equal. auto. Qed.
Lemma all_nth {A} (l : list A) a : map (fun j => nth j l a) (seq 0 (length l)) = l.
Proof.
  apply nth_ext with (d := a) (d' := a); rewrite map_length, seq_length; auto. intros i Hi. now rewrite nth_map_seq.
Qed.

Section Stages.
Variables (V T : Type) (d : V).
Variables (n N h : Z) (es : list entry) (st : state).
Hypothesis Hn : 1 <= n.
Hypothesis HN : 1 <= N.
Notation k := (length es).
Notation ks := (kinds st).
Notation p := (CubePart (n, n)).
Hypothesis OK : state_ok n N h k st.
Hypothesis CAT : catalogue ks es.
Variable local : nat -> list (quantity V).
Hypothesis AR : arranged n es st local.
Hypothesis FT : forall e f, In e es -> part ks (e_var e) (e_comp e) f -> Distribute.fits (n, n) (e_dims e) (extent_on f (e_comp e) N).

(** dimensions and extent by name *)
Definition named (name : string) : option entry := find (fun e => String.eqb (e_name e) name) es.
Definition D (name : string) : list string := match named name with Some e => e_dims e | None => [] end.
Definition E (name : string) : list Z :=
  match named name with Some e => match nth_error ks (e_var e) with Some (_, f) => extent_on f (e_comp e) N | None => [] end | None => [] end.
Lemma named_entry e : In e es -> named (e_name e) = Some e.
Proof using CAT.
  destruct CAT as (ND & _). unfold named. intros I. destruct (find (fun e0 => String.eqb (e_name e0) (e_name e)) es) as [e'|] eqn:X.
  - apply find_some in X. destruct X as (I' & EQ). apply String.eqb_eq in EQ. f_equal. clear -ND I I' EQ. induction es as [|a l IH]; [destruct I|]. cbn [map] in ND. inversion_clear ND as [|? ? NI ND'].
    destruct I as [->|I], I' as [->|I']; auto; exfalso; apply NI; [rewrite <- EQ|rewrite EQ]; now apply in_map.
  - exfalso. apply (find_none _ _ X) in I. now rewrite String.eqb_refl in I.
Qed.
Lemma entry_form e : In e es -> exists f, part ks (e_var e) (e_comp e) f /\ D (e_name e) = e_dims e /\ E (e_name e) = extent_on f (e_comp e) N.
Proof using CAT.
  intros I. pose proof CAT as (_ & _ & P & _). destruct (P e I) as (f & PT). exists f. split; [exact PT|]. unfold D, E. rewrite named_entry by auto. destruct PT as (b & X & _). rewrite X. auto.
Qed.
Lemma part_unique i c c' f f' : part ks i c f -> part ks i c' f' -> f = f'.
Proof using. intros (b & X & _) (b' & X' & _). congruence. Qed.

(** the quantity of a rank for an entry *)
Lemma entry_at r j e : (r < Halo.ranks n)%nat -> nth_error es j = Some e -> exists v f q, component st (e_var e) (e_comp e) v f /\ nth_error (local r) j = Some q /\ handles v (e_comp e) r = mkH j (q_meta q) /\
  q_dims q = e_dims e /\ Halo.fits N h (f_len f) (f_ix f) (f_iy f) (stag_y f (e_comp e)) (stag_x f (e_comp e)) (f_ext f) (q_meta q) /\ q_extent q = extent_on f (e_comp e) N /\
  part ks (e_var e) (e_comp e) f /\ D (e_name e) = e_dims e /\ E (e_name e) = q_extent q.
Proof using AR OK CAT.
  intros Hr EJ. destruct (entry_form e (nth_error_In _ _ EJ)) as (f & PT & DE & EE). destruct (part_comp st _ _ _ PT) as (v & C). destruct (AR r Hr) as (_ & A). destruct (A j e v f EJ C) as (q & Q1 & Q2 & Q3).
  pose proof (comp_fits n N h k st OK _ _ _ _ r C Hr) as F. rewrite Q2 in F. cbn [h_meta] in F. exists v, f, q. split; auto. split; auto. split; auto. split; auto. split; auto.
  assert (X : q_extent q = extent_on f (e_comp e) N).
  { change (q_extent q) with (m_extent (q_meta q)). unfold extent_on. apply nth_ext with (d := 0) (d' := 0); rewrite (fit_extent F); [now rewrite map_length, seq_length|]. intros i Hi.
    rewrite nth_map_seq by auto. exact (fit_ext F i Hi). }
  split; auto. split; auto. split; auto. congruence.
Qed.
Lemma comp_entry i c v f : component st i c v f -> exists j e, nth_error es j = Some e /\ e_var e = i /\ e_comp e = c.
Proof using CAT.
  intros C. destruct CAT as (_ & _ & _ & A). destruct (A i c f (comp_part st _ _ _ _ C)) as (e & I & X). apply In_nth_error in I. destruct I as (j & X'). eauto.
Qed.
Lemma names_nth j e : nth_error es j = Some e -> nth_error (map e_name es) j = Some (e_name e).
Proof using. intros X. now rewrite nth_error_map, X. Qed.

(** scattered *)
Lemma scattered (send : ScatterGather.state V T) (sends : nat -> option (ScatterGather.state V T)) junk F : sends 0%nat = Some send -> NoDup (dkeys (st_vars send)) ->
  (forall name, In name (dkeys (st_vars send)) -> In name (map e_name es)) -> on_sphere (n * N) ks es F (st_vars send) ->
  exists outs, together (Halo.ranks n) (fun r => scatter_state V T p (Z.of_nat r) (junk r) (sends r) (Some (mkSt (dictionary es (local r) (map (fun q => q_data q) (local r))) None))) (fun r => Ok (outs r)) /\
    let m := fun r => arrays_in es (st_vars (outs r)) (map (fun q => q_data q) (local r)) in
    (forall r, (r < Halo.ranks n)%nat -> st_time (outs r) = st_time send) /\ arrays n k m /\ state_held n N st d F m /\
    forall r j q, (r < Halo.ranks n)%nat -> nth_error (local r) j = Some q -> exists a, nth_error (m r) j = Some a /\ shp a = shp (q_data q).
Proof.
  intros S0 ND SUB HF. pose proof CAT as (NDN & _).
  assert (DV : forall r j e q, (r < Halo.ranks n)%nat -> nth_error es j = Some e -> nth_error (local r) j = Some q -> dget (e_name e) (dictionary es (local r) (map (fun q => q_data q) (local r))) = Some q).
  { intros r j e q Hr EJ Q. unfold dictionary. rewrite with_own. apply (dget_combine _ _ j); auto. now apply names_nth. }
  assert (RP : (0 < Distribute.ranks p)%nat) by (change (0 < Halo.ranks n)%nat; unfold Halo.ranks; nia).
  assert (SENT : forall r j e q, (r < Halo.ranks n)%nat -> nth_error es j = Some e -> nth_error (local r) j = Some q ->
     exists Q f, dget (e_name e) (st_vars send) = Some Q /\ part ks (e_var e) (e_comp e) f /\ global_sized p (D (e_name e)) (E (e_name e)) Q).
  { intros r j e q Hr EJ Q. destruct (entry_at r j e Hr EJ) as (v & f & q' & C & Q1 & Q2 & Q3 & F1 & X & PT & DE & EE). assert (q' = q) by congruence. subst q'.
    destruct (HF e f (nth_error_In _ _ EJ) PT) as (G & G1 & (G2 & G3 & G4) & _). exists G, f. split; auto. split; auto. split; auto. rewrite DE, EE. split; [exact G3|]. rewrite G4. cbn [global_size]. f_equal.
    pose proof (s_tile_size n N h _ _ _ _ _ _ _ F1) as TS. cbn [q_meta m_dims m_extent] in TS. rewrite <- Q3, TS. reflexivity. }
  destruct (@scatter_state_tog V T p D E send sends (fun r => Some (mkSt (dictionary es (local r) (map (fun q => q_data q) (local r))) None)) junk S0 ND RP) as (outs & TG & W).
  { intros name Q X. assert (I : In name (map e_name es)) by (apply SUB; apply dget_In in X; unfold dkeys; exact (in_map fst _ _ X)).
    apply in_map_iff in I. destruct I as (e & <- & I). apply In_nth_error in I. destruct I as (j & EJ).
    destruct (entry_form e (nth_error_In _ _ EJ)) as (f & PT & DE & EE). split; [rewrite DE, EE; apply FT; auto; now apply nth_error_In in EJ|]. split.
    - destruct (entry_at 0%nat j e ltac:(exact RP) EJ) as (v & f' & q & _ & Q1 & _). destruct (SENT 0%nat j e q ltac:(exact RP) EJ Q1) as (Q' & _ & X' & _ & GS). congruence.
    - intros r Hr. cbn [st_vars]. destruct (entry_at r j e Hr EJ) as (v & f' & q & C & Q1 & Q2 & Q3 & F1 & X1 & PT' & DE' & EE'). rewrite (DV r j e q Hr EJ Q1). split; [exact (s_formed N h _ _ _ _ _ _ _ F1)|congruence]. }
  exists outs. split; [exact TG|]. cbv zeta.
  assert (AT : forall r j e q, (r < Halo.ranks n)%nat -> nth_error es j = Some e -> nth_error (local r) j = Some q -> exists Q q', dget (e_name e) (st_vars send) = Some Q /\
     nth_error (arrays_in es (st_vars (outs r)) (map (fun q => q_data q) (local r))) j = Some (q_data q') /\ written q q' (part_of p r (D (e_name e)) (E (e_name e)) (domain_of Q))).
  { intros r j e q Hr EJ Q1. destruct (SENT r j e q Hr EJ Q1) as (Q & f & X & _). destruct (W r Hr) as (_ & W1 & _). destruct (W1 _ _ X) as (q' & X1 & WR). cbn [st_vars] in WR. rewrite (DV r j e q Hr EJ Q1) in WR. cbn [or_blank] in WR.
    exists Q, q'. split; auto. split; auto. unfold arrays_in. erewrite nth_error_map2; [|exact EJ|rewrite nth_error_map, Q1; reflexivity]. now rewrite X1. }
  split; [intros r Hr; now apply W|]. split; [|split].
  - intros r Hr. unfold arrays_in. rewrite map2_len; [reflexivity|]. rewrite map_length. symmetry. now apply AR.
  - intros i c v f r pp C Hr ID. destruct (comp_entry i c v f C) as (j & e & EJ & <- & <-). destruct (entry_at r j e Hr EJ) as (v' & f' & q & C' & Q1 & Q2 & Q3 & F1 & X & PT & DE & EE).
    assert (EQ : Some (v', f') = Some (v, f)) by (destruct C as (A1 & _), C' as (A2 & _); congruence). injection EQ as -> ->.
    destruct (AT r j e q Hr EJ Q1) as (Q & q' & XQ & AJ & WR). rewrite Q2 in *. cbn [h_meta] in *. unfold content. cbn [h_id]. rewrite Q2. cbn [h_id]. rewrite AJ.
    destruct WR as ((SH & WA) & MT & _). assert (MO : q_origin q' = m_origin (q_meta q)) by (rewrite <- MT; reflexivity). assert (ME : q_extent q' = m_extent (q_meta q)) by (rewrite <- MT; reflexivity).
    pose proof (s_relative_in N h _ _ _ _ _ _ _ F1 pp ID) as RI. specialize (WA (relative (f_len f) (q_meta q) pp)). cbn [domain_of shp at_ part_of] in WA. rewrite ME in WA. specialize (WA RI).
    rewrite MO, (s_shifted_relative N h _ _ _ _ _ _ _ F1) in WA by (destruct ID as (L & _); now rewrite (fit_dims F1) in L). rewrite WA. rewrite DE, EE, <- Q3.
    pose proof (s_place n N h _ _ _ _ _ _ _ Hn F1 r (relative (f_len f) (q_meta q) pp) Hr (relative_len _ _ _)) as PL. cbn [q_meta m_dims m_extent] in PL.
    pose proof (g_place_point n N h _ _ _ _ _ _ _ F1 r pp) as GP. pose proof (g_dir_point n N h _ _ _ _ _ _ _ F1 (e_comp e) r pp) as GD.
    destruct (g_point_level N h _ _ _ _ _ _ _ F1 pp ID) as (LV & RY & RX).
    destruct (Cube.place n (Z.of_nat r)) as [[t J] K] eqn:PE. pose proof PE as PR. apply place_range in PR; auto. destruct PR as (PR1 & PR2 & PR3). rewrite GP, GD, PL, !relative_nth, <- (s_column N h _ _ _ _ _ _ _ F1) by (apply (fit_ix F1) || apply (fit_iy F1)).
    destruct (HF e f (nth_error_In _ _ EJ) PT) as (G & G1 & _ & G5). assert (G = Q) by congruence. subst G. apply G5; auto; pose proof (g_stag N h _ _ _ _ _ _ _ F1); nia.
  - intros r j q Hr Q1. assert (LE : (j < k)%nat) by (destruct (AR r Hr) as (L & _); rewrite <- L; apply nth_error_Some; congruence).
    destruct (nth_error es j) as [e|] eqn:EJ; [|apply nth_error_None in EJ; lia]. destruct (AT r j e q Hr EJ Q1) as (Q & q' & _ & AJ & (_ & MT & _)). exists (q_data q'). split; auto. exact (f_equal m_shape MT).
Qed.

(** gathered *)
Lemma gathered_sphere (recvs : nat -> option (ScatterGather.state V T)) junk F m times :
  let vars := match recvs 0%nat with Some s => st_vars s | None => [] end in
  (forall e f q, In e es -> part ks (e_var e) (e_comp e) f -> dget (e_name e) vars = Some q -> of_sphere (n * N) f e q) ->
  arrays n k m -> state_held n N st d F m ->
  (forall r j q, (r < Halo.ranks n)%nat -> nth_error (local r) j = Some q -> exists a, nth_error (m r) j = Some a /\ shp a = shp (q_data q)) ->
  exists out, together (Halo.ranks n) (fun r => gather_state V T p (Z.of_nat r) (junk r) (mkSt (dictionary es (local r) (m r)) (times r)) (recvs r)) (fun r => Ok (match r with O => Some out | _ => recvs r end)) /\
    st_time out = match times 0%nat with Some t => Some t | None => match recvs 0%nat with Some s => st_time s | None => None end end /\ on_sphere (n * N) ks es F (st_vars out) /\
    forall name, ~ In name (map e_name es) -> dget name (st_vars out) = dget name vars.
Proof.
  intros vars RV A HF SH. pose proof CAT as (NDN & _).
  assert (RP : (0 < Distribute.ranks p)%nat) by (change (0 < Halo.ranks n)%nat; unfold Halo.ranks; nia).
  set (dq := blank [] EmptyString [] (fun _ => d) : quantity V).
  set (Q := fun j r => nth j (map2 with_array (local r) (m r)) dq).
  assert (LQ : forall r, (r < Halo.ranks n)%nat -> length (map2 with_array (local r) (m r)) = k) by (intros r Hr; destruct (AR r Hr) as (L & _); rewrite map2_len; auto; rewrite L; symmetry; now apply A).
  assert (QA : forall r j e, (r < Halo.ranks n)%nat -> nth_error es j = Some e -> exists q a, nth_error (local r) j = Some q /\ nth_error (m r) j = Some a /\ Q j r = with_array q a /\ q_meta (Q j r) = q_meta q).
  { intros r j e Hr EJ. destruct (entry_at r j e Hr EJ) as (v & f & q & _ & Q1 & _). destruct (SH r j q Hr Q1) as (a & X & SA). exists q, a. split; auto. split; auto.
    assert (X1 : Q j r = with_array q a) by (apply nth_error_nth, nth_error_map2; auto). split; auto. rewrite X1. unfold q_meta, with_array. cbn [q_dims q_origin q_extent q_data]. now rewrite SA. }
  assert (KEYS : dkeys (st_vars (mkSt (dictionary es (local 0%nat) (m 0%nat)) (times 0%nat))) = map e_name es).
  { cbn [st_vars]. unfold dkeys, dictionary. apply combine_fst. rewrite map_length. symmetry. now apply LQ. }
  assert (CB : forall name f, In (name, f) (combine (map e_name es) (map Q (seq 0 k))) -> exists j e, nth_error es j = Some e /\ name = e_name e /\ f = Q j).
  { intros name f I. apply In_nth_error in I. destruct I as (j & X). assert (B : (j < k)%nat).
    { assert (X' : nth_error (combine (map e_name es) (map Q (seq 0 k))) j <> None) by congruence. apply nth_error_Some in X'. rewrite combine_length, !map_length, seq_length in X'. lia. }
    destruct (nth_error es j) as [e|] eqn:EJ; [|apply nth_error_None in EJ; lia]. exists j, e. split; auto. apply (nth_error_nth _ _ (EmptyString, Q 0%nat)) in X.
    rewrite combine_nth in X by now rewrite !map_length, seq_length. injection X as <- <-. rewrite nth_map_seq by auto. split; auto. apply nth_error_nth. now apply names_nth. }
  assert (CB' : forall j e, nth_error es j = Some e -> In (e_name e, Q j) (combine (map e_name es) (map Q (seq 0 k)))).
  { intros j e EJ. assert (B : (j < k)%nat) by (apply nth_error_Some; congruence). apply nth_error_In with (n := j). rewrite (nth_error_nth' _ (EmptyString, Q 0%nat)) by (rewrite combine_length, !map_length, seq_length; lia).
    rewrite combine_nth by now rewrite !map_length, seq_length. rewrite nth_map_seq by auto. rewrite (nth_error_nth _ _ EmptyString (names_nth _ _ EJ)). reflexivity. }
  assert (TS : forall e f, In e es -> part ks (e_var e) (e_comp e) f -> global_size p (D (e_name e)) (E (e_name e)) = 6 :: extent_on f (e_comp e) (n * N)).
  { intros e f I PT. apply In_nth_error in I. destruct I as (j & EJ). destruct (entry_at 0%nat j e ltac:(exact RP) EJ) as (v & f' & q & C & Q1 & Q2 & Q3 & F1 & X & PT' & DE & EE).
    assert (f' = f) by (eapply part_unique; eauto). subst f'. rewrite DE, EE, <- Q3. pose proof (s_tile_size n N h _ _ _ _ _ _ _ F1) as TS. cbn [q_meta m_dims m_extent] in TS. cbn [global_size]. rewrite TS. reflexivity. }
  assert (GIV : forall e f q, In e es -> part ks (e_var e) (e_comp e) f -> dget (e_name e) vars = Some q -> global_sized p (D (e_name e)) (E (e_name e)) q).
  { intros e f q I PT X. destruct (RV e f q I PT X) as (W & X1 & X2). destruct (entry_form e I) as (f' & _ & DE & _). split; auto. rewrite (TS e f I PT), DE. split; [exact X1|exact X2]. }
  destruct (@gather_state_tog V T p D E junk (map Q (seq 0 k)) (fun r => mkSt (dictionary es (local r) (m r)) (times r)) recvs) as (out & TG & TM & OT & ON).
  { rewrite KEYS. exact NDN. }
  { exact RP. }
  { intros r Hr. cbn [st_vars]. unfold dictionary. rewrite combine_snd by (rewrite map_length; symmetry; now apply LQ). rewrite map_map. rewrite <- (LQ r Hr). symmetry. apply all_nth. }
  { rewrite KEYS. intros name f I. destruct (CB name f I) as (j & e & EJ & -> & ->). destruct (entry_form e (nth_error_In _ _ EJ)) as (f & PT & DE & EE). split; [rewrite DE, EE; apply FT; auto; now apply nth_error_In in EJ|]. split.
    - intros r Hr. destruct (entry_at r j e Hr EJ) as (v & f' & q & C & Q1 & Q2 & Q3 & F1 & X & PT' & DE' & EE'). destruct (QA r j e Hr EJ) as (q1 & a & X1 & _ & _ & X2). assert (q1 = q) by congruence. subst q1.
      split; [rewrite X2; exact (s_formed N h _ _ _ _ _ _ _ F1)|]. rewrite EE'. exact (f_equal m_extent X2).
    - fold vars. destruct (dget (e_name e) vars) as [q|] eqn:X; [exact (GIV e f q (nth_error_In _ _ EJ) PT X)|]. destruct (entry_at 0%nat j e ltac:(exact RP) EJ) as (v & f' & q & C & Q1 & Q2 & Q3 & _).
      destruct (QA 0%nat j e ltac:(exact RP) EJ) as (q1 & a & X1 & _ & _ & X2). assert (q1 = q) by congruence. subst q1. rewrite DE, <- Q3. exact (f_equal m_dims X2). }
  exists out. split; [exact TG|]. split; [exact TM|]. split; [|intros name NI; apply ON; now rewrite KEYS].
  intros e f I PT. cbv zeta. apply In_nth_error in I. destruct I as (j & EJ). rewrite KEYS in OT. destruct (OT _ _ (CB' j e EJ)) as (q' & a & X & WR & GA). fold vars in WR, GA.
  pose proof (nth_error_In _ _ EJ) as I. destruct (entry_form e I) as (f0 & PT0 & DE & EE). assert (f0 = f) by (eapply part_unique; eauto). subst f0.
  assert (FE : Distribute.fits (layout_of p) (D (e_name e)) (E (e_name e))) by (rewrite DE, EE; apply FT; auto).
  exists q'. split; [exact X|]. pose proof (TS e f I PT) as TE. split.
  { apply (sized_written p (D (e_name e)) (E (e_name e))) in WR.
    - destruct WR as (W1 & W2 & W3). split; [exact W1|]. split; [rewrite W2, DE; reflexivity|]. rewrite W3. exact TE.
    - destruct (dget (e_name e) vars) as [q|] eqn:X1; cbn [or_blank]; [exact (GIV e f q I PT X1)|now apply blank_global]. }
  destruct (entry_at 0%nat j e ltac:(exact RP) EJ) as (v & f' & q0 & C & Q1 & Q2 & Q3 & F1 & X1 & PT' & _ & EE').
  assert (f' = f) by (eapply part_unique; eauto). subst f'. destruct (s_axes N h _ _ _ _ _ _ _ F1) as (AX & AY). cbn [q_meta m_dims] in AX, AY. rewrite Q3, <- DE in AX, AY.
  destruct (gathered_full p _ _ FE _ _ _ (or_introl AX) (or_introl AY) GA) as (SA & GF). intros t y x lev Ht Hy Hx LV. destruct WR as ((SW & AW) & _).
  set (g := t :: tile_index (f_len f) (f_ix f) (f_iy f) y x lev). assert (IG : in_shape (shp a) g).
  { rewrite SA, TE. constructor; [exact Ht|]. apply (Forall2_nth _ _ _ 0 0). unfold tile_index, extent_on. rewrite !map_length, !seq_length. split; auto. intros i Hi. rewrite !nth_map_seq by auto.
    destruct LV as (_ & LV). specialize (LV i Hi). destruct (Nat.eqb_spec i (f_ix f)); [exact Hx|]. destruct (Nat.eqb_spec i (f_iy f)); [exact Hy|]. cbn [orb] in LV. exact LV. }
  rewrite AW by (rewrite SW; exact IG). destruct (GF g IG) as (r & pt & Hr & P & PL & -> & _).
  destruct (entry_at r j e Hr EJ) as (v1 & f1 & q & C1 & Q1' & Q2' & Q3' & F1' & X1' & PT1 & _ & EE1). assert (f1 = f) by (eapply part_unique; eauto). subst f1.
  destruct (QA r j e Hr EJ) as (q1 & b & Y1 & Y2 & Y3 & _). assert (q1 = q) by congruence. subst q1. rewrite Y3. unfold domain_of, with_array. cbn [at_ q_data q_origin].
  rewrite EE1 in P, PL. rewrite DE, <- Q3' in PL. change (q_extent q) with (m_extent (q_meta q)) in P, PL. change (q_dims q) with (m_dims (q_meta q)) in PL. change (q_origin q) with (m_origin (q_meta q)).
  pose proof (s_shifted_in N h _ _ _ _ _ _ _ F1' pt P) as ID. assert (LP : length pt = f_len f) by (apply Forall2_length in P; now rewrite (fit_extent F1') in P).
  specialize (HF (e_var e) (e_comp e) v1 f r (shifted (m_origin (q_meta q)) pt) C1 Hr). rewrite Q2' in HF. cbn [h_meta] in HF. specialize (HF ID). unfold content in HF. rewrite Q2' in HF. cbn [h_id] in HF. rewrite Y2 in HF. rewrite HF. clear HF.
  pose proof (s_place n N h _ _ _ _ _ _ _ Hn F1' r pt Hr LP) as PS. pose proof (g_place_point n N h _ _ _ _ _ _ _ F1' r (shifted (m_origin (q_meta q)) pt)) as GP.
  pose proof (g_dir_point n N h _ _ _ _ _ _ _ F1' (e_comp e) r (shifted (m_origin (q_meta q)) pt)) as GD. rewrite (s_column N h _ _ _ _ _ _ _ F1'), (s_relative_shifted N h _ _ _ _ _ _ _ F1') by auto.
  destruct (Cube.place n (Z.of_nat r)) as [[t' J] K] eqn:PE. rewrite GP, GD. rewrite <- !relative_nth with (len := f_len f) by (apply (fit_ix F1') || apply (fit_iy F1')). rewrite (s_relative_shifted N h _ _ _ _ _ _ _ F1') by auto.
  rewrite PL in PS. unfold g in PS. assert (t' = t /\ tile_index (f_len f) (f_ix f) (f_iy f) y x lev = tile_index (f_len f) (f_ix f) (f_iy f) (J * N + xat pt (f_iy f)) (K * N + xat pt (f_ix f)) (horizontal (f_len f) (f_ix f) (f_iy f) pt)) as (-> & TI) by (split; congruence).
  assert (AT : forall i, (i < f_len f)%nat -> (if Nat.eqb i (f_ix f) then x else if Nat.eqb i (f_iy f) then y else xat lev i) =
     if Nat.eqb i (f_ix f) then K * N + xat pt (f_ix f) else if Nat.eqb i (f_iy f) then J * N + xat pt (f_iy f) else xat pt i).
  { intros i Hi. apply (f_equal (fun l => nth i l 0)) in TI. unfold tile_index in TI. rewrite !nth_map_seq in TI by auto. rewrite TI. unfold horizontal, xat. rewrite nth_map_seq by auto.
    destruct (Nat.eqb_spec i (f_ix f)), (Nat.eqb_spec i (f_iy f)); reflexivity. }
  pose proof (AT (f_ix f) (fit_ix F1')) as AX1. rewrite Nat.eqb_refl in AX1. pose proof (AT (f_iy f) (fit_iy F1')) as AY1. rewrite Nat.eqb_refl in AY1. pose proof (fit_xy F1') as XY.
  replace (Nat.eqb (f_iy f) (f_ix f)) with false in AY1 by (symmetry; apply Nat.eqb_neq; congruence). rewrite <- AX1, <- AY1. f_equal.
  destruct LV as (LL & LV). apply nth_ext with (d := 0) (d' := 0); unfold horizontal; rewrite map_length, seq_length; auto. intros i Hi. rewrite nth_map_seq by auto. specialize (LV i Hi). specialize (AT i Hi).
  change (nth i lev 0) with (xat lev i). destruct (Nat.eqb_spec i (f_ix f)), (Nat.eqb_spec i (f_iy f)); cbn [orb] in *; congruence.
Qed.
End Stages.

Theorem model_run_correct V T (neg : V -> V) (d : V) M h ks es syn (gs : list (mrule V)) : (forall x, neg (neg x) = x) -> catalogue ks es -> syn_ok ks syn ->
  Forall (fun g => looks_near h ks g /\ forall i vector f, nth_error ks i = Some (vector, f) -> f_sy f = 0 /\ f_sx f = 0 \/ syn i = true \/ keeps g i) gs ->
  forall F (send : ScatterGather.state V T), proper neg ks F -> on_sphere M ks es F (st_vars send) -> NoDup (dkeys (st_vars send)) -> (forall name, In name (dkeys (st_vars send)) -> In name (map e_name es)) ->
  exists F', develops neg M ks syn gs F F' /\
    forall n N st fs local sends recvs junk junk', 1 <= n -> n * N = M -> 1 <= h <= N -> kinds st = ks -> state_ok n N h (length es) st -> arranged n es st local ->
      (forall e f, In e es -> part ks (e_var e) (e_comp e) f -> Distribute.fits (n, n) (e_dims e) (extent_on f (e_comp e) N)) ->
      Forall2 (computes n N (length es) st) gs fs -> sends 0%nat = Some send ->
      let vars := match recvs 0%nat with Some s => st_vars s | None => [] end in
      (forall e f q, In e es -> part ks (e_var e) (e_comp e) f -> dget (e_name e) vars = Some q -> of_sphere M f e q) ->
      exists m o out,
        cluster_ends (Mixed.size (n, n))
          (mixed_program (obj T) V (held_back V T) neg (n, n) (model_run (n, n) st syn h fs es sends local recvs junk junk') (fun r => map (fun q => q_data q) (local r)) (fun _ => (None, None)))
          (fun r => Ok (m r, o r)) /\
        (forall r, (r < Mixed.size (n, n))%nat -> o r = (st_time send, match r with O => Some out | _ => recvs r end)) /\
        st_time out = match st_time send with Some t => Some t | None => match recvs 0%nat with Some s => st_time s | None => None end end /\
        on_sphere M ks es F' (st_vars out) /\ (forall name, ~ In name (map e_name es) -> dget name (st_vars out) = dget name vars) /\
        state_held n N st d F' m.
Proof.
  intros NN CAT SY G F send PF OS ND SUB. destruct (development_exists V neg d M h ks NN syn SY gs G F PF) as (F' & DV). exists F'. split; [exact DV|].
  intros n N st fs local sends recvs junk junk' Hn <- Hh <- OK AR FT CO S0 vars RV. assert (HN : 1 <= N) by lia. set (k := length es) in *.
  assert (RK : Halo.ranks n = Mixed.size (n, n)) by reflexivity. assert (RP : (0 < Halo.ranks n)%nat) by (unfold Halo.ranks; nia).
  assert (LN : Forall (looks_near h (kinds st)) gs) by (eapply Forall_impl; [|exact G]; now intros g (X & _)).
  destruct (scattered V T d n N h es st Hn HN OK CAT local AR FT send sends junk F S0 ND SUB OS) as (outs & SC & TM & AM & HM & SM). cbv zeta in *.
  set (m1 := fun r => arrays_in es (st_vars (outs r)) (map (fun q => q_data q) (local r))) in *.
  pose proof (model_calls V n N h k st Hn HN Hh OK syn SY gs fs CO 0) as CALLS.
  set (calls := model_run (n, n) st syn h fs es sends local recvs junk junk').
  destruct (mixed_correct (obj T) V (held_back V T) neg (n, n) d n k Hn Hn calls (fun r => map (fun q => q_data q) (local r)) (fun _ => (None, None))
    (fun m o => exists out, (forall r, (r < Mixed.size (n, n))%nat -> o r = (st_time send, match r with O => Some out | _ => recvs r end)) /\
        st_time out = match st_time send with Some t => Some t | None => match recvs 0%nat with Some s => st_time s | None => None end end /\
        on_sphere (n * N) (kinds st) es F' (st_vars out) /\ (forall name, ~ In name (map e_name es) -> dget name (st_vars out) = dget name vars) /\ state_held n N st d F' m)) as (m & o & (out & R) & C).
  - unfold mixed_ok, calls, model_run. cbn [updates]. rewrite updates_map. cbn [updates]. rewrite app_nil_r. split; [auto|]. split; [exact CALLS|]. apply model_waits. easy.
  - intros r Hr. rewrite map_length. now apply AR.
  - unfold calls, model_run. cbn [achieves]. exists m1, (fun _ => (st_time send, None)). split; [|split].
    + rewrite RK in SC. refine (together_bind _ _ outs (fun r got => PRet (arrays_in es (st_vars got) (map (fun q => q_data q) (local r)), (st_time got, None))) (fun r => Ok (m1 r, (st_time send, None))) SC _).
      apply tg_end. intros r Hr. cbn. unfold m1. now rewrite TM by auto.
    + intros r Hr. now apply AM.
    + apply achieves_updates. intros started' m' ME. cbn [achieves].
      destruct (meaning_model V neg d n N h k st Hn HN Hh OK syn SY gs fs CO LN [] m1 m' F F' PF DV AM HM ME) as (HM' & AM').
      assert (SM' : forall r j q, (r < Halo.ranks n)%nat -> nth_error (local r) j = Some q -> exists a, nth_error (m' r) j = Some a /\ shp a = shp (q_data q)).
      { intros r j q Hr Q1. destruct (SM r j q Hr Q1) as (a & X & S1). destruct (meaning_shapes V neg d n k r j (model_steps st syn h fs 0) Hr) with (started := @nil (call V * (nat -> mem V))) (m := m1) (m' := m') (a := a) as (a' & X' & S2); auto.
        - intros f I. apply local_of_steps in I. apply In_nth_error in I. destruct I as (i & I). assert (X3 : exists g, computes n N k st g f) by (clear -CO I; revert i I; induction CO as [|g0 f0 gs fs H CO IH]; intros [|i] I; try discriminate I; [injection I as <-; eauto|exact (IH i I)]). destruct X3 as (g & C1 & C2). split; [intros mm; now apply C1|]. intros mm b LM E1.
          destruct (nth_error es j) as [e|] eqn:EJ; [|exfalso; apply nth_error_None in EJ; destruct (AR r Hr) as (L & _); assert (X2 : nth_error (local r) j <> None) by congruence; apply nth_error_Some in X2; lia].
          destruct (entry_at V n N h es st OK CAT local AR r j e Hr EJ) as (v & f0 & q0 & CC & _ & Q2 & _). destruct (C2 r mm (fun i' c' dy dx lev' => match nth_error st i' with Some (v', fm') => match nth_error mm (h_id (handles v' c' r)) with Some b => at_ b (element (h_meta (handles v' c' r)) (f_ix fm') (f_iy fm') dy dx lev') | None => d end | None => d end) Hr LM _ _ _ _ b CC) as (b' & E2 & S3 & _); [now rewrite Q2|]. rewrite Q2 in E2. eauto.
        - exists a'. split; auto. congruence. }
      destruct (gathered_sphere V T d n N h es st Hn OK CAT local AR FT recvs junk' F' m' (fun _ => st_time send) RV AM' HM' SM') as (out & TG & O1 & O2 & O3).
      exists m', (fun r => (st_time send, match r with O => Some out | _ => recvs r end)). split; [|split].
      * rewrite RK in TG. refine (together_bind _ _ (fun r => match r with O => Some out | _ => recvs r end) (fun r o => PRet (m' r, (st_time send, o))) (fun r => Ok (m' r, (st_time send, match r with O => Some out | _ => recvs r end))) TG _).
        apply tg_end. intros r Hr. reflexivity.
      * intros r Hr. now apply AM'.
      * exists out. auto.
  - exists m, o, out. split; [exact C|]. exact R.
Qed.

(** ** quantities which agree hold a sphere *)
Section Sphere.
Variables (V : Type) (neg : V -> V) (z : V) (M : Z) (ks : list (bool * form)) (es : list entry) (vars : dict (quantity V)).

Definition points : list (entry * Z * Z * Z) := flat_map (fun e => flat_map (fun t => flat_map (fun j => map (fun x => (e, t, j, x)) (span (M + 1))) (span (M + 1))) (span 6)) es.
Lemma in_points e t j x : In (e, t, j, x) points <-> In e es /\ 0 <= t < 6 /\ 0 <= j < M + 1 /\ 0 <= x < M + 1.
Proof.
  unfold points. rewrite <- !in_span. split.
  - intros H. apply in_flat_map in H. destruct H as (e1 & I & H). apply in_flat_map in H. destruct H as (t1 & T1 & H). apply in_flat_map in H. destruct H as (j1 & J & H).
    apply in_map_iff in H. destruct H as (x1 & E1 & X). injection E1 as <- <- <- <-. auto.
  - intros (I & T1 & J & X). apply in_flat_map. exists e. split; auto. apply in_flat_map. exists t. split; auto. apply in_flat_map. exists j. split; auto. now apply in_map.
Qed.
Definition hits (i : nat) (f : form) (v : vec) (dir : option vec) (o : entry * Z * Z * Z) : bool :=
  let '(e, t, j, x) := o in
  let c := e_comp e in
  (Nat.eqb (e_var e) i && (j <? M + stag_y f c) && (x <? M + stag_x f c) &&
   (match spot M (stag_y f c) (stag_x f c) t j x with Some v' => if vec_eq_dec v v' then true else false | None => false end) &&
   (match dir with Some b => if vec_eq_dec (bearing M (stag_y f c) (stag_x f c) c t j x) b then true else false | None => true end))%bool.
Definition hit i f v dir := find (hits i f v dir) points.
Definition is_level (f : form) (lev : list Z) : bool :=
  Nat.eqb (length lev) (f_len f) && forallb (fun i => if Nat.eqb i (f_ix f) || Nat.eqb i (f_iy f) then xat lev i =? 0 else (0 <=? xat lev i) && (xat lev i <? f_ext f i)) (seq 0 (f_len f)).
Lemma is_level_ok f lev : is_level f lev = true <-> level (f_len f) (f_ix f) (f_iy f) (f_ext f) lev.
Proof.
  unfold is_level, level. rewrite andb_true_iff, Nat.eqb_eq, forallb_forall. split; intros (L & H); (split; [exact L|]); intros i Hi.
  - specialize (H i ltac:(apply in_seq; lia)). destruct (Nat.eqb i (f_ix f) || Nat.eqb i (f_iy f)); lia.
  - apply in_seq in Hi. specialize (H i ltac:(lia)). destruct (Nat.eqb i (f_ix f) || Nat.eqb i (f_iy f)); lia.
Qed.
Definition value_of (f : form) (lev : list Z) (o : entry * Z * Z * Z) : V :=
  let '(e, t, j, x) := o in if negb (is_level f lev) then z else match dget (e_name e) vars with Some q => at_ (domain_of q) (t :: tile_index (f_len f) (f_ix f) (f_iy f) j x lev) | None => z end.
Definition sphere_of : sphere V := fun i pl lev dir =>
  match nth_error ks i, pl with
  | Some (true, f), Some v => match hit i f v (Some dir) with Some o => value_of f lev o | None => match hit i f v (Some (vscale (-1) dir)) with Some o => neg (value_of f lev o) | None => z end end
  | Some (false, f), Some v => match hit i f v None with Some o => value_of f lev o | None => z end
  | _, _ => z
  end.
Lemma hit_some i f v dir e t j x : hit i f v dir = Some (e, t, j, x) -> In e es /\ e_var e = i /\ 0 <= t < 6 /\ 0 <= j < M + stag_y f (e_comp e) /\ 0 <= x < M + stag_x f (e_comp e) /\
  spot M (stag_y f (e_comp e)) (stag_x f (e_comp e)) t j x = Some v /\ match dir with Some b => bearing M (stag_y f (e_comp e)) (stag_x f (e_comp e)) (e_comp e) t j x = b | None => True end.
Proof.
  intros X. apply find_some in X. destruct X as (I & X). apply in_points in I. destruct I as (I & T1 & J & X1). unfold hits in X. apply andb_prop in X. destruct X as (X & X2). apply andb_prop in X. destruct X as (X & X3).
  apply andb_prop in X. destruct X as (X & X4). apply andb_prop in X. destruct X as (X & X5). apply Nat.eqb_eq in X. split; auto. split; auto. split; auto. split; [lia|]. split; [lia|].
  destruct (spot M (stag_y f (e_comp e)) (stag_x f (e_comp e)) t j x) as [v'|]; [|discriminate]. destruct (vec_eq_dec v v') as [->|]; [|discriminate]. split; auto.
  destruct dir as [b|]; auto. now destruct (vec_eq_dec (bearing M (stag_y f (e_comp e)) (stag_x f (e_comp e)) (e_comp e) t j x) b).
Qed.
Hypothesis NN : forall x, neg (neg x) = x.
Hypothesis Z0 : neg z = z.
Hypothesis AG : agrees neg M ks es vars.
Hypothesis ST : forall i vector f, nth_error ks i = Some (vector, f) -> (f_sy f = 0 \/ f_sy f = 1) /\ (f_sx f = 0 \/ f_sx f = 1).
Lemma hit_there i vector f v dir e t j x : nth_error ks i = Some (vector, f) -> In e es -> e_var e = i -> 0 <= t < 6 -> 0 <= j < M + stag_y f (e_comp e) -> 0 <= x < M + stag_x f (e_comp e) ->
  spot M (stag_y f (e_comp e)) (stag_x f (e_comp e)) t j x = Some v -> match dir with Some b => bearing M (stag_y f (e_comp e)) (stag_x f (e_comp e)) (e_comp e) t j x = b | None => True end ->
  hit i f v dir <> None.
Proof.
  intros K I EI T1 J X S1 B X1. destruct (ST i vector f K) as (SY & SX). assert (S2 : 0 <= stag_y f (e_comp e) <= 1 /\ 0 <= stag_x f (e_comp e) <= 1) by (unfold stag_y, stag_x; destruct (e_comp e); lia).
  assert (I' : In (e, t, j, x) points) by (apply in_points; repeat split; auto; lia). apply (find_none _ _ X1) in I'. unfold hits in I'.
  rewrite (proj2 (Nat.eqb_eq _ _) EI), S1 in I'. replace (j <? M + stag_y f (e_comp e)) with true in I' by lia. replace (x <? M + stag_x f (e_comp e)) with true in I' by lia.
  destruct (vec_eq_dec v v); [|congruence]. cbn [andb] in I'. destruct dir as [b|]; [|discriminate]. destruct (vec_eq_dec (bearing M (stag_y f (e_comp e)) (stag_x f (e_comp e)) (e_comp e) t j x) b); congruence.
Qed.
Lemma values_agree i vector f v dir dir' e t j x e' t' j' x' lev : nth_error ks i = Some (vector, f) -> hit i f v dir = Some (e, t, j, x) -> hit i f v dir' = Some (e', t', j', x') ->
  let b := bearing M (stag_y f (e_comp e)) (stag_x f (e_comp e)) (e_comp e) t j x in
  let b' := bearing M (stag_y f (e_comp e')) (stag_x f (e_comp e')) (e_comp e') t' j' x' in
  if vector : bool then b = vscale (-1) b' -> value_of f lev (e, t, j, x) = neg (value_of f lev (e', t', j', x')) else True.
Proof.
  intros K H1 H2 b b'. destruct vector; auto. intros B. unfold value_of. destruct (is_level f lev) eqn:LV; cbn [negb]; [|now rewrite Z0]. apply is_level_ok in LV. apply hit_some in H1, H2. destruct H1 as (I & EI & T1 & J & X & S1 & _), H2 as (I' & EI' & T1' & J' & X' & S1' & _). destruct AG as (A1 & A2).
  assert (PT : forall e0, In e0 es -> e_var e0 = i -> exists q, dget (e_name e0) vars = Some q /\ of_sphere M f e0 q) by (intros e0 I0 E0; apply A1; auto; exists true; rewrite E0; auto).
  destruct (PT e I EI) as (q & Q & _), (PT e' I' EI') as (q' & Q' & _). rewrite Q, Q'.
  assert (K' : nth_error ks (e_var e) = Some (true, f)) by now rewrite EI.
  refine (proj2 (A2 e e' true f q q' t j x t' j' x' lev I I' _ K' Q Q' LV T1 J X T1' J' X' _) B); congruence.
Qed.
Lemma sphere_proper : proper neg ks sphere_of.
Proof.
  intros i vector f K. destruct vector.
  - intros pl lev dir. unfold sphere_of. rewrite K. destruct pl as [v|]; [|now rewrite Z0]. rewrite vscale_twice.
    destruct (hit i f v (Some dir)) as [[[[e t] j] x]|] eqn:H1, (hit i f v (Some (vscale (-1) dir))) as [[[[e' t'] j'] x']|] eqn:H2; auto.
    apply (values_agree i true f v _ _ _ _ _ _ _ _ _ _ lev K H2 H1). apply hit_some in H1, H2. destruct H1 as (_ & _ & _ & _ & _ & _ & ->), H2 as (_ & _ & _ & _ & _ & _ & ->). reflexivity.
  - intros pl lev dir dir'. unfold sphere_of. rewrite K. reflexivity.
Qed.
Lemma sphere_holds : 1 <= M -> (forall e, In e es -> exists f, part ks (e_var e) (e_comp e) f) -> on_sphere M ks es sphere_of vars.
Proof.
  intros HM EP e f I PT. cbv zeta. destruct AG as (A1 & A2). destruct (A1 e f I PT) as (q & Q & OS). exists q. split; auto. split; auto. intros t j x lev T1 J X LV. destruct PT as (b & K & CB).
  destruct (ST _ _ _ K) as (SY & SX). assert (S2 : 0 <= stag_y f (e_comp e) <= 1 /\ 0 <= stag_x f (e_comp e) <= 1) by (unfold stag_y, stag_x; destruct (e_comp e); lia).
  assert (SP : exists v, spot M (stag_y f (e_comp e)) (stag_x f (e_comp e)) t j x = Some v).
  { unfold spot, surf. replace (Z.abs (2 * x + 1 - stag_x f (e_comp e) - M) <=? M) with true by lia. replace (Z.abs (2 * j + 1 - stag_y f (e_comp e) - M) <=? M) with true by lia. eexists; reflexivity. }
  destruct SP as (v & SP). unfold sphere_of. rewrite K, SP. destruct b.
  - destruct (hit (e_var e) f v (Some (bearing M (stag_y f (e_comp e)) (stag_x f (e_comp e)) (e_comp e) t j x))) as [[[[e' t'] j'] x']|] eqn:H1.
    2:{ exfalso. eapply hit_there; [exact K|exact I|reflexivity|exact T1|exact J|exact X|exact SP| |exact H1]. reflexivity. }
    unfold value_of. rewrite (proj2 (is_level_ok f lev) LV). cbn [negb]. apply hit_some in H1. destruct H1 as (I' & EI' & T1' & J' & X' & S1' & B').
    destruct (A1 e' f I') as (q' & Q' & _); [exists true; rewrite EI'; auto|]. rewrite Q'. refine (proj1 (A2 e e' true f q q' t j x t' j' x' lev I I' EI' K Q Q' LV T1 J X T1' J' X' _) _); congruence.
  - assert (C0 : e_comp e = false) by (destruct (e_comp e); auto; discriminate (CB eq_refl)).
    destruct (hit (e_var e) f v None) as [[[[e' t'] j'] x']|] eqn:H1.
    2:{ exfalso. eapply hit_there; [exact K|exact I|reflexivity|exact T1|exact J|exact X|exact SP| |exact H1]. exact Logic.I. }
    unfold value_of. rewrite (proj2 (is_level_ok f lev) LV). cbn [negb]. apply hit_some in H1. destruct H1 as (I' & EI' & T1' & J' & X' & S1' & B').
    destruct (dget (e_name e') vars) as [q'|] eqn:Q'.
    + refine (A2 e e' false f q q' t j x t' j' x' lev I I' EI' K Q Q' LV T1 J X T1' J' X' _). congruence.
    + exfalso. destruct (EP e' I') as (f' & PT'). assert (f' = f) by (destruct PT' as (b' & K' & _); congruence). subst f'. destruct (A1 e' f I' PT') as (q' & Q'' & _). congruence.
Qed.
End Sphere.

Theorem sphere_exists V (neg : V -> V) (z : V) M ks es vars : (forall x, neg (neg x) = x) -> neg z = z -> 1 <= M -> catalogue ks es ->
  (forall i vector f, nth_error ks i = Some (vector, f) -> (f_sy f = 0 \/ f_sy f = 1) /\ (f_sx f = 0 \/ f_sx f = 1)) ->
  agrees neg M ks es vars -> exists F, proper neg ks F /\ on_sphere M ks es F vars.
Proof.
  intros NN Z0 HM (_ & _ & EP & _) ST AG. exists (sphere_of V neg z M ks es vars). split; [now apply sphere_proper|now apply sphere_holds].
Qed.
(** what a sphere holds agrees *)
Theorem sphere_agrees V (neg : V -> V) M ks es vars F : catalogue ks es -> proper neg ks F -> on_sphere M ks es F vars -> agrees neg M ks es vars.
Proof.
  intros (_ & _ & EP & _) P OS. split; [intros e f I PT; destruct (OS e f I PT) as (q & Q & W & _); eauto|].
  intros e e' vector f q q' t j x t' j' x' lev I I' EV K Q Q' LV c c' T1 J X T1' J' X' S1. cbv zeta. destruct (EP e I) as (f1 & PT), (EP e' I') as (f2 & PT').
  assert (f1 = f) by (destruct PT as (b & K' & _); congruence). assert (f2 = f) by (destruct PT' as (b & K' & _); congruence). subst f1 f2.
  destruct (OS e f I PT) as (q1 & Q1 & _ & H1). assert (q1 = q) by congruence. subst q1. destruct (OS e' f I' PT') as (q1 & Q1' & _ & H1'). assert (q1 = q') by congruence. subst q1.
  rewrite (H1 t j x lev T1 J X LV), (H1' t' j' x' lev T1' J' X' LV), EV. fold c c'. rewrite S1. specialize (P _ _ _ K). destruct vector; [split; intros B; rewrite B; [reflexivity|apply P]|apply P].
Qed.
Theorem sphere_iff V (neg : V -> V) (z : V) M ks es vars : (forall x, neg (neg x) = x) -> neg z = z -> 1 <= M -> catalogue ks es ->
  (forall i vector f, nth_error ks i = Some (vector, f) -> (f_sy f = 0 \/ f_sy f = 1) /\ (f_sx f = 0 \/ f_sx f = 1)) ->
  (agrees neg M ks es vars <-> exists F, proper neg ks F /\ on_sphere M ks es F vars).
Proof. intros NN Z0 HM CAT ST. split; [now apply (sphere_exists V neg z)|]. intros (F & P & OS). exact (sphere_agrees V neg M ks es vars F CAT P OS). Qed.

(** ** the same state from every layout *)
Lemma tile_point (f : form) c M t g : (f_ix f < f_len f)%nat -> (f_iy f < f_len f)%nat -> f_ix f <> f_iy f -> in_shape (6 :: extent_on f c M) (t :: g) ->
  let lev := horizontal (f_len f) (f_ix f) (f_iy f) g in
  0 <= t < 6 /\ 0 <= xat g (f_iy f) < M + stag_y f c /\ 0 <= xat g (f_ix f) < M + stag_x f c /\ level (f_len f) (f_ix f) (f_iy f) (f_ext f) lev /\
  g = tile_index (f_len f) (f_ix f) (f_iy f) (xat g (f_iy f)) (xat g (f_ix f)) lev.
Proof.
  intros LX LY XY I lev. inversion_clear I as [|? ? ? ? Ht I']. apply (Forall2_nth _ _ _ 0 0) in I'. destruct I' as (L & I'). unfold extent_on in L. rewrite map_length, seq_length in L.
  assert (AT : forall i, (i < f_len f)%nat -> 0 <= xat g i < if Nat.eqb i (f_ix f) then M + stag_x f c else if Nat.eqb i (f_iy f) then M + stag_y f c else f_ext f i).
  { intros i Hi. specialize (I' i). unfold extent_on in I'. rewrite map_length, seq_length in I'. specialize (I' Hi). rewrite nth_map_seq in I' by auto. exact I'. }
  split; auto. split; [|split; [|split]].
  - specialize (AT _ LY). rewrite Nat.eqb_refl in AT. replace (Nat.eqb (f_iy f) (f_ix f)) with false in AT by (symmetry; apply Nat.eqb_neq; congruence). exact AT.
  - specialize (AT _ LX). now rewrite Nat.eqb_refl in AT.
  - unfold lev, horizontal. split; [now rewrite map_length, seq_length|]. intros i Hi.
    assert (X : xat (map (fun i => if Nat.eqb i (f_ix f) || Nat.eqb i (f_iy f) then 0 else xat g i) (seq 0 (f_len f))) i = if Nat.eqb i (f_ix f) || Nat.eqb i (f_iy f) then 0 else xat g i) by (unfold xat at 1; now rewrite nth_map_seq).
    rewrite X. specialize (AT i Hi). destruct (Nat.eqb i (f_ix f)), (Nat.eqb i (f_iy f)); cbn [orb] in *; auto.
  - apply nth_ext with (d := 0) (d' := 0); unfold tile_index; [rewrite map_length, seq_length; congruence|]. intros i Hi. rewrite <- L in Hi. rewrite nth_map_seq by auto. unfold lev, horizontal, xat.
    rewrite nth_map_seq by auto. destruct (Nat.eqb_spec i (f_ix f)) as [E1|]; [now rewrite E1|]. destruct (Nat.eqb_spec i (f_iy f)) as [E1|]; [now rewrite E1|]. reflexivity.
Qed.

Theorem model_run_layouts V T (neg : V -> V) (z d : V) M h ks es syn (gs : list (mrule V)) : (forall x, neg (neg x) = x) -> neg z = z -> 1 <= M -> catalogue ks es -> syn_ok ks syn ->
  (forall i vector f, nth_error ks i = Some (vector, f) -> (f_sy f = 0 \/ f_sy f = 1) /\ (f_sx f = 0 \/ f_sx f = 1)) ->
  Forall (fun g => looks_near h ks g /\ forall i vector f, nth_error ks i = Some (vector, f) -> f_sy f = 0 /\ f_sx f = 0 \/ syn i = true \/ keeps g i) gs ->
  forall send : ScatterGather.state V T, agrees neg M ks es (st_vars send) -> NoDup (dkeys (st_vars send)) -> (forall name, In name (dkeys (st_vars send)) -> In name (map e_name es)) ->
  exists result : string -> arr V,
    forall n N st fs local sends recvs junk junk', 1 <= n -> n * N = M -> 1 <= h <= N -> kinds st = ks -> state_ok n N h (length es) st -> arranged n es st local ->
      (forall e f, In e es -> part ks (e_var e) (e_comp e) f -> Distribute.fits (n, n) (e_dims e) (extent_on f (e_comp e) N)) ->
      Forall2 (computes n N (length es) st) gs fs -> sends 0%nat = Some send ->
      (forall e f q, In e es -> part ks (e_var e) (e_comp e) f -> dget (e_name e) (match recvs 0%nat with Some s => st_vars s | None => [] end) = Some q -> of_sphere M f e q) ->
      exists m o out,
        cluster_ends (Mixed.size (n, n))
          (mixed_program (obj T) V (held_back V T) neg (n, n) (model_run (n, n) st syn h fs es sends local recvs junk junk') (fun r => map (fun q => q_data q) (local r)) (fun _ => (None, None)))
          (fun r => Ok (m r, o r)) /\
        snd (o 0%nat) = Some out /\ agrees neg M ks es (st_vars out) /\
        forall e, In e es -> exists q, dget (e_name e) (st_vars out) = Some q /\ q_dims q = "tile"%string :: e_dims e /\ same (domain_of q) (result (e_name e)).
Proof.
  intros NN Z0 HM CAT SY ST G send AG ND SUB. destruct (sphere_exists V neg z M ks es _ NN Z0 HM CAT ST AG) as (F & PF & OS).
  destruct (model_run_correct V T neg d M h ks es syn gs NN CAT SY G F send PF OS ND SUB) as (F' & DV & RUN).
  assert (PF' : proper neg ks F') by (revert F PF DV OS RUN; clear; induction gs as [|g gs IH]; intros F PF DV _ _; cbn [develops] in DV; [now subst|destruct DV as (F1 & P1 & _ & DV); clear IH; revert F1 P1 DV; induction gs as [|g' gs IH]; intros F1 P1 DV; cbn [develops] in DV; [now subst|destruct DV as (F2 & P2 & _ & DV); eauto]]).
  exists (fun name => match find (fun e => String.eqb (e_name e) name) es with
    | Some e => match nth_error ks (e_var e) with
        | Some (_, f) => let c := e_comp e in mkA (6 :: extent_on f c M) (fun p => match p with t :: g =>
            F' (e_var e) (spot M (stag_y f c) (stag_x f c) t (xat g (f_iy f)) (xat g (f_ix f))) (horizontal (f_len f) (f_ix f) (f_iy f) g) (bearing M (stag_y f c) (stag_x f c) c t (xat g (f_iy f)) (xat g (f_ix f))) | [] => d end)
        | None => mkA [] (fun _ => d) end
    | None => mkA [] (fun _ => d) end).
  intros n N st fs local sends recvs junk junk' Hn HNM Hh HK OK AR FT CO S0 RV.
  destruct (RUN n N st fs local sends recvs junk junk' Hn HNM Hh HK OK AR FT CO S0 RV) as (m & o & out & C & O & _ & OS' & _ & _). exists m, o, out. split; [exact C|].
  assert (RP : (0 < Mixed.size (n, n))%nat) by (change (0 < Halo.ranks n)%nat; unfold Halo.ranks; nia). split; [now rewrite O by exact RP|]. split; [exact (sphere_agrees V neg M ks es _ F' CAT PF' OS')|].
  intros e I. pose proof CAT as (_ & _ & EP & _). destruct (EP e I) as (f & PT). destruct (OS' e f I PT) as (q & Q & (_ & W2 & W3) & VAL). exists q. split; auto. split; auto.
  subst ks. pose proof (named_entry es st CAT e I) as NE. unfold named in NE. rewrite NE. pose proof PT as (b & K & _). rewrite K. cbv zeta. split; [exact W3|]. cbn [domain_of shp]. rewrite W3.
  apply In_nth_error in I. destruct I as (j & EJ). destruct (entry_at V n N h es st OK CAT local AR 0%nat j e RP EJ) as (v & f' & q0 & _ & _ & _ & _ & F1 & _ & PT' & _).
  assert (f' = f) by (eapply part_unique; eauto). subst f'. intros g IG. destruct g as [|t g]; [inversion IG|]. destruct (tile_point f (e_comp e) M t g (fit_ix F1) (fit_iy F1) (fit_xy F1) IG) as (Ht & Hy & Hx & LV & EG).
  specialize (VAL t _ _ _ Ht Hy Hx LV). rewrite <- EG in VAL. exact VAL.
Qed.
