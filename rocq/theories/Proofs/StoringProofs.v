(** Programs of updates and stores, and models which store their states as they go (C96). *)
From Verif.Base Require Import Base Lemmas.
From Verif.Model Require Import Consts Numpy Quantity Partitioner Network Communicator Collective Cluster ScatterGather Shared Zarr Joint.
From Verif.Spec Require Import Grid Cube Halo Lockstep Sync Client Updates Steps Layouts Views Together Distribute Storage Mixed Prognostic ModelRun History Joint.
From Verif.Proofs Require Import Slices CollectiveProofs SharedProofs ClientProofs StepsProofs WholeProofs MixedProofs PrognosticProofs ModelRunProofs ZarrStores OrderProofs HistoryProofs JointProofs.
From Coq Require Import ZifyBool.
Ltac Zify.zify_post_hook ::= idtac.

(** ** from programs of updates and stores to those of [Mixed.v] *)
Section Skeleton.
Variables (V T : Type) (neg : V -> V) (d : V) (n : Z) (k : nat) (nsync : nat -> nat).
Hypothesis Hn : 1 <= n.
Notation size := (Mixed.size (n, n)).
Lemma size_ranks : size = Halo.ranks n.
Proof. reflexivity. Qed.

Lemma updates_skel calls : forall j, updates unit V (list (mem V)) (skel V T nsync j calls) = updates_of V T calls.
Proof. induction calls as [|[c|f] calls IH]; intros j; cbn [skel updates updates_of mark]; auto. now rewrite IH. Qed.

Lemma marks_together l (m : nat -> mem V) (o : nat -> list (mem V)) : together size (fun r => bcasts V l (PRet (m r, o r ++ [m r])%list)) (fun r => Ok (m r, o r ++ [m r])%list).
Proof.
  induction l as [|l IH]; cbn [bcasts]; [now apply tg_end|]. eapply (tg_round _ _ (fun _ => CBcast tt) (fun r _ => bcasts V l (PRet (m r, o r ++ [m r])%list)) (fun _ => AObject tt)); auto.
  intros r Hr. unfold respond, all_calls. replace (r <? size)%nat with true by (symmetry; now apply Nat.ltb_lt). replace (0 <? size)%nat with true by (symmetry; apply Nat.ltb_lt; lia). reflexivity.
Qed.

Lemma effect_length c sent m m1 : starts V c = true -> effect V neg d n c sent m m1 -> forall r, (r < Halo.ranks n)%nat -> length (m1 r) = length (m r).
Proof. intros S E r Hr. destruct c; try discriminate; destruct E as (O & _); now apply O. Qed.

Lemma attains_skel calls : forall started m past (o : nat -> list (mem V)) Q j, Forall (call_ok V n k) (updates_of V T calls) -> Forall (fun c => starts V (fst c) = true) started ->
  (forall r, (r < size)%nat -> length (m r) = k) -> (forall r, o r = map (fun mm => mm r) past) -> attains V T neg d n calls started m past Q ->
  achieves unit V (list (mem V)) neg (n, n) d n k (skel V T nsync j calls) started m o
    (fun m' o' => exists past', Q m' past' /\ length past' = (length past + length (stores_of V T calls))%nat /\ forall r, o' r = map (fun mm => mm r) past').
Proof.
  induction calls as [|[c|f] calls IH]; intros started m past o Q j OK ST L O A.
  - cbn in *. exists past. split; auto.
  - cbn [updates_of] in OK. inversion OK as [|? ? OK1 OK']; subst. cbn [skel achieves attains stores_of] in *. destruct c as [q h|x y h|x y|i|f].
    1-3: apply IH; auto; apply Forall_app; split; auto.
    + intros c sent m1 E EF. apply IH; auto; [|eapply A; eauto]. intros r Hr. rewrite (effect_length c sent m m1) by (auto; apply nth_error_In in E; rewrite Forall_forall in ST; exact (ST _ E)). auto.
    + apply IH; auto.
  - cbn [skel achieves attains stores_of mark updates_of length] in *. exists m, (fun r => o r ++ [m r])%list. split; [|split; [exact L|]].
    + cbn [fst snd]. apply marks_together.
    + assert (X : achieves unit V (list (mem V)) neg (n, n) d n k (skel V T nsync (S j) calls) started m (fun r => o r ++ [m r])%list
        (fun m' o' => exists past', Q m' past' /\ length past' = (length (past ++ [m]) + length (stores_of V T calls))%nat /\ forall r, o' r = map (fun mm => mm r) past')).
      { apply IH; auto. intros r. now rewrite map_app, O. }
      rewrite app_length in X. cbn [length] in X. replace (length past + S (length (stores_of V T calls)))%nat with (length past + 1 + length (stores_of V T calls))%nat by lia. exact X.
Qed.
End Skeleton.

(** ** the calls of [N] stores *)
Section Stages.
Context {V T : Type}.
Variables (junk : list Z -> V) (calendar_of text_of : T -> string) (encode : T -> T -> V).
Variables (layout : Z * Z) (names : list string) (var : string -> vspec) (states : nat -> nat -> ScatterGather.state V T) (times : nat -> nat -> T) (N : nat).
Notation size := (Distribute.ranks (CubePart layout)).
Hypothesis NDn : NoDup names.
Hypothesis NoTime : ~ In "time"%string names.
Hypothesis Div : forall n, In n names -> divided layout (var n).
Hypothesis Des : forall r i, (r < size)%nat -> (i < N)%nat -> described names var (times r i) (states r i).
Hypothesis Cal : forall i, (i < N)%nat -> calendar_of (times 0%nat i) = calendar_of (times 0%nat 0%nat).
Notation script := (script calendar_of text_of layout names var times N).
Notation good := (ZarrStores.good calendar_of text_of encode layout names var states times).

Fixpoint metas_of (j : nat) : string -> option zmeta := match j with O => fun _ => None | S j => metas_after calendar_of text_of layout var times j (ord names) (metas_of j) end.
Definition syncs (j : nat) : nat := length (names_script calendar_of text_of layout var times j (ord names) (metas_of j)).
Fixpoint offset (j : nat) : nat := match j with O => 0%nat | S j => (offset j + syncs j)%nat end.
Definition stage (r k : nat) (h : string -> list Z -> option (chunk V)) (m : string -> option zmeta) (a : nat * (monitor T * res unit)) : Prop :=
  let '(j, mr) := a in k = offset j /\ exists mon ws, mr = (mon, Ok tt) /\ monitor_ok j mon ws /\
    match j with O => metas_eq m (fun _ => None) | S _ => good r (fun _ => j) ws h m (metas_of j) end.
Definition most : nat := list_max (map (fun r => costs layout var r (ord names)) (seq 0 size)).

Lemma script_at j : (j <= N)%nat -> exists pre, length pre = offset j /\ script = (pre ++ stores_script calendar_of text_of layout names var times (N - j) j (metas_of j))%list.
Proof.
  induction j as [|j IH]; intros H.
  - exists []. split; auto. now rewrite Nat.sub_0_r.
  - destruct IH as (pre & L & E); [lia|]. replace (N - j)%nat with (S (N - S j)) in E by lia. cbn [stores_script] in E. rewrite app_assoc in E.
    exists (pre ++ names_script calendar_of text_of layout var times j (ord names) (metas_of j))%list. split; [rewrite app_length, L; reflexivity|]. exact E.
Qed.

Lemma stage_store r j k h m mon : (r < size)%nat -> (j < N)%nat -> stage r k h m (j, (mon, Ok tt)) ->
  wp (own layout var) script r (fun k h m mr => stage r k h m (S j, mr)) most k h m (store V T junk calendar_of text_of encode layout (Z.of_nat r) mon (states r j)).
Proof.
  intros Hr Hj (K & mon' & ws & E & MO & G). injection E as <-. destruct (script_at j ltac:(lia)) as (pre & L & E). replace (N - j)%nat with (S (N - S j)) in E by lia. cbn [stores_script] in E.
  destruct (script_at (S j) Hj) as (pre' & L' & E'). apply (wp_more _ _ _ _ (costs layout var r (ord names))).
  - eapply wp_post.
    + apply wp_within.
      * eapply (wp_store junk calendar_of text_of encode layout names var states times N NDn NoTime Div Des Cal r j mon ws h m (metas_of j) k _ Hr Hj MO).
        { destruct j; [split; [exact G|reflexivity]|exact G]. }
        rewrite E, K, <- L, skipn_app, skipn_all, Nat.sub_diag. reflexivity.
      * rewrite K, E, app_length. lia.
    + cbn beta. intros k' h' m' a ((SK & ws' & -> & G') & Le). split.
      * apply (f_equal (@length _)) in SK. rewrite skipn_length in SK. rewrite E', app_length, L' in SK, Le. cbn [metas_of] in SK, Le. lia.
      * exists (Some ws'), ws'. split; auto. split; [reflexivity|exact G'].
  - assert (X : Forall (fun c => (c <= most)%nat) (map (fun r => costs layout var r (ord names)) (seq 0 size))) by (apply list_max_le; reflexivity).
    rewrite Forall_forall in X. apply X. apply in_map_iff. exists r. split; auto. apply in_seq. lia.
Qed.
End Stages.

(** ** programs of updates and stores *)
Section Program.
Variables (V T : Type) (neg : V -> V) (d : V) (junk : list Z -> V) (calendar_of text_of : T -> string) (encode : T -> T -> V) (n : Z) (k : nat).
Variables (names : list string) (var : string -> vspec) (times : nat -> nat -> T).
Hypothesis Hn : 1 <= n.
Hypothesis NDn : NoDup names.
Hypothesis NoTime : ~ In "time"%string names.
Hypothesis Div : forall x, In x names -> divided (n, n) (var x).

Lemma asks_stores (F : nat -> nat -> mem V -> ScatterGather.state V T) N calls : forall j, (forall i f, nth_error (stores_of V T calls) i = Some f -> f = F (j + i)%nat) -> (N = j + length (stores_of V T calls))%nat -> asks V T N F j calls.
Proof.
  induction calls as [|[c|f] calls IH]; intros j H L; cbn [asks stores_of length] in *; [lia|auto|]. split; [rewrite (H 0%nat f eq_refl); f_equal; lia|].
  apply IH; [|lia]. intros i g E. rewrite (H (S i) g E). f_equal. lia.
Qed.

Theorem program_stores calls m Q : calls_ok V T n k calls -> (forall r, (r < Halo.ranks n)%nat -> length (m r) = k) -> attains V T neg d n calls [] m [] Q ->
  let N := length (stores_of V T calls) in
  (forall m' past, Q m' past -> length past = N -> forall r i, (r < Halo.ranks n)%nat -> (i < N)%nat -> described names var (times r i) (state_at V T calls past r i)) ->
  (forall i, (i < N)%nat -> calendar_of (times 0%nat i) = calendar_of (times 0%nat 0%nat)) ->
  exists m' past, Q m' past /\ length past = N /\
    joint_ends zexec (Halo.ranks n) (one_program V T neg junk calendar_of text_of encode (n, n) calls m) empty_store
      (fun st out => (forall r, (r < Halo.ranks n)%nat -> fst (out r) = m' r) /\
         ((0 < N)%nat -> holds (n, n) names var calendar_of text_of encode (state_at V T calls past) times N st)).
Proof.
  intros (CO & WA) LM AT N DES CAL. set (ns := syncs calendar_of text_of (n, n) names var times).
  destruct (mixed_correct unit V (list (mem V)) neg (n, n) d n k Hn Hn (skel V T ns 0 calls) m (fun _ => [])
    (fun m' o' => exists past', Q m' past' /\ length past' = N /\ forall r, o' r = map (fun mm => mm r) past')) as (m' & o' & (past & QP & LP & OP) & C).
  - unfold mixed_ok. rewrite updates_skel. auto.
  - exact LM.
  - exact (attains_skel V T neg d n k ns calls [] m [] (fun _ => []) Q 0%nat CO (Forall_nil _) LM (fun _ => eq_refl) AT).
  - exists m', past. split; [exact QP|]. split; [exact LP|]. destruct C as (bound & C).
    set (F := fun i => nth i (stores_of V T calls) (fun _ _ => mkSt [] None)). set (ms := fun i => nth i past (fun _ => [])).
    assert (SA : forall r i, (i < N)%nat -> state_at V T calls past r i = F i r (ms i r)).
    { intros r i Hi. unfold state_at, F, ms. rewrite (nth_error_nth' _ (fun _ _ => mkSt [] None)) by auto. rewrite (nth_error_nth' past (fun _ => [])) by lia. reflexivity. }
    assert (OM : forall r, o' r = map (fun i => ms i r) (seq 0 N)).
    { intros r. rewrite OP. apply nth_error_same. intros i. rewrite !nth_error_map. destruct (Nat.lt_ge_cases i N) as [Lt|Ge].
      - rewrite (nth_error_nth' past (fun _ => [])), (nth_error_nth' (seq 0 N) 0%nat), seq_nth by (rewrite ?seq_length; lia). reflexivity.
      - rewrite (proj2 (nth_error_None past i)), (proj2 (nth_error_None (seq 0 N) i)) by (rewrite ?seq_length; lia). reflexivity. }
    assert (P0 : (0 < Halo.ranks n)%nat) by (unfold Halo.ranks; nia).
    set (states := fun r i => F i r (ms i r)).
    assert (Des : forall r i, (r < Distribute.ranks (CubePart (n, n)))%nat -> (i < N)%nat -> described names var (times r i) (states r i)).
    { intros r i Hr Hi. unfold states. rewrite <- SA by auto. eapply DES; eauto. }
    set (sc := script calendar_of text_of (n, n) names var times N). set (stg := stage calendar_of text_of encode (n, n) names var states times).
    set (mo := most (n, n) names var).
    exists (bound + Halo.ranks n * (N * mo))%nat. intros bf dl sched s US.
    assert (HE : forall sched s, cl_run bf (needs_all sc dl) sched (cl_start (Mixed.size (n, n)) (mixed_program unit V (list (mem V)) neg (n, n) (skel V T ns 0 calls) m (fun _ => []))) = Some s -> (length sched <= bound)%nat /\
       ((forall r, (r < Mixed.size (n, n))%nat -> exists k, nth_error (cl_ranks s) r = Some k /\ rank_outcome k = Some (Ok (m' r, map (fun i => ms i r) (seq 0 N)))) \/
        (exists r s', cl_step bf (needs_all sc dl) r s = Some s'))).
    { intros sd s1 R. destruct (C _ _ _ _ R) as (B & O & _). split; auto. destruct O as [O|O]; [left|right; exact O]. intros r Hr. destruct (O r Hr) as (c & X & Y). exists c. split; auto. now rewrite <- OM. }
    destruct (joint_execution V T neg junk calendar_of text_of encode (n, n) (own (n, n) var) sc N mo ns (offset calendar_of text_of (n, n) names var times) F ms m' stg P0) with (bf := bf) (dl := dl)
      (start := cl_start (Mixed.size (n, n)) (mixed_program unit V (list (mem V)) neg (n, n) (skel V T ns 0 calls) m (fun _ => []))) (bound := bound) (calls := calls) (m0 := m) (sched := sched) (s := s) as (B & O); auto.
    + intros r kk h mm j mr (K & mon & ws & E & _). split; eauto.
    + intros r j kk h mm mon Hr Hj ST. exact (stage_store junk calendar_of text_of encode (n, n) names var states times N NDn NoTime Div Des CAL r j kk h mm mon Hr Hj ST).
    + intros r Hr. split; auto. exists None, []. split; auto. split; [reflexivity|]. intros x. reflexivity.
    + apply asks_stores; [|reflexivity]. intros i f E. unfold F. cbn [Nat.add]. symmetry. now apply nth_error_nth.
    + split; [exact B|]. destruct O as [(sr & vs & I & W)|O]; [left|right; exact O].
      set (out := fun r => match nth_error (j_ranks s) r with Some u => match u_proc u with URet a => a | _ => ([], None) end | None => ([], None) end).
      exists out. split.
      { intros r Hr. destruct (W r Hr) as (u & mon & v & kk & Hu & Pu & _). exists u. split; auto. unfold out, ended_with. now rewrite Hu, Pu. }
      split.
      { intros r Hr. destruct (W r Hr) as (u & mon & v & kk & Hu & Pu & _). unfold out. now rewrite Hu, Pu. }
      intros HN. destruct I as (I1 & I2 & I3 & I4 & I5 & I6 & _).
      assert (HO : holds (n, n) names var calendar_of text_of encode states times N (j_store s)).
      { apply (holds_of calendar_of text_of encode (n, n) names var states times N (j_store s) (vheap vs) (fun r => match nth_error vs r with Some v => v_m v | None => fun _ => None end)); auto.
        - intros r Hr. destruct (W r Hr) as (u & mon & v & kk & Hu & Pu & Hv & (_ & mon' & ws & _ & _ & G)). exists ws. unfold vheap. rewrite Hv. destruct N; [lia|]. eauto.
        - intros x c. rewrite I4. destruct (Nat.ltb_spec (own (n, n) var x c) (Distribute.ranks (CubePart (n, n)))) as [|Ge]; auto. unfold vheap. rewrite (proj2 (nth_error_None vs _)); auto. rewrite I2. exact Ge.
        - intros x. destruct (W 0%nat P0) as (u & mon & v & kk & Hu & Pu & Hv & _). rewrite Hv. now apply I6. }
      destruct HO as (H1 & H2 & H3). split; [|split; auto]. intros nm Inm. destruct (H1 nm Inm) as (M1 & EL). split; [exact M1|]. intros i g Hi Hg.
      destruct (EL i g Hi Hg) as (r & pt & q & X). exists r, pt, q. rewrite SA by auto. exact X.
Qed.
End Program.

(** ** models *)
Lemma attains_steps V T (neg : V -> V) d n rest (Q : (nat -> mem V) -> list (nat -> mem V) -> Prop) calls : forall started m past,
  (forall started' m', length started' = (length started + length (filter (starts V) calls))%nat -> (Forall (fun c => starts V (fst c) = true) started -> Forall (fun c => starts V (fst c) = true) started') ->
     meaning V neg d n calls started m m' -> attains V T neg d n rest started' m' past Q) ->
  attains V T neg d n (map OUpdate calls ++ rest) started m past Q.
Proof.
  induction calls as [|c calls IH]; intros started m o H; cbn [map app].
  - apply H; [cbn; lia|auto|]. cbn. auto.
  - destruct c; cbn [attains]; cbn [filter starts length] in H.
    1-3: apply IH; intros started' m' L S ME; apply H; [rewrite L, app_length; cbn [length]; lia| |exact ME]; intros S0; apply S, Forall_app; split; [exact S0|repeat constructor].
    + intros c sent m' E EF. apply IH. intros started' m2 L S M. apply H; auto. cbn [meaning]. eauto 6.
    + apply IH. intros started' m2 L S M. apply H; auto.
Qed.
Lemma updates_of_map V T calls rest : updates_of V T (map OUpdate calls ++ rest) = (calls ++ updates_of V T rest)%list.
Proof. induction calls; cbn [map app updates_of]; congruence. Qed.
Lemma stores_of_map V T calls rest : stores_of V T (map OUpdate calls ++ rest) = stores_of V T rest.
Proof. induction calls; cbn [map app stores_of]; congruence. Qed.
Lemma updates_storing V T stored (st : Prognostic.state) syn h (fs : list (nat -> mem V -> mem V)) : forall i b, updates_of V T (storing_steps stored st syn h fs i b) = model_steps st syn h fs b.
Proof.
  induction fs as [|f fs IH]; intros i b; [reflexivity|]. cbn [storing_steps model_steps]. rewrite updates_of_map. cbn [updates_of]. rewrite IH. cbv zeta.
  rewrite app_nil_r, <- !app_assoc. f_equal. f_equal. cbn [app]. f_equal. rewrite <- app_assoc. reflexivity.
Qed.
Lemma stores_storing V T stored (st : Prognostic.state) syn h (fs : list (nat -> mem V -> mem V)) : forall i b, stores_of V T (storing_steps stored st syn h fs i b) = map stored (seq i (length fs)).
Proof. induction fs as [|f fs IH]; intros i b; [reflexivity|]. cbn [storing_steps length seq map]. rewrite stores_of_map. cbn [stores_of]. now rewrite IH. Qed.

Section Models.
Variables (V T : Type) (neg : V -> V) (d : V) (n N h : Z) (es : list entry) (st : Prognostic.state) (local : nat -> list (quantity V)) (syn : nat -> bool).
Variable stored : nat -> nat -> mem V -> ScatterGather.state V T.
Hypothesis Hn : 1 <= n.
Hypothesis HN : 1 <= N.
Hypothesis Hh : 1 <= h <= N.
Notation k := (length es).
Hypothesis OK : state_ok n N h k st.
Hypothesis CAT : catalogue (kinds st) es.
Hypothesis AR : arranged n es st local.
Hypothesis SY : syn_ok (kinds st) syn.
Notation good := (HistoryProofs.good V d n N es st local).

Lemma model_attains gs : forall fs started m past F Fs i (Q : (nat -> mem V) -> list (nat -> mem V) -> Prop), Forall2 (computes n N k st) gs fs -> Forall (looks_near h (kinds st)) gs ->
  proper neg (kinds st) F -> evolution neg (n * N) (kinds st) syn gs F Fs -> good F m -> Forall (fun c => starts V (fst c) = true) started ->
  (forall ms m', (forall i, (i < length gs)%nat -> good (Fs (S i)) (ms i)) -> good (Fs (length gs)) m' -> Q m' (past ++ map ms (seq 0 (length gs)))%list) ->
  attains V T neg d n (storing_steps stored st syn h fs i (length started)) started m past Q.
Proof.
  induction gs as [|g gs IH]; intros fs started m past F Fs i Q CO LN P (E0 & EV) GO S HQ.
  - inversion CO; subst. cbn [storing_steps attains]. specialize (HQ (fun _ => m) m). cbn [length seq map] in HQ. rewrite app_nil_r in HQ. apply HQ; [intros i0 Hi; lia|exact GO].
  - inversion CO as [|g0 f gs0 fs' CG CO']; subst. cbn [storing_steps]. apply attains_steps. intros started' m' LS ST ME. rewrite starts_one, Nat.add_assoc in LS. cbn [attains].
    destruct GO as (A & SH & HF). destruct (EV 0%nat g eq_refl) as (P1 & FO). inversion LN as [|? ? LN1 LN']; subst.
    assert (CO1 : Forall2 (computes n N k st) [g] [f]) by (constructor; [exact CG|constructor]). assert (LN0 : Forall (looks_near h (kinds st)) [g]) by (constructor; [exact LN1|constructor]).
    destruct (meaning_model V neg d n N h k st Hn HN Hh OK syn SY [g] [f] CO1 LN0 started m m' (Fs 0%nat) (Fs 1%nat) P) as (HM & AM); auto.
    { cbn [develops]. exists (Fs 1%nat). auto. }
    assert (G1 : good (Fs 1%nat) m').
    { split; [exact AM|]. split; [|exact HM]. exact (step_shaped V neg d n N h es st local syn OK CAT AR g f started m m' CG S A SH ME). }
    rewrite <- LS. apply (IH fs' started' m' _ (Fs 1%nat) (fun i => Fs (Datatypes.S i))); auto.
    + split; [reflexivity|]. intros i' g' X. exact (EV (Datatypes.S i') g' X).
    + intros ms m2 GM G2. specialize (HQ (fun i => match i with O => m' | Datatypes.S i => ms i end) m2). cbn [length seq map] in HQ. rewrite <- seq_shift, map_map in HQ. rewrite <- app_assoc. apply HQ; auto.
      intros [|i'] Hi; [exact G1|]. apply GM. lia.
Qed.

Lemma run_attains gs fs F Fs : Forall2 (computes n N k st) gs fs -> Forall (looks_near h (kinds st)) gs -> proper neg (kinds st) F -> evolution neg (n * N) (kinds st) syn gs F Fs ->
  let m := fun r => map (fun q => q_data q) (local r) in state_held n N st d F m ->
  attains V T neg d n (storing_run stored st syn h fs) [] m []
    (fun m' past => good (Fs (length gs)) m' /\ exists ms, (forall i, (i <= length gs)%nat -> good (Fs i) (ms i)) /\ past = map ms (seq 0 (S (length gs)))).
Proof.
  intros CO LN P EV m HF. assert (A : arrays n k m) by (intros r Hr; unfold m; rewrite map_length; now apply AR).
  assert (GO : good F m) by (split; [exact A|]; split; [|exact HF]; intros r j q Hr Q1; exists (q_data q); split; [unfold m; now rewrite nth_error_map, Q1|reflexivity]).
  unfold storing_run. cbn [attains app]. apply (model_attains gs fs [] m [m] F Fs 1%nat); auto. intros ms m' GM G'. split; [exact G'|]. exists (fun i => match i with O => m | S i => ms i end). split.
  - intros [|i] Hi; [destruct EV as (-> & _); exact GO|]. apply GM. lia.
  - cbn [seq map app]. f_equal. now rewrite <- seq_shift, map_map.
Qed.
End Models.

Theorem model_stores V T (neg : V -> V) (d : V) M h ks es syn (gs : list (mrule V)) : (forall x, neg (neg x) = x) -> catalogue ks es -> ~ In "time"%string (map e_name es) -> syn_ok ks syn ->
  Forall (fun g => looks_near h ks g /\ forall i vector f, nth_error ks i = Some (vector, f) -> f_sy f = 0 /\ f_sx f = 0 \/ syn i = true \/ keeps g i) gs ->
  forall F, proper neg ks F -> exists Fs, evolution neg M ks syn gs F Fs /\
    forall n N st fs local units (junk : list Z -> V) (calendar_of text_of : T -> string) encode times, 1 <= n -> layouts_ok (n, n) -> n * N = M -> 1 <= h <= N -> kinds st = ks ->
      state_ok n N h (length es) st -> arranged n es st local ->
      (forall r j e q, (r < Halo.ranks n)%nat -> nth_error es j = Some e -> nth_error (local r) j = Some q -> q_units q = units e) ->
      (forall e f, In e es -> part ks (e_var e) (e_comp e) f ->
         Distribute.fits (n, n) (e_dims e) (extent_on f (e_comp e) N) /\ Forall2 (fun dm x => 1 <= x - stag dm) (e_dims e) (extent_on f (e_comp e) N)) ->
      (forall i, (i <= length gs)%nat -> calendar_of (times i) = calendar_of (times 0%nat)) ->
      Forall2 (computes n N (length es) st) gs fs -> state_held n N st d F (fun r => map (fun q => q_data q) (local r)) ->
      exists m', state_held n N st d (Fs (length gs)) m' /\
        joint_ends zexec (Halo.ranks n)
          (one_program V T neg junk calendar_of text_of encode (n, n) (storing_run (fun i r m => snapshot es local (fun _ => m) (times i) r) st syn h fs) (fun r => map (fun q => q_data q) (local r))) empty_store
          (fun s out => (forall r, (r < Halo.ranks n)%nat -> fst (out r) = m' r) /\ records M ks es units calendar_of text_of encode Fs times (S (length gs)) s).
Proof.
  intros NN CAT NT SY G F PF. destruct (development_exists V neg d M h ks NN syn SY gs G F PF) as (F' & DV). destruct (evolution_of V neg M ks syn gs F F' PF DV) as (Fs & EV). exists Fs. split; [exact EV|].
  intros n N st fs local units junk calendar_of text_of encode times Hn LO <- Hh <- OK AR UN FT CAL CO HF. assert (HN : 1 <= N) by lia.
  assert (LN : Forall (looks_near h (kinds st)) gs) by (eapply Forall_impl; [|exact G]; now intros g (X & _)).
  set (stored := fun i r m => snapshot es local (fun _ => m) (times i) r). set (calls := storing_run stored st syn h fs).
  assert (LF : length fs = length gs) by (symmetry; eapply Forall2_length; exact CO).
  assert (SO : stores_of V T calls = map stored (seq 0 (S (length gs)))) by (unfold calls, storing_run; cbn [stores_of seq map]; now rewrite stores_storing, LF).
  assert (LS : length (stores_of V T calls) = S (length gs)) by (now rewrite SO, map_length, seq_length).
  pose proof (run_attains V T neg d n N h es st local syn stored Hn HN Hh OK CAT AR SY gs fs F Fs CO LN PF EV HF) as AT.
  assert (SA : forall ms r i, (i <= length gs)%nat -> state_at V T calls (map ms (seq 0 (S (length gs)))) r i = snapshot es local (ms i) (times i) r).
  { intros ms r i Hi. unfold state_at. rewrite SO, !nth_error_map, (nth_error_nth' (seq 0 (S (length gs))) 0%nat), seq_nth by (rewrite ?seq_length; lia). reflexivity. }
  destruct (program_stores V T neg d junk calendar_of text_of encode n (length es) (map e_name es) (var_of N es st units) (fun _ i => times i)) with (calls := calls) (m := fun r => map (fun q => q_data q) (local r))
    (Q := fun m' past => HistoryProofs.good V d n N es st local (Fs (length gs)) m' /\ exists ms, (forall i, (i <= length gs)%nat -> HistoryProofs.good V d n N es st local (Fs i) (ms i)) /\ past = map ms (seq 0 (S (length gs))))
    as (m' & past & ((_ & _ & G') & ms & GM & ->) & _ & (b & J)); auto.
  - now destruct CAT.
  - intros x I. now apply (var_divided V n N h es st Hn OK CAT local AR units UN FT).
  - unfold calls_ok, calls, storing_run. cbn [updates_of]. rewrite updates_storing. split; [exact (model_calls V n N h (length es) st Hn HN Hh OK syn SY gs fs CO 0)|]. apply model_waits. easy.
  - intros r Hr. rewrite map_length. now apply AR.
  - intros m' past (_ & ms & GM & ->) _ r i Hr Hi. rewrite LS in Hi. rewrite SA by lia. destruct (GM i ltac:(lia)) as (A & SH & _). now apply (snapshot_described V T n N h es st OK CAT local AR units UN).
  - intros i Hi. rewrite LS in Hi. apply CAL. lia.
  - exists m'. split; [exact G'|]. exists b. intros bf dl sched s R. destruct (J bf dl sched s R) as (B & O). split; [exact B|]. destruct O as [(out & O & E & H)|O]; [left|right; exact O]. exists out. split; [exact O|]. split; [exact E|].
    rewrite LS in H. specialize (H ltac:(lia)). apply (records_of V T d n N h es st Hn OK CAT local AR units UN FT calendar_of text_of encode Fs ms times (S (length gs)) (j_store s)).
    + intros i Hi. apply GM. lia.
    + destruct H as (H1 & H2 & H3). split; [|split; auto]. intros nm Inm. destruct (H1 nm Inm) as (M1 & EL). split; [exact M1|]. intros i g Hi Hg.
      destruct (EL i g Hi Hg) as (r & pt & q & X). exists r, pt, q. rewrite SA in X by lia. exact X.
Qed.
