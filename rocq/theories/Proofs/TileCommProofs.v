(** The communicators of tiles, and programs which use them. *)
From Verif.Base Require Import Base Lemmas.
From Verif.Model Require Import Consts Partitioner Numpy Quantity Network Collective ScatterGather Properties Restart Cluster TileComm.
From Verif.Spec Require Import Grid Views Lockstep Together Distribute Mixed.
From Verif.Proofs Require Import NetworkProofs CollectiveProofs Phases ClusterProofs ClusterLift MixedProofs StateProofs OpenRestartProofs.
From Coq Require Import ZifyBool ZifyNat.
Ltac Zify.zify_post_hook ::= Z.to_euclidean_division_equations.

Section Tiles.
Context {Ob V : Type}.
Variable layout : layout_t.
Hypothesis Hy : 1 <= fst layout.
Hypothesis Hx : 1 <= snd layout.
Notation size := (Mixed.size layout).
Notation T := (per_tile layout).

Lemma place_of r : (r = r / T * T + r mod T)%nat /\ (r mod T < T)%nat.
Proof. pose proof (T_pos layout Hy Hx). pose proof (Nat.div_mod r T). pose proof (Nat.mod_upper_bound r T). lia. Qed.
Lemma place_unique t i : (i < T)%nat -> ((t * T + i) / T = t)%nat /\ ((t * T + i) mod T = i)%nat.
Proof.
  intros Hi. split; [symmetry; apply Nat.div_unique with i; lia|symmetry; apply Nat.mod_unique with t; lia].
Qed.
Lemma tile_of r : (r < size)%nat -> (r / T < 6)%nat.
Proof. intros Hr. rewrite (size_eq layout Hy Hx) in Hr. pose proof (T_pos layout Hy Hx). apply Nat.div_lt_upper_bound; lia. Qed.

(** the root of a tile raises, and the others wait for what it would have sent *)
Definition stalled {A} (ps : nat -> proc Ob V A) (out : nat -> option (res A)) : Prop :=
  (exists e, ps 0%nat = PErr e /\ out 0%nat = Some (Err e)) /\
  forall i, (0 < i < T)%nat -> (exists o k, ps i = PCall (CBcast o) k) /\ out i = None.

Theorem on_tile_halts {A} (good : nat -> bool) (ps : nat -> nat -> proc Ob V A) (out : nat -> option (res A)) :
  (forall t, (t < 6)%nat -> let first := (t * T)%nat in
     if good t then exists o, together T (fun i => ps (first + i)%nat i) o /\ forall i, (i < T)%nat -> out (first + i)%nat = Some (o i)
     else stalled (fun i => ps (first + i)%nat i) (fun i => out (first + i)%nat)) ->
  cluster_halts size (fun r => on_tile layout r (all_ranks size) (ps r)) out.
Proof.
  intros H. pose proof (T_pos layout Hy Hx) as TP. pose proof (size_eq layout Hy Hx) as SZ.
  set (outr := fun r => match out r with Some x => x | None => Err TypeError end).
  assert (GO : forall t, (t < 6)%nat -> good t = true -> together T (fun i => ps (t * T + i)%nat i) (fun i => outr (t * T + i)%nat) /\ forall i, (i < T)%nat -> out (t * T + i)%nat = Some (outr (t * T + i)%nat)).
  { intros t Ht G. specialize (H t Ht). cbv zeta in H. rewrite G in H. destruct H as (o & TG & O). split.
    - eapply together_out; [|exact TG]. intros i Hi. unfold outr. now rewrite O.
    - intros i Hi. unfold outr. now rewrite O. }
  destruct (split_reaches Ob V layout Hy Hx (fun _ _ => false) (fun _ _ _ => true) ps (fun _ _ => RRet) (fun r => on_tile layout r (all_ranks size) (ps r)) (fun _ => []) (fun _ => []) (fun _ => None) 0)
    as (po & j & Nt & Nw & C1 & AW & AT).
  { intros r Hr. reflexivity. }
  { split; [intros r I; reflexivity|]. left. intros r Hr. split; constructor. }
  set (pp1 := fun r => let g := tgroup T j (r / T) in rbind (on_group g (ps r (r mod T)%nat)) RRet) in C1.
  pose proof (tiles_reach (A := A) T TP (fun _ _ => false) (fun _ _ _ => true) j good (fun t i => ps (t * T + i)%nat i) outr (fun _ => RRet) pp1 po (fun _ => []) Nw Nt) as X.
  rewrite <- SZ in X. destruct X as (po1 & Nt1 & C2 & AW1 & AT1); auto.
  { intros t Ht G. now apply GO. }
  { intros r Hr. unfold pp1. cbv zeta. now rewrite <- (proj1 (place_of r)). }
  set (pp2 := fun r => if good (r / T)%nat then resumed RRet (outr r) else pp1 r) in C2.
  set (waiting := filter (fun r => negb (good (r / T)%nat) && negb (Nat.eqb (r mod T) 0)) (seq 0 size)).
  set (c := fun r => match pp1 r with RCall _ c _ => c | _ => GSplit 0 0 end). set (kk := fun r => match pp1 r with RCall _ _ k => k | _ => fun _ => RErr TypeError end).
  assert (WI : forall r, In r waiting <-> (r < size)%nat /\ good (r / T)%nat = false /\ (r mod T)%nat <> 0%nat).
  { intros r. unfold waiting. rewrite filter_In, in_seq, andb_true_iff, !negb_true_iff, Nat.eqb_neq. intuition lia. }
  assert (WC : forall r, In r waiting -> (exists o, c r = GCall (CBcast o)) /\ pp2 r = RCall (tgroup T j (r / T)) (c r) (kk r) /\ out r = None).
  { intros r I. apply WI in I. destruct I as (Hr & G & NZ). specialize (H _ (tile_of r Hr)). cbv zeta in H. rewrite G in H. destruct H as (_ & H). destruct (place_of r) as (E & L).
    destruct (H (r mod T)%nat) as ((o & k & EP) & EO); [lia|]. rewrite <- E in EP, EO. unfold c, kk, pp2, pp1. rewrite G. cbv zeta. rewrite EP. cbn [on_group rbind]. eauto. }
  assert (RT : forall r, (r < size)%nat -> good (r / T)%nat = false -> (r mod T = 0)%nat -> exists e, pp2 r = RErr e /\ out r = Some (Err e)).
  { intros r Hr G Z0. specialize (H _ (tile_of r Hr)). cbv zeta in H. rewrite G in H. destruct H as ((e & EP & EO) & _). destruct (place_of r) as (E & L). rewrite Z0 in E. rewrite <- E in EP, EO.
    exists e. split; auto. unfold pp2, pp1. rewrite G, Z0. cbv zeta. now rewrite EP. }
  pose proof (post_all (A := A) (fun _ _ => false) (fun _ _ _ => true) size (fun r => tgroup T j (r / T)) c kk (fun _ => []) waiting pp2 po1 (fun _ => false)) as C3.
  match type of C3 with _ -> _ -> creaches _ _ _ ?f => set (F := f) in C3 end.
  eapply (halts_of_schedule size _ out F).
  - eapply creaches_trans; [exact C1|]. eapply creaches_trans; [exact C2|]. apply C3; [apply NoDup_filter, seq_NoDup|]. intros r I. destruct (WC r I) as (_ & E & _). apply WI in I. intuition.
  - (* nobody can proceed *)
    intros bf dl r. unfold cl_step, react. destruct (nth_error (cl_ranks F) r) as [x|] eqn:N; auto.
    assert (Hr : (r < size)%nat).
    { assert (L : (r < length (cl_ranks F))%nat) by (apply nth_error_Some; congruence). unfold F, cstp, tab in L. cbn [cl_ranks] in L. now rewrite map_length, seq_length in L. }
    unfold F, cstp in N. cbn [cl_ranks] in N. rewrite nth_error_tab in N by auto. injection N as <-. cbn [k_proc k_posted k_pending].
    destruct (inb_spec r waiting) as [I|NI].
    + destruct (WC r I) as ((o & EC) & E & _). rewrite E. cbn [orb]. cbv zeta.
      assert (Ht : (r / T < 6)%nat) by now apply tile_of.
      assert (MR : In r (g_members (tgroup T j (r / T)))) by (apply tgroup_members; auto).
      rewrite calls_on_app, calls_on_one, app_length, (AT1 _ Ht r MR). cbn [length]. replace (pred (Nt1 (r / T)%nat + 1)) with (Nt1 (r / T)%nat) by lia.
      destruct (dl r (g_ctx (tgroup T j (r / T))) (Nt1 (r / T)%nat) && _); auto.
      rewrite EC. cbn [ganswered]. destruct (rank_in r (g_members (tgroup T j (r / T)))) as [i|] eqn:RI; auto.
      assert (RN : nth_error (g_members (tgroup T j (r / T))) i = Some r) by (apply rank_in_nth; auto; apply seq_NoDup).
      assert (PI : as_call (posted_by (cl_ranks F) (tgroup T j (r / T)) (Nt1 (r / T)%nat) i) = Some (CBcast o)).
      { unfold posted_by. rewrite RN. unfold F, cstp. cbn [cl_ranks]. rewrite nth_error_tab by auto. cbn [k_posted]. destruct (inb_spec r waiting); [|contradiction].
        rewrite calls_on_app, calls_on_one, nth_error_app2 by (rewrite (AT1 _ Ht r MR); auto). rewrite (AT1 _ Ht r MR), Nat.sub_diag. cbn. now rewrite EC. }
      assert (P0 : as_call (posted_by (cl_ranks F) (tgroup T j (r / T)) (Nt1 (r / T)%nat) 0) = None).
      { unfold posted_by. cbn [tgroup g_members]. rewrite nth_error_seq. destruct (Nat.ltb_spec 0 T); [|lia]. rewrite Nat.add_0_r. unfold F, cstp. cbn [cl_ranks].
        destruct (place_unique (r / T) 0 TP) as (D0 & M0). rewrite Nat.add_0_r in D0, M0.
        assert (HR0 : (r / T * T < size)%nat) by (rewrite SZ; nia). rewrite nth_error_tab by auto. cbn [k_posted].
        destruct (inb_spec (r / T * T)%nat waiting) as [J|_]; [apply WI in J; lia|].
        assert (M1 : In (r / T * T)%nat (g_members (tgroup T j (r / T)))) by (apply tgroup_members; auto). 
        replace (nth_error (calls_on (g_ctx (tgroup T j (r / T))) (po1 (r / T * T)%nat)) (Nt1 (r / T)%nat)) with (@None (gcall Ob V)); [reflexivity|].
        symmetry. apply nth_error_None. pose proof (AT1 _ Ht _ M1) as L. lia. }
      unfold respond. rewrite PI, P0. reflexivity.
    + assert (ENDED : exists x, pp2 r = resumed RRet x).
      { destruct (good (r / T)%nat) eqn:G; [unfold pp2; rewrite G; eauto|]. destruct (Nat.eq_dec (r mod T) 0) as [Z0|NZ]; [|exfalso; apply NI; apply WI; auto].
        destruct (RT r Hr G Z0) as (e & E & _). rewrite E. exists (Err e). reflexivity. }
      destruct ENDED as ([a|e] & ->); reflexivity.
  - intros r x N. assert (Hr : (r < size)%nat).
    { assert (L : (r < length (cl_ranks F))%nat) by (apply nth_error_Some; congruence). unfold F, cstp, tab in L. cbn [cl_ranks] in L. now rewrite map_length, seq_length in L. }
    split; auto. unfold F, cstp in N. cbn [cl_ranks] in N. rewrite nth_error_tab in N by auto. injection N as <-. unfold rank_outcome. cbn [k_proc].
    destruct (inb_spec r waiting) as [I|NI]; [destruct (WC r I) as (_ & -> & ->); reflexivity|].
    destruct (good (r / T)%nat) eqn:G.
    + destruct (place_of r) as (E & L). destruct (GO _ (tile_of r Hr) G) as (_ & O). specialize (O _ L). rewrite <- E in O. unfold pp2. rewrite G, O. now destruct (outr r).
    + destruct (Nat.eq_dec (r mod T) 0) as [Z0|NZ]; [|exfalso; apply NI; apply WI; auto]. destruct (RT r Hr G Z0) as (e & -> & ->). reflexivity.
  - intros r Hr. unfold F, cstp. cbn [cl_ranks]. rewrite nth_error_tab by auto. discriminate.
Qed.
End Tiles.

(** ** what [tile] gives *)
Section Group.
Context {Ob V : Type}.
Variable layout : layout_t.
Hypothesis Hy : 1 <= fst layout.
Hypothesis Hx : 1 <= snd layout.
Notation size := (Mixed.size layout).
Notation T := (per_tile layout).

Theorem tile_group (again : nat -> bool) : exists G : nat -> group, (forall r, g_members (G r) = seq (r / T * T) T) /\
  cluster_ends size (fun r => tile (Ob := Ob) (V := V) layout r (all_ranks size) None (fun g => with_rank r g (fun i =>
      if again r then tile layout r (all_ranks size) (Some g) (fun g' => RRet (g, i, g')) else RRet (g, i, g))))
    (fun r => Ok (G r, (r mod T)%nat, G r)).
Proof.
  pose proof (T_pos layout Hy Hx) as TP.
  destruct (split_reaches Ob V layout Hy Hx (fun _ _ => false) (fun _ _ _ => true) (fun r i => PRet i)
    (fun r tc i => match tc with Some g => if again r then tile layout r (all_ranks size) (Some g) (fun g' => RRet (g, i, g')) else RRet (g, i, g) | None => RErr TypeError end)
    (fun r => tile layout r (all_ranks size) None (fun g => with_rank r g (fun i => if again r then tile layout r (all_ranks size) (Some g) (fun g' => RRet (g, i, g')) else RRet (g, i, g))))
    (fun _ => []) (fun _ => []) (fun _ => None) 0) as (po & j & Nt & Nw & C1 & AW & AT).
  { intros r Hr. reflexivity. }
  { split; [intros r I; reflexivity|]. left. intros r Hr. split; constructor. }
  exists (fun r => tgroup T j (r / T)). split; [reflexivity|].
  apply (ends_of_schedule size _ _ po (fun _ => [])).
  match type of C1 with creaches _ _ _ ?a => match goal with |- creaches _ _ _ ?b => replace b with a; [exact C1|] end end.
  apply cstp_ext; auto. intros r Hr. cbv zeta. cbn [on_group rbind resumed]. destruct (again r); reflexivity.
Qed.

Lemma same_colour_some (f : nat -> option (gcall Ob V)) color : forall ms i l, same_colour f color ms i = Some l -> forall j, (j < length ms)%nat -> f (i + j)%nat <> None.
Proof.
  induction ms as [|x ms IH]; cbn; intros i l E j Hj; [lia|]. destruct (f i) as [[c|c key]|] eqn:F; try discriminate. destruct (same_colour f color ms (S i)) as [l'|] eqn:S1; [|discriminate].
  destruct j; [rewrite Nat.add_0_r; congruence|]. replace (i + S j)%nat with (S i + j)%nat by lia. apply (IH _ _ S1). lia.
Qed.

Theorem tile_needs_all {A} (ps : nat -> rproc Ob V A) absent r k : (absent < size)%nat -> silent (ps absent) -> (r < size)%nat -> r <> absent -> ps r = tile layout r (all_ranks size) None k ->
  forall buffered delayed sched s, cl_run buffered delayed sched (cl_start size ps) = Some s -> exists x, nth_error (cl_ranks s) r = Some x /\ rank_outcome x = None.
Proof.
  intros HA SI Hr NE E bf dl.
  assert (EC : ps r = RCall (all_ranks size) (GSplit (Z.of_nat (r / T)) (Z.of_nat r)) (fun a => match a with GGroup g => k g | GAnswer _ => RErr TypeError end)).
  { rewrite E. unfold tile. now rewrite (tile_index_of layout Hy Hx). }
  set (I := fun s : cluster Ob V A => (exists x, nth_error (cl_ranks s) absent = Some x /\ silent (k_proc x) /\ calls_on [] (k_posted x) = []) /\
    exists x, nth_error (cl_ranks s) r = Some x /\ k_proc x = ps r /\ (k_pending x = false /\ k_posted x = [] \/ k_pending x = true /\ k_posted x = [([], GSplit (Z.of_nat (r / T)) (Z.of_nat r))])).
  assert (STEP : forall r' s s', I s -> cl_step bf dl r' s = Some s' -> I s').
  { intros r' s s' ((xa & NA & SA & PA) & (x & N & P & ST)) S. unfold cl_step in S. destruct (react bf dl r' s) as [[y e]|] eqn:R; [|discriminate]. injection S as <-. unfold I. cbn [cl_ranks]. split.
    - destruct (Nat.eq_dec r' absent) as [->|ND]; [|exists xa; rewrite nth_error_upd_neq by auto; auto].
      exists y. rewrite (nth_error_upd_eq _ _ _ _ NA). split; auto. unfold react in R. rewrite NA in R.
      destruct (k_proc xa) as [a|e0|dst tag body q|src tag q|j q|g c q] eqn:K; try discriminate; inversion_clear SA.
      + destruct (nth_error (cl_sent s) absent); [|discriminate]. injection R as <- _. cbn [k_proc k_posted]. auto.
      + destruct (src <? 0); [discriminate|]. destruct (nth_error (cl_sent s) (Z.to_nat src)) as [l|]; [|discriminate]. destruct (take _ tag l) as [[b l']|]; [|discriminate]. injection R as <- _. cbn [k_proc k_posted]. auto.
      + destruct (nth_error (cl_sent s) absent) as [l|]; [|discriminate]. destruct (nth_error l j) as [m|]; [|discriminate]. destruct (ms_taken m || bf absent j); [|discriminate]. injection R as <- _. cbn [k_proc k_posted]. auto.
      + destruct (k_pending xa).
        * cbv zeta in R. destruct (dl absent (g_ctx g) _ && _); [discriminate|]. destruct (ganswered _ g _ absent c) as [a|]; [|discriminate]. injection R as <- _. cbn [k_proc k_posted]. auto.
        * injection R as <- _. cbn [k_proc k_posted]. split.
          -- now constructor.
          -- rewrite calls_on_app, PA. unfold calls_on. cbn. destruct (ctx_eqb_spec (g_ctx g) []); [contradiction|reflexivity].
    - destruct (Nat.eq_dec r' r) as [->|ND]; [|exists x; rewrite nth_error_upd_neq by auto; auto].
      exists y. rewrite (nth_error_upd_eq _ _ _ _ N). split; auto. unfold react in R. rewrite N, P, EC in R.
      destruct ST as [(PE & PO)|(PE & PO)]; rewrite PE in R.
      + injection R as <- _. cbn [k_proc k_pending k_posted]. rewrite PO. auto.
      + exfalso. cbv zeta in R. rewrite PO in R. destruct (dl r _ _ && _); [discriminate|]. cbn [ganswered] in R.
        destruct (same_colour _ _ _ 0) as [l|] eqn:SC; [|discriminate]. pose proof (same_colour_some _ _ _ _ _ SC absent) as X. cbn [all_ranks g_members] in X. rewrite seq_length in X.
        apply (X HA). unfold posted_by. cbn [all_ranks g_members]. rewrite nth_error_seq. destruct (Nat.ltb_spec (0 + absent) size) as [HL|HL]; [|lia]. rewrite !Nat.add_0_l, NA. cbn [all_ranks g_ctx]. rewrite PA. apply nth_error_None. cbn. lia. }
  assert (RUN : forall sched s s', I s -> cl_run bf dl sched s = Some s' -> I s').
  { induction sched as [|x sched IH]; cbn; intros s s' HI R; [injection R as <-; auto|]. destruct (cl_step bf dl x s) as [s1|] eqn:S; [|discriminate]. eauto. }
  intros sched s R. apply RUN in R.
  - destruct R as (_ & x & N & P & _). exists x. split; auto. unfold rank_outcome. now rewrite P, EC.
  - unfold I, cl_start. cbn [cl_ranks]. rewrite !nth_error_map, !nth_error_seq. destruct (Nat.ltb_spec absent size), (Nat.ltb_spec r size); try lia. cbn. split; eexists; (split; [reflexivity|]); cbn; auto.
Qed.
End Group.

(** ** open_restart on the whole cube *)
Lemma finite_choice {X} (x0 : X) (P : nat -> X -> Prop) m : (forall t, (t < m)%nat -> exists x, P t x) -> exists f, forall t, (t < m)%nat -> P t (f t).
Proof.
  induction m as [|m IH]; intros H; [exists (fun _ => x0); lia|]. destruct IH as (f & F); [auto|]. destruct (H m) as (x & Px); [lia|].
  exists (fun t => if Nat.eqb t m then x else f t). intros t Ht. destruct (Nat.eqb_spec t m) as [->|]; auto. apply F. lia.
Qed.

Section Restart.
Context {V Date : Type}.
Variables (cftime : Z -> list Z -> res Date) (fs : string -> node V) (order : list string -> list string).

Theorem open_restart_cube dirname (layout : layout_t) label only tp junk (recvs : nat -> option (state V (time_value V Date))) (D : nat -> string -> list string) (E : nat -> string -> list Z) :
  1 <= fst layout -> 1 <= snd layout ->
  let p := TilePart layout in
  let load t := load_tile V Date cftime fs order dirname label (Z.of_nat t) (merged_properties tp) only in
  let vars r := match recvs r with Some s => st_vars s | None => [] end in
  (forall t st name q, (t < 6)%nat -> load t = Ok st -> dget name (st_vars st) = Some q -> fits layout (D t name) (E t name) /\ global_sized p (D t name) (E t name) q /\
     forall i, (i < per_tile layout)%nat -> given (rank_sized (E t name)) (dget name (vars (t * per_tile layout + i)%nat))) ->
  exists out, cluster_halts (Mixed.size layout)
      (fun r => open_restart_on V Date cftime fs order dirname layout r (all_ranks (Mixed.size layout)) label only (junk r) (recvs r) tp) out /\
    forall t i, (t < 6)%nat -> (i < per_tile layout)%nat -> let r := (t * per_tile layout + i)%nat in
      match load t with
      | Ok st => exists s, out r = Some (Ok s) /\ st_time s = st_time st /\
          (forall name q, dget name (st_vars st) = Some q -> exists q', dget name (st_vars s) = Some q' /\
             written (or_blank (dget name (vars r)) (blank (D t name) (q_units q) (E t name) (junk r name 0%nat))) q' (part_of p i (D t name) (E t name) (domain_of q))) /\
          (forall name, dget name (st_vars st) = None -> dget name (st_vars s) = dget name (vars r))
      | Err e => out r = match i with O => Some (Err e) | _ => None end
      end.
Proof.
  intros Hy Hx p load vars H. set (T := per_tile layout) in *. pose proof (T_pos layout Hy Hx) as TP. fold T in TP.
  assert (TZ : Z.of_nat T = fst layout * snd layout) by (unfold T, per_tile; rewrite Z2Nat.id; nia).
  assert (RZ : forall t i, Z.of_nat (t * T + i) = Z.of_nat t * (fst layout * snd layout) + Z.of_nat i) by (intros; rewrite <- TZ; lia).
  set (prog := fun r i => open_restart V Date cftime fs order dirname layout (Z.of_nat r) (Z.of_nat i) label only (junk r) (recvs r) tp).
  destruct (finite_choice (fun _ => mkSt [] None) (fun t (outs : nat -> state V (time_value V Date)) => match load t with
     | Ok st => together T (fun i => prog (t * T + i)%nat i) (fun i => Ok (outs i)) /\ forall i, (i < T)%nat -> st_time (outs i) = st_time st /\
          (forall name q, dget name (st_vars st) = Some q -> exists q', dget name (st_vars (outs i)) = Some q' /\
             written (or_blank (dget name (vars (t * T + i)%nat)) (blank (D t name) (q_units q) (E t name) (junk (t * T + i)%nat name 0%nat))) q' (part_of p i (D t name) (E t name) (domain_of q))) /\
          (forall name, dget name (st_vars st) = None -> dget name (st_vars (outs i)) = dget name (vars (t * T + i)%nat))
     | Err e => True end) 6) as (outs & O).
  { intros t Ht. destruct (load t) as [st|e] eqn:L; [|exists (fun _ => mkSt [] None); exact I].
    destruct (open_restart_tog cftime fs order dirname layout (Z.of_nat t) label only tp (fun i => junk (t * T + i)%nat) (fun i => recvs (t * T + i)%nat) st (D t) (E t) Hy Hx L) as (o & TG & W).
    { intros name q Q. exact (H t st name q Ht L Q). }
    exists o. split; [|exact W]. eapply together_ext; [|exact TG]. intros i Hi. unfold prog. cbv beta. now rewrite RZ. }
  exists (fun r => match load (r / T)%nat with Ok _ => Some (Ok (outs (r / T)%nat (r mod T)%nat)) | Err e => match (r mod T)%nat with O => Some (Err e) | _ => None end end). split.
  - apply (on_tile_halts layout Hy Hx (fun t => match load t with Ok _ => true | Err _ => false end) prog). intros t Ht. fold T. cbv zeta.
    assert (PU : forall i, (i < T)%nat -> ((t * T + i) / T = t)%nat /\ ((t * T + i) mod T = i)%nat) by (intros i Hi; now apply (place_unique layout)).
    specialize (O t Ht). destruct (load t) as [st|e] eqn:L.
    + destruct O as (TG & _). exists (fun i => Ok (outs t i)). split; [exact TG|]. intros i Hi. destruct (PU i Hi) as (-> & ->). now rewrite L.
    + split.
      * exists e. destruct (PU 0%nat TP) as (-> & ->). rewrite L. split; auto. unfold prog, open_restart. rewrite RZ, own_tile by (auto; lia). cbn [plift pbind].
        change (Z.of_nat 0 =? ROOT_RANK)%Z with true. cbv iota. fold (load t). rewrite L. reflexivity.
      * intros i Hi. fold T in Hi. destruct (PU i) as (-> & ->); [lia|]. rewrite L. split; [|destruct i; [lia|reflexivity]].
        unfold prog, open_restart. rewrite RZ, own_tile by (auto; lia). cbn [plift pbind]. rewrite not_root by lia. cbn [plift pbind]. unfold scatter_state. rewrite not_root by lia. unfold pbcast at 1. eauto.
  - intros t i Ht Hi. cbv zeta. destruct (place_unique layout t i Hi) as (PD & PM). fold T in PD, PM. rewrite PD, PM. specialize (O t Ht). destruct (load t) as [st|e]; auto.
    destruct O as (_ & W). eexists. split; [reflexivity|]. now apply W.
Qed.
End Restart.
