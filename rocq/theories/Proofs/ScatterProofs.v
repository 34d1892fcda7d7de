(** scatter and gather *)
From Verif.Base Require Import Base Lemmas.
From Verif.Model Require Import Consts Partitioner Numpy Quantity Collective ScatterGather.
From Verif.Spec Require Import Grid Layouts Views Together Distribute.
From Verif.Proofs Require Import NumpyProofs Regions ViewProofs CornerProofs CollectiveProofs Parts.
From Coq Require Import ZifyBool.
Ltac Zify.zify_post_hook ::= idtac.

Lemma rfold_range {S} (f : S -> Z -> res S) (P : Z -> S -> Prop) (n : nat) s0 : P 0 s0 ->
  (forall r s, (r < n)%nat -> P (Z.of_nat r) s -> exists s', f s (Z.of_nat r) = Ok s' /\ P (Z.of_nat r + 1) s') ->
  exists s', rfold f (zrange (Z.of_nat n)) s0 = Ok s' /\ P (Z.of_nat n) s'.
Proof.
  intros P0. induction n as [|n IH]; intros St.
  - exists s0. split; auto.
  - destruct IH as (s' & E & Pn); [intros; apply St; auto; lia|]. destruct (St n s' ltac:(lia) Pn) as (s2 & E2 & P2).
    exists s2. replace (Z.of_nat (Datatypes.S n)) with (Z.of_nat n + 1) by lia. split; auto.
    rewrite zrange_succ by lia.
    assert (A : forall l l' s, rfold f (l ++ l') s = do s' <- rfold f l s; rfold f l' s').
    { clear. induction l as [|x l IHl]; intros; cbn; auto. destruct (f s x); cbn; auto. }
    rewrite A, E. cbn. now rewrite E2.
Qed.

Section Rows.
Context {V : Type}.

(** rows of an array: index [r, :] *)
Lemma row_view n e s r : 0 <= r < n -> 0 <= e -> exists v, v_index (v_whole (n :: e :: s)) [IInt r; IALL] = Ok v /\ vshp v = e :: s /\
  forall p, in_shape (e :: s) p -> vmap v p = r :: p.
Proof.
  intros Hr He. unfold v_index, v_whole. cbn [vshp vmap index_apply IALL]. replace ((- n <=? r) && (r <? n)) with true by lia.
  unfold slice_norm. change (1 =? 0) with false. change (1 <? 0) with false. cbn [bind]. eexists. split; [reflexivity|]. cbn [vshp vmap]. split.
  - f_equal. destruct (Z.ltb_spec 0 e); [rewrite Z.div_1_r|]; lia.
  - intros p P. inversion P; subst. cbn [hd tl]. destruct (Z.ltb_spec r 0); [lia|]. f_equal. f_equal. lia.
Qed.

Lemma row_set (a src : arr V) n e s r : shp a = n :: e :: s -> shp src = e :: s -> 0 <= r < n -> 0 <= e ->
  exists a', setitem a [IInt r; IALL] src = Ok a' /\ shp a' = shp a /\ (forall p, in_shape (e :: s) p -> at_ a' (r :: p) = at_ src p) /\
    (forall r' p, r' <> r -> at_ a' (r' :: p) = at_ a (r' :: p)).
Proof.
  intros E1 E2 Hr He. unfold setitem. rewrite E1. destruct (row_view n e s r Hr He) as (v & -> & S1 & M). cbn [bind].
  unfold a_assign. rewrite S1, E2. destruct (bcast_same (e :: s)) as (f & -> & F).
  eexists. split; [reflexivity|]. split; [now rewrite shp_a_write|]. 
  assert (J : inj_view v). { intros p q P Q E. rewrite S1 in *. rewrite !M in E by auto. now injection E. }
  split.
  - intros p P. rewrite <- (M p P). rewrite <- S1 at 1. rewrite (write_view_in a v (fun p => at_ src (f p))) by (auto; now rewrite S1). now rewrite F.
  - intros r' p N. rewrite <- S1. apply (write_view_frame a v (fun p => at_ src (f p))). intros q Q. rewrite S1 in Q. rewrite M by auto. congruence.
Qed.

Lemma row_get (a : arr V) n e s r : shp a = n :: e :: s -> 0 <= r < n -> 0 <= e ->
  exists a', getitem a [IInt r; IALL] = Ok a' /\ shp a' = e :: s /\ forall p, in_shape (e :: s) p -> at_ a' p = at_ a (r :: p).
Proof.
  intros E1 Hr He. unfold getitem. rewrite E1. destruct (row_view n e s r Hr He) as (v & -> & S1 & M). cbn [bind].
  eexists. split; [reflexivity|]. cbn [shp at_ v_read]. split; auto. intros p P. now rewrite M.
Qed.

Lemma firstn_skipn_flat_map {A B} (f : A -> list B) len (l : list A) r d : (forall x, In x l -> length (f x) = len) -> (r < length l)%nat ->
  firstn len (skipn (r * len) (flat_map f l)) = f (nth r l d).
Proof.
  revert r. induction l as [|x l IH]; intros r L H; cbn in H; [lia|]. destruct r as [|r]; cbn [flat_map nth Nat.mul].
  - rewrite skipn_O, firstn_app, L by (left; auto). rewrite Nat.sub_diag, firstn_O, app_nil_r. apply firstn_all2. rewrite L; [lia|left; auto].
  - rewrite skipn_app, L by (left; auto). rewrite skipn_all2 by (rewrite L by (left; auto); lia). cbn [app].
    replace (len + r * len - len)%nat with (r * len)%nat by lia. apply IH; [|lia]. intros; apply L; now right.
Qed.

Lemma map_flat_map {A B C} (g : B -> C) (f : A -> list B) l : map g (flat_map f l) = flat_map (fun x => map g (f x)) l.
Proof. induction l; cbn; auto. now rewrite map_app, IHl. Qed.

Lemma ravel_row (a : arr V) n s r : shp a = Z.of_nat n :: s -> (r < n)%nat ->
  firstn (length (all_idx s)) (skipn (r * length (all_idx s)) (ravel a)) = map (fun p => at_ a (Z.of_nat r :: p)) (all_idx s).
Proof.
  intros E Hr. unfold ravel. rewrite E. cbn [all_idx]. rewrite map_flat_map.
  rewrite (firstn_skipn_flat_map _ _ _ r 0).
  - replace r with (Z.to_nat (Z.of_nat r)) at 1 by lia. rewrite nth_zrange by lia. now rewrite map_map.
  - intros x _. now rewrite !map_length.
  - rewrite length_zrange. lia.
Qed.

Lemma length_ravel (a : arr V) n s : shp a = Z.of_nat n :: s -> length (ravel a) = (n * length (all_idx s))%nat.
Proof.
  intros E. unfold ravel. rewrite E. cbn [all_idx]. rewrite map_length. rewrite (flat_map_length_const _ (length (all_idx s))).
  - rewrite length_zrange. lia.
  - intros. now rewrite map_length.
Qed.

Lemma combine_map {A B C} (f : A -> B) (g : A -> C) l : combine (map f l) (map g l) = map (fun x => (f x, g x)) l.
Proof. induction l; cbn; auto. now rewrite IHl. Qed.

(** ** a quantity's compute domain as a flat list *)
Lemma view_all_ok (q : quantity V) : well_formed (q_meta q) -> q_extent q <> [] ->
  exists v, view_all V q = Ok v /\ vshp v = q_extent q /\ forall p, in_shape (q_extent q) p -> vmap v p = shifted (q_origin q) p.
Proof.
  intros (L & A) N. cbn in L, A. unfold view_all, view_index, get_compute_index. cbn [q_meta m_origin m_shape m_dims m_extent index_list length].
  destruct (axes_ok_lengths _ _ _ A) as (L1 & L2).
  destruct (q_origin q) as [|o origin] eqn:O; [destruct (q_extent q); [congruence|]; cbn in *; lia|]. rewrite <- O in *.
  assert (1 <= length (q_dims q))%nat by (rewrite O in L1; cbn in L1; lia).
  destruct (Nat.ltb_spec (length (q_dims q)) 1); [lia|]. cbn [bind].
  assert (F : fill_index [IALL] (length (shp (q_data q))) = repeat IALL (length (shp (q_data q)))).
  { unfold fill_index. cbn [length app]. destruct (length (shp (q_data q))) as [|k]; [lia|]. cbn. now rewrite Nat.sub_0_r. }
  rewrite F. destruct (fill_rest _ _ _ A) as (f & E & G). unfold v_index, v_whole. cbn [vshp vmap]. rewrite E. cbn [bind].
  eexists. split; [reflexivity|]. cbn [vshp vmap]. auto.
Qed.

Lemma view_elements_ok (q : quantity V) v : vshp v = q_extent q -> (forall p, in_shape (q_extent q) p -> vmap v p = shifted (q_origin q) p) ->
  view_elements V q v = map (at_ (domain_of q)) (all_idx (q_extent q)).
Proof.
  intros S1 M. unfold view_elements, ravel, v_read. cbn [shp at_]. rewrite S1. apply map_ext_in. intros p P. cbn. rewrite in_all_idx in P. now rewrite M.
Qed.

Lemma shifted_inj origin p p' : length p = length origin -> length p' = length origin -> shifted origin p = shifted origin p' -> p = p'.
Proof. revert p p'. induction origin as [|o origin IH]; intros [|a p] [|b p'] L1 L2 E; try discriminate; auto. cbn in *. injection E as E1 E2. f_equal; [lia|]. apply IH; auto; lia. Qed.

Lemma fill_view_ok (q : quantity V) v g : well_formed (q_meta q) -> vshp v = q_extent q -> (forall p, in_shape (q_extent q) p -> vmap v p = shifted (q_origin q) p) ->
  written q (fill_view V q v (map g (all_idx (q_extent q)))) (mkA (q_extent q) g).
Proof.
  intros (L & A) S1 M. cbn in L, A. destruct (axes_ok_lengths _ _ _ A) as (L1 & L2). unfold fill_view. rewrite S1, combine_map.
  assert (J : inj_view v). { intros p p' P P' E. rewrite S1 in *. rewrite !M in E by auto. apply in_shape_length in P, P'. apply shifted_inj in E; auto; lia. }
  split; [|split; [|split]].
  - split; cbn; auto. intros p P. rewrite <- M by auto. rewrite <- S1. apply write_view_in; auto. now rewrite S1.
  - unfold q_meta, q_with_data. cbn. now rewrite shp_a_write.
  - reflexivity.
  - intros i I O. cbn. rewrite <- S1. apply write_view_frame. intros p P. rewrite S1 in P. rewrite M by auto. intros <-. now apply (O p).
Qed.

Section Part.
Variables (p : partitioner) (dims : list string) (rext : list Z).
Hypothesis Fi : fits (layout_of p) dims rext.

Lemma rext_shape : exists e s, rext = e :: s /\ 0 <= e.
Proof.
  destruct Fi as (_ & N & F). destruct F as [|d e ds re (H & _) F]; [congruence|]. exists e, re. split; auto.
  unfold stag in H. destruct (_ =? _)%string in H; [lia|]. destruct (_ =? _)%string in H; [lia|]. destruct (_ =? _)%string in H; lia.
Qed.

Lemma part_get (q : quantity V) r : global_sized p dims rext q -> (r < ranks p)%nat ->
  exists a, view_get q (PTuple (map pick_entry (part_picks p r dims rext))) = Ok a /\ same a (part_of p r dims rext (domain_of q)).
Proof.
  intros (W & D & E) Hr. destruct (axes_ok_lengths _ _ _ (proj2 W)) as (L1 & L2). cbn in L1, L2. rewrite E in L2.
  assert (R := view_read q (map pick_entry (part_picks p r dims rext)) W). rewrite E in R.
  specialize (R (picks_index_ok p dims rext Fi (q_origin q) ltac:(lia) r Hr)).
  destruct (picks_ok p dims rext Fi r Hr) as (F & S1 & G). rewrite <- E in F.
  unfold getitem in R. destruct (picks_view _ _ F) as (v & EV & SV & MV). cbn [domain_of shp] in R. rewrite EV in R. cbn [bind] in R.
  destruct (view_get _ _) as [a|]; [|destruct R]. exists a. split; auto. destruct R as (R1 & R2). cbn [v_read shp at_] in *.
  split; cbn [part_of shp at_]; [congruence|]. intros pt P. rewrite R2 by auto. rewrite R1 in P. rewrite MV by auto. rewrite SV, S1 in P. now rewrite G.
Qed.

Lemma part_set (q : quantity V) r src : global_sized p dims rext q -> (r < ranks p)%nat -> shp src = rext ->
  exists q' a, view_set q (PTuple (map pick_entry (part_picks p r dims rext))) src = Ok q' /\ written q q' a /\
    (forall pt, in_shape rext pt -> at_ a (place p r dims rext pt) = at_ src pt) /\
    (forall g, (forall pt, in_shape rext pt -> g <> place p r dims rext pt) -> at_ a g = at_ (domain_of q) g).
Proof.
  intros (W & D & E) Hr Es. destruct (axes_ok_lengths _ _ _ (proj2 W)) as (L1 & L2). cbn in L1, L2. rewrite E in L2.
  assert (R := view_write q (map pick_entry (part_picks p r dims rext)) src W). rewrite E in R.
  specialize (R (picks_index_ok p dims rext Fi (q_origin q) ltac:(lia) r Hr)).
  destruct (picks_ok p dims rext Fi r Hr) as (F & S1 & G). rewrite <- E in F.
  unfold setitem in R. destruct (picks_view _ _ F) as (v & EV & SV). cbn [domain_of shp] in R. rewrite EV in R. cbn [bind] in R.
  destruct (set_through (domain_of q) v _ src SV ltac:(congruence)) as (a & EA & SA & A1 & A2).
  unfold domain_of in EA at 1. unfold domain_of in R. rewrite EA in R.
  destruct (view_set _ _ _) as [q'|]; [|destruct R]. exists q', a. split; auto. split; auto. rewrite S1 in *. split.
  - intros pt P. rewrite <- G by auto. now apply A1.
  - intros g N. apply A2. intros pt P. rewrite G by auto. now apply N.
Qed.

(** ** scatter *)
Lemma pack_ok (q : quantity V) buf : global_sized p dims rext q -> shp buf = p_total_ranks p :: rext ->
  exists b, pack V p q buf = Ok b /\ shp b = p_total_ranks p :: rext /\
    forall r pt, (r < ranks p)%nat -> in_shape rext pt -> at_ b (Z.of_nat r :: pt) = at_ (domain_of q) (place p r dims rext pt).
Proof.
  intros Q SB. destruct rext_shape as (e & s & ER & He). unfold pack. rewrite <- (ranks_total p dims rext Fi) in *.
  destruct (rfold_range (fun buf rank => do sl <- p_subtile_slice p rank (q_dims q) (q_extent q); do a <- view_get q (PTuple sl); setitem buf [IInt rank; IALL] a)
    (fun n b => shp b = Z.of_nat (ranks p) :: rext /\ forall r pt, Z.of_nat r < n -> in_shape rext pt -> at_ b (Z.of_nat r :: pt) = at_ (domain_of q) (place p r dims rext pt)) (ranks p) buf) as (b & E & S1 & B).
  - split; auto. lia.
  - intros r b Hr (S1 & B). pose proof Q as (W & D & E). rewrite D, E, (slice_ok p dims rext Fi). cbn [bind].
    destruct (part_get q r Q Hr) as (a & -> & SA & AA). cbn [bind part_of shp at_] in *.
    destruct (row_set b a (Z.of_nat (ranks p)) e s (Z.of_nat r)) as (b' & EB & SB' & B1 & B2); try congruence; try lia.
    exists b'. split; auto. split; [congruence|]. intros r' pt Hr' P. destruct (Nat.eq_dec r' r) as [->|].
    + rewrite B1 by congruence. apply AA. now rewrite SA.
    + rewrite B2 by lia. apply B; auto; lia.
  - exists b. split; auto. split; auto. intros r pt Hr P. apply B; auto. lia.
Qed.

Definition ok_or {A} (r : res A) (d : A) : A := match r with Ok a => a | Err _ => d end.

Lemma new_blank units' (contents : idx -> V) : new_quantity (DArray (mkA rext contents)) dims units' None None = Ok (blank dims units' rext contents).
Proof.
  destruct Fi as (_ & _ & F). pose proof (Forall2_length _ _ _ F) as L. unfold new_quantity. cbn [shp bind]. 
  assert (E : map2 Z.sub rext (map (fun _ : string => 0) dims) = rext).
  { clear - L. revert rext L. induction dims as [|d ds IH]; intros [|e re] L; try discriminate; auto. cbn. rewrite IH by (now injection L). f_equal. lia. }
  rewrite E. unfold validate_lengths. rewrite map_length, L, Nat.eqb_refl. reflexivity.
Qed.

Lemma scatter_dims_ok : scatter_dims p (global_dims p dims) = dims.
Proof. clear Fi. unfold scatter_dims, global_dims. now destruct p. Qed.

Variables (send : quantity V) (others : nat -> option (quantity V)) (recv : nat -> option (quantity V)) (junk : nat -> nat -> idx -> V).
Hypothesis HS : global_sized p dims rext send.
Hypothesis HR : forall r, given (same_count rext) (recv r).

Let base r := or_blank (recv r) (blank dims (q_units send) rext (junk r 0%nat)).

Lemma blank_sized units (contents : idx -> V) : rank_sized rext (blank dims units rext contents).
Proof.
  split; [|reflexivity]. destruct Fi as (_ & _ & F).
  unfold blank, well_formed. cbn [q_meta m_dims m_shape m_origin m_extent q_dims q_data q_origin q_extent shp].
  split; [now apply Forall2_length in F|]. clear - F. induction F as [|d e ds re (H & _) F IH]; cbn [map]; constructor; auto; try lia; unfold stag in H; destruct (d =? _)%string; try lia; destruct (d =? _)%string; try lia; destruct (d =? _)%string; lia.
Qed.

Lemma sized_count q : rank_sized rext q -> same_count rext (V := V) q.
Proof. intros (W & E). split; auto. rewrite E. split; auto. destruct rext_shape as (e & s & X & _). congruence. Qed.

Lemma base_count r : same_count rext (base r).
Proof. unfold base. specialize (HR r). destruct (recv r) as [q|]; auto. apply sized_count, blank_sized. Qed.

(** what each rank returns *)
Definition scattered r : quantity V :=
  fill_view V (base r) (ok_or (view_all V (base r)) (v_whole [])) (map (at_ (part_of p r dims rext (domain_of send))) (all_idx rext)).

Theorem scatter_together {T} : together (ranks p) (fun r => scatter V T p (Z.of_nat r) (junk r) (match r with O => Some send | _ => others r end) (recv r)) (fun r => Ok (scattered r)).
Proof.
  pose proof (ranks_pos p dims rext Fi) as RP. pose proof HS as (W & D & E).
  destruct (pack_ok send (mkA (p_total_ranks p :: rext) (junk 0%nat 1%nat)) HS eq_refl) as (b & EB & SB & B).
  assert (VB : forall r, exists v, view_all V (base r) = Ok v /\ vshp v = q_extent (base r)).
  { intros r. destruct (base_count r) as (WB & NB & XB). destruct (view_all_ok (base r) WB NB) as (v & A & B1 & _). eauto. }
  eapply together_ext; [|eapply (together_bcast (ranks p) (fun r => match r with O => OMeta (metadata V send) | _ => ONone T end)
    (fun r => scatter_rest V T p (Z.of_nat r) (junk r) (match r with O => Some send | _ => others r end) (recv r))); [exact RP|]].
  { intros [|r] Hr; unfold scatter; [reflexivity|]. replace (Z.of_nat (S r) =? ROOT_RANK) with false by (unfold ROOT_RANK; lia). reflexivity. }
  cbv beta iota. unfold scatter_rest. cbn [metadata qm_dims qm_extent qm_units]. rewrite D, E, (extent_ok p dims rext Fi). cbn [plift pbind].
  rewrite scatter_dims_ok.
  eapply together_ext; [|eapply (together_scatter (ranks p) (ravel b) (fun r => match r with O => Some (ravel b) | _ => None end) (length (all_idx rext))
     (fun r body => PRet (fill_view V (base r) (ok_or (view_all V (base r)) (v_whole [])) body))); [exact RP|reflexivity| |]].
  - intros r Hr. assert (X : plift match recv r with Some q => Ok q | None => new_quantity (DArray (mkA rext (junk r 0%nat))) dims (q_units send) None None end = PRet (base r) :> proc (obj T) V _).
    { unfold base. destruct (recv r); auto. now rewrite new_blank. }
    rewrite X. cbn [pbind]. destruct (VB r) as (v & EV & SV). rewrite EV. cbn [plift pbind ok_or]. rewrite SV. destruct (base_count r) as (_ & _ & ->).
    destruct r as [|r].
    + replace (Z.of_nat 0 =? ROOT_RANK) with true by reflexivity. rewrite EB. reflexivity.
    + replace (Z.of_nat (S r) =? ROOT_RANK) with false by (unfold ROOT_RANK; lia). reflexivity.
  - apply length_ravel. rewrite SB. f_equal. symmetry. apply (ranks_total p dims rext Fi).
  - apply tg_end. intros r Hr. cbn [plift]. f_equal. unfold scattered. f_equal.
    rewrite (ravel_row b (ranks p) rext r) by (auto; rewrite SB; f_equal; symmetry; apply (ranks_total p dims rext Fi)).
    apply map_ext_in. intros pt P. rewrite in_all_idx in P. cbn [part_of at_]. now apply B.
Qed.

Theorem scattered_written r : given (rank_sized rext) (recv r) -> written (base r) (scattered r) (part_of p r dims rext (domain_of send)).
Proof.
  intros G. assert (B : rank_sized rext (base r)). { unfold base. destruct (recv r); auto. apply blank_sized. }
  destruct B as (WB & XB). unfold scattered.
  destruct (view_all_ok (base r) WB) as (v & EV & SV & MV). { rewrite XB. destruct rext_shape as (e & s & X & _). congruence. }
  rewrite EV. cbn [ok_or]. unfold part_of. rewrite <- XB. apply fill_view_ok; auto.
Qed.

Lemma write_list (ks : list idx) : forall (vs : list V) (a : arr V), NoDup ks -> length ks = length vs -> map (at_ (a_write (combine ks vs) a)) ks = vs.
Proof.
  intros vs a ND L. apply (nth_ext _ _ (at_ a []) (at_ a [])); rewrite map_length; auto. intros n Hn.
  rewrite (nth_indep _ _ (at_ (a_write (combine ks vs) a) [])) by (rewrite map_length; lia). rewrite map_nth.
  apply a_write_in.
  - assert (E : map fst (combine ks vs) = ks). { clear - L. revert vs L. induction ks as [|k ks IH]; intros [|v vs] L; try discriminate; auto. cbn. rewrite IH; auto. }
    now rewrite E.
  - rewrite <- combine_nth by auto. apply nth_In. rewrite combine_length. lia.
Qed.

(** the elements in C order, whatever the shape *)
Theorem scattered_ravel r : ravel (domain_of (scattered r)) = ravel (part_of p r dims rext (domain_of send)).
Proof.
  destruct (base_count r) as (WB & NB & XB). unfold scattered. destruct (view_all_ok (base r) WB NB) as (v & EV & SV & MV). rewrite EV. cbn [ok_or].
  unfold ravel at 2. cbn [part_of shp]. unfold ravel. cbn [domain_of shp at_ fill_view q_with_data q_extent q_origin q_data].
  transitivity (map (at_ (a_write (combine (map (vmap v) (all_idx (vshp v))) (map (at_ (part_of p r dims rext (domain_of send))) (all_idx rext))) (q_data (base r)))) (map (vmap v) (all_idx (vshp v)))).
  - rewrite map_map, SV. apply map_ext_in. intros pt P. rewrite in_all_idx in P. now rewrite MV.
  - apply write_list; [|rewrite !map_length, SV; auto]. apply NoDup_map_inj; [apply all_idx_NoDup|]. intros x y X Y. rewrite in_all_idx in X, Y. rewrite SV in *.
    rewrite !MV by auto. destruct (axes_ok_lengths _ _ _ (proj2 WB)) as (L1 & L2). cbn in L1, L2. apply in_shape_length in X, Y. apply shifted_inj; lia.
Qed.
End Part.
End Rows.
