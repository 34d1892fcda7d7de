(** Constructing ZarrMonitors (C83). *)
From Coq Require Import Permutation Sorted.
From Verif.Base Require Import Base Lemmas.
From Verif.Model Require Import Consts Partitioner Numpy Quantity ScatterGather Shared Zarr ZarrOpen.
From Verif.Spec Require Import Grid Layouts Views Distribute Storage Opening.
From Verif.Proofs Require Import ValuesProofs Slices ZarrGeometry ZarrStores.

(** ** opening works: the rest is as on an empty store *)
Section Opens.
Context {V A : Type}.
Variables (size : nat) (ps : nat -> zproc V A) (m : mode) (failed : exc -> A) (d0 : disk V).
Hypothesis opens : dexec (DOpen m) d0 = (AUnit, mkDisk true empty_store).
Hypothesis writable : is_r m = false.
Hypothesis size_pos : (0 < size)%nat.
Let whole r := construct (Z.of_nat r) m failed (ps r).
Let waiting r : sproc (dop V) (zans V) A := SSync false (within false (ps r)).

(** a rank while the monitor is constructed (3: root before opening, 2: before the broadcast, 1: posted) and afterwards (0) *)
Definition stage (r k : nat) (c' : srank (dop V) (zans V) A) (c : srank (zop V) (zans V) A) : Prop :=
  match k with
  | 3%nat => r = 0%nat /\ c' = mkSR (whole r) [] 0 /\ c = mkSR (ps r) [] 0
  | 2%nat => c' = mkSR (waiting r) [] 0 /\ c = mkSR (ps r) [] 0
  | 1%nat => c' = mkSR (waiting r) [false] 0 /\ c = mkSR (ps r) [] 0
  | 0%nat => c' = mkSR (within false (sr_proc c)) (false :: sr_posted c) (S (sr_done c))
  | _ => False
  end.
Definition rel (s' : disk V * list (srank (dop V) (zans V) A)) (s : zstore V * list (srank (zop V) (zans V) A)) (ks : list nat) : Prop :=
  length (snd s') = size /\ length (snd s) = size /\ length ks = size /\
  (forall r c' c k, nth_error (snd s') r = Some c' -> nth_error (snd s) r = Some c -> nth_error ks r = Some k -> stage r k c' c) /\
  (if Nat.eqb (nth 0 ks 0%nat) 3 then fst s' = d0 /\ fst s = empty_store else fst s' = mkDisk true (fst s)) /\
  (forall r k, nth_error ks r = Some k -> k = 0%nat -> (nth 0 ks 0 <= 1)%nat).

Lemma sum_upd (ks : list nat) r k k' : nth_error ks r = Some k -> (list_sum (upd ks r k') + k = list_sum ks + k')%nat.
Proof.
  unfold list_sum. revert r. induction ks as [|x ks IH]; intros [|r] E; cbn [nth_error upd fold_right] in *; try discriminate; [injection E as ->; lia|]. specialize (IH _ E). lia.
Qed.
Lemma nth_upd_0 (ks : list nat) r k : (r < length ks)%nat -> nth 0 (upd ks r k) 0%nat = if Nat.eqb r 0 then k else nth 0 ks 0%nat.
Proof. destruct ks as [|x ks], r; cbn; auto; lia. Qed.

Lemma forallb_related {X Y} (f : X -> bool) (g : Y -> bool) l l' : length l = length l' ->
  (forall i x y, nth_error l i = Some x -> nth_error l' i = Some y -> f x = g y) -> forallb f l = forallb g l'.
Proof.
  revert l'. induction l as [|x l IH]; intros [|y l'] L H; try discriminate; auto. cbn. f_equal; [apply (H 0%nat); reflexivity|]. apply IH; [cbn in L; lia|]. intros i. apply (H (S i)).
Qed.
Lemma posted_related r k c' c n b : stage r k c' c -> posted_call (S n) b c' = posted_call n b c.
Proof.
  destruct k as [|[|[|[|k]]]]; cbn [stage]; try tauto.
  - intros ->. reflexivity.
  - intros [-> ->]. now destruct n.
  - intros [-> ->]. now destruct n.
  - intros (-> & -> & ->). now destruct n.
Qed.
Lemma complete_related s' s ks all n b : rel s' s ks -> may_complete all (S n) b (snd s') = may_complete all n b (snd s).
Proof.
  intros (L1 & L2 & L3 & R & _). destruct s' as [d ranks'], s as [st ranks]. cbn [fst snd] in *. unfold may_complete.
  destruct ranks' as [|c' ranks'], ranks as [|c ranks]; cbn in L1, L2; try lia; auto. destruct ks as [|k ks]; [cbn in L3; lia|].
  assert (H : forall i x y, nth_error (c' :: ranks') i = Some x -> nth_error (c :: ranks) i = Some y -> posted_call (S n) b x = posted_call n b y).
  { intros i x y Hx Hy. destruct (nth_error (k :: ks) i) as [ki|] eqn:E; [eapply posted_related; eauto|]. apply nth_error_None in E. assert (i < length (c :: ranks))%nat by (apply nth_error_Some; congruence). cbn in *. lia. }
  destruct all; [apply forallb_related; cbn; auto; lia|]. exact (H 0%nat _ _ eq_refl eq_refl).
Qed.

Lemma rel_upd d ranks' st ranks ks r c' c k k' d2 st2 c2' c2 : rel (d, ranks') (st, ranks) ks -> nth_error ranks' r = Some c' -> nth_error ranks r = Some c -> nth_error ks r = Some k ->
  stage r k' c2' c2 ->
  (let k0 := if Nat.eqb r 0 then k' else nth 0 ks 0%nat in (if Nat.eqb k0 3 then d2 = d0 /\ st2 = empty_store else d2 = mkDisk true st2) /\
     ((k' = 0 \/ exists j, nth_error ks j = Some 0) -> k0 <= 1))%nat ->
  rel (d2, upd ranks' r c2') (st2, upd ranks r c2) (upd ks r k').
Proof.
  intros (L1 & L2 & L3 & R & S & O) H' H Hk St (S2 & O2). cbn [fst snd] in *. assert (Lr : (r < length ks)%nat) by (apply nth_error_Some; congruence).
  split; [|split; [|split; [|split; [|split]]]]; cbn [fst snd]; rewrite ?length_upd; auto.
  - intros i x y z. rewrite !nth_error_upd. destruct (Nat.eqb_spec r i) as [<-|N].
    + repeat match goal with |- context [Nat.ltb ?a ?b] => destruct (Nat.ltb a b) end; try discriminate. intros [= <-] [= <-] [= <-]. exact St.
    + apply R.
  - rewrite nth_upd_0 by auto. exact S2.
  - intros i x. rewrite nth_upd_0 by auto. rewrite nth_error_upd. destruct (Nat.eqb_spec r i) as [<-|N].
    + destruct (Nat.ltb r (length ks)); [|discriminate]. intros [= <-] ->. apply O2. auto.
    + intros E ->. apply O2. eauto.
Qed.

Definition later (delayed : nat -> nat -> bool) (r n : nat) : bool := delayed r (S n).
Lemma rel_nth s' s ks r c' : rel s' s ks -> nth_error (snd s') r = Some c' -> exists c k, nth_error (snd s) r = Some c /\ nth_error ks r = Some k /\ stage r k c' c.
Proof.
  intros (L1 & L2 & L3 & R & _) H. assert (Lr : (r < size)%nat) by (rewrite <- L1; apply nth_error_Some; congruence).
  destruct (nth_error (snd s) r) as [c|] eqn:E; [|apply nth_error_None in E; lia]. destruct (nth_error ks r) as [k|] eqn:E2; [|apply nth_error_None in E2; lia]. eauto 6.
Qed.
Lemma upd_self {X} (l : list X) r x : nth_error l r = Some x -> upd l r x = l.
Proof. revert r. induction l as [|y l IH]; intros [|r] E; cbn in *; try discriminate; [congruence|]. now rewrite IH. Qed.
Lemma nth0 (ks : list nat) k : nth_error ks 0 = Some k -> nth 0 ks 0%nat = k.
Proof. destruct ks; cbn; congruence. Qed.

Lemma rel_step delayed r s' s ks t' : rel s' s ks -> sstep dexec delayed r s' = Some t' ->
  (exists ks', rel t' s ks' /\ (S (list_sum ks') = list_sum ks)%nat) \/
  (exists t, sstep zexec (later delayed) r s = Some t /\ rel t' t ks).
Proof.
  intros I E. destruct s' as [d ranks'], s as [st ranks]. pose proof I as (L1 & L2 & L3 & R & S & O). cbn [fst snd] in *.
  unfold sstep in E. destruct (nth_error ranks' r) as [c'|] eqn:H'; [|discriminate]. destruct (rel_nth _ _ _ _ _ I H') as (c & k & H & Hk & St). cbn [snd] in H.
  destruct k as [|[|[|[|k]]]]; cbn [stage] in St; try tauto.
  - (* the monitor is in use *)
    right. subst c'. destruct c as [p posted done]. cbn [sr_proc sr_posted sr_done] in E. pose proof (O _ _ Hk eq_refl) as O0.
    assert (S0 : d = mkDisk true st) by (destruct (Nat.eqb_spec (nth 0 ks 0%nat) 3); [lia|exact S]). subst d.
    assert (KU : upd ks r 0%nat = ks) by now apply upd_self.
    assert (RU : forall st2 c2' c2, stage r 0 c2' c2 -> rel (mkDisk true st2, upd ranks' r c2') (st2, upd ranks r c2) ks).
    { intros st2 c2' c2 St. rewrite <- KU. eapply rel_upd; eauto. cbn zeta.
      assert (K0 : (if Nat.eqb r 0 then 0%nat else nth 0 ks 0%nat) = nth 0 ks 0%nat) by (destruct (Nat.eqb_spec r 0); auto; subst; symmetry; now apply nth0).
      rewrite K0. split; auto. destruct (Nat.eqb_spec (nth 0 ks 0%nat) 3); [lia|reflexivity]. }
    unfold sstep. rewrite H. destruct p as [a|o f|b p]; cbn [within] in E; [discriminate| |].
    + cbn [dexec andb d_store d_group] in E. destruct (zexec o st) as [a st2]. injection E as <-. eexists. split; [reflexivity|]. now apply RU.
    + cbn [length] in E. change (Nat.eqb (Datatypes.S (length posted)) (Datatypes.S done)) with (Nat.eqb (length posted) done) in E.
      destruct (Nat.eqb (length posted) done).
      * injection E as <-. eexists. split; [reflexivity|]. now apply RU.
      * pose proof (complete_related _ _ _ (b || delayed r (Datatypes.S done)) done b I) as CR. cbn [snd] in CR. rewrite CR in E. unfold later.
        destruct (may_complete _ _ _ ranks); [|discriminate]. injection E as <-. eexists. split; [reflexivity|]. now apply RU.
  - (* the broadcast completes *)
    left. destruct St as [-> ->]. unfold waiting in E. cbn [length Nat.eqb] in E.
    destruct (may_complete _ _ _ ranks') eqn:C; [|discriminate]. injection E as <-. exists (upd ks r 0%nat). split; [|pose proof (sum_upd ks r 1%nat 0%nat Hk); lia].
    assert (Root : (nth 0 ks 0 <= 1)%nat).
    { unfold may_complete in C. destruct ranks' as [|c0 rest]; [discriminate|]. assert (C0 : posted_call 0 false c0 = true).
      { destruct (false || delayed r 0%nat); [cbn in C; now apply andb_prop in C|exact C]. }
      destruct (rel_nth _ _ _ 0%nat c0 I eq_refl) as (cc & k & _ & Hk0 & St). rewrite (nth0 _ _ Hk0). destruct k as [|[|[|[|k]]]]; cbn [stage] in St; try tauto; try lia.
      - destruct St as [-> _]. discriminate.
      - destruct St as (_ & -> & _). discriminate. }
    rewrite <- (upd_self _ _ _ H). eapply rel_upd; eauto; [reflexivity|]. cbn zeta. split.
    + destruct (Nat.eqb_spec r 0) as [->|N]; [|destruct (Nat.eqb_spec (nth 0 ks 0%nat) 3); [lia|exact S]]. cbn. rewrite (nth0 _ _ Hk) in S. exact S.
    + intros _. destruct (Nat.eqb r 0); lia.
  - left. destruct St as [-> ->]. unfold waiting in E. cbn [length Nat.eqb app] in E. injection E as <-. exists (upd ks r 1%nat). split; [|pose proof (sum_upd ks r 2%nat 1%nat Hk); lia].
    rewrite <- (upd_self _ _ _ H). eapply rel_upd; eauto; [split; reflexivity|]. cbn zeta. split.
    + destruct (Nat.eqb_spec r 0) as [->|N]; auto. cbn. rewrite (nth0 _ _ Hk) in S. exact S.
    + intros [|(j & Hj)]; [discriminate|]. destruct (Nat.eqb r 0); [lia|]. eapply O; eauto.
  - left. destruct St as (-> & -> & ->). unfold whole, construct in E. cbn [Z.of_nat Z.eqb ROOT_RANK] in E. rewrite (nth0 _ _ Hk) in S. destruct S as [-> ->].
    rewrite opens in E. rewrite writable in E. injection E as <-. exists (upd ks 0 2%nat). split; [|pose proof (sum_upd ks 0 3%nat 2%nat Hk); lia].
    rewrite <- (upd_self _ _ _ H). eapply rel_upd; eauto; [split; reflexivity|]. cbn zeta. cbn. split; auto.
    intros [|(j & Hj)]; [discriminate|]. pose proof (O _ _ Hj eq_refl) as O0. rewrite (nth0 _ _ Hk) in O0. lia.
Qed.
Lemma rel_run delayed sched : forall s' s ks t', rel s' s ks -> srun dexec delayed sched s' = Some t' ->
  exists sched' t ks', srun zexec (later delayed) sched' s = Some t /\ rel t' t ks' /\ (length sched + list_sum ks' = length sched' + list_sum ks)%nat.
Proof.
  induction sched as [|r sched IH]; intros s' s ks t' I E; cbn [srun] in E.
  - injection E as <-. exists [], s, ks. auto.
  - destruct (sstep dexec delayed r s') as [u'|] eqn:St; [|discriminate]. destruct (rel_step _ _ _ _ _ _ I St) as [(ks1 & I1 & L1)|(t1 & S1 & I1)].
    + destruct (IH _ _ _ _ I1 E) as (sched' & t & ks' & R & I2 & L2). exists sched', t, ks'. (split; [auto|split; [auto|cbn [length]; lia]]).
    + destruct (IH _ _ _ _ I1 E) as (sched' & t & ks' & R & I2 & L2). exists (r :: sched'), t, ks'. cbn [srun]. rewrite S1. (split; [auto|split; [auto|cbn [length]; lia]]).
Qed.

Lemma rel_result s' s ks r c' c : rel s' s ks -> nth_error (snd s') r = Some c' -> nth_error (snd s) r = Some c -> nth_error ks r = Some 0%nat -> result_of c' = result_of c.
Proof.
  intros (_ & _ & _ & R & _) H' H K. pose proof (R _ _ _ _ H' H K) as St. cbn in St. subst c'. destruct c as [[| |] ? ?]; reflexivity.
Qed.
Lemma rel_back delayed s' s ks r t : rel s' s ks -> nth_error ks r = Some 0%nat -> sstep zexec (later delayed) r s = Some t -> exists t', sstep dexec delayed r s' = Some t'.
Proof.
  intros I K E. pose proof I as (L1 & L2 & L3 & R & S & O). destruct s' as [d ranks'], s as [st ranks]. cbn [fst snd] in *. unfold sstep in E.
  destruct (nth_error ranks r) as [c|] eqn:H; [|discriminate]. destruct (nth_error ranks' r) as [c'|] eqn:H'; [|apply nth_error_None in H'; assert (r < length ranks)%nat by (apply nth_error_Some; congruence); lia].
  pose proof (R _ _ _ _ H' H K) as St. cbn in St. subst c'. unfold sstep. rewrite H'. destruct c as [[a|o f|b p] posted done]; cbn [sr_proc sr_posted sr_done within]; [discriminate| |].
  - cbn [dexec andb]. destruct (zexec o (d_store d)). eauto.
  - cbn [length]. change (Nat.eqb (Datatypes.S (length posted)) (Datatypes.S done)) with (Nat.eqb (length posted) done). destruct (Nat.eqb (length posted) done); [eauto|].
    pose proof (complete_related _ _ _ (b || delayed r (Datatypes.S done)) done b I) as CR. cbn [snd] in CR. rewrite CR. unfold later in E. destruct (may_complete _ _ _ ranks); [eauto|discriminate].
Qed.

(** while monitors are being constructed there is always something to do *)
Lemma rel_progress delayed s' s ks : rel s' s ks -> (forall r, (r < size)%nat -> nth_error ks r = Some 0%nat) \/ exists r t', sstep dexec delayed r s' = Some t'.
Proof.
  intros I. pose proof I as (L1 & L2 & L3 & R & S & O). destruct s' as [d ranks'], s as [st ranks]. cbn [fst snd] in *.
  assert (At : forall r k, nth_error ks r = Some k -> exists c' c, nth_error ranks' r = Some c' /\ nth_error ranks r = Some c /\ stage r k c' c).
  { intros r k K. assert (Lr : (r < length ks)%nat) by (apply nth_error_Some; congruence). destruct (nth_error ranks' r) as [c'|] eqn:E; [|apply nth_error_None in E; lia].
    destruct (nth_error ranks r) as [c|] eqn:E2; [|apply nth_error_None in E2; lia]. eauto 6. }
  destruct (nth_error ks 0) as [k0|] eqn:K0; [|apply nth_error_None in K0; lia].
  destruct (existsb (Nat.leb 2) ks) eqn:X.
  - right. apply existsb_exists in X. destruct X as (k & Ik & Lk). apply In_nth_error in Ik. destruct Ik as (r & Hk). apply Nat.leb_le in Lk.
    destruct (At _ _ Hk) as (c' & c & H' & H & St). exists r. unfold sstep. rewrite H'. destruct k as [|[|[|[|k]]]]; cbn [stage] in St; try tauto; try lia.
    + destruct St as [-> _]. unfold waiting. cbn. eauto.
    + destruct St as (-> & -> & _). unfold whole, construct. cbn [Z.of_nat Z.eqb ROOT_RANK]. destruct (dexec (DOpen m) d). eauto.
  - assert (Low : forall r k, nth_error ks r = Some k -> (k <= 1)%nat).
    { intros r k Hk. apply nth_error_In in Hk. destruct (Nat.leb_spec 2 k); [|lia]. assert (existsb (Nat.leb 2) ks = true) by (apply existsb_exists; exists k; split; auto; now apply Nat.leb_le). congruence. }
    destruct (existsb (Nat.eqb 1) ks) eqn:Y.
    + right. apply existsb_exists in Y. destruct Y as (k & Ik & Lk). apply In_nth_error in Ik. destruct Ik as (r & Hk). apply Nat.eqb_eq in Lk. subst k.
      destruct (At _ _ Hk) as (c' & c & H' & H & [-> ->]). exists r. unfold sstep. rewrite H'. unfold waiting. cbn [length Nat.eqb].
      assert (All : forall i x, nth_error ranks' i = Some x -> posted_call 0 false x = true).
      { intros i x Hx. destruct (rel_nth _ _ _ _ _ I Hx) as (y & k & _ & Hk2 & St). pose proof (Low _ _ Hk2). destruct k as [|[|k]]; [| |lia]; cbn in St.
        - subst x. reflexivity.
        - destruct St as [-> _]. reflexivity. }
      assert (C : may_complete (false || delayed r 0%nat) 0 false ranks' = true).
      { unfold may_complete. destruct ranks' as [|c0 rest]; [destruct r; discriminate|]. destruct (false || delayed r 0%nat).
        - apply forallb_forall. intros x Ix. apply In_nth_error in Ix. destruct Ix as (i & Hx). eauto.
        - apply (All 0%nat). reflexivity. }
      rewrite C. eauto.
    + left. intros r Lr. destruct (nth_error ks r) as [k|] eqn:Hk; [|apply nth_error_None in Hk; lia]. pose proof (Low _ _ Hk). destruct k as [|k]; auto. assert (k = 0)%nat by lia. subst k.
      apply nth_error_In in Hk. assert (existsb (Nat.eqb 1) ks = true) by (apply existsb_exists; exists 1%nat; auto). congruence.
Qed.

Definition ks0 : list nat := map (fun r => if Nat.eqb r 0 then 3%nat else 2%nat) (seq 0 size).
Lemma rel_start : rel (d0, sstart size whole) (empty_store, sstart size ps) ks0.
Proof.
  unfold sstart, ks0. assert (Nth : forall B (f : nat -> B) r x, nth_error (map f (seq 0 size)) r = Some x -> x = f r).
    { intros B0 f r x H. assert (r < size)%nat. { rewrite <- (seq_length size 0), <- (map_length f). apply nth_error_Some. congruence. }
      rewrite (map_nth_error f r (seq 0 size) (d := r)) in H; [congruence|]. rewrite (nth_error_nth' _ 0%nat) by (now rewrite seq_length). now rewrite seq_nth. }
    split; [|split; [|split; [|split; [|split]]]]; cbn [fst snd]; rewrite ?map_length, ?seq_length; auto.
    - intros r c' c k Hc' Hc Hk. apply Nth in Hc', Hc, Hk. subst. destruct (Nat.eqb_spec r 0) as [->|N]; cbn [stage]; auto. split; auto. unfold whole, construct, waiting. rewrite writable.
      destruct (Z.eqb_spec (Z.of_nat r) ROOT_RANK) as [X|X]; [unfold ROOT_RANK in X; lia|reflexivity].
    - destruct size; [lia|]. cbn. auto.
    - intros r k Hk ->. apply Nth in Hk. destruct (Nat.eqb r 0); discriminate.
Qed.
Theorem opened_ends Final : ends_with zexec size ps empty_store Final ->
  ends_with dexec size whole d0 (fun d out => d_group d = true /\ Final (d_store d) out).
Proof.
  intros (bound & B). exists (bound + list_sum ks0)%nat. intros delayed sched d ranks' E.
  pose proof rel_start as I0.
  destruct (rel_run _ _ _ _ _ _ I0 E) as (sched' & [st ranks] & ks & E' & I & L). destruct (B _ _ _ _ E') as (LB & P). split; [lia|].
  destruct (rel_progress delayed _ _ _ I) as [Z|Step]; [|now right]. pose proof I as (L1 & L2 & L3 & _ & S & O). cbn [fst snd] in *. destruct P as [(out & Ends & F)|(r & t & St)].
  - left. exists out. split.
    + intros r Lr. destruct (Ends r Lr) as (c & Hc & Rc). destruct (nth_error ranks' r) as [c'|] eqn:H'; [|apply nth_error_None in H'; lia]. exists c'. split; auto.
      rewrite <- Rc. eapply (rel_result (d, ranks') (st, ranks)); eauto.
    + pose proof (Z 0%nat size_pos) as Z0. rewrite (nth0 _ _ Z0) in S. cbn in S. subst d. auto.
  - right. destruct (nth_error ranks r) as [c|] eqn:Hc; [|unfold sstep in St; now rewrite Hc in St]. assert (Lr : (r < size)%nat) by (rewrite <- L2; apply nth_error_Some; congruence).
    destruct (rel_back _ _ _ _ _ _ I (Z r Lr) St) as (t' & E2). eauto.
Qed.
End Opens.

(** ** counting calls: a root which makes at most so many calls, and ranks which wait for more *)
Section Counting.
Context {St Op Ans A : Type}.
Variable exec : Op -> St -> Ans * St.
Variable Inv : St -> Prop.
Definition preserves (o : Op) : Prop := forall s, Inv s -> Inv (snd (exec o s)).
Definition may (o : Op) (a : Ans) : Prop := exists s, Inv s /\ fst (exec o s) = a.

(** the program makes at most [j] calls, or (if [waits]) gets no further than waiting for call [j + 1]; when it returns with [j'] calls left, [R] holds *)
Inductive down {B} (waits : bool) (R : nat -> B -> Prop) : nat -> sproc Op Ans B -> Prop :=
| d_ret j a : R j a -> down waits R j (SRet a)
| d_do j o k : preserves o -> (forall a, may o a -> down waits R j (k a)) -> down waits R j (SDo o k)
| d_wait b p : waits = true -> down waits R 0 (SSync b p)
| d_sync j b p : down waits R j p -> down waits R (S j) (SSync b p).

Lemma down_bind {B C} waits (R : nat -> B -> Prop) (R' : nat -> C -> Prop) j p f :
  down waits R j p -> (forall j a, R j a -> down waits R' j (f a)) -> down waits R' j (sbind p f).
Proof. intros D F. induction D; cbn [sbind]; [auto|constructor; auto..]. Qed.
Lemma down_impl {B} waits (R R' : nat -> B -> Prop) j p : down waits R j p -> (forall j a, R j a -> R' j a) -> down waits R' j p.
Proof. intros D F. induction D; constructor; auto. Qed.

Variables (size : nat) (ps : nat -> sproc Op Ans A) (K : nat) (R : nat -> A -> Prop).
Hypothesis root : down false (fun _ => R 0) K (ps 0).
Hypothesis others : forall r, (0 < r < size)%nat -> down true (fun _ => R r) K (ps r).

Definition counted (r : nat) (c : srank Op Ans A) : Prop :=
  exists j, down (negb (Nat.eqb r 0)) (fun _ => R r) j (sr_proc c) /\ (sr_done c + j = K)%nat /\
    (length (sr_posted c) = sr_done c \/ length (sr_posted c) = S (sr_done c) /\ exists b p, sr_proc c = SSync b p).
Definition all_counted (s : St * list (srank Op Ans A)) : Prop := Inv (fst s) /\ length (snd s) = size /\ forall r c, nth_error (snd s) r = Some c -> counted r c.

Lemma root_posted c n b : counted 0 c -> posted_call n b c = true -> (n < K)%nat.
Proof.
  intros (j & D & E & L) P. unfold posted_call in P. destruct (nth_error (sr_posted c) n) eqn:N; [|discriminate]. assert (Ln : (n < length (sr_posted c))%nat) by (apply nth_error_Some; congruence).
  destruct L as [L|(L & b' & p & Ep)]; [lia|]. rewrite Ep in D. cbn in D. inversion D; subst; [discriminate|lia].
Qed.
Lemma counted_step delayed r s s' : all_counted s -> sstep exec delayed r s = Some s' -> all_counted s'.
Proof.
  intros (I & Len & C) E. destruct s as [st ranks]. cbn [fst snd] in *. unfold sstep in E. destruct (nth_error ranks r) as [c|] eqn:H; [|discriminate].
  assert (Upd : forall st' c', Inv st' -> counted r c' -> all_counted (st', upd ranks r c')).
  { intros st' c' I' C'. split; [exact I'|]. cbn [snd]. rewrite length_upd. split; [exact Len|]. intros i x. rewrite nth_error_upd. destruct (Nat.eqb_spec r i) as [<-|N]; [|apply C].
    destruct (Nat.ltb r (length ranks)); [|discriminate]. now intros [= <-]. }
  destruct (C _ _ H) as (j & D & Ej & L). destruct c as [[a|o k|b p] posted done]; cbn [sr_proc sr_posted sr_done] in *; [discriminate| |].
  - destruct (exec o st) as [a st'] eqn:X. injection E as <-. inversion D; subst. apply Upd.
    + match goal with H : preserves o |- _ => specialize (H st I); rewrite X in H; exact H end.
    + exists j. cbn. split; [|split; [auto|]].
      * match goal with H : forall a, may o a -> _ |- _ => apply H end. exists st. rewrite X. auto.
      * destruct L as [L|(L & b & p & Ep)]; [now left|discriminate].
  - destruct (Nat.eqb_spec (length posted) done) as [Ep|Ep].
    + injection E as <-. apply Upd; auto. exists j. cbn. split; [auto|split; [auto|]]. right. rewrite app_length. cbn. split; [lia|eauto].
    + destruct (may_complete _ _ _ _) eqn:MC; [|discriminate]. injection E as <-. apply Upd; auto.
      assert (Lt : (done < K)%nat).
      { unfold may_complete in MC. destruct ranks as [|c0 rest]; [discriminate|]. apply (root_posted c0 done b); [now apply C|].
        destruct (b || delayed r done); [cbn in MC; now apply andb_prop in MC|exact MC]. }
      inversion D; subst; [lia|]. exists j0. cbn. split; [auto|split; [lia|]]. left. destruct L as [L|(L & _)]; lia.
Qed.
Lemma counted_run delayed sched : forall s s', all_counted s -> srun exec delayed sched s = Some s' -> all_counted s'.
Proof.
  induction sched as [|r sched IH]; intros s s' I E; cbn [srun] in E; [now injection E as <-|].
  destruct (sstep exec delayed r s) as [u|] eqn:S; [|discriminate]. apply (IH u s'); [exact (counted_step _ _ _ _ I S)|exact E].
Qed.
Theorem never_more delayed sched init s : Inv init -> srun exec delayed sched (init, sstart size ps) = Some s ->
  Inv (fst s) /\ forall r c a, nth_error (snd s) r = Some c -> result_of c = Some a -> R r a.
Proof.
  intros I E. assert (C : all_counted s).
  { eapply counted_run; [|exact E]. split; [exact I|]. cbn [snd]. unfold sstart. rewrite map_length, seq_length. split; auto. intros r c H.
    assert (Lr : (r < size)%nat) by (rewrite <- (seq_length size 0), <- (map_length (fun r => mkSR (ps r) [] 0)); apply nth_error_Some; congruence).
    rewrite (map_nth_error _ r (seq 0 size) (d := r)) in H; [|rewrite (nth_error_nth' _ 0%nat) by (now rewrite seq_length); now rewrite seq_nth]. injection H as <-.
    exists K. cbn. split; [|auto]. destruct (Nat.eqb_spec r 0) as [->|N]; [exact root|apply others; lia]. }
  split; [apply C|]. intros r c a H Ra. destruct C as (_ & _ & C). destruct (C _ _ H) as (j & D & _). unfold result_of in Ra. destruct (sr_proc c) as [x|o k|b p]; try discriminate. injection Ra as ->. now inversion D.
Qed.
End Counting.

(** ** monitors whose arrays exist already *)
Section Existing.
Context {V Time : Type}.
Variable junk : list Z -> V.
Variables (calendar_of text_of : Time -> string) (encode : Time -> Time -> V).
Variable layout : layout_t.
Variable x : string.
Notation append := (append V Time junk layout).
Notation append_time := (append_time V Time junk calendar_of text_of encode).
Notation append_all := (append_all V Time junk calendar_of text_of encode layout).
Notation store := (store V Time junk calendar_of text_of encode layout).
Notation store_all := (store_all V Time junk calendar_of text_of encode layout).
Notation value := (value V Time).

Definition exists_ (st : zstore V) : Prop := s_meta st x <> None.
Notation zdown := (down zexec exists_).
Lemma keeps o : preserves zexec exists_ o.
Proof.
  intros s H. unfold exists_ in *. destruct o as [n z|n a|n sh|n|n c|n c d]; cbn [zexec]; auto.
  - destruct (s_meta s n) eqn:E; auto. cbn. unfold set_meta. destruct (String.eqb_spec x n); congruence.
  - destruct (s_meta s n) eqn:E; auto. cbn. unfold set_meta. destruct (String.eqb_spec x n); congruence.
  - destruct (s_meta s n) as [z|] eqn:E; auto. destruct (Nat.eqb _ _); auto. cbn. unfold set_meta. destruct (String.eqb_spec x n); congruence.
Qed.

(** what is left of the calls if the result is not an exception *)
Definition unless_error {B} (j : nat) (j' : nat) (a : B * res unit) : Prop := match snd a with Ok _ => j' = j | Err _ => True end.
Lemma write_down name ints chunks region v cs waits (R : nat -> unit -> Prop) j : R j tt -> zdown waits R j (write_chunks V junk name ints chunks region v cs).
Proof. intros H. induction cs as [|c cs IH]; cbn [write_chunks]; [now constructor|]. apply d_do; [apply keeps|intros a _]. apply d_do; [apply keeps|intros b _]. exact IH. Qed.
Lemma set_down name z ints box v p waits (R : nat -> unit -> Prop) j : zarr_set V junk name z ints box v = Ok p -> R j tt -> zdown waits R j p.
Proof.
  unfold zarr_set. destruct (forallb _ _); [|discriminate]. destruct (norm_slices _ _); [|discriminate]. cbn [bind]. destruct (idx_eqb _ _); [|discriminate]. intros [= <-]. apply write_down.
Qed.
Lemma sync_down {B} rank name array waits (R : nat -> B -> Prop) j k : (forall array, zdown waits R j (k array)) -> zdown waits R (S j) (sync_array V rank name array k).
Proof. intros H. unfold sync_array. apply d_sync. destruct (rank =? ROOT_RANK); auto. apply d_do; [apply keeps|auto]. Qed.
Lemma init_down rank name (w : writer Time) shape chunks attrs waits j : zdown waits (unless_error j) (S j) (init_zarr V Time rank name w shape chunks attrs).
Proof.
  unfold init_zarr. destruct (rank =? ROOT_RANK).
  - apply d_do; [apply keeps|]. intros a _. destruct a; try (now constructor); (apply d_do; [apply keeps|intros _ _; apply sync_down; intros; now constructor]).
  - apply sync_down. intros. now constructor.
Qed.
Lemma resize_down rank name (w : writer Time) z shape compatible k waits j j' : (forall w, zdown waits (unless_error j) j' (k w)) -> zdown waits (unless_error j) j' (resize V Time rank name w z shape compatible k).
Proof.
  intros H. unfold resize. destruct (_ && _); auto. apply d_do; [apply keeps|]. intros a _. destruct a; try (now constructor); (destruct compatible; [apply H|now constructor]).
Qed.
Lemma append_down rank name w q waits j : w_array w = None -> zdown waits (unless_error j) (S (S j)) (append rank name w q).
Proof.
  intros N. unfold Zarr.append. rewrite N. eapply down_bind; [apply init_down|]. intros j' [w' [[]|e]] H; [|now constructor]. cbn in H. subst j'.
  destruct (w_array w') as [z|]; [|now constructor]. apply resize_down. intros w2. apply sync_down. intros [z2|]; [|now constructor].
  destruct (do tile <- _; _) as [p|e] eqn:E; [|now constructor].
  destruct (tile_index layout rank); [|discriminate]. cbn [bind] in E. destruct (subtile_slice _ _ _ _ _); [|discriminate]. cbn [bind] in E.
  destruct (view_get _ _); [|discriminate]. cbn [bind] in E. destruct (v_index _ _); [|discriminate]. cbn [bind] in E.
  eapply down_bind; [eapply (set_down _ _ _ _ _ _ _ (fun j' _ => j' = j)); [exact E|reflexivity]|]. intros j' u ->. now constructor.
Qed.
Lemma append_time_down rank name w t waits j : w_array w = None -> zdown waits (unless_error j) (S (S (S j))) (append_time rank name w t).
Proof.
  intros N. unfold Zarr.append_time. rewrite N. eapply (down_bind _ _ _ (unless_error (S (S j)))).
  - eapply down_bind; [apply init_down|]. intros j' [w' [[]|e]] H; [|now constructor]. cbn in H. subst j'. cbn [w_array].
    destruct (w_array w') as [z|]; [|now constructor]. destruct (rank =? ROOT_RANK); [|now constructor]. apply d_do; [apply keeps|]. intros. now constructor.
  - intros j' [w' [[]|e]] H; [|now constructor]. cbn in H. subst j'. destruct (w_array w') as [z|]; [|now constructor]. destruct (w_since w') as [since|]; [|now constructor].
    apply resize_down. intros w2. apply sync_down. intros [z2|]; [|now constructor]. cbn zeta. destruct (rank =? ROOT_RANK); [|apply d_sync; now constructor].
    destruct (String.eqb _ _); [|now constructor]. destruct (zarr_set _ _ _ _ _ _ _) as [p|e] eqn:E; [|now constructor].
    eapply down_bind; [eapply (set_down _ _ _ _ _ _ _ (fun j' _ => j' = S j)); [exact E|reflexivity]|]. intros j' u ->. apply d_sync. now constructor.
Qed.

(** the array which exists *)
Lemma create_down rank (w : writer Time) shape chunks attrs : zdown (negb (rank =? ROOT_RANK)) (fun _ a => snd a = Err ValueError) 0 (init_zarr V Time rank x w shape chunks attrs).
Proof.
  unfold init_zarr. destruct (rank =? ROOT_RANK); [|now constructor]. apply d_do; [apply keeps|]. intros a (s & H & <-). unfold exists_ in H. cbn [zexec]. destruct (s_meta s x); [|tauto]. now constructor.
Qed.
Definition failed_ {B} (_ : nat) (a : B * res unit) : Prop := exists e, snd a = Err e.
Definition wrong_ {B} (_ : nat) (a : B * res unit) : Prop := snd a = Err ValueError.
Lemma exists_down rank w v : w_array w = None ->
  zdown (negb (rank =? ROOT_RANK)) wrong_ 0 (match v : value with VQuantity _ _ q => append rank x w q | VTime _ _ t => append_time rank x w t end).
Proof.
  intros N. destruct v as [q|t].
  - unfold Zarr.append. rewrite N. eapply down_bind; [apply create_down|]. intros j [w' r] E. cbn in E. subst r. now constructor.
  - unfold Zarr.append_time. rewrite N. eapply (down_bind _ _ _ wrong_).
    + eapply down_bind; [apply create_down|]. intros j [w' r] E. cbn in E. subst r. now constructor.
    + intros j [w' r] E. unfold wrong_ in E. cbn in E. subst r. now constructor.
Qed.
Definition cost (l : dict value) : nat := list_sum (map (fun nv => match snd nv with VQuantity _ _ _ => 2 | VTime _ _ _ => 3 end)%nat l).
Lemma all_down rank l1 v l2 : forall ws, NoDup (dkeys (l1 ++ (x, v) :: l2)) -> (forall n, In n (dkeys (l1 ++ (x, v) :: l2)) -> exists w, dget n ws = Some w /\ w_array w = None) ->
  zdown (negb (rank =? ROOT_RANK)) failed_ (cost l1) (append_all rank ws (l1 ++ (x, v) :: l2)).
Proof.
  induction l1 as [|[n u] l1 IH]; intros ws ND H.
  - cbn [app Zarr.append_all]. destruct (H x) as (w & E & N); [now left|]. rewrite E. eapply down_bind; [now apply exists_down|]. intros j [w' r] ->. cbn [snd]. constructor. eexists. reflexivity.
  - cbn [app Zarr.append_all dkeys map fst] in *. destruct (H n) as (w & E & N); [now left|]. rewrite E. inversion_clear ND as [|? ? NI ND'].
    eapply (down_bind _ _ _ (unless_error (cost l1))).
    + destruct u as [q|t]; [now apply (append_down rank n w q)|now apply (append_time_down rank n w t)].
    + intros j [w' [[]|e]] Hj; [|constructor; eexists; reflexivity]. cbn in Hj. subst j. apply IH; auto.
      intros n' I. rewrite dget_dset. destruct (String.eqb_spec n' n) as [->|]; [contradiction|]. apply H. now right.
Qed.

Lemma items_names (s : state V Time) : dkeys (items V Time s) = names_of s.
Proof. unfold items, names_of, dkeys. rewrite map_app, map_map. cbn. destruct (st_time s); reflexivity. Qed.
Lemma new_writers names n : In n names -> dget n (init_writers Time names) = Some (new_writer Time).
Proof.
  intros I. unfold init_writers. induction names as [|m names IH]; [destruct I|]. cbn [filter]. destruct (String.eqb_spec m "time") as [->|N]; cbn [negb].
  - destruct I as [<-|I]; auto. clear IH. induction names as [|m names IH]; [reflexivity|]. cbn [filter]. destruct (String.eqb_spec m "time") as [->|N2]; cbn [negb map app dget]; auto.
    destruct (String.eqb_spec "time" m); [congruence|]. exact IH.
  - cbn [map app dget]. destruct (String.eqb_spec n m) as [->|]; auto. destruct I as [->|I]; [tauto|auto].
Qed.
Lemma sorted_keys (l : dict value) n : In n (dkeys (sorted l)) <-> In n (dkeys l).
Proof. unfold dkeys. now rewrite sorted_perm. Qed.

Lemma first_root s rest n v l : sorted (items V Time s) = (n, v) :: l ->
  exists z f, store_all 0 None (s :: rest) = SDo (OCreate n z) f /\ forall e, exists mo, f (ARaised e) = SRet (mo, Err e).
Proof.
  intros E. assert (W : dget n (init_writers Time (dkeys (items V Time s))) = Some (new_writer Time)) by (apply new_writers; apply sorted_keys; rewrite E; now left).
  cbn [Zarr.store_all Zarr.store]. rewrite E. cbn [Zarr.append_all]. rewrite W. destruct v as [q|t]; eexists _, _; (split; [reflexivity|]); intros e; eexists; reflexivity.
Qed.
Lemma first_other rank s rest : rank <> 0 -> names_of s <> [] -> exists p, store_all rank None (s :: rest) = SSync false p.
Proof.
  intros N E. rewrite <- items_names in E. destruct (sorted (items V Time s)) as [|[n v] l] eqn:S.
  - destruct (dkeys (items V Time s)) as [|n k] eqn:D; [tauto|]. assert (I : In n (dkeys (sorted (items V Time s)))) by (apply sorted_keys; rewrite D; now left). rewrite S in I. destruct I.
  - assert (W : dget n (init_writers Time (dkeys (items V Time s))) = Some (new_writer Time)) by (apply new_writers; apply sorted_keys; rewrite S; now left).
    cbn [Zarr.store_all Zarr.store]. rewrite S. cbn [Zarr.append_all]. rewrite W. assert (R : (rank =? ROOT_RANK) = false) by (now apply Z.eqb_neq).
    destruct v as [q|t]; [unfold Zarr.append, init_zarr|unfold Zarr.append_time, init_zarr]; cbn [new_writer w_array]; rewrite R; cbn [sync_array sbind]; eexists; reflexivity.
Qed.

(** ** from arrays to the disk *)
Variables (m : mode) (d0 : disk V).
Definition on_disk (P : zstore V -> Prop) (d : disk V) : Prop := d_group d = true /\ P (d_store d).
Lemma within_down {B} waits (R : nat -> B -> Prop) j (p : zproc V B) : zdown waits R j p -> down dexec (on_disk exists_) waits R j (within false p).
Proof.
  intros D. induction D; cbn [within]; try (constructor; auto; fail). apply d_do.
  - intros d (G & E). specialize (H (d_store d) E). cbn [dexec andb]. destruct (zexec o (d_store d)) as [a s]. split; auto.
  - intros a (d & (G & E) & <-). apply H1. exists (d_store d). split; auto. cbn [dexec andb]. now destruct (zexec o (d_store d)).
Qed.
Lemma cost_names (s : state V Time) l : ~ In "time"%string (dkeys (st_vars s)) -> incl l (items V Time s) ->
  cost l = list_sum (map (fun n => if String.eqb n "time" then 3 else 2)%nat (dkeys l)).
Proof.
  intros N I. unfold cost, dkeys. rewrite map_map. f_equal. apply map_ext_in. intros [n v] In. apply I in In. cbn [fst snd]. unfold items in In. apply in_app_or in In. destruct In as [In|In].
  - apply in_map_iff in In. destruct In as ([n' q] & [= <- <-] & In). destruct (String.eqb_spec n' "time") as [->|]; auto. contradict N. now apply (in_map fst) in In.
  - destruct (st_time s); [destruct In as [[= <- <-]|[]]; reflexivity|destruct In].
Qed.

Definition use_of (first : nat -> state V Time) (rest : nat -> list (state V Time)) (r : nat) : dproc V (monitor Time * res unit) :=
  construct (Z.of_nat r) m (fun e => (None, Err e)) (store_all (Z.of_nat r) None (first r :: rest r)).

Theorem existing size first rest delayed sched s : (0 < size)%nat -> m = ModeA \/ m = ModeRPlus -> d_group d0 = true -> exists_ (d_store d0) -> In x (names_of (first 0%nat)) ->
  (forall r, (r < size)%nat -> NoDup (names_of (first r)) /\ ~ In "time"%string (dkeys (st_vars (first r))) /\ Permutation (names_of (first r)) (names_of (first 0%nat))) ->
  srun dexec delayed sched (d0, sstart size (use_of first rest)) = Some s ->
  forall r c a, nth_error (snd s) r = Some c -> result_of c = Some a -> exists e, snd a = Err e.
Proof.
  intros Pos M G Ex Ix Sm Run.
  assert (K0 : exists k1 k2, dkeys (sorted (items V Time (first 0%nat))) = k1 ++ x :: k2) by (apply in_split; apply sorted_keys; now rewrite items_names).
  destruct K0 as (k1 & k2 & K0). pose (K := S (list_sum (map (fun n => if String.eqb n "time" then 3 else 2)%nat k1))).
  assert (All : forall r, (r < size)%nat -> zdown (negb (Z.of_nat r =? ROOT_RANK)) failed_ (list_sum (map (fun n => if String.eqb n "time" then 3 else 2)%nat k1)) (store_all (Z.of_nat r) None (first r :: rest r))).
  { intros r Lr. destruct (Sm r Lr) as (ND & NT & P). destruct (Sm 0%nat) as (ND0 & _); [lia|].
    assert (Kr : dkeys (sorted (items V Time (first r))) = k1 ++ x :: k2).
    { rewrite <- K0. apply sorted_unique; try (apply sorted_sorted; rewrite items_names; auto). unfold dkeys. rewrite !sorted_perm. fold (dkeys (items V Time (first r))). fold (dkeys (items V Time (first 0%nat))). now rewrite !items_names. }
    unfold dkeys in Kr. apply map_eq_app in Kr. destruct Kr as (l1 & l2' & El & E1 & E2). apply map_eq_cons in E2. destruct E2 as ([x' v] & l2 & -> & Ex' & E2). cbn in Ex'. subst x'.
    cbn [Zarr.store_all Zarr.store]. rewrite El. eapply (down_bind _ _ _ failed_); [eapply (down_bind _ _ _ failed_)|].
    - replace (list_sum _) with (cost l1).
      + apply all_down.
        * rewrite <- El. unfold dkeys. rewrite sorted_perm. fold (dkeys (items V Time (first r))). now rewrite items_names.
        * intros n In. exists (new_writer Time). split; [|reflexivity]. apply new_writers. rewrite <- El in In. exact (proj1 (sorted_keys _ _) In).
      + rewrite (cost_names (first r)); auto; [unfold dkeys; now rewrite E1|]. intros y Iy. apply (Permutation_in _ (sorted_perm (items V Time (first r)))). rewrite El. apply in_or_app. now left.
    - intros j a (e & E). constructor. exists e. exact E.
    - intros j [mo rr] (e & E). cbn in E. subst rr. constructor. now exists e. }
  destruct (never_more dexec (on_disk exists_) size (use_of first rest) K (fun _ a => exists e, snd a = Err e)) with (delayed := delayed) (sched := sched) (init := d0) (s := s) as (_ & Res); auto.
  - unfold use_of, construct. cbn [Z.of_nat Z.eqb ROOT_RANK]. apply d_do.
    + intros d (Gd & E). destruct M as [->| ->]; cbn [dexec]; [split; auto|]. now rewrite Gd.
    + intros a (d & (Gd & E) & <-). assert (A : fst (dexec (DOpen m) d) = AUnit) by (destruct M as [->| ->]; cbn [dexec]; auto; now rewrite Gd). rewrite A. apply d_sync. replace (is_r m) with false by (destruct M as [->| ->]; reflexivity).
      apply within_down. exact (All 0%nat ltac:(lia)).
  - intros r Lr. unfold use_of, construct. destruct (Z.eqb_spec (Z.of_nat r) ROOT_RANK) as [X|X]; [unfold ROOT_RANK in X; lia|]. apply d_sync. replace (is_r m) with false by (destruct M as [->| ->]; reflexivity).
    apply within_down. specialize (All r ltac:(lia)). destruct (Z.eqb_spec (Z.of_nat r) ROOT_RANK); [contradiction|]. exact All.
  - split; auto.
Qed.

(** the root cannot create its first array: it raises, the others wait for ever *)
Lemma first_fails (Inv : disk V -> Prop) size first rest e n v l delayed sched s : (0 < size)%nat ->
  (forall d, Inv d -> exists d', dexec (DOpen m) d = (AUnit, d') /\ Inv d') ->
  sorted (items V Time (first 0%nat)) = (n, v) :: l -> (forall r, (0 < r < size)%nat -> names_of (first r) <> []) ->
  (forall d z, Inv d -> dexec (DArray (is_r m) (OCreate n z)) d = (ARaised e, d)) -> Inv d0 ->
  srun dexec delayed sched (d0, sstart size (use_of first rest)) = Some s ->
  Inv (fst s) /\ forall r c a, nth_error (snd s) r = Some c -> result_of c = Some a -> r = 0%nat /\ snd a = Err e.
Proof.
  intros Pos Op Srt NE Cr I0 Run.
  apply (never_more dexec Inv size (use_of first rest) 1 (fun r a => r = 0%nat /\ snd a = Err e)) with (delayed := delayed) (sched := sched) (init := d0); auto.
  - unfold use_of, construct. cbn [Z.of_nat Z.eqb ROOT_RANK]. apply d_do.
    + intros d I. destruct (Op d I) as (d' & -> & I'). exact I'.
    + intros a (d & I & <-). destruct (Op d I) as (d' & -> & I'). cbn [fst]. apply d_sync. destruct (first_root (first 0%nat) (rest 0%nat) n v l Srt) as (z & f & -> & F). cbn [within]. apply d_do.
      * intros d2 I2. rewrite (Cr d2 z I2). exact I2.
      * intros a (d2 & I2 & <-). rewrite (Cr d2 z I2). cbn [fst]. destruct (F e) as (mo & ->). cbn [within]. constructor. auto.
  - intros r Lr. unfold use_of, construct. destruct (Z.eqb_spec (Z.of_nat r) ROOT_RANK) as [X|X]; [unfold ROOT_RANK in X; lia|]. apply d_sync.
    destruct (first_other (Z.of_nat r) (first r) (rest r) X (NE r Lr)) as (p & ->). cbn [within]. now constructor.
Qed.
Lemma sorted_least (l : dict value) n : In n (dkeys l) -> NoDup (dkeys l) -> (forall n', In n' (dkeys l) -> String.compare n n' <> Gt) -> exists v l', sorted l = (n, v) :: l'.
Proof.
  intros I ND Least. pose proof (sorted_sorted l ND) as SS. apply sorted_keys in I. destruct (sorted l) as [|[n' v] l'] eqn:E; [destruct I|]. cbn in I, SS.
  destruct I as [<-|I]; [eauto|]. exfalso. inversion_clear SS as [|? ? _ F]. rewrite Forall_forall in F. specialize (F n I). unfold slt in F.
  apply (Least n'); [apply sorted_keys; rewrite E; now left|]. rewrite String.compare_antisym. now rewrite F.
Qed.
Theorem existing_first size first rest delayed sched s : (0 < size)%nat -> m = ModeA \/ m = ModeRPlus -> d_group d0 = true -> exists_ (d_store d0) ->
  NoDup (names_of (first 0%nat)) -> In x (names_of (first 0%nat)) -> (forall n, In n (names_of (first 0%nat)) -> String.compare x n <> Gt) ->
  (forall r, (0 < r < size)%nat -> names_of (first r) <> []) ->
  srun dexec delayed sched (d0, sstart size (use_of first rest)) = Some s ->
  forall r c a, nth_error (snd s) r = Some c -> result_of c = Some a -> r = 0%nat /\ snd a = Err ValueError.
Proof.
  intros Pos M G Ex ND I Least NE. rewrite <- items_names in ND, I, Least. destruct (sorted_least _ _ I ND Least) as (v & l & Srt).
  intros Run. apply (first_fails (on_disk exists_) size first rest ValueError x v l delayed sched s); auto.
  - intros d (Gd & E). destruct M as [->| ->]; cbn [dexec]; rewrite ?Gd; eexists; split; try reflexivity; split; auto.
  - intros d z (Gd & E). replace (is_r m) with false by (destruct M as [->| ->]; reflexivity). cbn [dexec andb zexec]. unfold exists_ in E. destruct (s_meta (d_store d) x); [|tauto]. now destruct d.
  - split; auto.
Qed.
Theorem read_only size first rest delayed sched s : (0 < size)%nat -> m = ModeR -> d_group d0 = true ->
  (forall r, (r < size)%nat -> names_of (first r) <> []) ->
  srun dexec delayed sched (d0, sstart size (use_of first rest)) = Some s ->
  fst s = d0 /\ forall r c a, nth_error (snd s) r = Some c -> result_of c = Some a -> r = 0%nat /\ snd a = Err OSError.
Proof.
  intros Pos M G NE Run. assert (X : exists n v l, sorted (items V Time (first 0%nat)) = (n, v) :: l).
  { specialize (NE 0%nat Pos). rewrite <- items_names in NE. destruct (sorted (items V Time (first 0%nat))) as [|[n v] l] eqn:S; [|eauto]. destruct (dkeys (items V Time (first 0%nat))) as [|n k] eqn:D; [tauto|].
    assert (I : In n (dkeys (sorted (items V Time (first 0%nat))))) by (apply sorted_keys; rewrite D; now left). rewrite S in I. destruct I. }
  destruct X as (n & v & l & Srt). apply (first_fails (fun d => d = d0) size first rest OSError n v l delayed sched s); auto.
  - intros d ->. rewrite M. cbn [dexec]. rewrite G. eauto.
  - intros r Lr. apply NE. lia.
  - intros d z ->. now rewrite M.
Qed.

(** the group cannot be opened *)
Theorem cannot_open size (failed : exc -> monitor Time * res unit) (ps : nat -> zproc V (monitor Time * res unit)) e delayed sched s : (0 < size)%nat -> dexec (DOpen m) d0 = (ARaised e, d0) ->
  srun dexec delayed sched (d0, sstart size (fun r => construct (Z.of_nat r) m failed (ps r))) = Some s ->
  fst s = d0 /\ forall r c a, nth_error (snd s) r = Some c -> result_of c = Some a -> r = 0%nat /\ a = failed e.
Proof.
  intros Pos Op Run. apply (never_more dexec (fun d => d = d0) size (fun r => construct (Z.of_nat r) m failed (ps r)) 0 (fun r a => r = 0%nat /\ a = failed e)) with (delayed := delayed) (sched := sched) (init := d0); auto.
  - unfold construct. cbn [Z.of_nat Z.eqb ROOT_RANK]. apply d_do.
    + intros d ->. now rewrite Op.
    + intros a (d & -> & <-). rewrite Op. cbn [fst]. now constructor.
  - intros r Lr. unfold construct. destruct (Z.eqb_spec (Z.of_nat r) ROOT_RANK) as [X|X]; [unfold ROOT_RANK in X; lia|]. now constructor.
Qed.
End Existing.

(** ** arrays of other names *)
Section Others.
Context {V Time : Type}.
Variable junk : list Z -> V.
Variables (calendar_of text_of : Time -> string) (encode : Time -> Time -> V).
Variable layout : layout_t.
Variable names : list string.
Notation append_all := (append_all V Time junk calendar_of text_of encode layout).
Notation store_all := (store_all V Time junk calendar_of text_of encode layout).

Definition about (o : zop V) : string := match o with OCreate n _ | OAttrs n _ | OResize n _ | OLoad n | ORead n _ | OWrite n _ _ => n end.
Inductive named {B} : zproc V B -> Prop :=
| n_ret a : named (SRet a)
| n_do o k : In (about o) names -> (forall a, named (k a)) -> named (SDo o k)
| n_sync b p : named p -> named (SSync b p).
Lemma named_bind {B C} (p : zproc V B) (f : B -> zproc V C) : named p -> (forall a, named (f a)) -> named (sbind p f).
Proof. intros N F. induction N; cbn [sbind]; [auto|constructor; auto..]. Qed.

Lemma named_write name ints chunks region v cs : In name names -> named (write_chunks V junk name ints chunks region v cs).
Proof. intros I. induction cs as [|c cs IH]; cbn [write_chunks]; [constructor|]. apply n_do; auto. intros a. apply n_do; auto. Qed.
Lemma named_set name z ints box v p : In name names -> zarr_set V junk name z ints box v = Ok p -> named p.
Proof.
  intros I. unfold zarr_set. destruct (forallb _ _); [|discriminate]. destruct (norm_slices _ _); [|discriminate]. cbn [bind]. destruct (idx_eqb _ _); [|discriminate]. intros [= <-]. now apply named_write.
Qed.
Lemma named_sync {B} rank name array (k : option zmeta -> zproc V B) : In name names -> (forall a, named (k a)) -> named (sync_array V rank name array k).
Proof. intros I H. unfold sync_array. apply n_sync. destruct (rank =? ROOT_RANK); auto. now apply n_do. Qed.
Lemma named_init rank name (w : writer Time) shape chunks attrs : In name names -> named (init_zarr V Time rank name w shape chunks attrs).
Proof.
  intros I. unfold init_zarr. destruct (rank =? ROOT_RANK).
  - apply n_do; auto. intros a. destruct a; try (now constructor); (apply n_do; auto; intros; apply named_sync; auto; intros; constructor).
  - apply named_sync; auto. intros. constructor.
Qed.
Lemma named_resize rank name (w : writer Time) z shape compatible k : In name names -> (forall w, named (k w)) -> named (resize V Time rank name w z shape compatible k).
Proof. intros I H. unfold resize. destruct (_ && _); auto. apply n_do; auto. intros a. destruct a; try (now constructor); (destruct compatible; [apply H|constructor]). Qed.
Lemma named_append rank name w q : In name names -> named (append V Time junk layout rank name w q).
Proof.
  intros I. unfold append. apply named_bind; [destruct (w_array w); [constructor|now apply named_init]|]. intros [w' [[]|e]]; [|constructor].
  destruct (w_array w') as [z|]; [|constructor]. apply named_resize; auto. intros w2. apply named_sync; auto. intros [z2|]; [|constructor].
  destruct (do tile <- _; _) as [p|e] eqn:E; [|constructor].
  destruct (tile_index layout rank); [|discriminate]. cbn [bind] in E. destruct (subtile_slice _ _ _ _ _); [|discriminate]. cbn [bind] in E.
  destruct (view_get _ _); [|discriminate]. cbn [bind] in E. destruct (v_index _ _); [|discriminate]. cbn [bind] in E.
  apply named_bind; [eapply named_set; eauto|]. constructor.
Qed.
Lemma named_append_time rank name w t : In name names -> named (append_time V Time junk calendar_of text_of encode rank name w t).
Proof.
  intros I. unfold append_time. apply named_bind.
  - destruct (w_array w); [constructor|]. apply named_bind; [now apply named_init|]. intros [w' [[]|e]]; [|constructor]. cbn [w_array].
    destruct (w_array w'); [|constructor]. destruct (rank =? ROOT_RANK); [|constructor]. apply n_do; auto. constructor.
  - intros [w' [[]|e]]; [|constructor]. destruct (w_array w') as [z|]; [|constructor]. destruct (w_since w'); [|constructor].
    apply named_resize; auto. intros w2. apply named_sync; auto. intros [z2|]; [|constructor]. cbn zeta. destruct (rank =? ROOT_RANK); [|repeat constructor].
    destruct (String.eqb _ _); [|constructor]. destruct (zarr_set _ _ _ _ _ _ _) as [p|e] eqn:E; [|constructor]. apply named_bind; [eapply named_set; eauto|]. repeat constructor.
Qed.
Lemma named_all rank l : forall ws, incl (dkeys l) names -> named (append_all rank ws l).
Proof.
  induction l as [|[n v] l IH]; intros ws I; cbn [Zarr.append_all]; [constructor|]. destruct (dget n ws) as [w|]; [|constructor]. assert (In n names) by (apply I; now left).
  apply named_bind; [destruct v; [now apply named_append|now apply named_append_time]|]. intros [w' [[]|e]]; [|constructor]. apply IH. intros y Iy. apply I. now right.
Qed.
Lemma named_store rank mo s : incl (names_of s) names -> named (store V Time junk calendar_of text_of encode layout rank mo s).
Proof.
  intros I. assert (I' : incl (dkeys (sorted (items V Time s))) names) by (intros n H; apply I; rewrite <- items_names; now apply sorted_keys).
  unfold store. destruct mo as [ws|].
  - destruct (check_writers _ _ _); [|constructor]. apply named_bind; [now apply named_all|constructor].
  - apply named_bind; [now apply named_all|constructor].
Qed.
Lemma named_stores rank l : forall mo, Forall (fun s => incl (names_of s) names) l -> named (store_all rank mo l).
Proof.
  induction l as [|s l IH]; intros mo F; cbn [Zarr.store_all]; [constructor|]. inversion_clear F. apply named_bind; [now apply named_store|]. intros [mo' [[]|e]]; [auto|constructor].
Qed.

(** nothing else is touched *)
Definition only (st st0 : zstore V) : Prop := forall n, ~ In n names -> s_meta st n = s_meta st0 n /\ forall c, s_cells st n c = s_cells st0 n c.
Lemma only_op o st st0 : In (about o) names -> only st st0 -> only (snd (zexec o st)) st0.
Proof.
  intros I O n N. assert (NE : String.eqb n (about o) = false) by (destruct (String.eqb_spec n (about o)); congruence). destruct (O n N) as [O1 O2].
  destruct o as [a z|a at_|a sh|a|a c|a c d]; cbn [about] in NE; cbn [zexec]; auto.
  - destruct (s_meta st a); [auto|]. cbn. unfold set_meta. rewrite NE. auto.
  - destruct (s_meta st a); [|auto]. cbn. unfold set_meta. rewrite NE. auto.
  - destruct (s_meta st a) as [z|]; [|auto]. destruct (Nat.eqb _ _); [|auto]. cbn. unfold set_meta. rewrite NE. auto.
  - cbn. unfold set_cell. split; auto. intros c'. rewrite NE. cbn. auto.
Qed.
Lemma only_run {B} delayed sched st0 : forall (s s' : zstore V * list (srank (zop V) (zans V) B)), only (fst s) st0 -> Forall (fun c => named (sr_proc c)) (snd s) -> srun zexec delayed sched s = Some s' -> only (fst s') st0.
Proof.
  induction sched as [|r sched IH]; intros s s' O N E; cbn [srun] in E; [now injection E as <-|]. destruct (sstep zexec delayed r s) as [u|] eqn:S; [|discriminate].
  assert (G : only (fst u) st0 /\ Forall (fun c => named (sr_proc c)) (snd u)).
  { destruct s as [st ranks]. cbn [fst snd] in *. unfold sstep in S. destruct (nth_error ranks r) as [c|] eqn:H; [|discriminate].
    assert (U : forall c', named (sr_proc c') -> Forall (fun c => named (sr_proc c)) (upd ranks r c')).
    { intros c' N'. apply Forall_forall. intros y Iy. apply In_nth_error in Iy. destruct Iy as (i & Hi). rewrite nth_error_upd in Hi. destruct (Nat.eqb r i).
      - destruct (Nat.ltb r (length ranks)); [|discriminate]. now injection Hi as <-.
      - rewrite Forall_forall in N. apply N. eapply nth_error_In; eauto. }
    assert (Nc : named (sr_proc c)) by (rewrite Forall_forall in N; apply N; eapply nth_error_In; eauto).
    destruct c as [[a|o k|b p] posted done]; cbn [sr_proc] in Nc; [discriminate| |].
    - destruct (zexec o st) as [a st'] eqn:X. injection S as <-. inversion Nc; subst. cbn [fst snd]. split; [|apply U; cbn; auto]. pose proof (only_op o st st0) as OO. rewrite X in OO. now apply OO.
    - destruct (Nat.eqb _ _); [injection S as <-; split; [exact O|now apply U]|]. destruct (may_complete _ _ _ _); [|discriminate]. injection S as <-. split; [exact O|]. apply U. cbn. now inversion Nc. }
  exact (IH u s' (proj1 G) (proj2 G) E).
Qed.

(** a store opened in mode "w" *)
Theorem wiped size states d0 delayed sched s : (0 < size)%nat -> (forall r, (r < size)%nat -> Forall (fun st => incl (names_of st) names) (states r)) ->
  srun dexec delayed sched (d0, sstart size (fun r => construct (Z.of_nat r) ModeW (fun e => (None, Err e)) (store_all (Z.of_nat r) None (states r)))) = Some s ->
  fst s = d0 \/ forall n, ~ In n names -> s_meta (d_store (fst s)) n = None /\ forall c, s_cells (d_store (fst s)) n c = None.
Proof.
  intros Pos F Run.
  assert (I0 : exists ks, rel size (fun r => store_all (Z.of_nat r) None (states r)) ModeW (fun e => (None, Err e)) d0
     (d0, sstart size (fun r => construct (Z.of_nat r) ModeW (fun e => (None, Err e)) (store_all (Z.of_nat r) None (states r)))) (empty_store, sstart size (fun r => store_all (Z.of_nat r) None (states r))) ks) by (eexists; apply rel_start; auto).
  destruct I0 as (ks & I0). destruct (rel_run size _ ModeW _ d0 eq_refl eq_refl Pos delayed sched _ _ _ _ I0 Run) as (sched' & [st ranks] & ks' & E & I & _).
  destruct I as (_ & _ & _ & _ & S & _). destruct (Nat.eqb _ 3); [left; apply S|right].
  destruct s as [d rs]. cbn [fst] in *. subst d. cbn [d_store].
  refine (only_run (later delayed) sched' empty_store _ _ _ _ E); [intros n _; split; reflexivity|]. cbn [snd]. unfold sstart. apply Forall_forall. intros c Ic. apply in_map_iff in Ic. destruct Ic as (r & <- & Ir). apply in_seq in Ir. cbn.
  apply named_stores. apply F. lia.
Qed.
End Others.

Lemma opens_empty {V} m (d : disk V) : starts_empty m d -> dexec (DOpen m) d = (AUnit, mkDisk true empty_store) /\ is_r m = false.
Proof. destruct m, d as [g st]; cbn; try tauto; intros H; split; auto; try (destruct H); subst; reflexivity. Qed.
Theorem opened {V Time} (junk : list Z -> V) (calendar_of text_of : Time -> string) (encode : Time -> Time -> V)
    layout names var (states : nat -> nat -> state V Time) times N m d0 :
  starts_empty m d0 ->
  NoDup names -> ~ In "time"%string names -> layouts_ok layout -> (forall n, In n names -> divided layout (var n)) ->
  (forall r i, (r < ranks (CubePart layout))%nat -> (i < N)%nat -> described names var (times r i) (states r i)) ->
  (forall i, (i < N)%nat -> calendar_of (times 0%nat i) = calendar_of (times 0%nat 0%nat)) ->
  ends_with dexec (ranks (CubePart layout))
    (fun r => construct (Z.of_nat r) m (fun e => (None, Err e)) (store_all V Time junk calendar_of text_of encode layout (Z.of_nat r) None (map (states r) (seq 0 N)))) d0
    (fun d out => d_group d = true /\ (forall r, (r < ranks (CubePart layout))%nat -> snd (out r) = Ok tt) /\
       ((0 < N)%nat -> holds layout names var calendar_of text_of encode states times N (d_store d))).
Proof.
  intros E ND NT LO Div Des Cal. destruct (opens_empty _ _ E) as [Op Wr].
  assert (P0 : (0 < ranks (CubePart layout))%nat). { destruct LO as [LA LB]. apply layout_ok_pos in LA, LB. unfold ranks. nia. }
  refine (opened_ends _ _ m _ d0 Op Wr P0 _ (stores_hold junk calendar_of text_of encode layout names var states times N ND NT LO Div Des Cal)).
Qed.
Theorem not_opened {V Time} size m d0 (failed : exc -> monitor Time * res unit) (ps : nat -> zproc V (monitor Time * res unit)) delayed sched s : (0 < size)%nat -> refused m d0 ->
  srun dexec delayed sched (d0, sstart size (fun r => construct (Z.of_nat r) m failed (ps r))) = Some s ->
  fst s = d0 /\ forall r c a, nth_error (snd s) r = Some c -> result_of c = Some a -> r = 0%nat /\ a = failed ValueError.
Proof. intros P R. apply cannot_open; auto. destruct m; cbn in *; try tauto; now rewrite R. Qed.
Theorem untouched {V Time} (junk : list Z -> V) (calendar_of text_of : Time -> string) (encode : Time -> Time -> V) layout size m d0 (first : nat -> state V Time) rest delayed sched s : (0 < size)%nat -> m = ModeR -> d_group d0 = true ->
  (forall r, (r < size)%nat -> names_of (first r) <> []) ->
  srun dexec delayed sched (d0, sstart size (fun r => construct (Z.of_nat r) m (fun e => (None, Err e)) (store_all V Time junk calendar_of text_of encode layout (Z.of_nat r) None (first r :: rest r)))) = Some s ->
  fst s = d0 /\ forall r c a, nth_error (snd s) r = Some c -> result_of c = Some a -> r = 0%nat /\ snd a = Err OSError.
Proof. apply read_only. Qed.

(** ** examples *)
Definition dstuck {A} (s : disk Z * list (srank (dop Z) (zans Z) A)) : bool :=
  forallb (fun r => match sstep dexec (fun _ _ => false) r s with None => true | Some _ => false end) (seq 0 (length (snd s))).
Fixpoint dgo {A} (fuel r : nat) (s : disk Z * list (srank (dop Z) (zans Z) A)) (acc : list nat) :=
  match fuel with
  | O => (s, acc)
  | Datatypes.S f => match sstep dexec (fun _ _ => false) r s with Some s' => dgo f r s' (r :: acc) | None => (s, acc) end
  end.
Fixpoint drounds {A} (n : nat) (order : list nat) (s : disk Z * list (srank (dop Z) (zans Z) A)) (acc : list nat) :=
  match n with
  | O => rev acc
  | Datatypes.S n' => let '(s', acc') := fold_left (fun sa r => dgo 100 r (fst sa) (snd sa)) order (s, acc) in drounds n' order s' acc'
  end.
