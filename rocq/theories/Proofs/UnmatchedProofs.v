(** Updates and waits which do not match (C84). *)
From Verif.Base Require Import Base Lemmas.
From Verif.Model Require Import Consts Numpy Quantity Partitioner Network Communicator.
From Verif.Spec Require Import Grid Cube Halo Lockstep Sync Client Orders Unmatched.
From Verif.Proofs Require Import Phases Scripts HaloOps HaloEffect SyncEffect ClientProofs OrderScripts OrderProofs CountProofs HaloErrors.
From Coq Require Import ZifyBool.

(** ** scripts *)
Section Scripts.
Context {L V : Type}.
Notation sends_of := (@sends_of L V).
Notation recvs_of := (@recvs_of L V).

Fixpoint fin_in (evs : list (event L V)) (k : nat) : Prop :=
  match evs with
  | [] => True
  | EvStart _ :: evs' => fin_in evs' (S k)
  | EvFinish i :: evs' => (i < k)%nat /\ fin_in evs' k
  | EvLocal _ :: evs' => fin_in evs' k
  end.
Fixpoint finishes (evs : list (event L V)) : list nat :=
  match evs with [] => [] | EvFinish i :: evs' => i :: finishes evs' | _ :: evs' => finishes evs' end.

Lemma sends_app a b : sends_of (a ++ b) = sends_of a ++ sends_of b.
Proof. unfold CountProofs.sends_of. now rewrite flat_map_app. Qed.
Lemma recvs_app a b : recvs_of (a ++ b) = recvs_of a ++ recvs_of b.
Proof. unfold CountProofs.recvs_of. now rewrite flat_map_app. Qed.
Lemma sends_sends l : sends_of (map (fun x => OSend (fst (fst x)) (snd (fst x)) (snd x)) l) = map fst l.
Proof. induction l as [|[[d t] f] l IH]; cbn; auto. now rewrite <- IH. Qed.
Lemma recvs_sends l : recvs_of (map (fun x => OSend (fst (fst x)) (snd (fst x)) (snd x)) l) = [].
Proof. induction l as [|[[d t] f] l IH]; cbn; auto. Qed.
Lemma recvs_recvs l : recvs_of (map (fun x => ORecv (fst (fst x)) (snd (fst x)) (snd x)) l) = map fst l.
Proof. induction l as [|[[d t] f] l IH]; cbn; auto. now rewrite <- IH. Qed.
Lemma sends_recvs l : sends_of (map (fun x => ORecv (fst (fst x)) (snd (fst x)) (snd x)) l) = [].
Proof. induction l as [|[[d t] f] l IH]; cbn; auto. Qed.
Lemma sends_waits l : sends_of (map OWait l) = [].
Proof. induction l; cbn; auto. Qed.
Lemma recvs_waits l : recvs_of (map OWait l) = [].
Proof. induction l; cbn; auto. Qed.

Lemma script_sends r evs : forall started c, fin_in evs (length started) -> sends_of (script_ops r evs started c) = flat_map (fun e => map fst (x_sends e r)) (start_list evs).
Proof.
  induction evs as [|[e|i|f] evs IH]; intros started c F; cbn [script_ops start_list flat_map fin_in] in *; auto.
  - rewrite sends_app, sends_sends. f_equal. apply IH. rewrite app_length. cbn [length]. now replace (length started + 1)%nat with (S (length started)) by lia.
  - destruct F as [Li F]. destruct (nth_error started i) as [[e o]|] eqn:E; [|apply nth_error_None in E; lia]. rewrite !sends_app, sends_recvs, sends_waits. now apply IH.
  - apply (IH started c F).
Qed.
Definition keys_of (r : nat) (all : list (exchange L V)) (i : nat) : list (Z * Z) := match nth_error all i with Some e => map fst (x_recvs e r) | None => [] end.
Lemma script_recvs r evs : forall started c, fin_in evs (length started) -> recvs_of (script_ops r evs started c) = flat_map (keys_of r (map fst started ++ start_list evs)) (finishes evs).
Proof.
  induction evs as [|[e|i|f] evs IH]; intros started c F; cbn [script_ops start_list finishes flat_map fin_in] in *; auto.
  - rewrite recvs_app, recvs_sends. cbn [app]. rewrite IH.
    + rewrite map_app, <- app_assoc. reflexivity.
    + rewrite app_length. cbn [length]. now replace (length started + 1)%nat with (S (length started)) by lia.
  - destruct F as [Li F]. destruct (nth_error started i) as [[e o]|] eqn:E; [|apply nth_error_None in E; lia]. rewrite !recvs_app, recvs_recvs, recvs_waits. cbn [app]. f_equal; [|now apply IH].
    unfold keys_of. rewrite nth_error_app1 by now rewrite map_length. rewrite nth_error_map, E. reflexivity.
  - apply (IH started c F).
Qed.
Lemma script_waits r e k evs : forall started c i pre, fin_in evs (length started) -> length pre = c ->
  (forall e o j k, In (e, o) started -> nth_error (map fst (x_sends e r)) j = Some k -> nth_error pre (o + j) = Some k) ->
  In i (finishes evs) -> nth_error (map fst started ++ start_list evs) i = Some e -> In k (map fst (x_sends e r)) ->
  exists j, In (OWait j) (script_ops r evs started c) /\ nth_error (pre ++ sends_of (script_ops r evs started c)) j = Some k.
Proof.
  induction evs as [|[e0|i0|f] evs IH]; intros started c i pre F Lp P I E K; cbn [script_ops start_list finishes fin_in] in *; [destruct I| | |].
  - destruct (IH (started ++ [(e0, c)]) (c + length (x_sends e0 r))%nat i (pre ++ map fst (x_sends e0 r))) as (j & A & B); auto.
    + rewrite app_length. cbn [length]. now replace (length started + 1)%nat with (S (length started)) by lia.
    + rewrite app_length, map_length. lia.
    + intros e1 o j k1 I1 N1. apply in_app_iff in I1. destruct I1 as [I1|[[= -> ->]|[]]].
      * rewrite nth_error_app1; [now eapply P; eauto|]. apply nth_error_Some. erewrite P; eauto. discriminate.
      * rewrite nth_error_app2 by lia. rewrite <- Lp. now replace (length pre + j - length pre)%nat with j by lia.
    + rewrite map_app, <- app_assoc. exact E.
    + exists j. split; [apply in_app_iff; auto|]. rewrite sends_app, sends_sends, app_assoc. exact B.
  - destruct F as [Li F]. destruct (nth_error started i0) as [[e1 o]|] eqn:E0; [|apply nth_error_None in E0; lia]. destruct I as [->|I].
    + rewrite nth_error_app1 in E by now rewrite map_length. rewrite nth_error_map, E0 in E. injection E as ->. apply In_nth_error in K. destruct K as (j & K). exists (o + j)%nat. split.
      * apply in_app_iff. right. apply in_app_iff. left. apply in_map. apply in_seq. assert (j < length (map fst (x_sends e r)))%nat by (apply nth_error_Some; congruence). rewrite map_length in H. lia.
      * rewrite nth_error_app1; [eapply P; eauto; eapply nth_error_In; eauto|]. apply nth_error_Some. erewrite P; eauto; [discriminate|]. eapply nth_error_In; eauto.
    + destruct (IH started c i pre F Lp P I E K) as (j & A & B). exists j. split; [apply in_app_iff; right; apply in_app_iff; auto|]. rewrite !sends_app, sends_recvs, sends_waits. exact B.
  - destruct (IH started c i pre F Lp P I E K) as (j & A & B). exists j. split; [now right|]. exact B.
Qed.

Lemma cnt_flat {A} (f : A -> list (Z * Z)) l (a : A) k (dec : forall x y : A, {x = y} + {x <> y}) : In k (f a) -> (count_occ dec l a <= cnt (flat_map f l) k)%nat.
Proof.
  intros I. induction l as [|b l IH]; cbn [count_occ flat_map]; [lia|]. unfold cnt. rewrite count_occ_app. fold (cnt (flat_map f l) k). destruct (dec b a) as [->|]; [|lia].
  apply (count_occ_In zz_dec) in I. lia.
Qed.
Lemma cnt_filter {A} (l : list (Z * Z * A)) d t : cnt (map fst l) (d, t) = length (filter (has_key d t) l).
Proof.
  unfold cnt. induction l as [|[[d' t'] a] l IH]; cbn [map count_occ filter]; auto. unfold has_key at 1. cbn [fst snd].
  destruct (zz_dec (d', t') (d, t)) as [[= -> ->]|ne].
  - rewrite !Z.eqb_refl. cbn [andb length]. now f_equal.
  - destruct ((d' =? d) && (t' =? t)) eqn:Q; auto. exfalso. apply ne. f_equal; lia.
Qed.
Lemma one_message N (e : exchange L V) r k : matched N e -> (r < N)%nat -> (cnt (map fst (x_sends e r)) k <= 1)%nat.
Proof.
  intros M Hr. destruct k as [d t]. destruct (in_dec zz_dec (d, t) (map fst (x_sends e r))) as [I|NI]; [|apply (count_occ_not_In zz_dec) in NI; unfold cnt; lia].
  apply in_map_iff in I. destruct I as ([[d' t'] f] & [= -> ->] & I). destruct (mt_send _ _ _ _ M r d t f Hr I) as (Rd & I2). apply in_map_iff in I2. destruct I2 as ([[r' t'] g] & [= -> ->] & I2).
  destruct (mt_recv _ _ _ _ M (Z.to_nat d) (Z.of_nat r) t g) as (_ & f' & E); [lia|auto|]. rewrite Nat2Z.id, Z2Nat.id in E by lia. rewrite cnt_filter, E. auto.
Qed.
Lemma recv_sent N (e : exchange L V) r src t : matched N e -> (r < N)%nat -> In (Z.of_nat src, t) (map fst (x_recvs e r)) -> (src < N)%nat /\ In (Z.of_nat r, t) (map fst (x_sends e src)).
Proof.
  intros M Hr I. apply in_map_iff in I. destruct I as ([[s' t'] g] & [= -> ->] & I). destruct (mt_recv _ _ _ _ M r _ _ _ Hr I) as (Rs & f & E). rewrite Nat2Z.id in E. split; [lia|].
  assert (J : In (Z.of_nat r, t, f) (filter (has_key (Z.of_nat r) t) (x_sends e src))) by (rewrite E; now left). apply filter_In in J. destruct J as [J _]. apply in_map_iff. exists (Z.of_nat r, t, f). auto.
Qed.
End Scripts.

(** ** programs of updates *)
Section Programs.
Variable V : Type.
Variable neg : V -> V.
Variable d : V.
Variable n : Z.
Variable k : nat.
Hypothesis Hn : 1 <= n.
Notation exch := (exch V neg n).
Notation events := (events V neg n).

Lemma next_tags t c : next_tag V t c = t + Z.of_nat (tags_used V c).
Proof. destruct c; cbn [next_tag tags_used]; lia. Qed.
Lemma ops_in r : (r < ranks n)%nat -> forall calls started cm,
  Forall (call_ok V n k) calls -> waits_in V calls (length started) -> idle n r cm ->
  exists cm', client V neg n r calls (map (req_of V r) started) cm = (script_ops r (events (c_tag cm) calls) started (c_nsent cm), cm', Ok tt).
Proof.
  intros Hr. induction calls as [|c calls IH]; intros started cm OK W ID.
  - exists cm. reflexivity.
  - inversion_clear OK as [|? ? O1 O2].
    assert (ST : starts V c = true -> exists cm', client V neg n r (c :: calls) (map (req_of V r) started) cm =
      ((send_ops (x_sends (exch (c_tag cm) c) r) ++ script_ops r (events (next_tag V (c_tag cm) c) calls) (started ++ [(exch (c_tag cm) c, c_nsent cm)])
          (c_nsent cm + length (x_sends (exch (c_tag cm) c) r)))%list, cm', Ok tt)).
    { intros S. destruct (start_ok V neg d n k c r _ cm O1 S Hr ID eq_refl) as (m & E).
      destruct (IH (started ++ [(exch (c_tag cm) c, c_nsent cm)])%list
          (after_send n r cm (length (x_sends (exch (c_tag cm) c) r)) (next_tag V (c_tag cm) c)) O2) as (cm' & E').
      { rewrite app_length. cbn [length]. replace (length started + 1)%nat with (Datatypes.S (length started)) by lia.
        destruct c; try discriminate; exact W. }
      { split; simpl; auto. }
      exists cm'. rewrite map_app in E'. unfold req_of in E' at 2. cbn [map fst snd c_tag c_nsent after_send] in E'.
      destruct c; try discriminate; cbn [client]; unfold ebind; rewrite E; rewrite E'; reflexivity. }
    destruct c; try (destruct (ST eq_refl) as (cm' & E); exists cm'; rewrite E; reflexivity).
    + cbn [waits_in] in W. destruct W as (Hi & W). cbn [client ClientProofs.events script_ops].
      rewrite nth_error_map. destruct (nth_error started i) as [[e o]|] eqn:E; [|apply nth_error_None in E; lia]. cbn [option_map].
      destruct (IH started cm O2 W ID) as (cm' & E'). exists cm'.
      unfold ebind, wait_request. rewrite E'. cbn [req_of rq_recvs rq_sends fst snd]. rewrite <- app_assoc. reflexivity.
    + cbn [client ClientProofs.events script_ops]. destruct (IH started cm O2 W ID) as (cm' & E'). exists cm'.
      unfold ebind. rewrite E'. reflexivity.
Qed.
Lemma ops_are r calls : (r < ranks n)%nat -> Forall (call_ok V n k) calls -> waits_in V calls 0 -> client_ops V neg n calls r = script_ops r (events 0 calls) [] O.
Proof. intros Hr OK W. unfold client_ops. destruct (ops_in r Hr calls [] new_comm OK W) as (cm' & E); [split; simpl; auto|]. cbn [map] in E. now rewrite E. Qed.

Lemma events_in calls : forall t j, waits_in V calls j -> fin_in (events t calls) j.
Proof. induction calls as [|[] calls IH]; intros t j; cbn [waits_in ClientProofs.events fin_in starts]; auto. intros (A & B). auto. Qed.
Lemma events_finishes calls : forall t, finishes (events t calls) = waited V calls.
Proof. induction calls as [|[] calls IH]; intros t; cbn; auto. f_equal. apply IH. Qed.

(** exchanges started *)
Lemma exchange_at calls : forall t i c, nth_error (filter (starts V) calls) i = Some c -> nth_error (start_list (events t calls)) i = Some (exch (t + Z.of_nat (tags V (firstn i (filter (starts V) calls)))) c).
Proof.
  induction calls as [|c0 calls IH]; intros t i c E; [now destruct i|].
  assert (St : starts V c0 = true -> nth_error (exch t c0 :: start_list (events (next_tag V t c0) calls)) i = Some (exch (t + Z.of_nat (tags V (firstn i (c0 :: filter (starts V) calls)))) c)).
  { intros S. destruct i as [|i]; cbn [nth_error firstn] in *.
    - cbn [filter] in E. rewrite S in E. cbn in E. injection E as ->. cbn [tags fold_right]. f_equal. f_equal. lia.
    - cbn [filter] in E. rewrite S in E. cbn [nth_error] in E. rewrite (IH _ _ _ E), next_tags. f_equal. f_equal. cbn [tags fold_right]. fold (tags V (firstn i (filter (starts V) calls))). lia. }
  destruct c0; cbn [filter starts ClientProofs.events start_list] in *; try (exact (St eq_refl)); now apply IH.
Qed.
Lemma exch_recv_tag t c r src u : call_ok V n k c -> starts V c = true -> (r < ranks n)%nat -> In (src, u) (map fst (x_recvs (exch t c) r)) -> t < u <= t + Z.of_nat (tags_used V c).
Proof.
  intros OK S Hr I. rewrite <- next_tags. apply (exch_tags V neg n t c u S). pose proof (exch_matched V neg d n k t c OK S) as M. apply in_map_iff in I. destruct I as ([[s' t'] g] & [= -> ->] & I).
  destruct (mt_recv _ _ _ _ M r _ _ _ Hr I) as (Rs & f & E). exists (Z.to_nat src), (Z.of_nat r, u, f). split; [lia|]. split; auto.
  assert (J : In (Z.of_nat r, u, f) (filter (has_key (Z.of_nat r) u) (x_sends (exch t c) (Z.to_nat src)))) by (rewrite E; now left). now apply filter_In in J.
Qed.
Lemma exch_send_tag t c r dst u : starts V c = true -> (r < ranks n)%nat -> In (dst, u) (map fst (x_sends (exch t c) r)) -> t < u <= t + Z.of_nat (tags_used V c).
Proof.
  intros S Hr I. rewrite <- next_tags. apply (exch_tags V neg n t c u S). apply in_map_iff in I. destruct I as ([[s' t'] g] & [= -> ->] & I). exists r, (dst, u, g). auto.
Qed.

Lemma sent_once r calls : (r < ranks n)%nat -> Forall (call_ok V n k) calls -> forall t dst u,
  let c := cnt (flat_map (fun e => map fst (x_sends e r)) (start_list (events t calls))) (dst, u) in (c <= 1)%nat /\ ((0 < c)%nat -> t < u <= t + Z.of_nat (tags V calls)).
Proof.
  intros Hr. induction calls as [|c0 calls IH]; intros OK t dst u; [cbn; lia|]. inversion_clear OK as [|? ? O1 O2]. cbn zeta in *. cbn [tags fold_right]. fold (tags V calls).
  assert (St : starts V c0 = true ->
    let c := cnt (flat_map (fun e => map fst (x_sends e r)) (exch t c0 :: start_list (events (next_tag V t c0) calls))) (dst, u) in (c <= 1)%nat /\ ((0 < c)%nat -> t < u <= t + Z.of_nat (tags_used V c0 + tags V calls))).
  { intros S. cbn [flat_map]. unfold cnt. rewrite count_occ_app. fold (cnt (map fst (x_sends (exch t c0) r)) (dst, u)). fold (cnt (flat_map (fun e => map fst (x_sends e r)) (start_list (events (next_tag V t c0) calls))) (dst, u)).
    destruct (IH O2 (next_tag V t c0) dst u) as (A & B). rewrite next_tags in B. pose proof (one_message _ _ r (dst, u) (exch_matched V neg d n k t c0 O1 S) Hr) as C.
    assert (D : (0 < cnt (map fst (x_sends (exch t c0) r)) (dst, u))%nat -> t < u <= t + Z.of_nat (tags_used V c0)).
    { intros P. apply (count_occ_In zz_dec) in P. eapply exch_send_tag; eauto. }
    rewrite next_tags in *. split; [|lia]. set (x := cnt (map fst _) _) in *. set (y := cnt (flat_map _ _) _) in *. destruct x as [|[|x]], y as [|[|y]]; lia. }
  destruct c0; cbn [ClientProofs.events start_list]; try (exact (St eq_refl)); cbn [tags_used Nat.add]; now apply IH.
Qed.

Lemma hears_ok c r src : hears V n c r src -> (r < ranks n)%nat -> starts V c = true.
Proof. intros (B & b & _ & _ & H) _. destruct c; auto; destruct H. Qed.
Lemma hears_key t c r src : hears V n c r src -> (r < ranks n)%nat -> In (Z.of_nat src, t + Z.of_nat (tags_used V c)) (map fst (x_recvs (exch t c) r)).
Proof.
  intros (B & b & E & T & H) Hr. assert (I : In b (blist n r)) by (apply (in_blist n r b Hr); eauto). destruct c; try (destruct H); cbn [ClientProofs.exch tags_used]; unfold halo_x, vector_x, sync_x; cbn [x_recvs].
  - rewrite map_map. cbn [fst]. apply in_map_iff. exists b. now rewrite T.
  - rewrite map_app, !map_map. cbn [fst]. apply in_app_iff. right. apply in_map_iff. exists b. now rewrite T.
  - subst B. left. unfold sync_recv. cbn [fst rdir]. destruct (bd_ok n Hn r NORTH Hr) as (_ & I2 & T2); [cbn; auto|]. apply (in_blist_type n Hn r _ Hr) in I2. rewrite T2 in I2. assert (bd n NORTH r = b) by congruence. subst b. now rewrite T.
  - subst B. right. left. unfold sync_recv. cbn [fst rdir]. destruct (bd_ok n Hn r EAST Hr) as (_ & I2 & T2); [cbn; auto|]. apply (in_blist_type n Hn r _ Hr) in I2. rewrite T2 in I2. assert (bd n EAST r = b) by congruence. subst b. now rewrite T.
Qed.
Lemma hears_some c r : starts V c = true -> (r < ranks n)%nat -> exists src, hears V n c r src.
Proof.
  intros S Hr. destruct (bd_ok n Hn r NORTH Hr) as (_ & I2 & T2); [cbn; auto|]. pose proof (in_blist_type n Hn r _ Hr I2) as E. rewrite T2 in E. destruct (back_ok n r _ Hn Hr I2) as (Lt & _).
  exists (Z.to_nat (b_to (bd n NORTH r))). exists NORTH, (bd n NORTH r). split; auto. split.
  - destruct (blist_back n Hn r _ Hr I2) as (P & _). lia.
  - destruct c; auto; discriminate.
Qed.

Variable calls : nat -> list (call V).
Hypothesis OK : forall r, (r < ranks n)%nat -> Forall (call_ok V n k) (calls r) /\ waits_in V (calls r) 0.
Variable m : nat -> mem V.
Let p := fun r => client_ops V neg n (calls r) r.

Lemma started r i : (r < ranks n)%nat -> In i (waited V (calls r)) -> exists c, nth_error (filter (starts V) (calls r)) i = Some c /\ starts V c = true /\ call_ok V n k c.
Proof.
  intros Hr I. destruct (OK r Hr) as (O1 & W).
  assert (Li : (i < length (filter (starts V) (calls r)))%nat).
  { replace (length (filter (starts V) (calls r))) with (0 + length (filter (starts V) (calls r)))%nat by lia. revert W I. clear O1. generalize 0%nat. induction (calls r) as [|c l IH]; intros j W I; [destruct I|].
    destruct c; cbn [waits_in waited flat_map app filter starts length] in *; try (specialize (IH _ W I); lia).
    destruct W as [A W]. destruct I as [->|I]; [lia|]. now apply IH. }
  destruct (nth_error (filter (starts V) (calls r)) i) as [c|] eqn:E; [|apply nth_error_None in E; lia]. exists c. split; auto. apply nth_error_In in E. apply filter_In in E. destruct E as [E S]. split; auto.
  rewrite Forall_forall in O1. now apply O1.
Qed.
Definition tag_of (r i : nat) : Z := Z.of_nat (tags V (firstn (S i) (filter (starts V) (calls r)))).
Lemma tags_upto (l : list (call V)) i c : nth_error l i = Some c -> tags V (firstn (S i) l) = (tags V (firstn i l) + tags_used V c)%nat.
Proof.
  revert l. induction i as [|i IH]; intros [|a l]; cbn [nth_error]; try discriminate.
  - intros [= ->]. cbn. lia.
  - intros E. specialize (IH _ E). cbn [firstn tags fold_right] in *. fold (tags V (firstn i l)). fold (tags V (firstn (S i) l)) in *. cbn [firstn tags fold_right] in IH. unfold tags in *. cbn [firstn] in *. destruct l; cbn in *; try discriminate; lia.
Qed.
Lemma received r i c src : (r < ranks n)%nat -> In i (waited V (calls r)) -> nth_error (filter (starts V) (calls r)) i = Some c -> hears V n c r src ->
  (count_occ Nat.eq_dec (waited V (calls r)) i <= cnt (recvs_of (p r)) (Z.of_nat src, tag_of r i))%nat.
Proof.
  intros Hr I E H. destruct (OK r Hr) as (O1 & W). unfold p. rewrite (ops_are r _ Hr O1 W), script_recvs by now apply events_in. rewrite events_finishes. apply cnt_flat. unfold keys_of. cbn [map app].
  rewrite (exchange_at _ 0 i c E). unfold tag_of. rewrite (tags_upto _ _ _ E). rewrite Nat2Z.inj_add. rewrite Z.add_0_l. now apply hears_key.
Qed.

Theorem wait_twice r i bf : (r < ranks n)%nat -> (2 <= count_occ Nat.eq_dec (waited V (calls r)) i)%nat -> never_ends bf (start_state (ranks n) p m) r.
Proof.
  intros Hr Two sched s E. assert (I : In i (waited V (calls r))) by (apply (count_occ_In Nat.eq_dec); lia). destruct (started r i Hr I) as (c & Ec & S & Oc). destruct (hears_some c r S Hr) as (src & H).
  pose proof (received r i c src Hr I Ec H) as R. assert (Ls : (src < ranks n)%nat). { pose proof (hears_key 0 c r src H Hr) as K. now apply (recv_sent _ _ r src _ (exch_matched V neg d n k 0 c Oc S) Hr) in K. }
  apply (starved bf (ranks n) p m r src (tag_of r i) sched s Hr Ls); auto. destruct (OK src Ls) as (O1 & W). unfold p at 1. rewrite (ops_are src _ Ls O1 W), script_sends by now apply events_in.
  destruct (sent_once src (calls src) Ls O1 0 (Z.of_nat r) (tag_of r i)) as (A & _). lia.
Qed.
Theorem missing r i c src bf : (r < ranks n)%nat -> In i (waited V (calls r)) -> nth_error (filter (starts V) (calls r)) i = Some c -> hears V n c r src ->
  (tags V (calls src) < tags V (firstn (S i) (filter (starts V) (calls r))))%nat -> never_ends bf (start_state (ranks n) p m) r.
Proof.
  intros Hr I Ec H Lt sched s E. pose proof (received r i c src Hr I Ec H) as R. destruct (started r i Hr I) as (c' & Ec' & S & Oc). assert (c' = c) by congruence. subst c'.
  assert (Ls : (src < ranks n)%nat). { pose proof (hears_key 0 c r src H Hr) as K. now apply (recv_sent _ _ r src _ (exch_matched V neg d n k 0 c Oc S) Hr) in K. }
  apply (starved bf (ranks n) p m r src (tag_of r i) sched s Hr Ls); auto. destruct (OK src Ls) as (O1 & W). unfold p at 1. rewrite (ops_are src _ Ls O1 W), script_sends by now apply events_in.
  destruct (sent_once src (calls src) Ls O1 0 (Z.of_nat r) (tag_of r i)) as (A & B). apply (count_occ_In Nat.eq_dec) in I. unfold tag_of in *. lia.
Qed.
Theorem not_waited r i c dst bf : (r < ranks n)%nat -> (dst < ranks n)%nat -> In i (waited V (calls r)) -> nth_error (filter (starts V) (calls r)) i = Some c -> hears V n c dst r ->
  filter (starts V) (calls dst) = filter (starts V) (calls r) -> ~ In i (waited V (calls dst)) -> (forall j, bf r j = false) -> never_ends bf (start_state (ranks n) p m) r.
Proof.
  intros Hr Hd I Ec H Same NI Bf sched s E. destruct (started r i Hr I) as (c' & Ec' & S & Oc). assert (c' = c) by congruence. subst c'. clear Ec'.
  pose proof (exchange_at (calls r) 0 i c Ec) as X. rewrite Z.add_0_l in X. set (t := Z.of_nat (tags V (firstn i (filter (starts V) (calls r))))) in *.
  pose proof (hears_key t c dst r H Hd) as K. destruct (recv_sent _ _ dst r _ (exch_matched V neg d n k t c Oc S) Hd K) as (_ & Ks). destruct (OK r Hr) as (O1 & W).
  destruct (script_waits r (exch t c) (Z.of_nat dst, t + Z.of_nat (tags_used V c)) (events 0 (calls r)) [] 0 i []) as (j & J1 & J2); auto.
  - now apply events_in.
  - intros e o j k0 [].
  - now rewrite events_finishes.
  - apply (unreceived bf (ranks n) p m r dst (t + Z.of_nat (tags_used V c)) j sched s Hr Hd); auto.
    + unfold p. rewrite (ops_are r _ Hr O1 W). exact J2.
    + unfold p. rewrite (ops_are r _ Hr O1 W). exact J1.
    + destruct (OK dst Hd) as (O2 & W2). unfold p. rewrite (ops_are dst _ Hd O2 W2), script_recvs by now apply events_in. rewrite events_finishes. cbn [map app]. intros Q. apply in_flat_map in Q. destruct Q as (i' & Q1 & Q2).
      assert (NE : i' <> i) by (intros ->; auto). destruct (started dst i' Hd Q1) as (c2 & Ec2 & S2 & Oc2). unfold keys_of in Q2. rewrite (exchange_at _ 0 i' c2 Ec2) in Q2. apply (exch_recv_tag _ c2 dst _ _ Oc2 S2 Hd) in Q2.
      rewrite Same in Ec2, Q2. pose proof (tags_upto _ _ _ Ec) as U1. pose proof (tags_upto _ _ _ Ec2) as U2.
      assert (Mono : forall (l : list (call V)) a b, (a <= b)%nat -> (tags V (firstn a l) <= tags V (firstn b l))%nat).
      { induction l as [|x l IH]; intros [|a] [|b] Hab; cbn [firstn tags fold_right]; try lia. specialize (IH a b ltac:(lia)). unfold tags in IH. lia. }
      assert (P : (1 <= tags_used V c)%nat) by (destruct c; cbn in S |- *; try discriminate; lia).
      destruct (Nat.lt_total i' i) as [L|[L|L]]; [|congruence|].
      * pose proof (Mono (filter (starts V) (calls r)) (Datatypes.S i') i ltac:(lia)). lia.
      * pose proof (Mono (filter (starts V) (calls r)) (Datatypes.S i) i' ltac:(lia)). lia.
Qed.
End Programs.

(** ** the k-th updates of the ranks belong together *)
Section Position.
Variable V : Type.
Variable neg : V -> V.
Variable n : Z.

Lemma same_client r : forall l l' reqs cm, Forall2 (same_at V r) l l' -> client V neg n r l reqs cm = client V neg n r l' reqs cm.
Proof.
  induction l as [|c l IH]; intros l' reqs cm F; inversion F as [|? c' ? l2 S F' E1 E2]; subst; auto.
  destruct c, c'; cbn [same_at] in S; try (destruct S; fail); cbn [client].
  - destruct S as (E & ->). rewrite E. unfold ebind. destruct (start_halo_update _ _ _ _ _ _ cm) as [[ops c1] [rq|e]]; auto. now rewrite (IH l2).
  - destruct S as (E & E' & ->). rewrite E, E'. unfold ebind. destruct (start_vector_halo_update _ _ _ _ _ _ _ cm) as [[ops c1] [rq|e]]; auto. now rewrite (IH l2).
  - destruct S as (E & E'). rewrite E, E'. unfold ebind. destruct (start_synchronize_vector_interfaces _ _ _ _ _ _ cm) as [[ops c1] [rq|e]]; auto. now rewrite (IH l2).
  - rewrite S. destruct (nth_error reqs i0); auto. unfold ebind. destruct (wait_request V r0 cm) as [[ops c1] [u|e]]; auto. now rewrite (IH l2).
  - rewrite S. unfold ebind. now rewrite (IH l2).
Qed.
Theorem by_position (d : V) k (calls : nat -> list (call V)) common m : (forall r, (r < ranks n)%nat -> Forall2 (same_at V r) (calls r) common) ->
  Forall (call_ok V n k) common -> waits_ok V common 0 [] -> (forall r, (r < ranks n)%nat -> length (m r) = k) ->
  exists m', meaning V neg d n common [] m m' /\ always_completes (start_state (ranks n) (fun r => client_ops V neg n (calls r) r) m) (tab (ranks n) m').
Proof.
  intros S OK W Lm. destruct (client_correct V neg d n k common m OK W Lm) as (m' & M & C). exists m'. split; auto.
  replace (start_state (ranks n) (fun r => client_ops V neg n (calls r) r) m) with (start_state (ranks n) (client_ops V neg n common) m); auto.
  unfold start_state. f_equal. apply tab_ext. intros r Hr. unfold client_ops. rewrite (same_client r (calls r) common) by auto. reflexivity.
Qed.
End Position.
