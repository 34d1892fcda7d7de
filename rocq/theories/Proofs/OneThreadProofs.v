(** C77: programs of updates run by one thread on DummyComm. *)
From Verif.Base Require Import Base Lemmas.
From Verif.Model Require Import Consts Numpy Quantity Partitioner Network Communicator DummyComm DummyNet.
From Verif.Spec Require Import Grid Cube Halo Lockstep Sync Client OneThread.
From Verif.Proofs Require Import Boundaries Phases Scripts DummyProofs DummyNetProofs HaloOps HaloErrors SyncEffect ClientProofs.
From Coq Require Import ZifyBool Permutation.

Section Sequence.
Variable V : Type.
Variable neg : V -> V.
Variable d : V.
Variable n : Z.
Hypothesis Hn : 1 <= n.

(** boundaries towards another rank: one each way, or none *)
Definition toward (r s : nat) : list boundary := filter (fun B => b_to B =? Z.of_nat r) (blist n s).
Lemma toward_one r s B : (s < ranks n)%nat -> In B (blist n s) -> b_to B = Z.of_nat r -> toward r s = [B].
Proof. intros Hs I T. unfold toward. rewrite <- T. apply filter_key; auto. now apply blist_NoDup_to. Qed.
Lemma toward_both r s : (r < ranks n)%nat -> (s < ranks n)%nat -> (exists B B', toward r s = [B] /\ toward s r = [B']) \/ (toward r s = [] /\ toward s r = []).
Proof.
  assert (G : forall r s, (r < ranks n)%nat -> (s < ranks n)%nat -> toward r s = [] \/ exists B B', toward r s = [B] /\ toward s r = [B']).
  { clear r s. intros r s Hr Hs. destruct (toward r s) as [|B l] eqn:E; auto. right.
    assert (I : In B (toward r s)) by (rewrite E; now left). unfold toward in I. apply filter_In in I. destruct I as (I & T). apply Z.eqb_eq in T.
    destruct (blist_back n Hn s B Hs I) as (_ & _ & B' & I' & T' & _). rewrite T, Nat2Z.id in I'.
    exists B, B'. split; [rewrite <- E; now apply toward_one|now apply toward_one]. }
  intros Hr Hs. destruct (G r s Hr Hs) as [E|]; auto. destruct (G s r Hs Hr) as [E'|(B & B' & _ & E')]; auto. rewrite E in E'. discriminate.
Qed.

Lemma halo_sequence q h tag : in_sequence (ranks n) (halo_x V neg n q h tag).
Proof.
  intros s r Hs Hr. cbn [halo_x x_sends x_recvs]. unfold who. rewrite !filter_map, !map_map. cbn [fst snd tag_of].
  fold (toward r s) (toward s r). destruct (toward_both r s Hr Hs) as [(B & B' & -> & ->)|(-> & ->)]; reflexivity.
Qed.

Lemma filter_flat_map {A B} (p : B -> bool) (f : A -> list B) l : filter p (flat_map f l) = flat_map (fun a => filter p (f a)) l.
Proof. induction l; cbn; auto. now rewrite filter_app, IHl. Qed.
Lemma flat_map_filter {A B} (p : A -> bool) (f g : A -> list B) l : (forall a, In a l -> g a = if p a then f a else []) -> flat_map g l = flat_map f (filter p l).
Proof. induction l; cbn; intros H; auto. rewrite H by now left. rewrite IHl by auto. now destruct (p a). Qed.

Lemma vector_sequence x y h t1 t2 : in_sequence (ranks n) (vector_x V neg n x y h t1 t2).
Proof.
  intros s r Hs Hr. cbn [vector_x x_sends x_recvs]. unfold who. rewrite filter_app, !filter_map, filter_flat_map. cbn [fst snd].
  rewrite (flat_map_filter (fun B => b_to B =? Z.of_nat r) (fun B => [(b_to B, t1, vpayload V neg (x s) (y s) (fst (vview (x s) (y s) h B)));
                                    (b_to B, t2, vpayload V neg (x s) (y s) (snd (vview (x s) (y s) h B)))])).
  2:{ intros B _. cbn [filter fst]. now destruct (_ =? _). }
  fold (toward r s) (toward s r). destruct (toward_both r s Hr Hs) as [(B & B' & -> & ->)|(-> & ->)]; reflexivity.
Qed.

Lemma one_tag (t : Z) l l' : (forall u, In u l -> u = t) -> (forall u, In u l' -> u = t) -> (length l <= 1)%nat -> (length l' <= 1)%nat -> (In t l <-> In t l') -> l = l'.
Proof.
  intros A B C D E. destruct l as [|a [|? ?]], l' as [|b [|? ?]]; cbn in *; try lia; auto.
  - exfalso. rewrite (B b (or_introl eq_refl)) in E. tauto.
  - exfalso. rewrite (A a (or_introl eq_refl)) in E. tauto.
  - now rewrite (A a (or_introl eq_refl)), (B b (or_introl eq_refl)).
Qed.

Lemma sync_sequence x y tag : in_sequence (ranks n) (sync_x V neg n x y tag).
Proof.
  intros s r Hs Hr. pose proof (sync_matched V neg d n Hn x y tag) as M.
  assert (T1 : forall X, In X (x_sends (sync_x V neg n x y tag) s) -> tag_of X = tag) by (cbn; intros X [<-|[<-|[]]]; reflexivity).
  assert (T2 : forall X, In X (x_recvs (sync_x V neg n x y tag) r) -> tag_of X = tag) by (cbn; intros X [<-|[<-|[]]]; reflexivity).
  apply (one_tag tag).
  - intros u I. apply in_map_iff in I. destruct I as (X & <- & I). apply filter_In in I. now apply T1.
  - intros u I. apply in_map_iff in I. destruct I as (X & <- & I). apply filter_In in I. now apply T2.
  - rewrite map_length. pose proof (dest_distinct n Hn s sdir Hs (or_introl eq_refl)) as NE. cbn [sync_x x_sends filter]. unfold who. cbn [sync_send fst].
    destruct (Z.eqb_spec (b_to (bd n (sdir false) s)) (Z.of_nat r)), (Z.eqb_spec (b_to (bd n (sdir true) s)) (Z.of_nat r)); cbn; lia.
  - rewrite map_length. pose proof (dest_distinct n Hn r rdir Hr (or_intror eq_refl)) as NE. cbn [sync_x x_recvs filter]. unfold who. cbn [sync_recv fst].
    destruct (Z.eqb_spec (b_to (bd n (rdir false) r)) (Z.of_nat s)), (Z.eqb_spec (b_to (bd n (rdir true) r)) (Z.of_nat s)); cbn; lia.
  - split; intros I; apply in_map_iff in I; destruct I as ([[a b] f] & E & I); apply filter_In in I; destruct I as (I & W); unfold who in W; cbn [fst snd] in *; apply Z.eqb_eq in W; subst a; unfold tag_of in E; cbn [fst snd] in E; subst b.
    + destruct (mt_send _ _ _ _ M s _ _ _ Hs I) as (_ & J). rewrite Nat2Z.id in J. apply in_map_iff in J. destruct J as ([[a b] g] & E & J). cbn [fst] in E. injection E as -> ->.
      apply in_map_iff. exists (Z.of_nat s, tag, g). split; [reflexivity|]. apply filter_In. split; auto. unfold who. cbn [fst]. apply Z.eqb_refl.
    + destruct (mt_recv _ _ _ _ M r _ _ _ Hr I) as (_ & g & E). rewrite Nat2Z.id in E.
      assert (J : In (Z.of_nat r, tag, g) (filter (has_key (Z.of_nat r) tag) (x_sends (sync_x V neg n x y tag) s))) by (rewrite E; now left).
      apply filter_In in J. apply in_map_iff. exists (Z.of_nat r, tag, g). split; [reflexivity|]. apply filter_In. split; [tauto|]. unfold who. cbn [fst]. apply Z.eqb_refl.
Qed.
End Sequence.

Section Splitting.
Context {L V : Type}.
Definition advs (r : nat) (evs : list (event L V)) (p : @progress L V) : @progress L V := fold_left (fun p ev => adv r ev p) evs p.

Lemma adv_starts r ev (p : @progress L V) : map fst (fst (adv r ev p)) = match ev with EvStart e => (map fst (fst p) ++ [e])%list | _ => map fst (fst p) end.
Proof. destruct ev; cbn [adv fst]; auto. now rewrite map_app. Qed.

Lemma script_snoc n r : forall evs ev (p : @progress L V) done, well_formed n evs (map fst (fst p)) done ->
  script_ops r (evs ++ [ev]) (fst p) (snd p) = (script_ops r evs (fst p) (snd p) ++ ev_ops r ev (advs r evs p))%list.
Proof.
  induction evs as [|e evs IH]; intros ev p done W; [reflexivity|].
  assert (W' : exists done', well_formed n evs (map fst (fst (adv r e p))) done').
  { rewrite adv_starts. destruct e; cbn [well_formed] in W; [destruct W as (_ & _ & W); eauto|destruct W as (_ & _ & W); eauto|eauto]. }
  destruct W' as (done' & W'). specialize (IH ev (adv r e p) done' W'). cbn [advs fold_left]. fold (advs r evs (adv r e p)).
  destruct e as [e|i|f]; cbn [app script_ops adv fst snd] in *.
  - rewrite IH. now rewrite app_assoc.
  - destruct W as (_ & Hi & _). rewrite map_length in Hi. destruct (nth_error (fst p) i) as [[e o]|] eqn:E; [|apply nth_error_None in E; lia].
    rewrite IH. now rewrite !app_assoc.
  - now rewrite IH.
Qed.

Lemma well_formed_app n evs evs' : forall started done, well_formed n (evs ++ evs') started done -> @well_formed L V n evs started done.
Proof.
  induction evs as [|e evs IH]; intros started done W; [exact I|]. destruct e; cbn [app well_formed] in *.
  - destruct W as (A & B & C). eauto. - destruct W as (A & B & C). eauto. - eauto.
Qed.

(** the operations of the i-th event *)
Definition parts (evs : list (event L V)) (i r : nat) : list (op L V) :=
  skipn (length (script_ops r (firstn i evs) [] O)) (script_ops r (firstn (S i) evs) [] O).

Lemma phases_ext order (evs : list (event L V)) : forall j p p', (forall r, p r = p' r) -> phases order j evs p = phases order j evs p'.
Proof.
  induction evs as [|ev evs IH]; intros j p p' H; [reflexivity|]. cbn [phases]. f_equal.
  - apply flat_map_ext_in. intros r _. now rewrite H.
  - apply IH. intros r. now rewrite H.
Qed.

Lemma phases_parts n order (evs : list (event L V)) : well_formed n evs [] [] -> forall rest pre, evs = (pre ++ rest)%list ->
  flat_map (fun i => flat_map (fun r => map (pair r) (parts evs i r)) (order i)) (seq (length pre) (length rest)) = phases order (length pre) rest (fun r => advs r pre ([], O)).
Proof.
  intros W. induction rest as [|ev rest IH]; intros pre E; [reflexivity|]. cbn [length seq flat_map phases]. f_equal.
  - apply flat_map_ext_in. intros r _. f_equal. unfold parts. rewrite E.
    assert (firstn (length pre) (pre ++ ev :: rest) = pre) as -> by (rewrite firstn_app, Nat.sub_diag, firstn_all, app_nil_r; reflexivity).
    assert (firstn (S (length pre)) (pre ++ ev :: rest) = (pre ++ [ev])%list) as ->.
    { replace (S (length pre)) with (length (pre ++ [ev])) by (rewrite app_length; cbn; lia). replace (pre ++ ev :: rest)%list with ((pre ++ [ev]) ++ rest)%list by now rewrite <- app_assoc.
      rewrite firstn_app, Nat.sub_diag, firstn_all, app_nil_r. reflexivity. }
    pose proof (script_snoc n r pre ev ([], O) []) as X. cbn [fst snd map] in X. rewrite X by (rewrite E in W; now apply well_formed_app in W).
    rewrite skipn_app, skipn_all, Nat.sub_diag. reflexivity.
  - specialize (IH (pre ++ [ev])%list ltac:(now rewrite <- app_assoc)). rewrite app_length in IH. cbn [length] in IH. rewrite Nat.add_1_r in IH. rewrite IH.
    apply phases_ext. intros r. unfold advs. now rewrite fold_left_app.
Qed.
End Splitting.

Lemma Forall_firstn {A} (P : A -> Prop) i l : Forall P l -> Forall P (firstn i l).
Proof. intros H. revert i. induction H; intros [|i]; cbn; auto. Qed.

Section OneThread.
Variable V : Type.
Variable neg : V -> V.
Variable d : V.
Variable n : Z.
Variable k : nat.

Lemma events_firstn : forall i calls t, events V neg n t (firstn i calls) = firstn i (events V neg n t calls).
Proof.
  induction i as [|i IH]; intros [|c calls] t; auto. destruct c; cbn [firstn events]; now rewrite IH.
Qed.
Lemma events_length : forall calls t, length (events V neg n t calls) = length calls.
Proof. induction calls as [|c calls IH]; intros t; auto. destruct c; cbn [events length]; now rewrite IH. Qed.
Lemma waits_firstn : forall i calls j done, waits_ok V calls j done -> waits_ok V (firstn i calls) j done.
Proof.
  induction i as [|i IH]; intros [|c calls] j done W; cbn [firstn waits_ok]; auto. destruct c; cbn [waits_ok] in *; auto. destruct W as (A & B & C). auto.
Qed.

Lemma ops_eq calls r : (r < ranks n)%nat -> Forall (call_ok V n k) calls -> waits_ok V calls 0 [] -> client_ops V neg n calls r = script_ops r (events V neg n 0 calls) [] O.
Proof.
  intros Hr OK W. unfold client_ops. destruct (client_ops_eq V neg d n k r Hr calls [] new_comm [] OK W) as (cm' & E); [split; simpl; auto|]. cbn [map] in E. now rewrite E.
Qed.

Lemma events_finishes : forall calls t, finishes (events V neg n t calls) = waited V calls.
Proof.
  induction calls as [|c calls IH]; intros t; auto. unfold finishes, waited in *. destruct c; cbn [events flat_map app]; now rewrite IH.
Qed.
Lemma events_sequenced : forall calls t, Forall (call_ok V n k) calls -> sequenced (ranks n) (events V neg n t calls).
Proof.
  induction calls as [|c calls IH]; intros t OK; [constructor|]. inversion OK as [|? ? O1 O2]; subst.
  assert (G : starts V c = true -> in_sequence (ranks n) (exch V neg n t c)).
  { intros S. pose proof (ok_layout V n k c O1 S) as Hn. destruct c; try discriminate; cbn [exch].
    - now apply halo_sequence. - now apply vector_sequence. - now apply sync_sequence. }
  destruct c; cbn [events]; (constructor; [|now apply IH]); cbn; auto.
Qed.

Theorem one_thread_correct calls order m : Forall (call_ok V n k) calls -> waits_ok V calls 0 [] -> in_turn V calls ->
  (forall r, (r < ranks n)%nat -> length (m r) = k) -> orders_ranks n order ->
  exists m' q, meaning V neg d n calls [] m m' /\
    always_completes (start_state (ranks n) (client_ops V neg n calls) m) (tab (ranks n) m') /\
    drun (one_thread V neg n calls order) (mkDW (tab (ranks n) m) None) = Ok (mkDW (tab (ranks n) m') q).
Proof.
  intros OK W T Hm PO. destruct (client_lockstep V neg d n k calls [] [] 0 [] m OK W (Forall2_nil _) Hm) as (m' & M & LK).
  assert (WF : well_formed (ranks n) (events V neg n 0 calls) [] []) by (apply (client_well_formed V neg d n k); auto; simpl; tauto).
  assert (E : start_state (ranks n) (client_ops V neg n calls) m = start_state (ranks n) (fun r => script_ops r (events V neg n 0 calls) [] O) m).
  { unfold start_state. f_equal. apply tab_ext. intros r Hr. now apply ops_eq. }
  assert (TH : one_thread V neg n calls order = phases order 0 (events V neg n 0 calls) (fun r => ([], O))).
  { etransitivity; [|exact (phases_parts (ranks n) order _ WF (events V neg n 0 calls) [] eq_refl)]. unfold one_thread. rewrite events_length. cbn [length].
    apply flat_map_ext_in. intros i _. apply flat_map_ext_in. intros r I. f_equal. unfold call_ops, parts.
    assert (Hr : (r < ranks n)%nat) by (apply (Permutation_in _ (PO i)) in I; apply in_seq in I; lia).
    rewrite !ops_eq by (auto using waits_firstn, Forall_firstn).
    now rewrite !events_firstn. }
  destruct (phases_correct (ranks n) order PO (events V neg n 0 calls) 0 (fun r => ([], O)) [] 0 [] m m' None WF (events_sequenced calls 0 OK)) as (q & R); auto.
  { rewrite events_finishes. exact T. }
  exists m', q. split; auto. split; [rewrite E; now apply script_completes|]. now rewrite TH.
Qed.
End OneThread.

(** a blocking update on the rank which comes first *)
Section Blocking.
Context {L V : Type}.

Lemma sends_keep r (m : L) mem : nth_error mem r = Some m -> forall (sends : list (Z * Z * (L -> list V))) q, exists q',
  drun (map (pair r) (send_ops sends)) (mkDW mem q) = Ok (mkDW mem q') /\
  forall s t, s <> Z.of_nat r -> queue_of (list V) q' s t = queue_of (list V) q s t.
Proof.
  intros M. induction sends as [|[[dst t] f] sends IH]; intros q; [exists q; auto|].
  cbn [send_ops map drun fst snd]. unfold dstep. cbn [dw_mem dw_queues]. rewrite M. cbn [bind].
  destruct (IH (put_send_recv (list V) (Z.of_nat r) dst (f m) q)) as (q' & E & Q). exists q'. split; [exact E|].
  intros s u NE. rewrite Q, queue_put by auto. unfold pair_eqb. cbn [fst snd]. destruct (Z.eqb_spec s (Z.of_nat r)); [contradiction|reflexivity].
Qed.

Lemma starved r (m : L) mem sends recvs rest : nth_error mem r = Some m -> recvs <> [] -> (forall x, In x recvs -> fst (fst x) <> Z.of_nat r) ->
  drun (map (pair r) (send_ops sends ++ recv_ops recvs ++ rest)%list) (mkDW mem None) = Err (A := world L V) ConcurrencyError.
Proof.
  intros M N D. rewrite map_app. destruct (sends_keep r m mem M sends None) as (q & E & Q). rewrite (drun_app _ _ _ _ E).
  destruct recvs as [|[[src t] g] recvs]; [congruence|]. specialize (D _ (or_introl eq_refl)). cbn [fst] in D.
  cbn [recv_ops map app drun fst snd]. unfold dstep at 1. cbn [dw_mem dw_queues]. rewrite M.
  specialize (Q src (Z.of_nat r) D). unfold queue_of in Q. unfold get_send_recv. destruct q as [qs|]; [|reflexivity].
  destruct (qget (list V) (src, Z.of_nat r) qs) as [|]; [discriminate|reflexivity].
Qed.
End Blocking.

Section BlockingCalls.
Variable V : Type.
Variable neg : V -> V.
Variable d : V.
Variable n : Z.
Variable k : nat.

Lemma blist_other r B : 1 <= n -> (r < ranks n)%nat -> In B (blist n r) -> b_to B <> Z.of_nat r.
Proof.
  intros Hn Hr I. apply in_blist_type in I; auto. pose proof (proj1 (rank_range n Hn r) Hr) as R.
  now destruct (boundary_reciprocal n Hn _ _ _ R I) as (_ & _ & _ & NE & _).
Qed.

Theorem blocking_first c r (m : nat -> mem V) : call_ok V n k c -> starts V c = true -> (r < ranks n)%nat ->
  drun (map (pair r) (client_ops V neg n [c; CWait V 0] r)) (mkDW (tab (ranks n) m) None) = Err (A := world (mem V) V) ConcurrencyError.
Proof.
  intros OK S Hr. pose proof (ok_layout V n k c OK S) as Hn.
  assert (OK2 : Forall (call_ok V n k) [c; CWait V 0]) by (repeat constructor; auto).
  assert (W : waits_ok V [c; CWait V 0] 0 []) by (destruct c; try discriminate; cbn; repeat split; auto; lia).
  rewrite (ops_eq V neg d n k) by auto.
  assert (E : script_ops r (events V neg n 0 [c; CWait V 0]) [] O =
    (send_ops (x_sends (exch V neg n 0 c) r) ++ recv_ops (x_recvs (exch V neg n 0 c) r) ++ map OWait (seq 0 (length (x_sends (exch V neg n 0 c) r))) ++ [])%list).
  { destruct c; try discriminate; reflexivity. }
  rewrite E. apply (starved r (m r)).
  - now apply nth_error_tab.
  - destruct (blist_cons n Hn r Hr) as (B & l & EB). destruct c; try discriminate; cbn [exch halo_x vector_x sync_x x_recvs]; rewrite ?EB; discriminate.
  - assert (H : forall B, In B (blist n r) -> b_to B <> Z.of_nat r) by (intros; now apply blist_other).
    destruct c; try discriminate; cbn [exch halo_x vector_x sync_x x_recvs]; intros z Iz.
    + apply in_map_iff in Iz. destruct Iz as (B & <- & Iz). now apply H.
    + apply in_app_iff in Iz. destruct Iz as [Iz|Iz]; apply in_map_iff in Iz; destruct Iz as (B & <- & Iz); now apply H.
    + destruct Iz as [<-|[<-|[]]]; cbn [sync_recv fst]; apply H; apply (bd_ok n Hn); auto; cbn; auto.
Qed.
End BlockingCalls.
