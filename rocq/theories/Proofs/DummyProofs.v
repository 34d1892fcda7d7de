From Verif.Base Require Import Base Lemmas.
From Verif.Model Require Import DummyComm.
From Verif.Spec Require Import Fifo.

Section DummyProofs.
Variable V : Type.
Variable assign : V -> V -> res V.
Variable contiguous : nat -> bool.
Notation pstep := (pstep V assign contiguous). Notation prun := (prun V assign contiguous).
Notation traffic := (traffic V contiguous). Notation retag := (retag V). Notation first_from := (first_from V).
Notation mstep := (mstep V assign). Notation mrun := (mrun V assign). Notation in_order := (in_order V assign).
Notation calls_of := (calls_of V). Notation latest := (latest V).

Lemma pair_eqb_spec k k' : reflect (k = k') (pair_eqb k k').
Proof.
  unfold pair_eqb. destruct k as [a b], k' as [c d]; cbn. destruct (Z.eqb_spec a c), (Z.eqb_spec b d); cbn; constructor; congruence.
Qed.
Lemma qget_qset k k' l d : qget V k (qset V k' l d) = if pair_eqb k k' then Some l else qget V k d.
Proof.
  induction d as [|[k0 l0] d IH]; cbn; [reflexivity|]. destruct (pair_eqb_spec k' k0) as [->|N]; cbn.
  - now destruct (pair_eqb_spec k k0).
  - rewrite IH. destruct (pair_eqb_spec k k0) as [->|]; [|reflexivity]. destruct (pair_eqb_spec k0 k'); congruence.
Qed.

Definition queue_of (q : queues V) (s d : Z) : option (list V) := match q with None => None | Some m => qget V (s, d) m end.

Definition pinv (q : queues V) (past : list ((nat -> V) * pop V)) : Prop :=
  forall s d, let '(sent, taken) := traffic s d past in
    (taken <= length sent)%nat /\ queue_of q s d = match sent with [] => None | _ => Some (skipn taken sent) end.

Lemma traffic_snoc s d past e : traffic s d (past ++ [e]) =
  let t := traffic s d past in
  match snd e with
  | Send me to _ ref => if contiguous ref && ((me =? s) && (to =? d)) then ((fst t ++ [fst e ref])%list, snd t) else t
  | Recv me from _ ref => if contiguous ref && ((from =? s) && (me =? d)) then (fst t, Nat.min (S (snd t)) (length (fst t))) else t
  | Modify _ _ => t
  end.
Proof. unfold Fifo.traffic. now rewrite fold_left_app. Qed.

Lemma skipn_snoc {A} n (l : list A) x : (n <= length l)%nat -> skipn n (l ++ [x]) = skipn n l ++ [x].
Proof. intros H. rewrite skipn_app. replace (n - length l)%nat with 0%nat by lia. reflexivity. Qed.
Lemma skipn_nth {A} n (l : list A) : match nth_error l n with Some x => skipn n l = x :: skipn (S n) l | None => skipn n l = [] end.
Proof. revert l. induction n; intros [|x l]; cbn; auto. exact (IHn l). Qed.

Lemma queue_put me to v q s d : queue_of (put_send_recv V me to v q) s d =
  if pair_eqb (s, d) (me, to) then Some (match queue_of q s d with Some l => l ++ [v] | None => [v] end) else queue_of q s d.
Proof.
  unfold put_send_recv, queue_of. rewrite qget_qset. destruct (pair_eqb_spec (s, d) (me, to)) as [E|E].
  - injection E as -> ->. f_equal. destruct q as [m|]; [|reflexivity]. now destruct (qget V (me, to) m).
  - now destruct q.
Qed.

Lemma pstep_ok h q past o : pinv q past -> pinv (snd (fst (pstep o (h, q)))) (past ++ [(h, o)]).
Proof.
  intros I s d. rewrite traffic_snoc. cbn zeta. specialize (I s d) as Isd.
  destruct (traffic s d past) as [sent taken] eqn:T. destruct Isd as (Le & Q). cbn [snd fst].
  destruct o as [ref v|me to tag ref|me from tag ref]; cbn [DummyComm.pstep fst snd]; auto.
  - destruct (contiguous ref); cbn [andb fst snd]; [|auto]. rewrite queue_put.
    destruct (pair_eqb_spec (s, d) (me, to)) as [E|E].
    + injection E as -> ->. rewrite !Z.eqb_refl. cbn [andb]. rewrite app_length. cbn [length]. split; [lia|].
      rewrite Q. destruct sent as [|x sent]; [cbn in Le; replace taken with 0%nat by lia; reflexivity|].
      rewrite skipn_snoc by auto. reflexivity.
    + destruct (Z.eqb_spec me s), (Z.eqb_spec to d); cbn [andb]; auto. congruence.
  - destruct (contiguous ref); cbn [andb fst snd]; [|auto].
    specialize (I from me) as Ifm. unfold get_send_recv.
    assert (Key : forall q', (forall s' d', (s', d') <> (from, me) -> queue_of q' s' d' = queue_of q s' d') ->
       queue_of q' from me = match queue_of q from me with Some (_ :: l) => Some l | x => x end ->
       let '(sent0, taken0) := if (from =? s) && (me =? d) then (sent, Nat.min (S taken) (length sent)) else (sent, taken) in
       (taken0 <= length sent0)%nat /\ queue_of q' s d = match sent0 with [] => None | _ => Some (skipn taken0 sent0) end).
    { intros q' F E. destruct (Z.eqb_spec from s) as [->|], (Z.eqb_spec me d) as [->|]; cbn [andb]; try (split; [exact Le|rewrite F by congruence; exact Q]).
      split; [lia|]. rewrite E, Q. destruct sent as [|x sent]; [reflexivity|].
      destruct (Nat.lt_ge_cases taken (length (x :: sent))) as [L|L].
      - pose proof (skipn_nth taken (x :: sent)) as N. destruct (nth_error (x :: sent) taken) eqn:EE; [|apply nth_error_None in EE; lia]. rewrite N.
        replace (Nat.min (S taken) (length (x :: sent))) with (S taken) by lia. reflexivity.
      - rewrite skipn_all2 by lia. rewrite skipn_all2 by lia. reflexivity. }
    destruct q as [m|].
    + destruct (qget V (from, me) m) as [[|v l]|] eqn:G.
      * cbn [fst snd]. apply Key; auto. unfold queue_of. now rewrite G.
      * assert (X : let '(sent0, taken0) := if (from =? s) && (me =? d) then (sent, Nat.min (S taken) (length sent)) else (sent, taken) in
           (taken0 <= length sent0)%nat /\ queue_of (Some (qset V (from, me) l m)) s d = match sent0 with [] => None | _ => Some (skipn taken0 sent0) end).
        { apply Key.
          - intros s' d' N. unfold queue_of. rewrite qget_qset. destruct (pair_eqb_spec (s', d') (from, me)); [congruence|reflexivity].
          - unfold queue_of. rewrite qget_qset, G. now destruct (pair_eqb_spec (from, me) (from, me)). }
        destruct (assign (h ref) v); exact X.
      * cbn [fst snd]. apply Key; auto. unfold queue_of. now rewrite G.
    + cbn [fst snd]. apply Key; auto.
Qed.

Lemma prun_inv os : forall h q past, pinv q past -> let '(tr, (h', q')) := prun os (h, q) in pinv q' (past ++ tr).
Proof.
  induction os as [|o os IH]; intros h q past I; cbn [DummyComm.prun]; [now rewrite app_nil_r|].
  pose proof (pstep_ok h q past o I) as S. destruct (pstep o (h, q)) as [[h1 q1] r]. cbn [fst snd] in *.
  specialize (IH h1 q1 _ S). destruct (prun os (h1, q1)) as [tr [h' q']]. now rewrite <- app_assoc in IH.
Qed.

(** C51 *)
Theorem dummy_fifo h0 os me from tag ref : let '(tr, (h, q)) := prun os (h0, None) in
  let '(sent, taken) := traffic from me tr in
  let '((h', _), r) := pstep (Recv me from tag ref) (h, q) in
  (forall x, x <> ref -> h' x = h x) /\
  if contiguous ref then
    match nth_error sent taken with
    | Some v => match assign (h ref) v with Ok v' => r = Ok tt /\ h' ref = v' | Err e => r = Err e /\ h' ref = h ref end
    | None => r = Err (match sent with [] => ConcurrencyError | _ => IndexError end) /\ h' ref = h ref
    end
  else r = Err ValueError /\ h' ref = h ref.
Proof.
  assert (I0 : pinv None []) by (intros s d; cbn; auto).
  assert (I : let '(tr, (h', q')) := prun os (h0, None) in pinv q' tr) by exact (prun_inv os h0 None [] I0). destruct (prun os (h0, None)) as [tr [h q]].
  specialize (I from me). destruct (traffic from me tr) as [sent taken]. destruct I as (Le & Q).
  cbn [DummyComm.pstep]. destruct (contiguous ref); [|split; auto].
  assert (G : get_send_recv V me from q = (fst (get_send_recv V me from q), match nth_error sent taken with Some v => Ok v | None => Err (match sent with [] => ConcurrencyError | _ => IndexError end) end)).
  { unfold get_send_recv, queue_of in *. destruct q as [m|].
    - rewrite Q. destruct sent as [|x sent]; [now destruct taken|]. pose proof (skipn_nth taken (x :: sent)) as N. 
      destruct (nth_error (x :: sent) taken); rewrite N; reflexivity.
    - destruct sent; [now destruct taken|discriminate]. }
  rewrite G. destruct (get_send_recv V me from q) as [q' r0]. cbn [fst].
  destruct (nth_error sent taken) as [v|]; [|split; auto].
  destruct (assign (h ref) v) as [v'|e]; cbn [fst snd]; [|split; auto]. unfold hset. split.
  - intros x N. now destruct (Nat.eqb_spec x ref).
  - rewrite Nat.eqb_refl. auto.
Qed.

Theorem dummy_ignores_tags f os w : snd (prun (map (retag f) os) w) = snd (prun os w).
Proof.
  revert w. induction os as [|o os IH]; intros w; [reflexivity|]. cbn [map DummyComm.prun].
  assert (E : pstep (retag f o) w = pstep o w) by now destruct o.
  rewrite E. specialize (IH (fst (pstep o w))). destruct (prun (map (retag f) os) _), (prun os _). exact IH.
Qed.

(** in order of tags, DummyComm and MPI agree *)
Definition queue_in (m : mailbox V) (s d : Z) : list V := map snd (filter (fun e => (fst (fst (fst e)) =? s) && (snd (fst (fst e)) =? d)) m).

Lemma take_first s d tag v m : first_from s d m = Some (tag, v) -> exists m', take V s d tag m = Some (v, m') /\
  forall s' d', queue_in m' s' d' = if pair_eqb (s', d') (s, d) then tl (queue_in m s' d') else queue_in m s' d'.
Proof.
  induction m as [|[[[s0 d0] t0] v0] m IH]; cbn [Fifo.first_from take]; [discriminate|].
  destruct (Z.eqb_spec s0 s) as [->|Ns], (Z.eqb_spec d0 d) as [->|Nd]; cbn [andb]; intros H.
  1: { injection H as -> ->. rewrite Z.eqb_refl. exists m. split; [reflexivity|]. intros s' d'. unfold queue_in. cbn [filter fst snd].
    destruct (pair_eqb_spec (s', d') (s, d)) as [E|E].
    - injection E as -> ->. now rewrite !Z.eqb_refl.
    - destruct (Z.eqb_spec s s'), (Z.eqb_spec d d'); cbn [andb]; auto. congruence. }
  all: destruct (IH H) as (m' & -> & Q); eexists; (split; [reflexivity|]); intros s' d'; specialize (Q s' d'); unfold queue_in in *; cbn [filter fst snd];
    repeat match goal with |- context [(?a =? ?b) && (?c =? ?e)] => destruct (Z.eqb_spec a b), (Z.eqb_spec c e); cbn [andb map tl snd] end;
    destruct (pair_eqb_spec (s', d') (s, d)) as [E|E]; try (injection E as -> ->); try congruence; auto; rewrite Q; auto.
Qed.

Definition holds_same (q : queues V) (m : mailbox V) : Prop := forall s d, queue_in m s d = match queue_of q s d with Some l => l | None => [] end.

Theorem dummy_as_mpi os : (forall ref, contiguous ref = true) -> forall h q m h' m', holds_same q m -> in_order os (h, m) -> mrun os (h, m) = Some (h', m') ->
  fst (snd (prun os (h, q))) = h' /\ holds_same (snd (snd (prun os (h, q)))) m'.
Proof.
  intros C. induction os as [|o os IH]; intros h q m h' m' HS IO M; cbn [Fifo.mrun DummyComm.prun] in *.
  { injection M as <- <-. auto. }
  destruct (mstep o (h, m)) as [w1|] eqn:MS; [|discriminate]. cbn [Fifo.in_order] in IO. rewrite MS in IO. destruct IO as (O1 & IO).
  assert (S : exists q1, fst (pstep o (h, q)) = (fst w1, q1) /\ holds_same q1 (snd w1)).
  { destruct o as [ref v|me to tag ref|me from tag ref]; cbn [Fifo.mstep DummyComm.pstep] in *; rewrite ?C.
    - injection MS as <-. cbn. eauto.
    - injection MS as <-. cbn [fst snd]. eexists. split; [reflexivity|]. intros s d. rewrite queue_put. unfold queue_in. rewrite filter_app, map_app. cbn [filter fst snd]. 
      specialize (HS s d). unfold queue_in in HS. rewrite HS. destruct (pair_eqb_spec (s, d) (me, to)) as [E|E].
      + injection E as -> ->. rewrite !Z.eqb_refl. cbn. now destruct (queue_of q me to).
      + destruct (Z.eqb_spec me s), (Z.eqb_spec to d); cbn; try (rewrite app_nil_r; reflexivity). congruence.
    - destruct O1 as (v & F). destruct (take_first _ _ _ _ _ F) as (m1 & T & Q). cbn [snd] in *. rewrite T in MS.
      destruct (assign (h ref) v) as [v'|] eqn:A; [|discriminate]. injection MS as <-. cbn [fst snd].
      assert (H : exists l, queue_of q from me = Some (v :: l)).
      { specialize (HS from me). assert (X : exists l, queue_in m from me = v :: l).
        { clear -F. induction m as [|[[[s0 d0] t0] v0] m IH]; cbn [Fifo.first_from] in F; [discriminate|]. unfold queue_in in *. cbn [filter fst snd].
          destruct ((s0 =? from) && (d0 =? me)); [injection F as -> ->; cbn; eauto|auto]. }
        destruct X as (l & X). rewrite X in HS. destruct (queue_of q from me) as [l'|]; [|discriminate]. exists l. congruence. }
      destruct H as (l & H). unfold get_send_recv, queue_of in *. destruct q as [mq|]; [|discriminate]. rewrite H, A. cbn [fst].
      eexists. split; [reflexivity|]. intros s d. rewrite Q. unfold queue_of. rewrite qget_qset. specialize (HS s d). cbn in HS. destruct (pair_eqb_spec (s, d) (from, me)) as [E|E]; [|exact HS].
      injection E as -> ->. rewrite HS, H. reflexivity. }
  destruct S as (q1 & E & HS1). rewrite E. destruct w1 as [h1 m1]. cbn [fst snd] in *.
  specialize (IH h1 q1 m1 h' m' HS1 IO M). destruct (prun os (h1, q1)) as [tr w']. exact IH.
Qed.

Corollary dummy_mpi os h h' m' : (forall ref, contiguous ref = true) -> in_order os (h, []) -> mrun os (h, []) = Some (h', m') -> fst (snd (prun os (h, None))) = h'.
Proof. intros C IO M. assert (HS : holds_same None []) by (intros s d; reflexivity). exact (proj1 (dummy_as_mpi os C h None [] h' m' HS IO M)). Qed.

(** ** bcast, Scatter *)
Lemma orun_state cs : forall l count, let '(l', count') := fst (orun V cs (l, count)) in
  l' = (l ++ calls_of 0 cs)%list /\ forall r, count' r = (count r + length (calls_of r cs))%nat.
Proof.
  induction cs as [|[me v] cs IH]; intros l count; cbn [orun].
  - cbn. split; [now rewrite app_nil_r|]. intros; lia.
  - unfold get_buffer. specialize (IH (if me =? 0 then (l ++ [v])%list else l) (fun r => if r =? me then S (count me) else count r)).
    destruct (orun V cs _) as [[l' count'] rs]. cbn [fst] in *. destruct IH as (-> & C). split.
    + unfold Fifo.calls_of. cbn [filter fst]. destruct (me =? 0); cbn [map snd]; [now rewrite <- app_assoc|reflexivity].
    + intros r. rewrite C. unfold Fifo.calls_of. cbn [filter fst]. destruct (Z.eqb_spec r me) as [->|N].
      * rewrite Z.eqb_refl. cbn. lia.
      * destruct (Z.eqb_spec me r); [congruence|]. lia.
Qed.

(** the k-th call of a rank, counting those which raised, gets the k-th value of the root or raises if that is not there yet *)
Theorem dummy_ordered cs me v : let b := fst (orun V cs ([], fun _ => O)) in
  snd (get_buffer V me v b) = match nth_error (calls_of 0 cs ++ (if me =? 0 then [v] else [])) (length (calls_of me cs)) with Some x => Ok x | None => Err IndexError end.
Proof.
  pose proof (orun_state cs [] (fun _ => O)) as S. destruct (fst (orun V cs ([], fun _ => O))) as [l count]. cbn zeta. destruct S as (-> & C).
  unfold get_buffer. cbn [snd]. rewrite C. cbn [app Nat.add]. destruct (me =? 0); [reflexivity|]. now rewrite app_nil_r.
Qed.

Corollary dummy_root cs v : snd (get_buffer V 0 v (fst (orun V cs ([], fun _ => O)))) = Ok v.
Proof. rewrite dummy_ordered. cbn [Z.eqb]. rewrite nth_error_app2 by lia. now rewrite Nat.sub_diag. Qed.

(** ** Gather *)
Lemma grun_state size cs : forall g, length g = size -> (forall c, In c cs -> (fst c < size)%nat) ->
  length (fst (grun V size cs g)) = size /\
  forall r, (r < size)%nat -> nth r (fst (grun V size cs g)) None = match latest r cs with Some v => Some v | None => nth r g None end.
Proof.
  induction cs as [|[me v] cs IH]; intros g L B; cbn [grun].
  - cbn. auto.
  - unfold gather_call. assert (Bm : (me < size)%nat) by (apply (B (me, v)); now left).
    specialize (IH (upd g me (Some v))). destruct (grun V size cs (upd g me (Some v))) as [g' rs]. cbn [fst] in *.
    destruct IH as (A1 & A2); [now rewrite length_upd|intros c Hc; apply B; now right|]. split; auto.
    intros r Hr. rewrite A2 by auto. cbn [Fifo.latest]. destruct (latest r cs); [reflexivity|]. destruct (Nat.eqb_spec me r) as [->|N].
    + apply nth_upd_eq. lia.
    + apply nth_upd_neq. congruence.
Qed.

Theorem dummy_gather size cs v : (0 < size)%nat -> (forall c, In c cs -> (fst c < size)%nat) ->
  let r := snd (gather_call V size 0 v (fst (grun V size cs (gather_start V size)))) in
  ((exists k, (0 < k < size)%nat /\ latest k cs = None) -> r = Err ConcurrencyError) /\
  ((forall k, (0 < k < size)%nat -> latest k cs <> None) -> exists rows, r = Ok rows /\ length rows = size /\
     forall k, (k < size)%nat -> nth_error rows k = if Nat.eqb k 0 then Some v else latest k cs).
Proof.
  intros Pos B. destruct (grun_state size cs (gather_start V size)) as (L & N); [apply repeat_length|auto|].
  set (g := fst (grun V size cs (gather_start V size))) in *. cbn zeta. unfold gather_call. cbn [snd Nat.eqb].
  assert (N' : forall k, (k < size)%nat -> nth k (upd g 0 (Some v)) None = if Nat.eqb k 0 then Some v else latest k cs).
  { intros k Hk. destruct (Nat.eqb_spec k 0) as [->|]; [apply nth_upd_eq; lia|]. rewrite nth_upd_neq by auto. rewrite N by auto.
    unfold gather_start. rewrite nth_repeat. now destruct (latest k cs). }
  assert (L' : length (upd g 0 (Some v)) = size) by now rewrite length_upd.
  set (g1 := upd g 0 (Some v)) in *. clearbody g1. split.
  - intros (k & Hk & E). replace (existsb _ g1) with true; [reflexivity|]. symmetry. apply existsb_exists. exists None. split; [|reflexivity].
    assert (X : nth k g1 None = None) by (rewrite N' by lia; destruct (Nat.eqb_spec k 0); [lia|auto]). rewrite <- X. apply nth_In. lia.
  - intros H. assert (S : forall k, (k < size)%nat -> nth k g1 None <> None).
    { intros k Hk. rewrite N' by auto. destruct (Nat.eqb_spec k 0); [discriminate|]. apply H. lia. }
    assert (X : exists vs, g1 = map Some vs).
    { clear - S L'. revert size L' S. induction g1 as [|[x|] g1 IH]; intros size L' S.
      - now exists [].
      - destruct (IH (length g1) eq_refl) as (vs & ->). { intros k Hk. apply (S (Datatypes.S k)). cbn in L'. lia. } now exists (x :: vs).
      - destruct (S O); [cbn in L'; lia|reflexivity]. }
    destruct X as (vs & E). exists vs. rewrite E in *.
    replace (existsb _ (map Some vs)) with false; cycle 1.
    { symmetry. apply Bool.not_true_is_false. intros X. apply existsb_exists in X. destruct X as (x & I & X). apply in_map_iff in I. destruct I as (y & <- & _). discriminate. }
    split. { f_equal. clear. induction vs; cbn; congruence. }
    rewrite map_length in L'. split; auto. intros k Hk. rewrite <- N' by auto.
    rewrite (nth_error_nth' vs v) by lia. rewrite nth_indep with (d' := Some v) by (rewrite map_length; lia). now rewrite map_nth.
Qed.

(** ** Split: called once on each rank's own communicator object *)
Theorem dummy_split color : snd (split color []) = (0%nat, 1%nat).
Proof. reflexivity. Qed.
(** called by all ranks of a color on one object it numbers them *)
Theorem dummy_split_shared n color : let made := Nat.iter n (fun m => fst (split color m)) [] in
  made = map (fun r => (color, (r, n))) (seq 0 n) /\ snd (split color made) = (n, S n).
Proof.
  cbn zeta. induction n as [|n (E & _)]; [split; reflexivity|].
  assert (F : Nat.iter (S n) (fun m => fst (split color m)) [] = map (fun r => (color, (r, S n))) (seq 0 (S n))).
  { change (Nat.iter (S n) (fun m => fst (split color m)) []) with (fst (split color (Nat.iter n (fun m => fst (split color m)) []))). rewrite E. unfold split. cbn [fst]. rewrite map_map. cbn [fst snd]. rewrite Z.eqb_refl.
    assert (X : filter (fun c : Z * (nat * nat) => fst c =? color) (map (fun r => (color, (r, n))) (seq 0 n)) = map (fun r => (color, (r, n))) (seq 0 n)).
    { generalize (seq 0 n). intros l. induction l as [|x l IH]; [reflexivity|]. cbn [map filter fst]. rewrite Z.eqb_refl. now f_equal. }
    rewrite X, map_length, seq_length, seq_S, map_app. reflexivity. }
  rewrite F. split; [reflexivity|]. unfold split. cbn [snd].
  assert (X : forall l, filter (fun c : Z * (nat * nat) => fst c =? color) (map (fun r => (color, (r, S n))) l) = map (fun r => (color, (r, S n))) l).
  { intros l. induction l as [|x l IH]; [reflexivity|]. cbn [map filter fst]. rewrite Z.eqb_refl. now f_equal. }
  rewrite X, map_length, seq_length. reflexivity.
Qed.
End DummyProofs.
