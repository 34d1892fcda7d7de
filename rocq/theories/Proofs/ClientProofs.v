(** Programs of halo updates, interface synchronisations and local computation (C12 - C16, C18). *)
From Verif.Base Require Import Base Lemmas.
From Verif.Model Require Import Consts Numpy Quantity Partitioner Rotate Network Communicator.
From Verif.Spec Require Import Grid Cube Halo Lockstep Sync Client.
From Verif.Proofs Require Import NumpyProofs Phases Scripts Delivery HaloOps HaloEffect SyncEffect.
From Coq Require Import ZifyBool.

Section Client.
Variable V : Type.
Variable neg : V -> V.
Variable d : V.
Variable n : Z.
Variable k : nat.

(** the exchange a call starts, the last tag used being [t] *)
Definition exch (t : Z) (c : call V) : @exchange (mem V) V :=
  match c with
  | CHalo _ q h => halo_x V neg n q h (t + 1)
  | CVector _ x y h => vector_x V neg n x y h (t + 1) (t + 2)
  | CSync _ x y => sync_x V neg n x y (t + 1)
  | _ => mkX (fun _ => []) (fun _ => [])
  end.
Definition next_tag (t : Z) (c : call V) : Z :=
  match c with CHalo _ _ _ => t + 1 | CVector _ _ _ _ => t + 2 | CSync _ _ _ => t + 1 | _ => t end.

Fixpoint events (t : Z) (calls : list (call V)) : list (event (mem V) V) :=
  match calls with
  | [] => []
  | CWait _ i :: calls' => EvFinish i :: events t calls'
  | CLocal _ f :: calls' => EvLocal f :: events t calls'
  | c :: calls' => EvStart (exch t c) :: events (next_tag t c) calls'
  end.

Lemma ok_layout c : call_ok V n k c -> starts V c = true -> 1 <= n.
Proof.
  destruct c; simpl; try discriminate; intros H _.
  - destruct H as (_ & ? & ? & ? & ? & H & _). auto.
  - destruct H as (_ & _ & ? & ? & ? & ? & H & _). auto.
  - destruct H as (_ & _ & _ & ? & ? & ? & ? & H & _). auto.
Qed.

Lemma exch_matched t c : call_ok V n k c -> starts V c = true -> matched (ranks n) (exch t c).
Proof.
  intros H S. pose proof (ok_layout c H S) as Hn. destruct c; try discriminate; cbn [exch].
  - now apply halo_matched. - apply vector_matched; auto. lia. - now apply sync_matched.
Qed.

Lemma exch_tags t c u : starts V c = true -> uses_tag (ranks n) (exch t c) u -> t < u <= next_tag t c.
Proof.
  destruct c; try discriminate; intros _ U; cbn [exch next_tag] in *.
  - apply halo_tag in U. lia. - apply vector_tag in U. lia. - apply sync_tag in U. lia.
Qed.

Lemma start_ok c r t0 cm : call_ok V n k c -> starts V c = true -> (r < ranks n)%nat -> idle n r cm -> c_tag cm = t0 ->
  exists m,
  (match c with
   | CHalo _ q h => start_halo_update V neg (n, n) (Z.of_nat r) (q r) h
   | CVector _ x y h => start_vector_halo_update V neg (n, n) (Z.of_nat r) (x r) (y r) h
   | CSync _ x y => start_synchronize_vector_interfaces V neg (n, n) (Z.of_nat r) (x r) (y r)
   | _ => m
   end) cm =
  (send_ops (x_sends (exch t0 c) r), after_send n r cm (length (x_sends (exch t0 c) r)) (next_tag t0 c),
   Ok (mkReq V (seq (c_nsent cm) (length (x_sends (exch t0 c) r))) (recv_ops (x_recvs (exch t0 c) r)))).
Proof.
  intros H S Hr ID <-. pose proof (ok_layout c H S) as Hn. exists (elift V (Err IndexError)). destruct c; try discriminate; cbn [exch next_tag].
  - destruct H as (_ & N & len & ix & iy & _ & HN & Hh & s & ext & FF). apply start_halo_update_ok; auto; try lia.
    apply (scalar_views_exist V neg d n Hn q h 0 N len ix iy s ext HN Hh FF); auto.
  - destruct H as (_ & _ & N & len & ix & iy & _ & HN & Hh & XY & sy & sx & ext & FF). apply start_vector_halo_update_ok; auto; try lia.
    apply (vector_views_exist V neg d n Hn x y h 0 1 N len ix iy sy sx ext HN Hh ltac:(lia) XY (fun r H => proj1 (FF r H)) (fun r H => proj2 (FF r H))); auto.
  - destruct H as (_ & _ & XY & N & len & ix & iy & _ & HN & AX & ext & FF).
    change (length (x_sends (sync_x V neg n x y (c_tag cm + 1)) r)) with 2%nat.
    apply (start_synchronize_ok V neg d n Hn x y (c_tag cm + 1) N len ix iy ext HN AX XY (fun r H => proj1 (FF r H)) (fun r H => proj2 (FF r H))); auto.
Qed.

Definition req_of (r : nat) (eo : @exchange (mem V) V * nat) : request V :=
  mkReq V (seq (snd eo) (length (x_sends (fst eo) r))) (recv_ops (x_recvs (fst eo) r)).

Lemma client_ops_eq r : (r < ranks n)%nat -> forall calls started cm done,
  Forall (call_ok V n k) calls -> waits_ok V calls (length started) done -> idle n r cm ->
  exists cm', client V neg n r calls (map (req_of r) started) cm =
    (script_ops r (events (c_tag cm) calls) started (c_nsent cm), cm', Ok tt).
Proof.
  intros Hr. induction calls as [|c calls IH]; intros started cm done OK W ID.
  - exists cm. reflexivity.
  - inversion OK as [|? ? O1 O2]; subst.
    assert (ST : starts V c = true -> exists cm', client V neg n r (c :: calls) (map (req_of r) started) cm =
      ((send_ops (x_sends (exch (c_tag cm) c) r) ++ script_ops r (events (next_tag (c_tag cm) c) calls) (started ++ [(exch (c_tag cm) c, c_nsent cm)])
          (c_nsent cm + length (x_sends (exch (c_tag cm) c) r)))%list, cm', Ok tt)).
    { intros S. destruct (start_ok c r _ cm O1 S Hr ID eq_refl) as (m & E).
      destruct (IH (started ++ [(exch (c_tag cm) c, c_nsent cm)])%list
          (after_send n r cm (length (x_sends (exch (c_tag cm) c) r)) (next_tag (c_tag cm) c)) done O2) as (cm' & E').
      { rewrite app_length. cbn [length]. replace (length started + 1)%nat with (Datatypes.S (length started)) by lia.
        destruct c; try discriminate; exact W. }
      { split; simpl; auto. }
      exists cm'. rewrite map_app in E'. unfold req_of in E' at 2. cbn [map fst snd c_tag c_nsent after_send] in E'.
      destruct c; try discriminate; cbn [client]; unfold ebind; rewrite E; rewrite E'; reflexivity. }
    destruct c; try (destruct (ST eq_refl) as (cm' & E); exists cm'; rewrite E; reflexivity).
    + (* CWait *)
      cbn [waits_ok] in W. destruct W as (ND & Hi & W). cbn [client events script_ops].
      rewrite nth_error_map. destruct (nth_error started i) as [[e o]|] eqn:E; [|apply nth_error_None in E; lia]. cbn [option_map].
      destruct (IH started cm (i :: done) O2 W ID) as (cm' & E'). exists cm'.
      unfold ebind, wait_request. rewrite E'. cbn [req_of rq_recvs rq_sends fst snd]. rewrite <- app_assoc. reflexivity.
    + cbn [client events script_ops]. destruct (IH started cm done O2 W ID) as (cm' & E'). exists cm'.
      unfold ebind. rewrite E'. reflexivity.
Qed.

Lemma client_well_formed : forall calls started t done,
  Forall (call_ok V n k) calls -> waits_ok V calls (length started) done ->
  (forall e u, In e started -> uses_tag (ranks n) e u -> u <= t) ->
  well_formed (ranks n) (events t calls) started done.
Proof.
  induction calls as [|c calls IH]; intros started t done OK W T; [exact I|].
  inversion OK as [|? ? O1 O2]; subst.
  assert (ST : starts V c = true -> well_formed (ranks n) (EvStart (exch t c) :: events (next_tag t c) calls) started done).
  { intros S. cbn [well_formed]. split; [now apply exch_matched|]. split.
    - intros e' u I U U'. apply exch_tags in U; auto. apply T in U'; auto. lia.
    - apply IH; auto.
      + rewrite app_length. cbn [length]. replace (length started + 1)%nat with (Datatypes.S (length started)) by lia. destruct c; try discriminate; exact W.
      + intros e u I U. apply in_app_iff in I. destruct I as [I|[<-|[]]].
        * specialize (T e u I U). destruct c; cbn [next_tag]; lia.
        * apply exch_tags in U; auto. lia. }
  destruct c; try (exact (ST eq_refl)); cbn [events well_formed waits_ok] in *.
  - destruct W as (ND & Hi & W). split; auto.
  - auto.
Qed.

(** effects *)
Lemma exch_effect t c snap m : call_ok V n k c -> starts V c = true ->
  (forall r, (r < ranks n)%nat -> length (snap r) = k) -> (forall r, (r < ranks n)%nat -> length (m r) = k) ->
  let m1 := delivered V (exch t c) snap m in
  (forall r, (r < ranks n)%nat -> deliver (exch t c) snap r (m r) = Some (m1 r) /\ length (m1 r) = k) /\ effect V neg d n c snap m m1.
Proof.
  intros H S Hs Hm m1. pose proof (ok_layout c H S) as Hn. unfold m1. clear m1. destruct c; try discriminate; cbn [exch effect].
  - destruct H as (ID & HO). set (e := halo_x V neg n q h (t + 1)).
    assert (D : forall N len ix iy, halo_ok n N len ix iy q h -> forall r, (r < ranks n)%nat -> deliver e snap r (m r) = Some (delivered V e snap m r) /\
       length (delivered V e snap m r) = length (m r) /\
       forall i a, nth_error (m r) i = Some a -> exists a', nth_error (delivered V e snap m r) i = Some a' /\ shp a' = shp a /\
      (i <> h_id (q r) -> forall p, at_ a' p = at_ a p) /\
      (i = h_id (q r) -> forall p,
         (to_fill n N h ix iy (h_meta (q r)) r p -> exists r' p', (r' < ranks n)%nat /\ in_domain (h_meta (q r')) p' /\
            same_column (h_meta (q r)) (h_meta (q r')) ix iy p p' /\
            place_of n N ix iy (h_meta (q r')) r' p' = place_of n N ix iy (h_meta (q r)) r p /\
            at_ a' p = content V snap (fun r => h_id (q r)) d r' p') /\
         (~ to_fill n N h ix iy (h_meta (q r)) r p -> at_ a' p = at_ a p))).
    { intros N len ix iy (_ & HN & Hh & s & ext & FF) r Hr.
      destruct (scalar_deliver V neg d n Hn q h (t + 1) N len ix iy s ext HN Hh FF k snap (m r) r) as (m' & E & L & A); auto.
      fold e in E. unfold delivered. rewrite E. auto. }
    destruct HO as (N0 & len0 & ix0 & iy0 & HO). split; [|split].
    + intros r Hr. destruct (D _ _ _ _ HO r Hr) as (E & L & _). rewrite Hm in L; auto.
    + intros r Hr. destruct (D _ _ _ _ HO r Hr) as (E & L & A). split; auto. intros i a Ea. destruct (A i a Ea) as (a' & E' & S' & FR & _).
      exists a'. split; auto. split; auto. intros NI. apply FR. intros ->. apply (NI q); simpl; auto.
    + intros N len ix iy HK. cbv zeta. intros r p Hr. destruct (D _ _ _ _ HK r Hr) as (_ & _ & A).
      assert (exists a, nth_error (m r) (h_id (q r)) = Some a) as (a & Ea).
      { destruct (nth_error (m r) (h_id (q r))) eqn:Q; eauto. apply nth_error_None in Q. rewrite Hm in Q by auto. specialize (ID r). lia. }
      destruct (A _ a Ea) as (a' & E' & _ & _ & G). specialize (G eq_refl p).
      change (content V (delivered V e snap m) (fun r => h_id (q r)) d r p) with (match nth_error (delivered V e snap m r) (h_id (q r)) with Some a => at_ a p | None => d end).
      change (content V m (fun r => h_id (q r)) d r p) with (match nth_error (m r) (h_id (q r)) with Some a => at_ a p | None => d end).
      rewrite E', Ea. exact G.
  - destruct H as (IDx & IDy & HO). set (e := vector_x V neg n x y h (t + 1) (t + 2)).
    assert (IDc : forall c r, (h_id (hd x y c r) < k)%nat) by (intros [] r; cbn; auto).
    assert (D : forall N len ix iy, vector_ok n N len ix iy x y h -> forall r, (r < ranks n)%nat -> deliver e snap r (m r) = Some (delivered V e snap m r) /\
       length (delivered V e snap m r) = length (m r) /\
       forall i a, nth_error (m r) i = Some a -> exists a', nth_error (delivered V e snap m r) i = Some a' /\ shp a' = shp a /\
      (i <> h_id (x r) -> i <> h_id (y r) -> forall p, at_ a' p = at_ a p) /\
      (forall c, i = h_id (hd x y c r) -> forall p,
         (to_fill n N h ix iy (h_meta (hd x y c r)) r p -> exists c' r' p', (r' < ranks n)%nat /\ in_domain (h_meta (hd x y c' r')) p' /\
            same_column (h_meta (hd x y c r)) (h_meta (hd x y c' r')) ix iy p p' /\
            place_of n N ix iy (h_meta (hd x y c' r')) r' p' = place_of n N ix iy (h_meta (hd x y c r)) r p /\
            ((dir_of n N ix iy c' (h_meta (hd x y c' r')) r' p' = dir_of n N ix iy c (h_meta (hd x y c r)) r p /\
              at_ a' p = content V snap (fun r => h_id (hd x y c' r)) d r' p') \/
             (dir_of n N ix iy c' (h_meta (hd x y c' r')) r' p' = vscale (-1) (dir_of n N ix iy c (h_meta (hd x y c r)) r p) /\
              at_ a' p = neg (content V snap (fun r => h_id (hd x y c' r)) d r' p')))) /\
         (~ to_fill n N h ix iy (h_meta (hd x y c r)) r p -> at_ a' p = at_ a p))).
    { intros N len ix iy (_ & HN & Hh & XY & sy & sx & ext & FF) r Hr.
      destruct (vector_deliver V neg d n Hn x y h (t + 1) (t + 2) N len ix iy sy sx ext HN Hh ltac:(lia) XY (fun r H => proj1 (FF r H)) (fun r H => proj2 (FF r H)) k snap (m r) r) as (m' & E & L & A); auto.
      fold e in E. unfold delivered. rewrite E. auto. }
    destruct HO as (N0 & len0 & ix0 & iy0 & HO). split; [|split].
    + intros r Hr. destruct (D _ _ _ _ HO r Hr) as (E & L & _). rewrite Hm in L; auto.
    + intros r Hr. destruct (D _ _ _ _ HO r Hr) as (E & L & A). split; auto. intros i a Ea. destruct (A i a Ea) as (a' & E' & S' & FR & _).
      exists a'. split; auto. split; auto. intros NI. apply FR; intros ->; [apply (NI x)|apply (NI y)]; simpl; auto.
    + intros N len ix iy HK. cbv zeta. intros c r p Hr. destruct (D _ _ _ _ HK r Hr) as (_ & _ & A).
      assert (exists a, nth_error (m r) (h_id (hd x y c r)) = Some a) as (a & Ea).
      { destruct (nth_error (m r) (h_id (hd x y c r))) eqn:Q; eauto. apply nth_error_None in Q. rewrite Hm in Q by auto. specialize (IDc c r). lia. }
      destruct (A _ a Ea) as (a' & E' & _ & _ & G). specialize (G c eq_refl p). unfold hd in *.
      match goal with |- context [content V (delivered V e snap m) ?f d r p] =>
        change (content V (delivered V e snap m) f d r p) with (match nth_error (delivered V e snap m r) (f r) with Some a => at_ a p | None => d end);
        change (content V m f d r p) with (match nth_error (m r) (f r) with Some a => at_ a p | None => d end) end.
      cbv beta. rewrite E', Ea. exact G.
  - destruct H as (IDx & IDy & XY & HO). set (e := sync_x V neg n x y (t + 1)).
    assert (IDc : forall c r, (h_id (sq x y c r) < k)%nat) by (intros [] r; cbn; auto).
    assert (D : forall N len ix iy, sync_ok n N len ix iy (fun r => h_meta (x r)) (fun r => h_meta (y r)) -> forall r, (r < ranks n)%nat -> deliver e snap r (m r) = Some (delivered V e snap m r) /\
       length (delivered V e snap m r) = length (m r) /\
       forall i a, nth_error (m r) i = Some a -> exists a', nth_error (delivered V e snap m r) i = Some a' /\ shp a' = shp a /\
      (i <> h_id (x r) -> i <> h_id (y r) -> forall p, at_ a' p = at_ a p) /\
      (forall c, i = h_id (sq x y c r) -> forall p,
         (in_edge N ix iy c (h_meta (sq x y c r)) p -> exists c' r' p', (r' < ranks n)%nat /\ out_edge ix iy c' (h_meta (sq x y c' r')) p' /\
            same_column (h_meta (sq x y c r)) (h_meta (sq x y c' r')) ix iy p p' /\
            place_of n N ix iy (h_meta (sq x y c' r')) r' p' = place_of n N ix iy (h_meta (sq x y c r)) r p /\
            ((dir_of n N ix iy c' (h_meta (sq x y c' r')) r' p' = dir_of n N ix iy c (h_meta (sq x y c r)) r p /\
              at_ a' p = content V snap (fun r => h_id (sq x y c' r)) d r' p') \/
             (dir_of n N ix iy c' (h_meta (sq x y c' r')) r' p' = vscale (-1) (dir_of n N ix iy c (h_meta (sq x y c r)) r p) /\
              at_ a' p = neg (content V snap (fun r => h_id (sq x y c' r)) d r' p')))) /\
         (~ in_edge N ix iy c (h_meta (sq x y c r)) p -> at_ a' p = at_ a p))).
    { intros N len ix iy (_ & HN & AX & ext & FF) r Hr.
      destruct (sync_deliver V neg d n Hn x y (t + 1) N len ix iy ext HN AX XY (fun r H => proj1 (FF r H)) (fun r H => proj2 (FF r H)) k snap (m r) r) as (m' & E & L & A); auto.
      fold e in E. unfold delivered. rewrite E. auto. }
    destruct HO as (N0 & len0 & ix0 & iy0 & HO). split; [|split].
    + intros r Hr. destruct (D _ _ _ _ HO r Hr) as (E & L & _). rewrite Hm in L; auto.
    + intros r Hr. destruct (D _ _ _ _ HO r Hr) as (E & L & A). split; auto. intros i a Ea. destruct (A i a Ea) as (a' & E' & S' & FR & _).
      exists a'. split; auto. split; auto. intros NI. apply FR; intros ->; [apply (NI x)|apply (NI y)]; simpl; auto.
    + intros N len ix iy HK. cbv zeta. intros c r p Hr. destruct (D _ _ _ _ HK r Hr) as (_ & _ & A).
      assert (exists a, nth_error (m r) (h_id (sq x y c r)) = Some a) as (a & Ea).
      { destruct (nth_error (m r) (h_id (sq x y c r))) eqn:Q; eauto. apply nth_error_None in Q. rewrite Hm in Q by auto. specialize (IDc c r). lia. }
      destruct (A _ a Ea) as (a' & E' & _ & _ & G). specialize (G c eq_refl p). unfold sq in *.
      match goal with |- context [content V (delivered V e snap m) ?f d r p] =>
        change (content V (delivered V e snap m) f d r p) with (match nth_error (delivered V e snap m r) (f r) with Some a => at_ a p | None => d end);
        change (content V m f d r p) with (match nth_error (m r) (f r) with Some a => at_ a p | None => d end) end.
      cbv beta. rewrite E', Ea. exact G.
Qed.

(** started calls and the exchanges they stand for *)
Definition stands (cs : call V * (nat -> mem V)) (es : @exchange (mem V) V * (nat -> mem V)) : Prop :=
  call_ok V n k (fst cs) /\ starts V (fst cs) = true /\ (exists t, fst es = exch t (fst cs)) /\ snd es = snd cs /\
  forall r, (r < ranks n)%nat -> length (snd cs r) = k.

Lemma Forall2_nth_error {A B} (P : A -> B -> Prop) l l' i a : Forall2 P l l' -> nth_error l i = Some a -> exists b, nth_error l' i = Some b /\ P a b.
Proof. intros F. revert i; induction F; destruct i; simpl; intros E; try discriminate; [injection E as <-; eauto|auto]. Qed.

Lemma client_lockstep : forall calls sc se t done m,
  Forall (call_ok V n k) calls -> waits_ok V calls (length sc) done -> Forall2 stands sc se ->
  (forall r, (r < ranks n)%nat -> length (m r) = k) ->
  exists m', meaning V neg d n calls sc m m' /\ lockstep (ranks n) (events t calls) se m m'.
Proof.
  induction calls as [|c calls IH]; intros sc se t done m OK W ST Hm.
  - exists m. split; simpl; auto.
  - inversion OK as [|? ? O1 O2]; subst.
    assert (G : starts V c = true -> exists m', meaning V neg d n calls (sc ++ [(c, m)]) m m' /\ lockstep (ranks n) (events (next_tag t c) calls) (se ++ [(exch t c, m)]) m m').
    { intros S. apply (IH _ _ _ done); auto.
      - rewrite app_length. cbn [length]. replace (length sc + 1)%nat with (Datatypes.S (length sc)) by lia. destruct c; try discriminate; exact W.
      - apply Forall2_app; auto. constructor; [|constructor]. repeat split; simpl; eauto. }
    destruct c; try (exact (G eq_refl)); cbn [meaning events lockstep waits_ok] in *.
    + destruct W as (ND & Hi & W). destruct (nth_error sc i) as [[c snap]|] eqn:E; [|apply nth_error_None in E; lia].
      destruct (Forall2_nth_error _ _ _ _ _ ST E) as ([e snap'] & E' & (C1 & C2 & (t' & C3) & C4 & C5)). cbn [fst snd] in *. subst e snap'.
      destruct (exch_effect t' c snap m C1 C2 C5 Hm) as (D & EF).
      destruct (IH sc se t (i :: done) (delivered V (exch t' c) snap m) O2 W ST) as (m' & M & LK); [intros r Hr; now apply D|].
      exists m'. split.
      * exists c, snap, (delivered V (exch t' c) snap m). auto.
      * exists (exch t' c), snap, (delivered V (exch t' c) snap m). split; auto. split; auto. intros r Hr. now apply D.
    + apply (IH sc se t done); auto.
Qed.

Theorem client_correct calls m : Forall (call_ok V n k) calls -> waits_ok V calls 0 [] ->
  (forall r, (r < ranks n)%nat -> length (m r) = k) ->
  exists m', meaning V neg d n calls [] m m' /\
    always_completes (start_state (ranks n) (client_ops V neg n calls) m) (tab (ranks n) m').
Proof.
  intros OK W Hm. destruct (client_lockstep calls [] [] 0 [] m OK W (Forall2_nil _) Hm) as (m' & M & LK).
  exists m'. split; auto.
  assert (E : start_state (ranks n) (client_ops V neg n calls) m = start_state (ranks n) (fun r => script_ops r (events 0 calls) [] O) m).
  { unfold start_state. f_equal. apply tab_ext. intros r Hr. unfold client_ops.
    destruct (client_ops_eq r Hr calls [] new_comm [] OK W) as (cm' & E); [split; simpl; auto|]. cbn [map] in E. now rewrite E. }
  rewrite E. apply script_completes; auto. apply client_well_formed; auto. simpl. tauto.
Qed.
End Client.
