(** Halo updates and interface synchronisation do not depend on when MPI reads the data sent (C19). *)
From Verif.Base Require Import Base Lemmas.
From Verif.Model Require Import Consts Numpy Quantity Partitioner Rotate Network LateRead Communicator.
From Verif.Spec Require Import Grid Cube Halo Lockstep Sync Client Updates Views Late.
From Verif.Proofs Require Import Phases Partition Regions  NumpyProofs NetworkProofs HaloOps HaloEffect SyncViews SyncEffect ClientProofs UpdateProofs RegionViews LateSim.
From Coq Require Import ZifyBool.

Section Late.
Variable V : Type.
Variable neg : V -> V.
Variable d : V.
Variable n : Z.
Variable k : nat.

Lemma payload_kept c r i v ng (m m' : mem V) : (forall p, in_shape (vshp v) p -> may_read V n c r i (vmap v p)) ->
  keeps V n c r m m' -> read_payload V neg i v ng m' = read_payload V neg i v ng m.
Proof.
  intros R (EL & K). unfold read_payload. destruct (nth_error m i) as [a|] eqn:E.
  - destruct (nth_error_same_len _ m' i _ (eq_sym EL) E) as (a' & E'). rewrite E'. apply map_ext_in. intros p I. apply in_all_idx in I.
    now rewrite (K i a a' E E' _ (R p I)).
  - apply nth_error_None in E. rewrite <- EL in E. apply nth_error_None in E. now rewrite E.
Qed.

Lemma store_writes i v b (m m' : mem V) : store_payload V i v b m = Some m' -> length m' = length m /\
  forall j a, nth_error m j = Some a -> exists a', nth_error m' j = Some a' /\
    forall p, (j = i -> forall x, in_shape (vshp v) x -> vmap v x <> p) -> at_ a' p = at_ a p.
Proof.
  unfold store_payload. destruct (nth_error m i) as [a0|] eqn:E; [|discriminate]. destruct (Nat.eqb _ _); [|discriminate].
  intros [= <-]. split; [apply length_upd|]. intros j a Ea. destruct (Nat.eq_dec j i) as [->|N].
  - assert (a0 = a) by congruence. subst a0. eexists. split; [exact (nth_error_upd_eq _ _ _ _ E)|]. intros p H. apply a_write_frame.
    intros I. apply in_map_iff in I. destruct I as ([q w] & <- & I). apply in_combine_l in I. apply in_map_iff in I. destruct I as (x & Q & I).
    apply in_all_idx in I. exact (H eq_refl x I Q).
  - exists a. rewrite nth_error_upd_neq by auto. auto.
Qed.

(** what is sent and received *)
Lemma back_back r B (Hn : 1 <= n) : (r < ranks n)%nat -> In B (blist n r) ->
  let r' := Z.to_nat (b_to B) in (r' < ranks n)%nat /\ In (back n r B) (blist n r') /\
  b_to (back n r B) = Z.of_nat r /\ back n r' (back n r B) = B.
Proof.
  intros Hr I r'. destruct (back_ok n r B Hn Hr I) as (Ht & I' & T'). split; auto. split; auto. split; auto.
  destruct (back_ok n _ _ Hn Ht I') as (_ & I3 & T3). rewrite T', Nat2Z.id in I3. apply (blist_to_inj n Hn r); auto.
  unfold r'. rewrite T3. destruct (blist_back n Hn r B Hr I) as (? & _). lia.
Qed.

Lemma side_not_domain N h len ix iy sy sx ext m b p : fits N h len ix iy sy sx ext m -> in_side m ix iy h b p -> ~ in_domain m p.
Proof.
  intros F (IC & IH) (L & D). pose proof (D iy). pose proof (D ix). pose proof (fit_dims F). pose proof (fit_ix F). pose proof (fit_iy F).
  destruct IH as (A & B). destruct b; cbn in A, B; unfold side_range in A, B; cbn in A, B; lia.
Qed.

Lemma call_sends c t0 r dst t f : call_ok V n k c -> starts V c = true -> (r < ranks n)%nat -> In (dst, t, f) (x_sends (exch V neg n t0 c) r) ->
  exists i v ng, f = read_payload V neg i v ng /\ forall p, in_shape (vshp v) p -> may_read V n c r i (vmap v p).
Proof.
  intros OK S Hr I. pose proof (ok_layout V n k c OK S) as Hn. destruct c; try discriminate; cbn [exch] in I.
  - destruct OK as (_ & N & len & ix & iy & _ & HN & Hh & s & ext & FF).
    cbn [halo_x x_sends] in I. apply in_map_iff in I. destruct I as (B & Q & I). injection Q as _ _ <-.
    exists (h_id (q r)), (sview (q r) h B), false. split; auto. intros p P. split; auto.
    destruct (back_back r B Hn Hr I) as (Ht & I' & T' & BB).
    destruct (scalar_message V neg d n Hn q h 0 N len ix iy s ext HN Hh FF _ _ Ht I') as (SH & _ & _ & M).
    cbv zeta in *. rewrite T', Nat2Z.id, BB in *. rewrite SH in P. apply M in P. tauto.
  - destruct OK as (_ & _ & N & len & ix & iy & _ & HN & Hh & XY & sy & sx & ext & FF).
    assert (exists c B, In B (blist n r) /\ f = vpayload V neg (x r) (y r) (vpart x y h c r B)) as (c & B & IB & ->).
    { cbn [vector_x x_sends] in I. apply in_flat_map in I. destruct I as (B & IB & [Q|[Q|[]]]); injection Q as _ _ <-; [exists false, B|exists true, B]; auto. }
    destruct (back_back r B Hn Hr IB) as (Ht & I' & T' & BB).
    destruct (vector_message V neg d n Hn x y h 0 1 N len ix iy sy sx ext HN Hh ltac:(lia) XY (fun r H => proj1 (FF r H)) (fun r H => proj2 (FF r H)) _ _ c Ht I') as (VP & SH & _ & _ & M).
    cbv zeta in *. rewrite T', Nat2Z.id, BB in *. rewrite VP. cbn [vpayload].
    eexists _, _, _. split; [reflexivity|]. intros p P. rewrite SH in P. apply M in P. cbn [may_read].
    destruct (from_comp (back n r B) c); cbn [hd] in P; tauto.
  - destruct OK as (_ & _ & XY & N & len & ix & iy & OK). pose proof OK as (_ & HN & AX & ext & FF).
    assert (exists c, f = snd (sync_send V neg n x y (t0 + 1) c r)) as (c & ->).
    { cbn [sync_x x_sends] in I. destruct I as [I|[I|[]]]; [exists false|exists true]; rewrite I; reflexivity. }
    assert (FX := fun r H => proj1 (FF r H)). assert (FY := fun r H => proj2 (FF r H)).
    destruct (send_edge V neg d n Hn x y 0 N len ix iy ext HN AX XY FX FY c r _ Hr (south_west_rot V neg d n Hn x y 0 N len ix iy ext HN AX XY FX FY c r Hr))
      as (v & v' & E1 & E2 & M & Q).
    pose proof (FS V neg d n Hn x y 0 N len ix iy ext HN AX XY FX FY c r Hr) as F.
    unfold sync_send. cbn [snd]. fold (sq x y c r). rewrite E2. cbn [ok_or].
    eexists _, _, _. split; [reflexivity|]. intros p P.
    assert (in_domain (h_meta (sq x y c r)) (vmap v' p) /\ rel (h_meta (sq x y c r)) (vmap v' p) (if c then ix else iy) = 0) as OE.
    { apply (edge_points N len ix iy HN AX c ext _ F 0 v M ltac:(lia)). rewrite Q in *. destruct (_ =? 0); [eauto|].
      exists (i_flip (nth 0 (vshp v) 0) 0 p). split; [|reflexivity]. cbn in P.
      pose proof P as P2. apply in_shape_nth in P2. destruct P2 as [L P2]. apply in_shape_nth. unfold i_flip. rewrite length_upd. split; auto.
      intros i Hi. unfold xat. destruct i as [|i].
      + rewrite nth_upd_eq by lia. specialize (P2 0%nat Hi). unfold xat in P2. lia.
      + rewrite nth_upd_neq by lia. exact (P2 _ Hi). }
    cbn [may_read]. exists N, len, ix, iy. split; auto. unfold out_edge. destruct c; cbn [sq] in *; auto.
Qed.

Lemma call_recvs c t0 r src t g : call_ok V n k c -> starts V c = true -> (r < ranks n)%nat -> In (src, t, g) (x_recvs (exch V neg n t0 c) r) ->
  exists i v, g = store_payload V i v /\ forall p, in_shape (vshp v) p -> may_write V n c r i (vmap v p).
Proof.
  intros OK S Hr I. pose proof (ok_layout V n k c OK S) as Hn. destruct c; try discriminate; cbn [exch] in I.
  - destruct OK as (_ & N & len & ix & iy & _ & HN & Hh & s & ext & FF).
    cbn [halo_x x_recvs] in I. apply in_map_iff in I. destruct I as (B & Q & I). injection Q as _ _ <-.
    exists (h_id (q r)), (rview (q r) h B). split; auto. intros p P. split; auto.
    destruct (scalar_message V neg d n Hn q h 0 N len ix iy s ext HN Hh FF _ _ Hr I) as (_ & _ & SD & _).
    apply (side_not_domain N h len ix iy s s ext _ (b_type B)); auto. apply SD. eauto.
  - destruct OK as (_ & _ & N & len & ix & iy & _ & HN & Hh & XY & sy & sx & ext & FF).
    assert (exists c B, In B (blist n r) /\ g = store_payload V (h_id (hd x y c r)) (rview (hd x y c r) h B)) as (c & B & IB & ->).
    { cbn [vector_x x_recvs] in I. apply in_app_iff in I. destruct I as [I|I]; apply in_map_iff in I; destruct I as (B & Q & I); injection Q as _ _ <-; [exists false, B|exists true, B]; auto. }
    destruct (vector_message V neg d n Hn x y h 0 1 N len ix iy sy sx ext HN Hh ltac:(lia) XY (fun r H => proj1 (FF r H)) (fun r H => proj2 (FF r H)) _ _ c Hr IB) as (_ & _ & _ & SD & _).
    cbn [vector_write Delivery.w_view] in SD.
    eexists _, _. split; [reflexivity|]. intros p P. cbn [may_write]. destruct (FF r Hr) as (FX & FY).
    assert (SI : in_side (h_meta (hd x y c r)) ix iy h (b_type B) (vmap (rview (hd x y c r) h B) p)) by (apply SD; eauto).
    destruct c; cbn [hd] in *; [right|left]; split; auto; eapply side_not_domain; eauto.
  - destruct OK as (_ & _ & XY & N & len & ix & iy & OK). pose proof OK as (_ & HN & AX & ext & FF).
    assert (exists c, g = snd (sync_recv V n x y (t0 + 1) c r)) as (c & ->).
    { cbn [sync_x x_recvs] in I. destruct I as [I|[I|[]]]; [exists false|exists true]; rewrite I; reflexivity. }
    assert (FX := fun r H => proj1 (FF r H)). assert (FY := fun r H => proj2 (FF r H)).
    destruct (recv_edge V neg d n Hn x y 0 N len ix iy ext HN AX XY FX FY c r Hr) as (v & E & _).
    destruct (in_edge_iff V neg d n Hn x y 0 N len ix iy ext HN AX XY FX FY c r v Hr E) as (_ & _ & P).
    unfold sync_recv. cbn [snd]. fold (sq x y c r). rewrite E. cbn [ok_or].
    eexists _, _. split; [reflexivity|]. intros p Pp. cbn [may_write]. exists N, len, ix, iy. split; auto.
    assert (IE : in_edge N ix iy c (h_meta (sq x y c r)) (vmap v p)) by (apply P; eauto). destruct c; cbn [sq] in *; auto.
Qed.

(** which axes are horizontal is determined by the names of the dimensions *)
Lemma axes_unique N N' h h' len len' ix iy ix' iy' sy sx sy' sx' ext ext' m :
  fits N h len ix iy sy sx ext m -> fits N' h' len' ix' iy' sy' sx' ext' m -> ix' = ix /\ iy' = iy.
Proof.
  intros F F'. assert (len' = len) by (rewrite <- (fit_dims F); symmetry; apply (fit_dims F')). subst len'.
  pose proof (fit_axis F ix (fit_ix F)) as A1. pose proof (fit_axis F iy (fit_iy F)) as A2.
  rewrite (fit_axis F' ix (fit_ix F)) in A1. rewrite (fit_axis F' iy (fit_iy F)) in A2. pose proof (fit_xy F).
  rewrite Nat.eqb_refl in A1, A2. assert (Nat.eqb iy ix = false) as E by (apply Nat.eqb_neq; auto). rewrite E in A2.
  split.
  - destruct (Nat.eqb_spec ix ix'); auto. destruct (Nat.eqb ix iy'); discriminate.
  - destruct (Nat.eqb_spec iy ix'); [discriminate|]. destruct (Nat.eqb_spec iy iy'); auto. discriminate.
Qed.

(** an update never writes what it sends *)
Lemma own_data_safe c r i p : call_ok V n k c -> (r < ranks n)%nat -> may_read V n c r i p -> ~ may_write V n c r i p.
Proof.
  intros OK Hr R W. destruct c; cbn in R, W; try contradiction.
  - tauto.
  - destruct OK as (_ & _ & N & len & ix & iy & _ & _ & _ & XY & _). specialize (XY r Hr). destruct R as [[R1 R2]|[R1 R2]], W as [[W1 W2]|[W1 W2]]; try congruence; tauto.
  - destruct OK as (_ & _ & XY & _). specialize (XY r Hr).
    destruct R as (N & len & ix & iy & (_ & _ & _ & ext & FF) & R). destruct W as (N' & len' & ix' & iy' & (_ & HN & _ & ext' & FF') & W).
    destruct (axes_unique _ _ _ _ _ _ _ _ _ _ _ _ _ _ _ _ _ (proj1 (FF r Hr)) (proj1 (FF' r Hr))) as (-> & ->).
    destruct R as [[R1 [_ R2]]|[R1 [_ R2]]], W as [[W1 [_ W2]]|[W1 [_ W2]]]; try congruence; lia.
Qed.

Lemma recv_keeps c c' t0 r src t g b m m' : call_ok V n k c' -> starts V c' = true -> (r < ranks n)%nat ->
  In (src, t, g) (x_recvs (exch V neg n t0 c') r) -> g b m = Some m' ->
  (forall i p, may_read V n c r i p -> ~ may_write V n c' r i p) -> keeps V n c r m m'.
Proof.
  intros OK S Hr I G NC. destruct (call_recvs c' t0 r src t g OK S Hr I) as (i & v & -> & W).
  destruct (store_writes _ _ _ _ _ G) as (EL & K). split; auto. intros j a a' E E' p R.
  destruct (K j a E) as (a2 & E2 & F). assert (a2 = a') by congruence. subst. apply F. intros -> x Px Q. apply (NC i p R). rewrite <- Q. auto.
Qed.

Lemma client_calm r : (r < ranks n)%nat -> forall calls sc se t done,
  Forall (call_ok V n k) calls -> Forall2 (fun c e => call_ok V n k c /\ starts V c = true /\ exists t, e = exch V neg n t c) sc se ->
  undisturbed V n calls sc done -> calm (mem V) V r (events V neg n t calls) se done.
Proof.
  intros Hr. induction calls as [|c calls IH]; intros sc se t done OK ST U; [exact I|]. inversion OK as [|? ? O1 O2]; subst.
  assert (STARTS : starts V c = true -> undisturbed V n calls (sc ++ [c]) done -> calm (mem V) V r (EvStart (exch V neg n t c) :: events V neg n (next_tag V t c) calls) se done).
  { intros S U'. cbn [calm]. apply (IH (sc ++ [c])%list); auto. apply Forall2_app; auto. constructor; eauto. }
  destruct c; try (apply STARTS; [reflexivity|exact U]).
  - destruct U as (U1 & U2). cbn [events calm]. split; [|eapply IH; eauto].
    intros j e e' dst t' f src u g b m m' Ei Ej ND If Ig G.
    assert (exists c, nth_error sc j = Some c) as (c & Ec) by (eapply nth_error_same_len; [symmetry; eapply Forall2_length; exact ST|exact Ej]).
    assert (exists c', nth_error sc i = Some c') as (c' & Ec') by (eapply nth_error_same_len; [symmetry; eapply Forall2_length; exact ST|exact Ei]).
    destruct (Forall2_nth2 _ _ _ _ _ _ ST Ec Ej) as (Oc & Sc & t1 & ->). destruct (Forall2_nth2 _ _ _ _ _ _ ST Ec' Ei) as (Oc' & Sc' & t2 & ->).
    destruct (call_sends c t1 r dst t' f Oc Sc Hr If) as (i0 & v & ng & -> & R). apply (payload_kept c r); auto.
    eapply (recv_keeps c c'); eauto. intros i1 p Rp. destruct (Nat.eq_dec j i) as [->|NE].
    + assert (c' = c) by congruence. subst. now apply own_data_safe.
    + exact (U1 j c c' Ec' Ec NE ND r i1 p Hr Rp).
  - destruct U as (U1 & U2). cbn [events calm]. split; [|eapply IH; eauto].
    intros j e dst t' f0 m Ej ND If.
    assert (exists c, nth_error sc j = Some c) as (c & Ec) by (eapply nth_error_same_len; [symmetry; eapply Forall2_length; exact ST|exact Ej]).
    destruct (Forall2_nth2 _ _ _ _ _ _ ST Ec Ej) as (Oc & Sc & t1 & ->).
    destruct (call_sends c t1 r dst t' f0 Oc Sc Hr If) as (i0 & v & ng & -> & R). apply (payload_kept c r); auto. eapply U1; eauto.
Qed.

Lemma client_late calls m ms : Forall (call_ok V n k) calls -> waits_ok V calls 0 [] -> undisturbed V n calls [] [] ->
  always_completes (start_state (ranks n) (client_ops V neg n calls) m) ms ->
  late_completes (late_state (ranks n) (client_ops V neg n calls) m) ms.
Proof.
  intros OK W U. apply late_read. intros r Hr.
  destruct (client_ops_eq V neg d n k r Hr calls [] new_comm [] OK W) as (cm' & E); [split; [reflexivity|now left]|].
  unfold client_ops. cbn [map] in E. rewrite E. cbn [fst]. eapply (script_stable (mem V) V r _ [] _ []).
  - intros x [].
  - cbn [map]. eapply client_calm; eauto.
  - intros i [].
Qed.

Theorem programs_late calls m : Forall (call_ok V n k) calls -> waits_ok V calls 0 [] -> undisturbed V n calls [] [] ->
  arrays n k m -> exists m', meaning V neg d n calls [] m m' /\
    late_completes (late_state (ranks n) (client_ops V neg n calls) m) (tab (ranks n) m').
Proof.
  intros OK W U A. destruct (client_correct V neg d n k calls m OK W A) as (m' & M & C). exists m'. split; auto. now apply client_late.
Qed.

Lemma one_call_late (c : call V) (program : nat -> eff V unit) m m' : call_ok V n k c -> starts V c = true ->
  (forall r, (r < ranks n)%nat -> issued (program r) = client_ops V neg n [c; CWait V 0] r) ->
  all_ranks_end n program m m' -> late_ranks_end n program m m'.
Proof.
  intros OK S E. unfold all_ranks_end, late_ranks_end.
  assert (late_state (ranks n) (fun r => issued (program r)) m = late_state (ranks n) (client_ops V neg n [c; CWait V 0]) m) as ->.
  { unfold late_state. f_equal. now apply tab_ext. }
  rewrite (start_state_ext _ _ _ _ _ m E). apply client_late; [repeat constructor; auto|destruct c; try discriminate; simpl; auto|].
  assert (H : forall j c0 c' (done : list nat), nth_error [c] 0 = Some c' -> nth_error [c] j = Some c0 -> j <> 0%nat -> ~ In j done ->
     forall r k p, (r < ranks n)%nat -> may_read V n c0 r k p -> ~ may_write V n c' r k p).
  { intros [|[|j]] c0 c' done _ N NE; [congruence|discriminate|discriminate]. }
  destruct c; try discriminate; cbn [undisturbed app]; split; auto; intros; eapply H; eauto.
Qed.

Theorem halo_update_late N len ix iy q h m m' : halo_ok n N len ix iy q h -> ids_below k q ->
  all_ranks_end n (fun r => halo_update V neg (n, n) (Z.of_nat r) (q r) h) m m' ->
  late_ranks_end n (fun r => halo_update V neg (n, n) (Z.of_nat r) (q r) h) m m'.
Proof.
  intros OK ID. apply (one_call_late (CHalo V q h)); auto.
  - split; auto. exists N, len, ix, iy. auto.
  - intros r Hr. eapply issued_client; reflexivity.
Qed.

Theorem vector_halo_update_late N len ix iy x y h m m' : vector_ok n N len ix iy x y h -> ids_below k x -> ids_below k y ->
  all_ranks_end n (fun r => vector_halo_update V neg (n, n) (Z.of_nat r) (x r) (y r) h) m m' ->
  late_ranks_end n (fun r => vector_halo_update V neg (n, n) (Z.of_nat r) (x r) (y r) h) m m'.
Proof.
  intros OK IDx IDy. apply (one_call_late (CVector V x y h)); auto.
  - split; auto. split; auto. exists N, len, ix, iy. auto.
  - intros r Hr. eapply issued_client; reflexivity.
Qed.

Theorem synchronize_late N len ix iy x y m m' : sync_ok n N len ix iy (fun r => h_meta (x r)) (fun r => h_meta (y r)) ->
  (forall r, (r < ranks n)%nat -> h_id (x r) <> h_id (y r)) -> ids_below k x -> ids_below k y ->
  all_ranks_end n (fun r => synchronize_vector_interfaces V neg (n, n) (Z.of_nat r) (x r) (y r)) m m' ->
  late_ranks_end n (fun r => synchronize_vector_interfaces V neg (n, n) (Z.of_nat r) (x r) (y r)) m m'.
Proof.
  intros OK XY IDx IDy. apply (one_call_late (CSync V x y)); auto.
  - split; auto. split; auto. split; auto. exists N, len, ix, iy. auto.
  - intros r Hr. eapply issued_client; reflexivity.
Qed.
End Late.

(** regions sent and received, on any quantity *)
Theorem regions_apart N h len ix iy sy sx ext m B B' sv rv p p' : 1 <= N -> 0 <= h <= N -> fits N h len ix iy sy sx ext m ->
  send_view B m h = Ok sv -> recv_view B' m h = Ok rv -> in_shape (vshp sv) p -> in_shape (vshp rv) p' -> vmap sv p <> vmap rv p'.
Proof.
  intros HN Hh F ES ER P P' Q.
  destruct (region_sets N h len ix iy HN Hh sy sx ext m F B B') as (sv1 & _ & E1 & _ & _ & D & _).
  destruct (region_sets N h len ix iy HN Hh sy sx ext m F B' B) as (_ & rv2 & _ & E2 & _ & _ & C & ND & _).
  assert (sv1 = sv) by congruence. assert (rv2 = rv) by congruence. subst.
  apply (ND (vmap rv p')); [apply C; eauto|]. rewrite <- Q. auto.
Qed.
