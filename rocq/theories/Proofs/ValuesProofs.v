(** Reading the property values of a quantity (C73). *)
From Verif.Base Require Import Base Lemmas.
From Verif.Model Require Import Consts Numpy Quantity Values.
From Verif.Spec Require Import Grid Views.
From Verif.Proofs Require Import NumpyProofs ViewProofs NudgeProofs.

Section Values.
Context {V : Type}.
Implicit Types (q : quantity V) (w : world V).

Definition later w w' : Prop := q_meta (w_q w') = q_meta (w_q w) /\
  forall o d, nth_error (w_objs w) o = Some d -> exists d', nth_error (w_objs w') o = Some d' /\ nd_view d' = nd_view d /\ (nd_writeable d = false -> nd_writeable d' = false).

Lemma later_refl w : later w w.
Proof. split; auto. intros o d E. exists d. auto. Qed.
Lemma later_trans w1 w2 w3 : later w1 w2 -> later w2 w3 -> later w1 w3.
Proof.
  intros (M & O) (M' & O'). split; [congruence|]. intros o d E. destruct (O _ _ E) as (d' & E' & V' & R'). destruct (O' _ _ E') as (d2 & E2 & V2 & R2).
  exists d2. split; auto. split; [congruence|auto].
Qed.

Lemma nth_error_upd {A} (l : list A) i j a : nth_error (upd l i a) j = if Nat.eqb i j then (if Nat.ltb i (length l) then Some a else None) else nth_error l j.
Proof.
  revert i j. induction l as [|x l IH]; intros i j.
  - destruct i; cbn; destruct j; cbn; auto; destruct (Nat.eqb _ _); reflexivity.
  - destruct i as [|i]; destruct j as [|j]; cbn [upd nth_error Nat.eqb length]; auto. rewrite IH. reflexivity.
Qed.

Lemma later_new d w : later w (fst (new_object d w)).
Proof.
  split; [reflexivity|]. intros o d0 E. exists d0. cbn. split; auto. rewrite nth_error_app1; auto. apply nth_error_Some. congruence.
Qed.
Lemma later_readonly o w : later w (set_readonly o w).
Proof.
  unfold set_readonly. destruct (nth_error (w_objs w) o) as [d|] eqn:E; [|apply later_refl]. split; [reflexivity|]. intros o' d' E'. cbn [w_objs]. rewrite nth_error_upd.
  destruct (Nat.eqb_spec o o') as [<-|N].
  - rewrite E in E'. injection E' as <-. assert (L : (o < length (w_objs w))%nat) by (apply nth_error_Some; congruence). apply Nat.ltb_lt in L. rewrite L. eexists. split; [reflexivity|]. auto.
  - exists d'. auto.
Qed.
Lemma later_view i w w' o : get_view i w = Ok (w', o) -> later w w'.
Proof.
  unfold get_view. destruct (view_index _ _) as [v|]; [|discriminate]. cbn [bind]. destruct (q_origin (w_q w)); intros [= <- <-]; [apply later_refl|apply later_new].
Qed.
Lemma later_values w w' o : get_values w = Ok (w', o) -> later w w'.
Proof.
  unfold get_values. destruct (get_view _ w) as [[w1 o1]|] eqn:E; [|discriminate]. cbn [bind]. intros [= <- <-]. eapply later_trans; [eapply later_view; eauto|apply later_readonly].
Qed.
Lemma later_data w a : shp a = shp (q_data (w_q w)) -> later w (mkWorld (q_with_data (w_q w) a) (w_objs w)).
Proof. intros E. split; [cbn; unfold q_meta; cbn; now rewrite E|]. intros o d D. exists d. auto. Qed.
Lemma assign_shape (a : arr V) v src a' : a_assign a v src = Ok a' -> shp a' = shp a.
Proof. unfold a_assign. destruct (bcast _ _); [|discriminate]. intros [= <-]. apply shp_a_write. Qed.
Lemma later_set i src w w' : set_view i src w = Ok w' -> later w w'.
Proof.
  unfold set_view. destruct (get_compute_index _ _) as [es|]; [|discriminate]. cbn [bind]. destruct (writeable w own); [|discriminate].
  unfold setitem. destruct (v_index _ _) as [v|]; [|discriminate]. cbn [bind]. destruct (a_assign _ _ _) as [a|] eqn:E; [|discriminate]. cbn [bind]. intros [= <-].
  apply later_data. eapply assign_shape; eauto.
Qed.
Lemma later_assign o src w w' : set_object o src w = Ok w' -> later w w'.
Proof.
  unfold set_object. destruct (nth_error _ _) as [d|]; [|discriminate]. destruct (nd_writeable d); [|discriminate].
  destruct (a_assign _ _ _) as [a|] eqn:E; [|discriminate]. cbn [bind]. intros [= <-]. apply later_data. eapply assign_shape; eauto.
Qed.
Lemma later_perform u w : later w (perform u w).
Proof.
  destruct u; cbn [perform].
  - destruct (get_values w) as [[w' o]|] eqn:E; [eapply later_values; eauto|apply later_refl].
  - destruct (get_view i w) as [[w' o]|] eqn:E; [eapply later_view; eauto|apply later_refl].
  - destruct (set_view i src w) as [w'|] eqn:E; [eapply later_set; eauto|apply later_refl].
  - destruct (set_object o src w) as [w'|] eqn:E; [eapply later_assign; eauto|apply later_refl].
Qed.
Lemma later_all us : forall w, later w (perform_all us w).
Proof.
  induction us as [|u us IH]; intros w; cbn; [apply later_refl|]. eapply later_trans; [apply later_perform|apply IH].
Qed.

(** ** the quantity's own data *)
Definition sound w : Prop := exists d, nth_error (w_objs w) own = Some d.
Lemma sound_later w w' : later w w' -> sound w -> sound w'.
Proof. intros (_ & O) (d & E). destruct (O _ _ E) as (d' & E' & _). now exists d'. Qed.
Lemma sound_start q : sound (world_of q).
Proof. eexists. reflexivity. Qed.

Lemma own_kept u w : q_origin (w_q w) <> [] -> sound w -> writeable w own = true -> writeable (perform u w) own = true.
Proof.
  intros N (d & D) W. assert (G : forall i w' o, get_view i w = Ok (w', o) -> writeable w' own = true /\ o <> own /\ exists d', nth_error (w_objs w') own = Some d' /\ nd_writeable d' = true).
  { intros i w' o. unfold get_view. destruct (view_index _ _) as [v|]; [|discriminate]. cbn [bind]. destruct (q_origin (w_q w)) as [|x l] eqn:O; [congruence|]. intros [= <- <-].
    unfold writeable, own in *. cbn [w_objs]. destruct (w_objs w) as [|d0 objs]; [discriminate|]. cbn in *. repeat split; auto. exists d0. auto. }
  destruct u; cbn [perform].
  - unfold get_values. destruct (get_view _ w) as [[w' o]|] eqn:E; cbn [bind]; [|exact W]. destruct (G _ _ _ E) as (W' & NO & d' & D' & T').
    unfold set_readonly. destruct (nth_error (w_objs w') o) as [d2|] eqn:E2; [|exact W']. unfold writeable. cbn [w_objs]. rewrite nth_error_upd.
    destruct (Nat.eqb_spec o own); [contradiction|]. now rewrite D'.
  - destruct (get_view i w) as [[w' o]|] eqn:E; [|exact W]. exact (proj1 (G _ _ _ E)).
  - unfold set_view. destruct (get_compute_index _ _) as [es|]; [|exact W]. cbn [bind]. rewrite W. destruct (setitem _ _ _); exact W.
  - unfold set_object. destruct (nth_error (w_objs w) o) as [d0|]; [|exact W]. destruct (nd_writeable d0); [|exact W]. destruct (a_assign _ _ _); exact W.
Qed.

Lemma meta_origin w w' : q_meta (w_q w') = q_meta (w_q w) -> q_origin (w_q w') = q_origin (w_q w).
Proof. intros E. apply (f_equal m_origin) in E. exact E. Qed.

Lemma own_kept_all us : forall w, q_origin (w_q w) <> [] -> sound w -> writeable w own = true -> writeable (perform_all us w) own = true.
Proof.
  induction us as [|u us IH]; intros w N S W; cbn; auto. apply IH.
  - rewrite (meta_origin w); [exact N|]. apply (proj1 (later_perform u w)).
  - eapply sound_later; [apply later_perform|exact S].
  - now apply own_kept.
Qed.

Lemma set_when_writeable i src w : writeable w own = true -> set_view i src w = do q <- view_set (w_q w) i src; Ok (mkWorld q (w_objs w)).
Proof.
  intros W. unfold set_view, view_set. destruct (get_compute_index _ _) as [es|]; cbn [bind]; [|reflexivity]. rewrite W. destruct (setitem _ _ _); reflexivity.
Qed.

Lemma still_assignable q us : q_origin q <> [] -> let w := perform_all us (world_of q) in
  forall i src, set_view i src w = do q' <- view_set (w_q w) i src; Ok (mkWorld q' (w_objs w)).
Proof. intros N w i src. apply set_when_writeable. apply own_kept_all; auto. apply sound_start. Qed.

(** ** the array returned *)
Lemma values_view q us : well_formed (q_meta q) -> let w := perform_all us (world_of q) in
  exists w' o d, get_values w = Ok (w', o) /\ w_q w' = w_q w /\ nth_error (w_objs w') o = Some d /\ nd_writeable d = false /\
    vshp (nd_view d) = q_extent q /\ (forall p, in_shape (q_extent q) p -> vmap (nd_view d) p = shifted (q_origin q) p) /\ (q_origin q = [] -> o = own).
Proof.
  intros W w. assert (LA : later (world_of q) w) by apply later_all. destruct LA as (M & O). cbn [world_of w_q] in M.
  assert (MO := f_equal m_origin M). assert (MS := f_equal m_shape M). assert (ME := f_equal m_extent M). cbn in MO, MS, ME.
  destruct (O own _ eq_refl) as (d0 & D0 & V0 & _). cbn in V0. unfold get_values, get_view. rewrite M.
  destruct (q_origin q) as [|x origin] eqn:EO.
  - assert (EV : view_index (q_meta q) (PSingle IALL) = Ok (v_whole (shp (q_data q)))) by (unfold view_index; cbn [q_meta m_origin m_shape]; now rewrite EO).
    rewrite EV. cbn [bind]. rewrite MO. cbn [bind]. unfold set_readonly. rewrite D0.
    assert (E0 : q_extent q = [] /\ shp (q_data q) = []). { destruct W as [L A]. cbn in A. rewrite EO in A. inversion A. auto. }
    destruct E0 as (E0 & S0). exists (mkWorld (w_q w) (upd (w_objs w) own (mkND (nd_view d0) false))), own, (mkND (nd_view d0) false).
    split; [reflexivity|]. split; [reflexivity|]. cbn [w_objs]. rewrite nth_error_upd, Nat.eqb_refl.
    assert (L : (own < length (w_objs w))%nat) by (apply nth_error_Some; congruence). apply Nat.ltb_lt in L. rewrite L.
    split; [reflexivity|]. split; [reflexivity|]. cbn [nd_view]. rewrite V0, E0, S0. split; [reflexivity|]. split; [|auto].
    intros p P. inversion P. reflexivity.
  - assert (NE : q_extent q <> []). { destruct W as [L A]. cbn in A. rewrite EO in A. inversion A. discriminate. }
    destruct (view_single q W NE) as (v & -> & SV & VM). cbn [bind]. rewrite MO. cbn [bind new_object].
    unfold set_readonly. cbn [w_objs]. rewrite nth_error_app2, Nat.sub_diag by auto. cbn [nth_error].
    eexists. eexists. exists (mkND v false). split; [reflexivity|]. split; [reflexivity|]. cbn [w_objs nd_view nd_writeable]. rewrite nth_error_upd, Nat.eqb_refl.
    rewrite (proj2 (Nat.ltb_lt _ _)) by (rewrite app_length; cbn; lia). repeat split; auto. rewrite EO in VM. exact VM.
    discriminate.
Qed.

Lemma values_readonly q us : well_formed (q_meta q) ->
  exists w' o, get_values (perform_all us (world_of q)) = Ok (w', o) /\ w_q w' = w_q (perform_all us (world_of q)) /\
  forall us', let w := perform_all us' w' in
    (forall src, set_object o src w = Err ValueError) /\ exists a, contents o w = Some a /\ same a (domain_of (w_q w)).
Proof.
  intros W. destruct (values_view q us W) as (w' & o & d & E & Q & D & RO & SV & VM & _). exists w', o. split; [exact E|]. split; [exact Q|]. intros us' w.
  assert (LA : later w' w) by apply later_all. destruct LA as (M & O). destruct (O _ _ D) as (d' & D' & DV & DR). split.
  - intros src. unfold set_object. rewrite D', (DR RO). reflexivity.
  - unfold contents. rewrite D'. eexists. split; [reflexivity|].
    assert (M0 : q_meta (w_q w) = q_meta q). { rewrite M, Q. apply (proj1 (later_all us (world_of q))). }
    assert (MO := f_equal m_origin M0). assert (ME := f_equal m_extent M0). cbn in MO, ME.
    split; cbn [v_read shp domain_of at_]; rewrite DV.
    + now rewrite ME.
    + intros p P. rewrite SV in P. rewrite VM by auto. now rewrite MO.
Qed.

(** ** quantities without dimensions *)
Lemma single_view i w w' o : q_origin (w_q w) = [] -> get_view i w = Ok (w', o) -> w' = w /\ o = own.
Proof. intros O. unfold get_view. destruct (view_index _ _); [|discriminate]. cbn [bind]. rewrite O. now intros [= <- <-]. Qed.

Definition only_own w : Prop := exists d, w_objs w = [d].
Lemma only_own_perform u w : q_origin (w_q w) = [] -> only_own w -> only_own (perform u w).
Proof.
  intros O (d & D). destruct u; cbn [perform].
  - unfold get_values. destruct (get_view _ w) as [[w' o]|] eqn:E; cbn [bind]; [|now exists d]. apply single_view in E; auto. destruct E as (-> & ->).
    unfold set_readonly. rewrite D. cbn. eexists. reflexivity.
  - destruct (get_view i w) as [[w' o]|] eqn:E; [|now exists d]. apply single_view in E; auto. destruct E as (-> & ->). now exists d.
  - destruct (set_view i src w) as [w'|] eqn:E; [|now exists d]. exists d. revert E. unfold set_view. destruct (get_compute_index _ _); [|discriminate]. cbn [bind].
    destruct (writeable w own); [|discriminate]. destruct (setitem _ _ _); [|discriminate]. cbn [bind]. now intros [= <-].
  - destruct (set_object o src w) as [w'|] eqn:E; [|now exists d]. exists d. revert E. unfold set_object. destruct (nth_error _ _) as [d0|]; [|discriminate].
    destruct (nd_writeable d0); [|discriminate]. destruct (a_assign _ _ _); [|discriminate]. cbn [bind]. now intros [= <-].
Qed.
Lemma only_own_all us : forall w, q_origin (w_q w) = [] -> only_own w -> only_own (perform_all us w).
Proof.
  induction us as [|u us IH]; intros w O S; cbn; auto. apply IH; [|now apply only_own_perform].
  rewrite (meta_origin w); [exact O|]. apply (proj1 (later_perform u w)).
Qed.

Definition frozen w : Prop := exists d, w_objs w = [d] /\ nd_writeable d = false.
Lemma frozen_perform u w : q_origin (w_q w) = [] -> frozen w -> frozen (perform u w) /\ w_q (perform u w) = w_q w.
Proof.
  intros O (d & D & R). assert (F : frozen w) by now exists d.
  assert (NW : writeable w own = false) by (unfold writeable; now rewrite D). destruct u; cbn [perform].
  - unfold get_values. destruct (get_view _ w) as [[w' o]|] eqn:E; cbn [bind]; [|auto]. apply single_view in E; auto. destruct E as (-> & ->).
    unfold set_readonly. rewrite D. cbn. split; [|reflexivity]. eexists. split; reflexivity.
  - destruct (get_view i w) as [[w' o]|] eqn:E; [|auto]. apply single_view in E; auto. destruct E as (-> & ->). auto.
  - unfold set_view. destruct (get_compute_index _ _); cbn [bind]; [|auto]. rewrite NW. auto.
  - unfold set_object. rewrite D. destruct o as [|o]; cbn [nth_error]; [rewrite R; auto|]. destruct o; auto.
Qed.
Lemma frozen_all us : forall w, q_origin (w_q w) = [] -> frozen w -> frozen (perform_all us w) /\ w_q (perform_all us w) = w_q w.
Proof.
  induction us as [|u us IH]; intros w O F; cbn; auto. destruct (frozen_perform u w O F) as (F' & Q'). destruct (IH (perform u w)) as (F2 & Q2); [now rewrite Q'|auto|].
  split; [exact F2|]. rewrite <- Q'. exact Q2.
Qed.

Lemma no_dimensions q us : well_formed (q_meta q) -> q_origin q = [] ->
  exists w' o, get_values (perform_all us (world_of q)) = Ok (w', o) /\ forall us', let w := perform_all us' w' in
    w_q w = w_q w' /\ forall src, set_view (PTuple []) src w = Err ValueError.
Proof.
  intros W O. destruct (values_view q us W) as (w' & o & d & E & Q & D & RO & SV & VM & OW). exists w', o. split; [exact E|]. intros us' w.
  specialize (OW O). subst o.
  assert (M := proj1 (later_all us (world_of q))). cbn [world_of w_q] in M. assert (MO := f_equal m_origin M). cbn in MO.
  assert (F : frozen w').
  { assert (S : only_own (perform_all us (world_of q))) by (apply only_own_all; [exact O|now eexists]).
    destruct S as (d0 & S). revert E. unfold get_values, get_view. destruct (view_index _ _); [|discriminate]. cbn [bind]. rewrite MO, O. cbn [bind]. intros [= <-].
    unfold set_readonly in *. rewrite S in *. cbn in *. exists (mkND (nd_view d0) false). auto. }
  assert (O' : q_origin (w_q w') = []) by (rewrite Q, MO; exact O).
  destruct (frozen_all us' w' O' F) as ((d' & D' & R') & Q'). split; [exact Q'|]. intros src. unfold set_view.
  assert (X : get_compute_index (q_meta (w_q w)) (PTuple []) = Ok []).
  { unfold get_compute_index. cbn [index_list length]. rewrite (proj2 (Nat.ltb_ge _ _)) by lia. unfold w. rewrite Q'. cbn [q_meta m_origin]. rewrite O'. f_equal. destruct (fill_index _ _); reflexivity. }
  rewrite X. cbn [bind]. unfold writeable. unfold w. rewrite D'. cbn. now rewrite R'.
Qed.
End Values.

(** ** sel on the view (C74) *)
Section Sel.
Variable V : Type.

Lemma sel_by_name (q : quantity V) kw es : well_formed (q_meta q) -> Forall2 (fun d e => dget d kw = Some e \/ dget d kw = None /\ e = IALL) (q_dims q) es ->
  index_ok (q_origin q) (q_extent q) es -> agree same (rmap (v_read (q_data q)) (view_sel (q_meta q) kw)) (getitem (domain_of q) es).
Proof.
  intros W F IO. assert (E : sel_index (q_dims q) kw = PTuple es).
  { unfold sel_index. f_equal. clear IO. induction F as [|d e ds es X F IH]; auto. cbn. rewrite IH. f_equal. destruct X as [->|(-> & ->)]; reflexivity. }
  unfold view_sel. cbn [q_meta m_dims]. rewrite E. exact (view_read q es W IO).
Qed.

Lemma sel_everything (q : quantity V) kw : well_formed (q_meta q) -> (forall d, In d (q_dims q) -> dget d kw = None) ->
  exists v, view_sel (q_meta q) kw = Ok v /\ same (v_read (q_data q) v) (domain_of q).
Proof.
  intros W N. assert (E : sel_index (q_dims q) kw = PTuple (repeat IALL (length (q_dims q)))).
  { unfold sel_index. f_equal. clear W. induction (q_dims q) as [|d ds IH]; auto. cbn [map length repeat]. rewrite IH by (intros; apply N; cbn; auto). now rewrite N by (cbn; auto). }
  unfold view_sel. cbn [q_meta m_dims]. rewrite E. destruct (axes_ok_lengths _ _ _ (proj2 W)) as (L1 & L2). assert (L := proj1 W). cbn in L, L1, L2. destruct (q_extent q) as [|x l] eqn:EX.
  - assert (O : q_origin q = []) by (destruct (q_origin q); auto; cbn in *; lia). assert (S : shp (q_data q) = []) by (destruct (shp (q_data q)); auto; cbn in *; lia).
    assert (D : q_dims q = []) by (destruct (q_dims q); auto; cbn in *; rewrite S in L; cbn in L; lia).
    unfold view_index. cbn [q_meta m_origin m_shape]. rewrite O, D. cbn. eexists. split; [reflexivity|]. split; cbn; [congruence|]. rewrite S, O. intros p P. inversion P. reflexivity.
  - assert (NE : q_extent q <> []) by congruence. destruct (view_single q W NE) as (v & EV & SV & VM). exists v. split.
    + rewrite <- EV. unfold view_index. cbn [q_meta m_origin m_shape]. destruct (q_origin q) as [|o origin] eqn:O; [cbn in *; lia|]. unfold get_compute_index. cbn [q_meta m_dims m_shape m_origin m_extent index_list].
      rewrite repeat_length, Nat.ltb_irrefl. cbn [length]. destruct (Nat.ltb_spec (length (q_dims q)) 1); [cbn in *; lia|]. cbn [bind]. f_equal. f_equal. unfold fill_index. rewrite L, repeat_length, Nat.sub_diag.
      cbn [repeat app length]. rewrite app_nil_r. destruct (length (shp (q_data q))); [cbn in *; lia|]. cbn [repeat app]. now rewrite Nat.sub_succ, Nat.sub_0_r.
    + split; cbn; [congruence|]. intros p P. rewrite SV in P. now rewrite VM.
Qed.
End Sel.
