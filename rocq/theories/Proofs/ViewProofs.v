(** Indexing of views, corner views; reads and writes. *)
From Verif.Base Require Import Base Lemmas.
From Verif.Model Require Import Consts Numpy Quantity.
From Verif.Spec Require Import Grid Views.
From Verif.Proofs Require Import NumpyProofs.
From Coq Require Import ZifyBool.

(** ** results of basic indexing lie in the array *)
Lemma slice_norm_range n start stop step a len st i : 0 <= n -> slice_norm n start stop step = Ok (a, len, st) ->
  0 <= i < len -> 0 <= a + i * st < n.
Proof.
  intros Hn E Hi. unfold slice_norm in E. set (s := match step with Some s => s | None => 1 end) in *.
  destruct (Z.eqb_spec s 0); [discriminate|]. injection E as <- <- <-.
  set (A := match start with Some a => clamp n s a | None => if s <? 0 then n - 1 else 0 end) in *.
  set (B := match stop with Some b => clamp n s b | None => if s <? 0 then -1 else n end) in *.
  destruct (Z.ltb_spec s 0).
  - assert (HA : A <= n - 1).
    { unfold A. destruct start as [z|]; [|lia]. unfold clamp. destruct (Z.ltb_spec s 0); try lia. destruct (Z.ltb_spec z 0), (Z.ltb_spec (z + n) 0), (Z.leb_spec n z); lia. }
    assert (HB : -1 <= B).
    { unfold B. destruct stop as [z|]; [|lia]. unfold clamp. destruct (Z.ltb_spec s 0); try lia. destruct (Z.ltb_spec z 0), (Z.ltb_spec (z + n) 0), (Z.leb_spec n z); lia. }
    destruct (Z.ltb_spec B A); [|lia].
    assert (D : i <= (A - B - 1) / - s) by lia.
    assert (M : - s * ((A - B - 1) / - s) <= A - B - 1) by (apply Z.mul_div_le; lia).
    nia.
  - assert (HA : 0 <= A).
    { unfold A. destruct start as [z|]; [|lia]. unfold clamp. destruct (Z.ltb_spec s 0); try lia. destruct (Z.ltb_spec z 0), (Z.ltb_spec (z + n) 0), (Z.leb_spec n z); lia. }
    assert (HB : B <= n).
    { unfold B. destruct stop as [z|]; [|lia]. unfold clamp. destruct (Z.ltb_spec s 0); try lia. destruct (Z.ltb_spec z 0), (Z.ltb_spec (z + n) 0), (Z.leb_spec n z); lia. }
    destruct (Z.ltb_spec A B); [|lia].
    assert (D : i <= (B - A - 1) / s) by lia.
    assert (M : s * ((B - A - 1) / s) <= B - A - 1) by (apply Z.mul_div_le; lia).
    nia.
Qed.

Lemma index_apply_range es : forall s s' f p, Forall (Z.le 0) s -> index_apply es s = Ok (s', f) -> in_shape s' p -> in_shape s (f p).
Proof.
  induction es as [|e es IH]; intros s s' f p N E P; cbn [index_apply] in E.
  - injection E as <- <-. exact P.
  - destruct e as [i|a b st|].
    + destruct s as [|n s]; [discriminate|]. inversion N; subst. destruct ((- n <=? i) && (i <? n)) eqn:R; [|discriminate].
      destruct (index_apply es s) as [[s1 f1]|] eqn:E1; [|discriminate]. injection E as <- <-. constructor; [destruct (Z.ltb_spec i 0); lia|]. eapply IH; eauto.
    + destruct s as [|n s]; [discriminate|]. inversion N; subst. destruct (slice_norm n a b st) as [[[a' len] st']|] eqn:SN; [|discriminate].
      cbn [bind] in E. destruct (index_apply es s) as [[s1 f1]|] eqn:E1; [|discriminate]. injection E as <- <-.
      inversion P; subst. constructor; cbn [hd tl]; [|eapply IH; eauto]. eapply slice_norm_range; eauto.
    + destruct (index_apply es s) as [[s1 f1]|] eqn:E1; [|discriminate]. injection E as <- <-. inversion P; subst. cbn [tl]. eapply IH; eauto.
Qed.

Lemma axes_ok_lengths origin extent shape : axes_ok origin extent shape -> length origin = length shape /\ length extent = length shape.
Proof. induction 1; cbn; lia. Qed.
Lemma axes_ok_extent origin extent shape : axes_ok origin extent shape -> Forall (Z.le 0) extent /\ Forall (Z.le 0) shape.
Proof. induction 1 as [|? ? ? ? ? ? ? ? ? ? (A & B)]; split; constructor; auto; lia. Qed.

Ltac zif := repeat match goal with
  | |- context [if ?a <? ?b then _ else _] => destruct (Z.ltb_spec a b); try lia
  | |- context [if ?a <=? ?b then _ else _] => destruct (Z.leb_spec a b); try lia
  end; try lia.
(** ** view against compute domain *)
Lemma slice_shift o x s start stop step : 0 <= o -> 0 <= x -> o + x <= s -> entry_ok o x (ISlice start stop step) ->
  match shift_entry (ISlice start stop step) o x with
  | ISlice a b t => agree (fun u w => u = (o + fst (fst w), snd (fst w), snd w) \/ (snd (fst u) = 0 /\ snd (fst w) = 0 /\ snd u = snd w)) (slice_norm s a b t) (slice_norm x start stop step)
  | _ => False
  end.
Proof.
  intros Ho Hx Hs (A & B & C). cbn [shift_entry bound_default_slice]. unfold slice_norm.
  set (t := match step with Some s => s | None => 1 end). destruct (Z.eqb_spec t 0); [reflexivity|]. cbn [agree fst snd].
  assert (C' : t < 0 -> start <> None /\ stop <> None /\ start <> Some x) by (unfold t; destruct step; [apply C; reflexivity|lia]). clear C.
  set (a1 := clamp s t _). set (b1 := clamp s t _).
  set (a2 := match start with Some a => clamp x t a | None => _ end). set (b2 := match stop with Some b => clamp x t b | None => _ end).
  assert (HB : b1 = o + b2 \/ (t < 0 /\ x - 1 <= b2 /\ o + b2 <= b1)).
  { unfold b1, b2. destruct stop as [b|].
    - specialize (B b eq_refl). cbn [shift_index]. unfold bound_ok in B. destruct (Z.ltb_spec (b + o) 0); unfold clamp; zif.
    - cbn [shift_index]. destruct (Z.ltb_spec t 0) as [T|T]; [destruct (C' T) as (_ & Z & _); congruence|]. unfold clamp. zif. }
  assert (HA : a1 = o + a2 /\ (t < 0 -> a2 <= x - 1)).
  { unfold a1, a2. destruct start as [b|].
    - specialize (A b eq_refl). cbn [shift_index]. unfold bound_ok in A. 
      assert (NX : t < 0 -> b <> x) by (intros T; destruct (C' T) as (_ & _ & Z); congruence). destruct (Z.ltb_spec (b + o) 0); unfold clamp; zif.
    - cbn [shift_index]. destruct (Z.ltb_spec t 0) as [T|T]; [destruct (C' T) as (Z & _); congruence|]. unfold clamp. zif. }
  destruct HA as (HA & HA'). destruct HB as [HB|(T & HB1 & HB2)].
  - left. rewrite HA, HB. destruct (Z.ltb_spec t 0).
    + replace (o + b2 <? o + a2) with (b2 <? a2) by lia. now replace (o + a2 - (o + b2) - 1) with (a2 - b2 - 1) by lia.
    + replace (o + a2 <? o + b2) with (a2 <? b2) by lia. now replace (o + b2 - (o + a2) - 1) with (b2 - a2 - 1) by lia.
  - right. specialize (HA' T). destruct (Z.ltb_spec t 0); try lia. destruct (Z.ltb_spec b1 a1); try lia. destruct (Z.ltb_spec b2 a2); lia.
Qed.

(** omitted dimensions *)
Lemma fill_rest origin extent shape : axes_ok origin extent shape ->
  exists f, index_apply (shift_entries (repeat IALL (length shape)) origin extent) shape = Ok (extent, f) /\
    forall p, in_shape extent p -> f p = shifted origin p.
Proof.
  induction 1 as [|o e s origin extent shape Ho He Hs A (f & E & F)]; [exists (fun p => p); split; auto; intros p P; inversion P; reflexivity|].
  cbn [length repeat shift_entries shift_entry IALL shift_index bound_default_slice index_apply]. rewrite slice_norm_inside by lia. cbn [bind]. rewrite E.
  cbn [bind]. replace (o + e - o) with e by lia. eexists. split; [reflexivity|]. intros p P. inversion P; subst. cbn [hd tl shifted map2]. rewrite F by auto. f_equal. lia.
Qed.

Lemma index_shift es : forall origin extent shape, axes_ok origin extent shape -> index_ok origin extent es ->
  agree (fun u w => fst u = fst w /\ forall p, in_shape (fst w) p -> snd u p = shifted origin (snd w p))
    (index_apply (shift_entries (fill_index es (length shape)) origin extent) shape) (index_apply es extent).
Proof.
  induction es as [|e es IH]; intros origin extent shape A OK.
  - unfold fill_index. cbn [app length]. rewrite Nat.sub_0_r. destruct (fill_rest _ _ _ A) as (f & -> & F). cbn. auto.
  - destruct A as [|o x s origin extent shape Ho Hx Hs A]; [destruct OK|]. destruct OK as (E & OK). specialize (IH _ _ _ A OK).
    unfold fill_index in *. cbn [app length]. cbn [shift_entries]. rewrite Nat.sub_succ.
    destruct e as [i|a b st|].
    + cbn [entry_ok] in E. cbn [shift_entry index_apply]. replace ((- s <=? i + o) && (i + o <? s)) with true by lia. replace ((- x <=? i) && (i <? x)) with true by lia.
      destruct (index_apply _ shape) as [[s1 f1]|e1], (index_apply es extent) as [[s2 f2]|e2]; cbn [agree bind fst snd] in *; auto; try contradiction.
      destruct IH as (-> & F). split; auto. intros p P. cbn [shifted map2]. fold (shifted origin (f2 p)). rewrite F by auto. f_equal. destruct (Z.ltb_spec (i + o) 0), (Z.ltb_spec i 0); lia.
    + assert (SL := slice_shift o x s a b st Ho Hx Hs E). destruct (shift_entry (ISlice a b st) o x) as [?|a1 b1 st1|] eqn:Q; try contradiction.
      cbn [index_apply]. destruct (slice_norm s a1 b1 st1) as [[[u1 l1] t1]|], (slice_norm x a b st) as [[[u2 l2] t2]|]; cbn [agree bind fst snd] in *; auto; try contradiction.
      destruct (index_apply _ shape) as [[s1 f1]|e1], (index_apply es extent) as [[s2 f2]|e2]; cbn [agree bind fst snd] in *; auto; try contradiction.
      destruct IH as (-> & F). destruct SL as [[= -> -> ->]|(-> & -> & ->)].
      * split; auto. intros p P. inversion P; subst. cbn [hd tl shifted map2]. fold (shifted origin (f2 l')). rewrite F by auto. f_equal. lia.
      * split; auto. intros p P. inversion P; subst. lia.
    + destruct E.
Qed.

Lemma get_compute_index_ok m es : well_formed m -> index_ok (m_origin m) (m_extent m) es ->
  get_compute_index m (PTuple es) = Ok (shift_entries (fill_index es (length (m_shape m))) (m_origin m) (m_extent m)).
Proof.
  intros (L & A) OK. unfold get_compute_index. cbn [index_list].
  assert (X : forall es origin extent, index_ok origin extent es -> (length es <= length origin)%nat).
  { clear. induction es; cbn; intros [|] [|]; cbn; try tauto; try lia. intros (_ & H). apply IHes in H. lia. }
  apply X in OK. destruct (axes_ok_lengths _ _ _ A). destruct (Nat.ltb_spec (length (m_dims m)) (length es)); [lia|reflexivity].
Qed.

Section Values.
Context {V : Type}.

Theorem view_read (q : quantity V) es : well_formed (q_meta q) -> index_ok (q_origin q) (q_extent q) es ->
  agree same (view_get q (PTuple es)) (getitem (domain_of q) es).
Proof.
  intros W OK. assert (A := proj2 W). cbn in A. unfold view_get, view_index, getitem.
  change (m_origin (q_meta q)) with (q_origin q). destruct (q_origin q) as [|o origin] eqn:O.
  - inversion A as [E1 E2 E3|]; subst. rewrite <- E2 in OK. destruct es as [|? ?]; [|destruct OK]. unfold domain_of. rewrite <- E2. cbn. split; cbn; auto.
    intros p P. rewrite <- E3 in P. inversion P; subst. rewrite O. reflexivity.
  - rewrite <- O in *. rewrite (get_compute_index_ok _ _ W OK). cbn [bind]. unfold v_index, v_whole. cbn [vshp vmap domain_of shp].
    assert (I := index_shift es _ _ _ A OK). cbn [q_meta m_shape m_origin m_extent] in *.
    destruct (index_apply _ (shp (q_data q))) as [[s1 f1]|e1], (index_apply es (q_extent q)) as [[s2 f2]|e2]; cbn [agree bind rmap fst snd] in *; auto; try contradiction.
    destruct I as (-> & F). split; cbn; auto. intros p P. now rewrite F.
Qed.

Lemma shifted_eqb origin : forall p j, length p = length origin -> length j = length origin -> idx_eqb (shifted origin p) (shifted origin j) = idx_eqb p j.
Proof.
  induction origin as [|o origin IH]; intros [|a p] [|b j] L1 L2; try discriminate; auto. cbn. cbn in L1, L2.
  change (map2 Z.add origin p) with (shifted origin p). change (map2 Z.add origin j) with (shifted origin j). rewrite IH by lia. f_equal. lia.
Qed.

Lemma write_shifted origin (l : list (idx * V)) : forall (a b : arr V), (forall i, length i = length origin -> at_ a (shifted origin i) = at_ b i) ->
  Forall (fun iv => length (fst iv) = length origin) l ->
  forall i, length i = length origin -> at_ (a_write (map (fun iv => (shifted origin (fst iv), snd iv)) l) a) (shifted origin i) = at_ (a_write l b) i.
Proof.
  induction l as [|[j v] l IH]; intros a b H F i L; [now apply H|]. inversion F; subst. cbn [map fst snd]. rewrite !a_write_cons. apply IH; auto.
  intros i' L'. cbn [a_set at_]. rewrite shifted_eqb by auto. destruct (idx_eqb i' j); auto.
Qed.

(** writing through the view: the same as writing to the compute domain, and nothing else *)
Theorem view_write (q : quantity V) es src : well_formed (q_meta q) -> index_ok (q_origin q) (q_extent q) es ->
  agree (written q) (view_set q (PTuple es) src) (setitem (domain_of q) es src).
Proof.
  intros W OK. assert (A := proj2 W). cbn in A. unfold view_set, setitem. rewrite (get_compute_index_ok _ _ W OK). cbn [bind].
  unfold v_index, v_whole. cbn [vshp vmap]. assert (I := index_shift es _ _ _ A OK). cbn [q_meta m_shape m_origin m_extent shp domain_of] in *.
  destruct (index_apply _ (shp (q_data q))) as [[s1 f1]|e1], (index_apply es (q_extent q)) as [[s2 f2]|e2] eqn:E2; cbn [agree bind rmap fst snd] in *; auto; try contradiction.
  destruct I as (-> & F). unfold a_assign. cbn [vshp vmap]. destruct (bcast s2 (shp src)) as [g|]; cbn [agree bind]; auto.
  destruct (axes_ok_lengths _ _ _ A) as (LO & LE). destruct (axes_ok_extent _ _ _ A) as (PE & _).
  set (l := map (fun p => (f2 p, at_ src (g p))) (all_idx s2)).
  assert (ML : map (fun p => (f1 p, at_ src (g p))) (all_idx s2) = map (fun iv => (shifted (q_origin q) (fst iv), snd iv)) l).
  { unfold l. rewrite map_map. apply map_ext_in. intros p P. cbn. rewrite F by now apply in_all_idx. reflexivity. }
  assert (FL : Forall (fun iv => in_shape (q_extent q) (fst iv)) l).
  { apply Forall_forall. intros iv I. unfold l in I. apply in_map_iff in I. destruct I as (p & <- & I). cbn. apply in_all_idx in I. eapply index_apply_range; eauto. }
  split; [|split; [|split]].
  - split; cbn [shp domain_of q_with_data q_extent q_data q_origin at_]; [now rewrite shp_a_write|]. intros p P. rewrite ML. apply write_shifted.
    + intros; reflexivity.
    + eapply Forall_impl; [|exact FL]. intros iv I. apply in_shape_length in I. lia.
    + apply in_shape_length in P. lia.
  - unfold q_meta. cbn. now rewrite shp_a_write.
  - reflexivity.
  - intros i _ NI. cbn. rewrite ML. apply a_write_frame. rewrite map_map. cbn. intros I. apply in_map_iff in I. destruct I as (iv & EI & I).
    rewrite Forall_forall in FL. apply (NI (fst iv)); auto.
Qed.
End Values.
