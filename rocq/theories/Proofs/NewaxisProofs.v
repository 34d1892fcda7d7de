(** New axes in the index of a view (C72); unknown dimensions of sel (C74). *)
From Verif.Base Require Import Base Lemmas.
From Verif.Model Require Import Consts Numpy Quantity.
From Verif.Spec Require Import Grid Views Newaxis.
From Coq Require Import ZifyBool.

Lemma norm_bounds s o e : 0 <= s -> 0 <= o -> 0 <= e -> slice_norm s (Some o) (Some (o + e)) None = Ok (Z.min o s, clipped s o e, 1).
Proof.
  intros. unfold slice_norm, clipped, clamp. change (1 =? 0) with false. change (1 <? 0) with false. cbv iota.
  rewrite (proj2 (Z.ltb_ge o 0)), (proj2 (Z.ltb_ge (o + e) 0)) by lia.
  assert (A : (if s <=? o then s else o) = Z.min o s) by (destruct (s <=? o) eqn:E; lia).
  assert (B : (if s <=? o + e then s else o + e) = Z.min (o + e) s) by (destruct (s <=? o + e) eqn:E; lia).
  rewrite A, B. f_equal. f_equal. f_equal. destruct (Z.min o s <? Z.min (o + e) s) eqn:E.
  - rewrite Z.div_1_r. lia.
  - lia.
Qed.

Definition bounds (oe : Z * Z) : ientry := ISlice (Some (fst oe)) (Some (fst oe + snd oe)) None.

Lemma apply_bounds oes : forall shape, (length oes <= length shape)%nat -> Forall (fun oe => 0 <= fst oe /\ 0 <= snd oe) oes -> Forall (Z.le 0) shape ->
  exists f, index_apply (map bounds oes) shape = Ok (clipped_shape shape oes, f) /\
    forall p, f p = clipped_place shape oes p.
Proof.
  induction oes as [|[o e] oes IH]; intros shape L F S; cbn [map index_apply].
  - exists (fun p => p). split; [|intros p]; destruct shape; reflexivity.
  - destruct shape as [|s shape]; [cbn in L; lia|]. inversion F as [|? ? [Ho He] F']; inversion S as [|? ? Hs S']; subst. cbn [fst snd] in Ho, He.
    destruct (IH shape) as (f & E & P); [cbn in L; lia|auto|auto|]. unfold bounds at 1. cbn [fst snd]. rewrite norm_bounds by auto. cbn [bind]. rewrite E. cbn [bind].
    eexists. split; [reflexivity|]. intros p. cbn [clipped_place fst snd]. rewrite P. f_equal. lia.
Qed.


Lemma apply_nones j : forall es shape s f, index_apply es shape = Ok (s, f) ->
  exists g, index_apply (repeat INone j ++ es) shape = Ok ((repeat 1 j ++ s)%list, g) /\ forall p, (j <= length p)%nat -> g p = f (skipn j p).
Proof.
  induction j as [|j IH]; intros es shape s f E; cbn [repeat app index_apply].
  - exists f. auto.
  - destruct (IH _ _ _ _ E) as (g & -> & P). cbn [bind]. eexists. split; [reflexivity|]. intros p L. destruct p as [|x p]; [cbn in L; lia|].
    cbn [tl skipn]. apply P. cbn in L. lia.
Qed.

Lemma shift_nones j : forall n origin extent, (j <= n)%nat -> length origin = n -> length extent = n ->
  shift_entries (repeat INone j ++ repeat IALL (n - j)) origin extent = (repeat INone j ++ map bounds (skipn j (combine origin extent)))%list.
Proof.
  induction j as [|j IH]; intros n origin extent L O E; cbn [repeat app].
  - rewrite Nat.sub_0_r. cbn [skipn]. revert extent n L O E. induction origin as [|o origin IHo]; intros [|e extent] n L O E; cbn in O, E; subst; try discriminate; [reflexivity|].
    cbn [repeat shift_entries combine map]. f_equal. apply IHo; auto; lia.
  - destruct n as [|n]; [lia|]. destruct origin as [|o origin]; [discriminate|]. destruct extent as [|e extent]; [discriminate|]. cbn [shift_entries shift_entry combine skipn]. f_equal.
    apply (IH n); cbn in O, E; lia.
Qed.

Lemma axes_lengths origin extent shape : axes_ok origin extent shape -> length origin = length shape /\ length extent = length shape /\
  Forall (fun oe => 0 <= fst oe /\ 0 <= snd oe) (combine origin extent) /\ Forall (Z.le 0) shape.
Proof.
  induction 1; cbn [combine length]; [auto|]. destruct IHaxes_ok as (A & B & C & D). split; [lia|]. split; [lia|]. split; constructor; cbn; auto; lia.
Qed.

Lemma Forall_skipn {A} (P : A -> Prop) j : forall l, Forall P l -> Forall P (skipn j l).
Proof. induction j; intros l F; [auto|]. destruct F; cbn; auto. Qed.

Lemma new_axes m j : well_formed m -> (1 <= j <= length (m_dims m))%nat ->
  exists v, view_index m (PTuple (repeat INone j)) = Ok v /\
    let oes := skipn j (combine (m_origin m) (m_extent m)) in
    vshp v = (repeat 1 j ++ clipped_shape (m_shape m) oes)%list /\
    forall p, in_shape (vshp v) p -> vmap v p = clipped_place (m_shape m) oes (skipn j p).
Proof.
  intros [L A] J. pose proof (axes_lengths _ _ _ A) as (LO & LE & F & S).
  unfold view_index. destruct (m_origin m) as [|o origin] eqn:EO; [cbn in LO; lia|]. rewrite <- EO in *.
  unfold get_compute_index. cbn [index_list]. rewrite repeat_length.
  rewrite (proj2 (Nat.ltb_ge _ _)) by lia. cbn [bind]. unfold fill_index. rewrite repeat_length.
  rewrite shift_nones by lia. unfold v_index, v_whole. cbn [vshp vmap].
  destruct (apply_bounds (skipn j (combine (m_origin m) (m_extent m))) (m_shape m)) as (f & E & P).
  - rewrite skipn_length, combine_length. lia.
  - now apply Forall_skipn.
  - auto.
  - destruct (apply_nones j _ _ _ _ E) as (g & -> & G). cbn [bind]. eexists. split; [reflexivity|]. cbn [vshp vmap]. split; [reflexivity|].
    intros p I. rewrite G, P; [reflexivity|].
    apply Forall2_length in I. rewrite app_length, repeat_length in I. lia.
Qed.

Lemma clipped_last shape oes : (length oes < length shape)%nat -> last (clipped_shape shape oes) 0 = last shape 0.
Proof.
  revert oes. induction shape as [|s shape IH]; intros oes L; [destruct oes; cbn in L; lia|]. destruct oes as [|[o e] oes]; [reflexivity|]. cbn [clipped_shape].
  cbn in L. assert (X : (length oes < length shape)%nat) by lia. specialize (IH oes X).
  destruct shape as [|s' shape]; [cbn in X; lia|]. cbn [last]. destruct (clipped_shape (s' :: shape) oes) eqn:E; [|exact IH].
  destruct oes as [|[]]; discriminate.
Qed.

Lemma last_app {A} (d : A) l c : c <> [] -> last (l ++ c) d = last c d.
Proof.
  intros C. induction l as [|x l IH]; [reflexivity|]. cbn [app last]. destruct (l ++ c)%list eqn:E; [|exact IH].
  apply app_eq_nil in E. destruct E. contradiction.
Qed.

Lemma last_halo m j : well_formed m -> (1 <= j <= length (m_dims m))%nat ->
  exists v, view_index m (PTuple (repeat INone j)) = Ok v /\ last (vshp v) 0 = last (m_shape m) 0.
Proof.
  intros W J. destruct (new_axes m j W J) as (v & E & SH & _). exists v. split; [exact E|]. rewrite SH.
  destruct W as [L A]. pose proof (axes_lengths _ _ _ A) as (LO & LE & F & N). rewrite last_app.
  - apply clipped_last. rewrite skipn_length, combine_length. lia.
  - destruct (m_shape m) as [|s shape]; [cbn in L; lia|]. destruct (skipn j _) as [|[]]; discriminate.
Qed.

Lemma halo_shown {V} (q : quantity V) j : well_formed (q_meta q) -> (1 <= j <= length (q_dims q))%nat -> last (shp (q_data q)) 0 <> last (q_extent q) 0 ->
  exists a b, view_get q (PTuple (repeat INone j)) = Ok a /\ getitem (domain_of q) (repeat INone j) = Ok b /\ shp a <> shp b.
Proof.
  intros W J D. destruct (last_halo (q_meta q) j W J) as (v & E & S). unfold view_get. rewrite E. cbn [rmap]. unfold getitem, v_index, v_whole. cbn [vshp vmap].
  destruct (apply_nones j [] (q_extent q) (q_extent q) (fun p => p) eq_refl) as (g & G & _). rewrite app_nil_r in G. cbn [domain_of shp]. rewrite G. cbn [bind].
  eexists. eexists. split; [reflexivity|]. split; [reflexivity|]. cbn [v_read shp vshp]. intros X. apply D. rewrite X in S.
  destruct W as [L A]. pose proof (axes_lengths _ _ _ A) as (LO & LE & F & N). cbn in L, LO, LE, S. rewrite last_app in S; [now symmetry|].
  destruct (q_extent q); [cbn in LE; lia|discriminate].
Qed.

Lemma unknown_dims m k kw kw' : (forall d, In d (m_dims m) -> dget d kw = dget d kw') -> view_sel m kw = view_sel m kw' /\ corner_sel m k kw = corner_sel m k kw'.
Proof.
  intros H. assert (E : sel_index (m_dims m) kw = sel_index (m_dims m) kw').
  { unfold sel_index. f_equal. apply map_ext_in. intros d I. now rewrite H. }
  unfold view_sel, corner_sel. now rewrite E.
Qed.

Lemma shift_refused k l : forall dims origin extent, In INone l -> (length l <= length dims)%nat -> length origin = length dims -> length extent = length dims ->
  shift_boundary_slice_tuple dims origin extent k l = Err TypeError.
Proof.
  induction l as [|e l IH]; intros dims origin extent I L LO LE; [destruct I|].
  destruct dims as [|d dims]; [cbn in L; lia|]. destruct origin as [|o origin]; [discriminate|]. destruct extent as [|x extent]; [discriminate|].
  cbn [length] in *. cbn [shift_boundary_slice_tuple]. unfold shift_boundary_slice. destruct (get_offset k d o x).
  destruct e as [i|a b c|]; cbn [bind]; [| |reflexivity]; (destruct I as [I|I]; [discriminate|]; rewrite IH by (auto; lia); reflexivity).
Qed.

Theorem no_new_axes {V} (q : quantity V) k l src : well_formed (q_meta q) -> In INone l -> (length l <= length (q_dims q))%nat ->
  corner_get q k (PTuple l) = Err TypeError /\ corner_set q k (PTuple l) src = Err TypeError.
Proof.
  intros [L A] I H. pose proof (axes_lengths _ _ _ A) as (LO & LE & _). cbn in L, LO, LE.
  assert (E : get_array_index (q_meta q) k (PTuple l) = Err TypeError).
  { unfold get_array_index. cbn [index_list q_meta m_dims m_origin m_extent]. destruct (Nat.ltb_spec (length (q_dims q)) (length l)); [lia|].
    apply shift_refused; [apply in_or_app; now left|rewrite app_length, repeat_length; lia|lia|lia]. }
  unfold corner_get, corner_set, corner_index. rewrite E. cbn [bind]. split; [|reflexivity]. cbn [q_meta m_origin].
  destruct (q_origin q) eqn:O; [|reflexivity]. exfalso. destruct l; [destruct I|cbn [length] in *; lia].
Qed.
