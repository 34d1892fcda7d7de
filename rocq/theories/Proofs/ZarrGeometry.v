(** Chunks touched by ranks, and order of names (C41, C42). *)
From Verif.Base Require Import Base Lemmas.
From Verif.Model Require Import Consts Partitioner Numpy ScatterGather Shared Zarr.
From Verif.Spec Require Import Grid Layouts Distribute Storage.
From Verif.Proofs Require Import Slices NumpyProofs Parts SharedProofs.
From Verif.Proofs Require Partition.
From Coq Require Import ZifyBool Permutation Sorting.Sorted OrdersEx.
Ltac Zify.zify_post_hook ::= idtac.
Notation map2 := Numpy.map2.

(** ** boxes of ranks *)
Section L.
Variable layout : Z * Z.

Definition last1 (s : Z * Z) (d : string) : Z := if along d s 0 =? along d layout 1 - 1 then stag d else 0.
Definition box1 (s : Z * Z) (d : string) (e : Z) : Z * Z :=
  (along d s 0 * (e - stag d), along d s 0 * (e - stag d) + (e - stag d) + last1 s d).
Definition boxes (s : Z * Z) (dims : list string) (ext : list Z) : list (Z * Z) := map2 (box1 s) dims ext.
Definition chunk_sizes (dims : list string) (ext : list Z) : list Z := map2 (fun d e => e - stag d) dims ext.

(** at least one grid cell along each dimension *)
Definition cells_ok (dims : list string) (ext : list Z) : Prop := Forall2 (fun d e => 1 <= e - stag d) dims ext.
Definition seated (s : Z * Z) : Prop := 0 <= fst s < fst layout /\ 0 <= snd s < snd layout.

Lemma last1_01 s d : last1 s d = 0 \/ last1 s d = 1.
Proof. unfold last1. destruct (_ =? _); auto. apply stag_01. Qed.
Lemma seated_along s d : seated s -> 0 <= along d s 0 < along d layout 1.
Proof. intros [A B]. unfold along. destruct (axis_of d); lia. Qed.

Lemma slice_box s dims ext : fits layout dims ext -> subtile_slice dims (tile_size layout dims ext) layout s false = Ok (boxes s dims ext).
Proof.
  intros Fi. destruct (fits_tile _ _ _ Fi) as (LO & M & _). rewrite subtile_slice_ok by auto. f_equal. destruct Fi as (_ & _ & F). clear M.
  unfold boxes, tile_size. induction F as [|d e dims ext (H1 & H2) F IH]; [reflexivity|]. cbn [Numpy.map2 Slices.map2]. f_equal; auto.
  unfold slice1, rank_extent1, box1, last1. pose proof (layout_ok_pos _ (along_ok layout d LO)) as P.
  replace ((e - stag d) * along d layout 1 + stag d - stag d) with ((e - stag d) * along d layout 1) by lia.
  rewrite Z.div_mul by lia. cbn [orb]. replace (e - stag d + stag d - stag d) with (e - stag d) by lia. destruct (_ =? _); f_equal; lia.
Qed.

Lemma chunks_eq dims ext : fits layout dims ext -> array_chunks layout (tile_size layout dims ext) dims = chunk_sizes dims ext.
Proof.
  intros (LO & _ & F). unfold array_chunks, chunk_sizes, tile_size. rewrite list_by_dims_map.
  induction F as [|d e dims ext (H1 & H2) F IH]; [reflexivity|]. cbn [Numpy.map2 combine map]. f_equal; auto.
  rewrite sin_I. pose proof (layout_ok_pos _ (along_ok layout d LO)) as P. destruct (stag_01 d) as [E|E]; rewrite E; cbn [Z.eqb].
  - rewrite !Z.sub_0_r, Z.add_0_r, Z.div_mul by lia. reflexivity.
  - change (1 =? 1) with true. cbv iota. replace ((e - 1) * along d layout 1 + 1 - 1) with ((e - 1) * along d layout 1) by lia. rewrite Z.div_mul by lia. reflexivity.
Qed.

Lemma extent_size dims ext : tp_global_extent layout dims ext = tile_size layout dims ext.
Proof. unfold tp_global_extent. rewrite tile_extent_ok. unfold tile_size. revert ext. induction dims as [|d dims IH]; intros [|e ext]; cbn; auto. Qed.

Definition slices_of (bs : list (Z * Z)) : list (Z * Z) := map (fun b => (fst b, snd b - fst b)) bs.

Lemma norm_boxes s dims ext : seated s -> cells_ok dims ext -> norm_slices (tile_size layout dims ext) (boxes s dims ext) = Ok (slices_of (boxes s dims ext)).
Proof.
  intros Se F. unfold tile_size, boxes, slices_of. induction F as [|d e dims ext H F IH]; [reflexivity|]. cbn [Numpy.map2 norm_slices map].
  unfold box1 at 1 2. cbn [fst snd]. pose proof (seated_along s d Se) as A. unfold last1 at 1. pose proof (stag_01 d).
  rewrite slice_norm_inside.
  - cbn [bind]. rewrite IH. reflexivity.
  - destruct (_ =? _); nia.
  - destruct (Z.eqb_spec (along d s 0) (along d layout 1 - 1)); nia.
Qed.

(** coordinates of chunks touched *)
Fixpoint touched (s : Z * Z) (dims : list string) (cc : list Z) : Prop :=
  match dims, cc with
  | d :: dims', c :: cc' => along d s 0 <= c <= along d s 0 + last1 s d /\ touched s dims' cc'
  | [], [] => True
  | _, _ => False
  end.

Lemma region_touched s dims ext : seated s -> cells_ok dims ext ->
  forall cc, In cc (region_chunks (chunk_sizes dims ext) (slices_of (boxes s dims ext))) <-> touched s dims cc.
Proof.
  intros Se F. unfold region_chunks. intros cc. rewrite in_map_iff. setoid_rewrite in_all_idx. unfold in_shape.
  revert cc. unfold chunk_sizes, boxes, slices_of. induction F as [|d e dims ext H F IH]; intros cc.
  - cbn. split; [intros (x & <- & X); inversion X; exact I|]. destruct cc; [|tauto]. intros _. exists []. split; auto.
  - cbn [Numpy.map2 map touched fst snd].
    pose proof (seated_along s d Se) as A. set (a := along d s 0) in *. set (k := e - stag d) in *.
    assert (C1 : chunk_first k (a * k) = a) by (unfold chunk_first; apply Z.div_mul; lia).
    assert (C2 : chunk_count k (a * k) (a * k + k + last1 s d - a * k) = last1 s d + 1).
    { unfold chunk_count. rewrite Z.div_mul by lia. destruct (Z.leb_spec (a * k + k + last1 s d - a * k) 0) as [L|L]; [destruct (last1_01 s d); lia|].
      destruct (last1_01 s d) as [E|E]; rewrite E in *.
      - replace ((a * k + (a * k + k + 0 - a * k) - 1) / k) with a; [lia|]. apply (Z.div_unique_pos _ _ a (k - 1)); lia.
      - replace ((a * k + (a * k + k + 1 - a * k) - 1) / k) with (a + 1); [lia|]. apply (Z.div_unique_pos _ _ (a + 1) 0); lia. }
    replace (box1 s d e) with (a * k, a * k + k + last1 s d) by reflexivity. cbn [fst snd]. rewrite C1, C2. split.
    + intros (x & <- & X). inversion X as [|? y ? x' Hy X' E1 E2]; subst. split; [lia|]. apply IH. eauto.
    + destruct cc as [|c cc]; [tauto|]. intros [Hc T]. apply IH in T. destruct T as (x & <- & X). exists (c - a :: x). cbn [Numpy.map2]. split; [f_equal; lia|].
      constructor; auto. lia.
Qed.

(** the chunk of a point of a rank is touched by it *)
Lemma point_touched s dims ext p : seated s -> cells_ok dims ext -> in_box (boxes s dims ext) p -> touched s dims (map2 Z.div p (chunk_sizes dims ext)).
Proof.
  intros Se F. unfold boxes, chunk_sizes. revert p. induction F as [|d e dims ext H F IH]; intros p B; inversion B as [|? x ? p' Hx B']; subst; cbn; auto.
  split; [|now apply IH]. unfold box1 in Hx. cbn [fst snd] in Hx. pose proof (seated_along s d Se) as A. set (k := e - stag d) in *.
  pose proof (Z.div_mod x k ltac:(lia)). pose proof (Z.mod_pos_bound x k ltac:(lia)). destruct (last1_01 s d) as [E|E]; rewrite E in *; nia.
Qed.

(** position along an axis *)
Fixpoint axis_pos (a : axis) (dims : list string) (l : list Z) : Z :=
  match dims, l with
  | d :: dims', x :: l' => match axis_of d, a with AxX, AxX => x | AxY, AxY => x | _, _ => axis_pos a dims' l' end
  | _, _ => 0
  end.

Lemma touched_pos s dims cc : seated s -> touched s dims cc ->
  (one_axis AxY dims -> Z.min (axis_pos AxY dims cc) (fst layout - 1) = fst s) /\
  (one_axis AxX dims -> Z.min (axis_pos AxX dims cc) (snd layout - 1) = snd s).
Proof.
  intros Se. assert (G : forall a, a <> AxOther -> touched s dims cc -> (exists d, In d dims /\ axis_of d = a) ->
    Z.min (axis_pos a dims cc) (match a with AxX => snd layout | _ => fst layout end - 1) = match a with AxX => snd s | _ => fst s end).
  { intros a Na. revert cc. induction dims as [|d dims IH]; intros cc T (d' & I & E); [destruct I|]. destruct cc as [|c cc]; [destruct T|].
    cbn [touched axis_pos] in *. destruct T as [T1 T2]. destruct (axis_of d) eqn:Ad; destruct a; try congruence.
    - unfold last1, along in T1. rewrite Ad in T1. pose proof (stag_01 d). destruct Se as [_ Se]. destruct (Z.eqb_spec (snd s) (snd layout - 1)); lia.
    - apply IH; auto. exists d'. split; auto. destruct I as [->|I]; [congruence|auto].
    - apply IH; auto. exists d'. split; auto. destruct I as [->|I]; [congruence|auto].
    - unfold last1, along in T1. rewrite Ad in T1. pose proof (stag_01 d). destruct Se as [Se _]. destruct (Z.eqb_spec (fst s) (fst layout - 1)); lia.
    - apply IH; auto. exists d'. split; auto. destruct I as [->|I]; [congruence|auto].
    - apply IH; auto. exists d'. split; auto. destruct I as [->|I]; [congruence|auto]. }
  intros T. split; intros (l & r & d & -> & A & _).
  - apply (G AxY); [discriminate|auto|]. exists d. split; auto. apply in_or_app. right. now left.
  - apply (G AxX); [discriminate|auto|]. exists d. split; auto. apply in_or_app. right. now left.
Qed.

(** the rank to which a chunk belongs *)
Definition chunk_rank (dims : list string) (tile : Z) (cc : list Z) : Z :=
  (tile * fst layout + Z.min (axis_pos AxY dims cc) (fst layout - 1)) * snd layout + Z.min (axis_pos AxX dims cc) (snd layout - 1).

Lemma seat_seated r : 1 <= fst layout -> 1 <= snd layout -> seated (seat layout r).
Proof. intros A B. apply (subtile_index_bound layout r A B). Qed.
Lemma seat_rank r : 1 <= fst layout -> 1 <= snd layout -> (r / (fst layout * snd layout) * fst layout + fst (seat layout r)) * snd layout + snd (seat layout r) = r.
Proof.
  intros A B. unfold seat. cbn [fst snd]. set (ly := fst layout) in *. set (lx := snd layout) in *.
  pose proof (Z.div_mod r (ly * lx) ltac:(nia)). pose proof (Z.div_mod (r mod (ly * lx)) lx ltac:(lia)). nia.
Qed.
Lemma touched_rank r dims cc : 1 <= fst layout -> 1 <= snd layout -> horizontal dims -> touched (seat layout r) dims cc ->
  chunk_rank dims (r / (fst layout * snd layout)) cc = r.
Proof.
  intros A B [HX HY] T. destruct (touched_pos _ dims cc (seat_seated r A B) T) as [PY PX]. unfold chunk_rank. rewrite PX, PY by auto. now apply seat_rank.
Qed.

Lemma touched_inside s dims ext cc : seated s -> cells_ok dims ext -> touched s dims cc ->
  chunk_inside (tile_size layout dims ext) (chunk_sizes dims ext) cc = true.
Proof.
  intros Se F. unfold chunk_inside, tile_size, chunk_sizes. revert cc. induction F as [|d e dims ext H F IH]; intros [|c cc] T; cbn in *; try tauto.
  destruct T as [T1 T2]. rewrite IH by auto. rewrite andb_true_r. apply Z.ltb_lt. pose proof (seated_along s d Se). unfold last1 in T1. pose proof (stag_01 d).
  destruct (Z.eqb_spec (along d s 0) (along d layout 1 - 1)); nia.
Qed.
End L.

(** ** C42: ranks touch different chunks *)
Theorem chunks_disjoint layout dims ext r r' b b' t p p' :
  fits layout dims ext -> cells_ok dims ext -> horizontal dims ->
  cs_subtile_slice layout r ("tile"%string :: dims) (6 :: tile_size layout dims ext) false = Ok (t, b) -> in_box b p ->
  cs_subtile_slice layout r' ("tile"%string :: dims) (6 :: tile_size layout dims ext) false = Ok (t, b') -> in_box b' p' ->
  map2 Z.div p (array_chunks layout (tile_size layout dims ext) dims) = map2 Z.div p' (array_chunks layout (tile_size layout dims ext) dims) ->
  r = r'.
Proof.
  intros Fi C H. destruct (fits_layout _ _ _ Fi) as [A B]. rewrite chunks_eq by auto. unfold cs_subtile_slice. cbn [String.eqb TILE_DIM negb Ascii.eqb Bool.eqb tl].
  rewrite !Partition.tile_index_eq by auto. cbn [bind]. rewrite !slice_box by auto. cbn [bind]. intros E Hb E' Hb' Q.
  injection E as <- <-. injection E' as Et <-. change (tile_subtile_index layout r) with (seat layout r) in Hb. change (tile_subtile_index layout r') with (seat layout r') in Hb'.
  apply point_touched in Hb; [|now apply seat_seated|auto]. apply point_touched in Hb'; [|now apply seat_seated|auto].
  apply touched_rank in Hb; auto. apply touched_rank in Hb'; auto. rewrite Q, <- Et, Hb' in Hb. auto.
Qed.

(** ** sorting *)
Definition slt (a b : string) : Prop := String.compare a b = Lt.
Lemma slt_trans a b c : slt a b -> slt b c -> slt a c.
Proof. exact (@RelationClasses.StrictOrder_Transitive _ _ String_as_OT.lt_strorder a b c). Qed.
Lemma slt_irrefl a : ~ slt a a.
Proof. exact (@RelationClasses.StrictOrder_Irreflexive _ _ String_as_OT.lt_strorder a). Qed.
Lemma compare_gt a b : String.compare a b = Gt -> slt b a.
Proof. unfold slt. rewrite String.compare_antisym. destruct (String.compare b a); cbn; congruence. Qed.

Lemma insert_perm {A} (x : string * A) l : Permutation (insert x l) (x :: l).
Proof.
  induction l as [|y l IH]; cbn; auto. destruct (String.compare (fst x) (fst y)); auto. rewrite IH. constructor.
Qed.
Lemma sorted_perm {A} (l : dict A) : Permutation (sorted l) l.
Proof. induction l as [|x l IH]; cbn; auto. rewrite insert_perm. now constructor. Qed.

Lemma insert_keys {A B} (x : string * A) (y : string * B) l l' : fst x = fst y -> dkeys l = dkeys l' -> dkeys (insert x l) = dkeys (insert y l').
Proof.
  intros E. unfold dkeys. revert l'. induction l as [|a l IH]; intros [|b l'] K; cbn in *; try discriminate; [now rewrite E|].
  injection K as K1 K2. rewrite E, K1. destruct (String.compare (fst y) (fst b)); cbn; rewrite ?E, ?K1, ?K2; auto. f_equal. now apply IH.
Qed.

Lemma insert_sorted {A} (x : string * A) l : StronglySorted slt (dkeys l) -> ~ In (fst x) (dkeys l) -> StronglySorted slt (dkeys (insert x l)).
Proof.
  unfold dkeys. induction l as [|y l IH]; intros S N; cbn in *; [repeat constructor|].
  inversion S as [|? ? S' F]; subst. destruct (String.compare (fst x) (fst y)) eqn:C.
  - apply String.compare_eq_iff in C. exfalso. apply N. left. congruence.
  - cbn. constructor; auto. constructor; auto. eapply Forall_impl; [|exact F]. intros z Hz. eapply slt_trans; eauto.
  - cbn. constructor; [apply IH; tauto|]. rewrite insert_perm. cbn. constructor; [now apply compare_gt|auto].
Qed.
Lemma sorted_sorted {A} (l : dict A) : NoDup (dkeys l) -> StronglySorted slt (dkeys (sorted l)).
Proof.
  induction l as [|x l IH]; cbn; intros N; [constructor|]. inversion N; subst. apply insert_sorted; auto.
  intros I. unfold dkeys in *. rewrite sorted_perm in I. auto.
Qed.
Lemma sorted_unique l : forall l', StronglySorted slt l -> StronglySorted slt l' -> Permutation l l' -> l = l'.
Proof.
  induction l as [|x l IH]; intros [|y l'] S S' P.
  - reflexivity.
  - apply Permutation_nil in P. discriminate.
  - apply Permutation_sym, Permutation_nil in P. discriminate.
  - inversion S as [|? ? S1 F]; inversion S' as [|? ? S1' F']; subst. rewrite Forall_forall in F, F'.
    assert (x = y).
    { assert (I : In x (y :: l')) by (rewrite <- P; now left). assert (I' : In y (x :: l)) by (rewrite P; now left).
      destruct I as [|I]; auto. destruct I' as [|I']; auto. exfalso. eapply slt_irrefl, slt_trans; [apply F'; exact I|apply F; exact I']. }
    subst y. f_equal. apply IH; auto. now apply Permutation_cons_inv in P.
Qed.
