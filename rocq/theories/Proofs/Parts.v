(** The partitioner's slices in terms of [place]. *)
From Verif.Base Require Import Base Lemmas.
From Verif.Model Require Import Consts Partitioner Numpy Quantity Collective ScatterGather.
From Verif.Spec Require Import Grid Layouts Views Together Distribute.
From Verif.Proofs Require Import FloatExtent Slices Partition NumpyProofs Regions ViewProofs CornerProofs.
From Coq Require Import ZifyBool.
Ltac Zify.zify_post_hook ::= idtac.

Notation map2 := Numpy.map2.

Definition part_picks (p : partitioner) (r : nat) (dims : list string) (rext : list Z) : list pick :=
  let s := seat (layout_of p) (Z.of_nat r) in
  let l := map2 (fun d e => Span (along d s 0 * (e - stag d)) (along d s 0 * (e - stag d) + e)) dims rext in
  match p with
  | TilePart _ => l
  | CubePart lay => Point (Z.of_nat r / (fst lay * snd lay)) :: l
  end.

Lemma fits_tile layout dims rext : fits layout dims rext -> tile_ok layout dims (tile_size layout dims rext).
Proof.
  intros (LO & _ & F). split; auto. split.
  - induction F as [|d e dims rext (H1 & H2) F IH]; constructor; auto.
    pose proof (layout_ok_pos _ (along_ok layout d LO)). split; [nia|lia].
  - induction F as [|d e dims rext (H1 & H2) F IH]; constructor; auto.
    pose proof (layout_ok_pos _ (along_ok layout d LO)).
    replace ((e - stag d) * along d layout 1 + stag d - stag d) with ((e - stag d) * along d layout 1) by lia.
    split; [nia|]. apply Z.mod_mul. lia.
Qed.

Lemma fits_layout layout dims rext : fits layout dims rext -> 1 <= fst layout /\ 1 <= snd layout.
Proof. intros ((A & B) & _). split; now apply layout_ok_pos. Qed.

Lemma tile_extent layout dims rext : fits layout dims rext -> rank_extent_from_tile_metadata dims (tile_size layout dims rext) layout = Ok rext.
Proof.
  intros (LO & N & F).
  assert (E := extent_roundtrip layout dims rext LO). unfold tp_subtile_extent, tp_global_extent in E. rewrite tile_extent_ok in E. apply E.
  - clear - F. induction F; constructor; tauto.
  - clear - F. induction F; constructor; tauto.
Qed.

Lemma tile_slice layout dims rext s : fits layout dims rext ->
  subtile_slice dims (tile_size layout dims rext) layout s true = Ok (map2 (fun d e => (along d s 0 * (e - stag d), along d s 0 * (e - stag d) + e)) dims rext).
Proof.
  intros Fi. destruct (fits_tile _ _ _ Fi) as (LO & M & _). rewrite subtile_slice_ok by auto. f_equal. destruct Fi as (_ & _ & F). clear - LO F.
  induction F as [|d e dims rext (H1 & H2) F IH]; [reflexivity|]. cbn [tile_size map2 Slices.map2].
  fold (tile_size layout dims rext). rewrite <- IH. f_equal.
  pose proof (layout_ok_pos _ (along_ok layout d LO)). unfold slice1, rank_extent1. cbn [orb].
  replace ((e - stag d) * along d layout 1 + stag d - stag d) with ((e - stag d) * along d layout 1) by lia.
  rewrite Z.div_mul by lia. f_equal; lia.
Qed.

Section Part.
Variables (p : partitioner) (dims : list string) (rext : list Z).
Hypothesis Fi : fits (layout_of p) dims rext.
Let lay := layout_of p.

Lemma ranks_total : Z.of_nat (ranks p) = p_total_ranks p.
Proof.
  destruct (fits_layout _ _ _ Fi) as [A B]. unfold ranks, p_total_ranks, total_ranks, tile_total_ranks. destruct p; cbn [layout_of] in *; rewrite Z2Nat.id by nia; reflexivity.
Qed.
Lemma ranks_pos : (0 < ranks p)%nat.
Proof. destruct (fits_layout _ _ _ Fi) as [A B]. unfold ranks. destruct p as [l|l]; cbn [layout_of] in *; assert (0 < fst l * snd l) by nia; lia. Qed.

Lemma extent_ok : p_subtile_extent p (global_dims p dims) (global_size p dims rext) = Ok rext.
Proof.
  unfold p_subtile_extent, global_dims, global_size, tp_subtile_extent, cs_subtile_extent. subst lay. destruct p; cbn in *.
  - now apply tile_extent.
  - now apply tile_extent.
Qed.

Lemma picks_entries s : map (fun se : Z * Z => ISL (fst se) (snd se)) (map2 (fun d e => (along d s 0 * (e - stag d), along d s 0 * (e - stag d) + e)) dims rext)
  = map pick_entry (map2 (fun d e => Span (along d s 0 * (e - stag d)) (along d s 0 * (e - stag d) + e)) dims rext).
Proof. clear Fi. revert rext. induction dims as [|d ds IH]; intros [|e re]; cbn; auto. now rewrite IH. Qed.

Lemma slice_ok r : p_subtile_slice p (Z.of_nat r) (global_dims p dims) (global_size p dims rext) = Ok (map pick_entry (part_picks p r dims rext)).
Proof.
  unfold p_subtile_slice, global_dims, global_size, part_picks, tp_subtile_slice, cs_subtile_slice. subst lay. destruct p as [l|l]; cbn [layout_of] in *.
  - rewrite tile_slice by auto. cbn [rmap]. now rewrite picks_entries.
  - destruct (fits_layout _ _ _ Fi) as [A B]. cbn [TILE_DIM String.eqb Ascii.eqb Bool.eqb negb tl]. rewrite tile_index_eq by auto. cbn [bind].
    rewrite tile_slice by auto. cbn [bind rmap fst snd map pick_entry]. now rewrite picks_entries.
Qed.

Lemma seat_bound r : 0 <= fst (seat lay r) < fst lay /\ 0 <= snd (seat lay r) < snd lay.
Proof. destruct (fits_layout _ _ _ Fi) as [A B]. apply (subtile_index_bound lay r A B). Qed.

Lemma tile_picks_ok s : 0 <= fst s < fst lay -> 0 <= snd s < snd lay ->
  Forall2 pick_ok (tile_size lay dims rext) (map2 (fun d e => Span (along d s 0 * (e - stag d)) (along d s 0 * (e - stag d) + e)) dims rext) /\
  pick_shape (map2 (fun d e => Span (along d s 0 * (e - stag d)) (along d s 0 * (e - stag d) + e)) dims rext) = rext /\
  forall pt, in_shape rext pt -> pick_place (map2 (fun d e => Span (along d s 0 * (e - stag d)) (along d s 0 * (e - stag d) + e)) dims rext) pt = in_tile s dims rext pt.
Proof.
  intros S1 S2. destruct Fi as (LO & _ & F). fold lay in LO, F. clear Fi. clearbody lay. induction F as [|d e ds re (H1 & H2) F (I1 & I2 & I3)].
  - cbn. split; [constructor|]. split; auto.
  - cbn [tile_size map2]. fold (tile_size lay ds re). split; [|split].
    + constructor; auto. unfold pick_ok. pose proof (layout_ok_pos _ (along_ok lay d LO)). destruct (stag_01 d); unfold along in *; destruct (axis_of d); nia.
    + cbn [pick_shape]. rewrite I2. f_equal. lia.
    + intros pt P. inversion P; subst. cbn [pick_place in_tile hd tl]. now rewrite I3.
Qed.

Lemma picks_ok r : (r < ranks p)%nat -> Forall2 pick_ok (global_size p dims rext) (part_picks p r dims rext) /\
  pick_shape (part_picks p r dims rext) = rext /\ forall pt, in_shape rext pt -> pick_place (part_picks p r dims rext) pt = place p r dims rext pt.
Proof.
  intros Hr. destruct (seat_bound (Z.of_nat r)) as [S1 S2]. destruct (tile_picks_ok _ S1 S2) as (I1 & I2 & I3).
  unfold part_picks, place, global_size. unfold lay in *. pose proof (fits_layout _ _ _ Fi) as [A B]. destruct p as [l|l]; cbn [layout_of] in *; auto.
  cbn [pick_shape pick_place]. split; [constructor; auto|split; auto].
  - unfold pick_ok, ranks in *. split; [apply Z.div_pos; nia|]. apply Z.div_lt_upper_bound; nia.
  - intros pt P. now rewrite I3.
Qed.

Lemma picks_index_ok origin : length origin = length (global_size p dims rext) -> forall r, (r < ranks p)%nat -> index_ok origin (global_size p dims rext) (map pick_entry (part_picks p r dims rext)).
Proof.
  intros L r Hr. destruct (picks_ok r Hr) as (F & _ & _). revert origin L. clear - F. induction F as [|n k s ks K F IH]; intros [|o origin] L; cbn in *; auto; try discriminate.
  split; [|apply IH; lia]. destruct k as [i|a b]; cbn in *; auto. split; [|split].
  - intros x [= <-]. left. lia.
  - intros x [= <-]. left. lia.
  - discriminate.
Qed.

Lemma part_inj r pt pt' : (r < ranks p)%nat -> in_shape rext pt -> in_shape rext pt' -> place p r dims rext pt = place p r dims rext pt' -> pt = pt'.
Proof.
  intros Hr P P' E. destruct (picks_ok r Hr) as (_ & S1 & G). rewrite <- !G in E by auto. rewrite <- S1 in P, P'. now apply pick_place_inj in E.
Qed.

Lemma place_in r pt : (r < ranks p)%nat -> in_shape rext pt -> in_shape (global_size p dims rext) (place p r dims rext pt).
Proof.
  intros Hr P. destruct (picks_ok r Hr) as (F & S1 & G). rewrite <- G by auto. rewrite <- S1 in P. clear - F P. revert pt P.
  induction F as [|n k s ks K F IH]; intros pt P; cbn; [constructor|]. destruct k as [i|a b]; cbn in *.
  - constructor; auto. now apply IH.
  - inversion P; subst. cbn. constructor; [lia|]. now apply IH.
Qed.
End Part.

(** ** every point belongs to some rank *)
Lemma piece1 n e st g : 1 <= n -> 0 <= e - st -> st = 0 \/ st = 1 -> 0 <= g < (e - st) * n + st -> exists i, 0 <= i < n /\ i * (e - st) <= g < i * (e - st) + e.
Proof.
  intros Hn He Hs Hg. destruct (Z.eq_dec (e - st) 0) as [Z0|].
  - exists 0. rewrite Z0 in *. lia.
  - pose proof (Z.div_mod g (e - st) ltac:(lia)) as D. pose proof (Z.mod_pos_bound g (e - st) ltac:(lia)) as M.
    assert (0 <= g / (e - st)) by (apply Z.div_pos; lia). set (q := g / (e - st)) in *. set (w := e - st) in *.
    destruct (Z_lt_ge_dec q n).
    + exists q. nia.
    + exists (n - 1). assert (q = n \/ n < q) by lia. assert (q <= n) by nia. assert (q = n) by lia. subst q. nia.
Qed.

Definition inside (s : Z * Z) (d : string) (e g : Z) : Prop := along d s 0 * (e - stag d) <= g < along d s 0 * (e - stag d) + e.

Lemma in_tile_onto s dims : forall rext g, length rext = length dims -> length g = length dims ->
  (forall k, (k < length dims)%nat -> inside s (nth k dims ""%string) (nth k rext 0) (nth k g 0)) -> exists pt, in_shape rext pt /\ in_tile s dims rext pt = g.
Proof.
  induction dims as [|d dims IH]; intros [|e rext] [|x g] L1 L2 H; try discriminate.
  - exists []. split; constructor.
  - destruct (IH rext g) as (pt & P & E); [now injection L1|now injection L2|intros k Hk; apply (H (S k)); cbn; lia|].
    specialize (H 0%nat ltac:(cbn; lia)). cbn in H. unfold inside in H.
    exists (x - along d s 0 * (e - stag d) :: pt). split; [constructor; auto; lia|]. cbn [in_tile]. rewrite E. f_equal. lia.
Qed.

Lemma pick_seat a dims rext layout g : at_most_one a dims -> layouts_ok layout -> length rext = length dims -> length g = length dims ->
  (forall k, (k < length dims)%nat -> 0 <= nth k rext 0 - stag (nth k dims ""%string) /\
     0 <= nth k g 0 < (nth k rext 0 - stag (nth k dims ""%string)) * along (nth k dims ""%string) layout 1 + stag (nth k dims ""%string)) ->
  1 <= match a with AxX => snd layout | AxY => fst layout | AxOther => 1 end ->
  exists i, 0 <= i < match a with AxX => snd layout | AxY => fst layout | AxOther => 1 end /\
    forall k, (k < length dims)%nat -> axis_of (nth k dims ""%string) = a -> i * (nth k rext 0 - stag (nth k dims ""%string)) <= nth k g 0 < i * (nth k rext 0 - stag (nth k dims ""%string)) + nth k rext 0.
Proof.
  intros [O|O] LO L1 L2 H Hn.
  - destruct (one_axis_pos _ _ O) as (k & Hk & Ak & U). destruct (H k Hk) as (H1 & H2).
    unfold along in H2. rewrite Ak in H2. destruct (piece1 _ (nth k rext 0) (stag (nth k dims ""%string)) (nth k g 0) Hn H1 (stag_01 _)) as (i & Hi & HI).
    { destruct a; auto. }
    exists i. split; auto. intros k' Hk' Ak'. now rewrite (U k' Hk' Ak').
  - exists 0. split; [lia|]. intros k Hk Ak. rewrite Forall_forall in O. destruct (O (nth k dims ""%string)); auto. now apply nth_In.
Qed.

Lemma covered p dims rext g : fits (layout_of p) dims rext -> at_most_one AxX dims -> at_most_one AxY dims -> in_shape (global_size p dims rext) g ->
  exists r pt, (r < ranks p)%nat /\ in_shape rext pt /\ place p r dims rext pt = g.
Proof.
  intros Fi OX OY G. set (lay := layout_of p) in *.
  assert (T : forall g, in_shape (tile_size lay dims rext) g -> exists j i pt, 0 <= j < fst lay /\ 0 <= i < snd lay /\ in_shape rext pt /\ in_tile (j, i) dims rext pt = g).
  { clear g G. intros g G. destruct (fits_layout _ _ _ Fi) as [A B]. destruct Fi as (LO & _ & F).
    pose proof (Forall2_length _ _ _ F) as L. rewrite (Forall2_nth _ _ _ ""%string 0) in F. destruct F as (_ & F).
    assert (LT : length (tile_size lay dims rext) = length dims) by (unfold tile_size; rewrite length_map2; lia).
    pose proof (in_shape_length _ _ G) as LG.
    assert (H : forall k, (k < length dims)%nat -> 0 <= nth k rext 0 - stag (nth k dims ""%string) /\
     0 <= nth k g 0 < (nth k rext 0 - stag (nth k dims ""%string)) * along (nth k dims ""%string) lay 1 + stag (nth k dims ""%string)).
    { intros k Hk. split; [now apply F|]. apply Partition.in_shape_nth in G. destruct G as (_ & G). specialize (G k ltac:(lia)).
      unfold tile_size in G. rewrite (NumpyProofs.nth_map2 _ _ _ _ ""%string 0) in G by lia. exact G. }
    destruct (pick_seat AxX dims rext lay g OX LO ltac:(lia) ltac:(lia) H B) as (i & Hi & I).
    destruct (pick_seat AxY dims rext lay g OY LO ltac:(lia) ltac:(lia) H A) as (j & Hj & J).
    destruct (in_tile_onto (j, i) dims rext g ltac:(lia) ltac:(lia)) as (pt & P & E).
    { intros k Hk. unfold inside, along. destruct (axis_of (nth k dims ""%string)) eqn:Ak; cbn [fst snd]; auto.
      destruct (H k Hk) as (H1 & H2). unfold along in H2. rewrite Ak in H2. lia. }
    exists j, i, pt. auto. }
  destruct (fits_layout _ _ _ Fi) as [A B]. unfold place, global_size, ranks, lay in *. destruct p as [l|l]; cbn [layout_of] in *.
  - destruct (T g G) as (j & i & pt & Hj & Hi & P & E). exists (Z.to_nat (j * snd l + i)), pt. split; [nia|]. split; auto.
    rewrite Z2Nat.id by nia. assert (S1 : seat l (j * snd l + i) = (j, i)) by (apply (subtile_index_rank l j i); auto). now rewrite S1.
  - inversion G as [|n t s g' Ht G']; subst. destruct (T g' G') as (j & i & pt & Hj & Hi & P & E).
    set (m := fst l * snd l) in *. assert (Hm : 0 <= j * snd l + i < m) by nia.
    exists (Z.to_nat (t * m + (j * snd l + i))), pt. split; [nia|]. split; auto.
    rewrite Z2Nat.id by nia. rewrite Z.div_add_l by lia. rewrite (Z.div_small (j * snd l + i) m) by lia. rewrite Z.add_0_r. f_equal.
    assert (S1 : seat l (t * m + (j * snd l + i)) = (j, i)).
    { rewrite <- (subtile_index_rank l j i) by auto. unfold seat, tile_subtile_index, Partitioner.subtile_index, tile_total_ranks. fold m.
      rewrite Z.add_comm, Z.mod_add by lia. reflexivity. }
    now rewrite S1.
Qed.
