(** What is stored by a ZarrMonitor (C41). *)
From Verif.Base Require Import Base Lemmas.
From Verif.Model Require Import Consts Partitioner Numpy Quantity ScatterGather Shared Zarr.
From Verif.Spec Require Import Grid Layouts Views Distribute Storage.
From Verif.Proofs Require Import Slices NumpyProofs Parts NudgeProofs CollectiveProofs SharedProofs ZarrGeometry.
From Verif.Proofs Require Partition.
From Coq Require Import ZifyBool Permutation.
Ltac Zify.zify_post_hook ::= idtac.

Lemma skipn_next {A} (l : list A) k x rest : skipn k l = x :: rest -> nth_error l k = Some x /\ skipn (S k) l = rest.
Proof.
  revert l. induction k as [|k IH]; intros [|y l] E; cbn in *; try discriminate.
  - injection E as -> ->. auto.
  - now apply IH.
Qed.

Lemma region_cons i ch rg : region_chunks (1 :: ch) ((i, 1) :: rg) = map (cons i) (region_chunks ch rg).
Proof.
  unfold region_chunks. cbn [Numpy.map2 fst snd]. unfold chunk_first at 1, chunk_count at 1. rewrite !Z.div_1_r. change (1 <=? 0) with false. cbv iota.
  replace (i + 1 - 1 - i + 1) with 1 by lia. cbn [all_idx]. change (zrange 1) with [0]. cbn [flat_map]. rewrite app_nil_r, !map_map.
  apply map_ext. intros p. cbn. f_equal. lia.
Qed.

Lemma add_inj f : forall p q, length p = length f -> length q = length f -> map2 Z.add f p = map2 Z.add f q -> p = q.
Proof. induction f as [|a f IH]; intros [|x p] [|y q] L L'; cbn in *; try discriminate; auto. intros E. injection E as E E'. f_equal; [lia|]. apply IH; auto; lia. Qed.
Lemma NoDup_map_in {A B} (f : A -> B) l : (forall x y, In x l -> In y l -> f x = f y -> x = y) -> NoDup l -> NoDup (map f l).
Proof.
  intros Inj N. induction N as [|a l Na N IH]; cbn; constructor.
  - intros I. apply in_map_iff in I. destruct I as (b & E & I). apply Na. rewrite (Inj a b); auto; [now left|now right].
  - apply IH. intros. apply Inj; auto; now right.
Qed.
Lemma region_NoDup ch : forall rg, NoDup (region_chunks ch rg).
Proof.
  intros rg. unfold region_chunks. apply NoDup_map_in; [|apply all_idx_NoDup].
  assert (L : forall x, In x (all_idx (map2 (fun n r => chunk_count n (fst r) (snd r)) ch rg)) -> length x = length (map2 (fun n r => chunk_first n (fst r)) ch rg)).
  { intros x I. apply in_all_idx in I. apply Forall2_length in I. rewrite <- I. clear. revert rg. induction ch as [|c ch IH]; intros [|r rg]; cbn; auto. }
  intros x y X Y. apply add_inj; auto.
Qed.

Section Wp.
Context {V Time : Type}.
Variable junk : list Z -> V.
Variable owner : string -> list Z -> nat.
Variable script : list (bool * (string -> option zmeta)).
Notation metas := (string -> option zmeta).
Notation heap := (string -> list Z -> option (chunk V)).

Lemma wp_write_chunks r k m name ints chunks region value cs : forall h, NoDup cs ->
  (forall c, In c cs -> owner name c = r /\ inside m name c) ->
  wp owner script r (fun k' h' m' _ => k' = k /\ m' = m /\
    forall n c, h' n c = if String.eqb n name && existsb (idx_eqb c) cs then Some (merged V junk ints chunks region value c (h name c)) else h n c)
    (2 * length cs) k h m (write_chunks V junk name ints chunks region value cs).
Proof.
  induction cs as [|c0 cs IH]; intros h N O.
  - constructor. repeat split. intros n c. cbn. now rewrite andb_false_r.
  - cbn [write_chunks]. replace (2 * length (c0 :: cs))%nat with (S (S (2 * length cs))) by (cbn; lia).
    inversion N as [|? ? N0 N']; subst. destruct (O c0 (or_introl eq_refl)) as [O1 O2].
    constructor; [exact O1|]. constructor; [exact O1|exact O2|].
    eapply wp_post; [apply IH; auto|]. { intros c I. apply O. now right. }
    cbn beta. intros k' h' m' _ (E1 & E2 & E3). repeat split; auto. intros n c. rewrite E3. unfold set_cell. cbn [existsb].
    rewrite String.eqb_refl. cbn [andb]. destruct (String.eqb_spec n name) as [->|]; cbn [andb]; auto.
    destruct (existsb (idx_eqb c) cs) eqn:X.
    + rewrite orb_true_r. destruct (idx_eqb_spec c c0) as [->|]; auto. exfalso. apply N0. apply existsb_exists in X. destruct X as (c1 & I & E). apply idx_eqb_eq in E. now subst.
    + rewrite orb_false_r. destruct (idx_eqb_spec c c0) as [->|]; auto.
Qed.

Lemma set_same_grows (m : metas) name z' : (forall z, m name = Some z -> larger z z') -> grows m (set_meta name z' m).
Proof.
  intros H n z Hz. unfold set_meta. destruct (String.eqb_spec n name) as [->|]; [|exists z; repeat split; auto; lia]. eauto.
Qed.
Lemma larger_refl z : larger z z.
Proof. repeat split; lia. Qed.
Lemma metas_eq_grows m m' : metas_eq m m' -> grows m m'.
Proof. intros E n z H. exists z. rewrite <- E. split; auto. apply larger_refl. Qed.
Lemma metas_eq_sym m m' : metas_eq m m' -> metas_eq m' m.
Proof. intros E n. symmetry. apply E. Qed.

Lemma root_nat r : (Z.of_nat r =? ROOT_RANK) = Nat.eqb r 0.
Proof. unfold ROOT_RANK. destruct (Nat.eqb_spec r 0); lia. Qed.

(** the synchronisation of an array *)
Lemma wp_sync_array {B} r (post : nat -> heap -> metas -> B -> Prop) n k h m name array z (K : option zmeta -> zproc V B) mk rest :
  skipn k script = (false, mk) :: rest -> mk name = Some z -> (r = 0%nat -> array = Some z /\ metas_eq mk m) ->
  (forall z2 m2, larger z z2 -> (r = 0%nat -> z2 = z) -> metas_eq m2 mk -> wp owner script r post n (S k) h m2 (K (Some z2))) ->
  wp owner script r post (3 + n) k h m (sync_array V (Z.of_nat r) name array K).
Proof.
  intros S M R W. destruct (skipn_next _ _ _ _ S) as [S1 S2]. unfold sync_array. rewrite root_nat. cbn [Nat.add]. destruct (Nat.eqb_spec r 0) as [R0|R0].
  - destruct (R R0) as [-> E]. apply (wp_sync owner script r post (1 + n) k h m false mk m); auto.
    + intros _. split; auto. now apply metas_eq_grows.
    + congruence.
    + eapply wp_more; [apply W; auto using larger_refl, metas_eq_sym|lia].
  - apply (wp_sync owner script r post (1 + n) k h m false mk mk); auto; [congruence|]. constructor. intros m' G.
    destruct (G _ _ M) as (z2 & -> & L). apply W; auto; [congruence|]. intros x. reflexivity.
Qed.

(** making an array *)
Lemma wp_init r (w : writer Time) k h m name shape chunks attrs mk rest : skipn k script = (false, mk) :: rest ->
  (r = 0%nat -> m name = None /\ metas_eq mk (set_meta name (mkZM shape chunks attrs) m)) -> mk name = Some (mkZM shape chunks attrs) ->
  wp owner script r (fun k' h' m' wr => k' = S k /\ h' = h /\ metas_eq m' mk /\ exists z, wr = (mkW (w_time w) (Some z) (w_since w), Ok tt) /\
      larger (mkZM shape chunks attrs) z /\ (r = 0%nat -> z = mkZM shape chunks attrs))
    5 k h m (init_zarr V Time (Z.of_nat r) name w shape chunks attrs).
Proof.
  intros S R M. unfold init_zarr. rewrite root_nat. destruct (Nat.eqb_spec r 0) as [R0|R0].
  - destruct (R R0) as [N E]. set (z0 := mkZM shape chunks (mkZA [] None None)).
    eapply (wp_meta _ _ _ _ 4); [exact R0|reflexivity|cbn; now rewrite N| |].
    + cbn. apply set_same_grows. intros z Hz. congruence.
    + cbn [s_meta]. eapply (wp_meta _ _ _ _ 3); [exact R0|reflexivity|cbn; unfold set_meta at 1; rewrite String.eqb_refl; reflexivity| |].
      * cbn. apply set_same_grows. intros z. unfold set_meta. rewrite String.eqb_refl. intros [= <-]. repeat split; cbn; lia.
      * cbn [s_meta z_shape z_chunks z0 w_array]. eapply (wp_sync_array r _ 0); [exact S|exact M| |].
        -- intros _. split; auto. intros n. rewrite E. unfold set_meta. destruct (String.eqb n name); auto.
        -- intros z2 m2 L Z2 E2. constructor. split; auto. split; auto. split; auto. exists z2. auto.
  - eapply wp_more; [eapply (wp_sync_array r _ 0); [exact S|exact M|congruence|]|lia]. intros z2 m2 L Z2 E2. constructor. split; auto. split; auto. split; auto. exists z2. cbn. auto.
Qed.

(** growing an array and synchronising it *)
Lemma wp_resize r (post : nat -> heap -> metas -> writer Time * res unit -> Prop) n k h m name (w : writer Time) z new_shape compat K mk rest z' :
  w_array w = Some z -> skipn k script = (false, mk) :: rest -> mk name = Some z' ->
  (r = 0%nat -> m name = Some z /\ metas_eq mk (set_meta name z' m) /\
     (if nth 0 (z_shape z) 0 <=? w_time w then compat = true /\ larger z z' /\ z' = mkZM new_shape (z_chunks z) (z_attrs z) else z' = z)) ->
  (forall w2 z2 m2, w_time w2 = w_time w -> w_since w2 = w_since w -> larger z' z2 -> (r = 0%nat -> z2 = z') -> metas_eq m2 mk ->
     wp owner script r post n (S k) h m2 (K w2 (Some z2))) ->
  wp owner script r post (4 + n) k h m (resize V Time (Z.of_nat r) name w z new_shape compat (fun w => sync_array V (Z.of_nat r) name (w_array w) (K w))).
Proof.
  intros A S M R W. unfold resize. rewrite root_nat. destruct (Nat.eqb_spec r 0) as [R0|R0].
  - destruct (R R0) as (Mz & E & C). rewrite andb_true_r. destruct (nth 0 (z_shape z) 0 <=? w_time w).
    + destruct C as (-> & L & Ez). pose proof L as (L1 & L2 & L3 & L4).
      assert (LS : Nat.eqb (length new_shape) (length (z_shape z)) = true) by (rewrite Ez in L3; cbn in L3; now apply Nat.eqb_eq).
      eapply (wp_meta _ _ _ _ (3 + n)); [exact R0|reflexivity|cbn; rewrite Mz, LS; reflexivity| |].
      * cbn. rewrite <- Ez. apply set_same_grows. intros z1 Hz1. rewrite Mz in Hz1. injection Hz1 as <-. exact L.
      * cbn [s_meta w_array]. rewrite <- Ez. eapply wp_sync_array; [exact S|exact M|auto|]. intros z2 m2 L' Z2 E2. apply W; auto.
    + subst z'. eapply wp_more; [eapply wp_sync_array; [exact S|exact M| |]|instantiate (1 := n); lia].
      * intros _. split; auto. intros x. rewrite E. unfold set_meta. destruct (String.eqb_spec x name) as [->|]; auto.
      * intros z2 m2 L' Z2 E2. apply W; auto.
  - rewrite andb_false_r. eapply wp_more; [eapply wp_sync_array; [exact S|exact M|congruence|]|instantiate (1 := n); lia]. intros z2 m2 L' Z2 E2. apply W; auto.
Qed.

(** ** one variable *)
Section Var.
Variables (layout : Z * Z) (name : string) (dims : list string) (units : string) (ext : list Z).
Hypothesis Fi : fits layout dims ext.
Hypothesis Ce : cells_ok dims ext.
Hypothesis Ho : horizontal dims.
Hypothesis Own : forall i tile cc, owner name (i :: tile :: cc) = Z.to_nat (chunk_rank layout dims tile cc).

Definition meta_var (cnt : Z) : zmeta :=
  mkZM (cnt :: 6 :: tile_size layout dims ext) (1 :: 1 :: chunk_sizes dims ext) (mkZA ("time"%string :: "tile"%string :: dims) (Some units) None).

Definition var_writer (r i : nat) (w : writer Time) : Prop :=
  w_time w = Z.of_nat i /\ match i with O => w_array w = None | S _ => exists z, w_array w = Some z /\ (r = 0%nat -> z = meta_var (Z.of_nat i)) end.

Definition tile_of (r : nat) : Z := Z.of_nat r / (fst layout * snd layout).
Definition box_of (r : nat) : list (Z * Z) := boxes layout (seat layout (Z.of_nat r)) dims ext.
Definition within (b : list (Z * Z)) (p : list Z) : list Z := map2 (fun x b => x - fst b) p b.
Definition chunks_of (r i : nat) : list (list Z) :=
  region_chunks (1 :: 1 :: chunk_sizes dims ext) ((Z.of_nat i, 1) :: (tile_of r, 1) :: slices_of (box_of r)).
Definition has_values (r i : nat) (q : quantity V) (h : heap) : Prop :=
  forall p, in_box (box_of r) p -> exists d, h name (Z.of_nat i :: tile_of r :: map2 Z.div p (chunk_sizes dims ext)) = Some d /\
    d (0 :: 0 :: map2 Z.modulo p (chunk_sizes dims ext)) = at_ (domain_of q) (within (box_of r) p).

Lemma chunks_of_spec r i c : In c (chunks_of r i) <-> exists cc, c = Z.of_nat i :: tile_of r :: cc /\ touched layout (seat layout (Z.of_nat r)) dims cc.
Proof.
  destruct (fits_layout _ _ _ Fi) as [A B].
  unfold chunks_of. rewrite !region_cons, map_map, in_map_iff. unfold box_of. setoid_rewrite (region_touched layout (seat layout (Z.of_nat r)) dims ext); auto; [|now apply seat_seated].
  split; intros (cc & X & Y); exists cc; auto.
Qed.
Lemma chunks_of_length r i : length (chunks_of r i) = length (chunks_of r 0).
Proof. unfold chunks_of. rewrite !region_cons. now rewrite !map_length. Qed.

Lemma in_region_box b p : in_box b p -> in_region (slices_of b) p = true.
Proof.
  unfold in_region, slices_of. induction 1 as [|[x y] z b p H F IH]; cbn in *; auto. rewrite IH, andb_true_r. lia.
Qed.
Lemma div_mod_point p ch : Forall (fun c => 1 <= c) ch -> length p = length ch -> map2 Z.add (map2 Z.mul (map2 Z.div p ch) ch) (map2 Z.modulo p ch) = p.
Proof.
  intros F. revert p. induction F as [|c ch H F IH]; intros [|x p] L; cbn in *; try discriminate; auto. rewrite IH by lia. f_equal.
  pose proof (Z.div_mod x c ltac:(lia)). lia.
Qed.
Lemma sizes_pos : Forall (fun c => 1 <= c) (chunk_sizes dims ext).
Proof. unfold chunk_sizes. clear -Ce. unfold cells_ok in Ce. pose proof Ce as C0. clear Ce. induction C0; cbn; constructor; auto. Qed.
Lemma box_length r : length (box_of r) = length dims /\ length (chunk_sizes dims ext) = length dims.
Proof. unfold box_of, boxes, chunk_sizes. clear -Ce. unfold cells_ok in Ce. pose proof Ce as C0. clear Ce. induction C0; cbn; auto. lia. Qed.
Lemma skip_within b p : map2 (fun x (r : Z * Z) => x - fst r) p (slices_of b) = within b p.
Proof. unfold slices_of, within. revert p. induction b as [|x b IH]; intros [|y p]; cbn; auto. now rewrite IH. Qed.

(** the value assigned *)
Lemma value_ok r (q : quantity V) : well_formed (q_meta q) -> q_dims q = dims -> q_extent q = ext ->
  exists whole v, view_get q (PSingle IALL) = Ok whole /\ v_index (v_whole (shp whole)) (map (fun b => ISL 0 (snd b - fst b)) (box_of r)) = Ok v /\
    shp (v_read whole v) = map snd (slices_of (box_of r)) /\
    forall p, in_box (box_of r) p -> at_ (v_read whole v) (within (box_of r) p) = at_ (domain_of q) (within (box_of r) p).
Proof.
  intros W D E. destruct (fits_layout _ _ _ Fi) as [A B]. destruct Fi as (LO & Nd & _).
  destruct (get_single q W (dims_extent q W ltac:(congruence))) as (whole & G & S & Vl). exists whole.
  assert (IA : Forall2 in_axis ext (map (fun b => (0, snd b - fst b)) (box_of r)) /\
          forall p, in_box (box_of r) p -> in_shape ext (within (box_of r) p) /\ box_map (map (fun b => (0, snd b - fst b)) (box_of r)) (within (box_of r) p) = within (box_of r) p /\ length p = length (box_of r)).
  { pose proof (seat_seated layout (Z.of_nat r) A B) as Se. unfold box_of, boxes. set (s := seat layout (Z.of_nat r)) in *.
    clear - Ce Se. unfold cells_ok in Ce. pose proof Ce as C0. clear Ce. induction C0 as [|d e ds es H F (IH1 & IH2)]; cbn.
    - split; [constructor|]. intros p P. inversion P; subst. repeat split; constructor.
    - pose proof (last1_01 layout s d) as L1. assert (L2 : last1 layout s d <= stag d) by (unfold last1; pose proof (stag_01 d); destruct (_ =? _); lia).
      split.
      + constructor; auto. unfold in_axis; cbn. lia.
      + intros p P. inversion P as [|? x ? p' Px P']; subst. cbn in Px. destruct (IH2 p' P') as (I1 & I2 & I3). split; [|split]; cbn.
        * constructor; auto. lia.
        * f_equal; auto.
        * lia. }
  destruct IA as [IA IB]. rewrite <- E, <- S in IA. destruct (v_index_box _ _ IA) as (v & Ev & Sv & Mv). exists v. split; auto. split; [|split].
  - etransitivity; [|exact Ev]. f_equal. rewrite map_map. reflexivity.
  - cbn. rewrite Sv. unfold box_shape, slices_of. rewrite !map_map. apply map_ext. intros [x y]. cbn. lia.
  - intros p P. destruct (IB p P) as (I1 & I2 & I3). cbn. rewrite Mv.
    + rewrite I2. rewrite Vl; auto. now rewrite E.
    + rewrite map_length, <- I3. rewrite <- I2 at 1. clear -I3. unfold box_map, within. revert p I3. induction (box_of r) as [|x b IH]; intros [|y p] L; cbn in *; try discriminate; auto.
Qed.

Definition var_piece (i : nat) (M : metas) : list (bool * metas) :=
  let M' := set_meta name (meta_var (Z.of_nat i + 1)) M in match i with O => [(false, M'); (false, M')] | S _ => [(false, M')] end.
Definition var_cost (r : nat) : nat := 9 + 2 * length (chunks_of r 0).

Lemma strings_eqb_refl l : strings_eqb l l = true.
Proof. induction l; cbn; auto. now rewrite String.eqb_refl. Qed.
Lemma attrs_eqb_refl a : attrs_eqb a a = true.
Proof. unfold attrs_eqb, option_eqb. rewrite strings_eqb_refl. destruct (za_units a), (za_calendar a); rewrite ?String.eqb_refl; auto. Qed.

Lemma larger_shape cnt z : larger (meta_var cnt) z -> exists x, z_shape z = x :: 6 :: tile_size layout dims ext /\ cnt <= x /\ z_chunks z = 1 :: 1 :: chunk_sizes dims ext.
Proof.
  intros (L1 & L2 & L3 & L4). destruct (z_shape z) as [|x s] eqn:E; cbn in *; [discriminate|]. exists x. subst s. auto.
Qed.

Lemma wp_append r i (w : writer Time) (q : quantity V) k h m M rest : (r < Z.to_nat (6 * (fst layout * snd layout)))%nat ->
  well_formed (q_meta q) -> q_dims q = dims -> q_units q = units -> q_extent q = ext -> var_writer r i w ->
  skipn k script = (var_piece i M ++ rest)%list -> metas_eq m M -> M name = match i with O => None | S _ => Some (meta_var (Z.of_nat i)) end ->
  wp owner script r (fun k' h' m' wr => skipn k' script = rest /\ metas_eq m' (set_meta name (meta_var (Z.of_nat i + 1)) M) /\
      (exists w', wr = (w', Ok tt) /\ var_writer r (S i) w') /\ has_values r i q h' /\
      forall n c, n <> name \/ hd_error c <> Some (Z.of_nat i) -> h' n c = h n c)
    (var_cost r) k h m (append V Time junk layout (Z.of_nat r) name w q).
Proof.
  intros Hr W D U E Wr Sc Em Mn. destruct (fits_layout _ _ _ Fi) as [A B]. set (M' := set_meta name (meta_var (Z.of_nat i + 1)) M) in *.
  pose proof (seat_seated layout (Z.of_nat r) A B) as Se.
  assert (Tr : 0 <= tile_of r < 6).
  { unfold tile_of. split; [apply Z.div_pos; nia|apply Z.div_lt_upper_bound; nia]. }
  assert (MN : M' name = Some (meta_var (Z.of_nat i + 1))) by (unfold M', set_meta; now rewrite String.eqb_refl).
  unfold append. rewrite D, E, extent_size, chunks_eq by auto.
  replace (get_attrs V q) with (z_attrs (meta_var 0)) by (unfold get_attrs; now rewrite D, U).
  unfold var_cost. replace (9 + 2 * length (chunks_of r 0))%nat with (5 + (4 + 2 * length (chunks_of r 0)))%nat by lia.
  set (mid := match i with O => S k | S _ => k end).
  eapply (wp_bind owner script r (fun k' h' m' wr => k' = mid /\ h' = h /\ metas_eq m' (match i with O => M' | S _ => M end) /\
     exists w' z, wr = (w', Ok tt) /\ w_time w' = Z.of_nat i /\ w_array w' = Some z /\ (r = 0%nat -> z = meta_var (match i with O => 1 | S _ => Z.of_nat i end)))).
  { destruct Wr as [Wt Wa]. destruct i as [|i].
    - rewrite Wa. unfold var_piece in Sc. eapply wp_post; [eapply wp_init; [exact Sc| |]|].
      + intros _. split; [rewrite Em; exact Mn|]. intros n. unfold M', set_meta. rewrite (Em n). reflexivity.
      + exact MN.
      + cbn beta. intros k' h' m' wr (E1 & E2 & E3 & z & E4 & L & Z0). split; auto. split; auto. split; auto. eexists _, z. split; [exact E4|]. cbn. auto.
    - destruct Wa as (z & Wa & Z0). rewrite Wa. constructor. repeat split; auto. exists w, z. auto. }
  cbn beta. intros k' h' m' wr (-> & -> & Em' & w' & z & -> & Wt & Wa & Z0). rewrite Wa.
  assert (S' : skipn mid script = (false, M') :: rest).
  { unfold mid. unfold var_piece in Sc. destruct i; cbn [app] in Sc; [|exact Sc]. now apply skipn_next in Sc. }
  eapply wp_resize; [exact Wa|exact S'|exact MN| |].
  - intros R0. specialize (Z0 R0). subst z. rewrite Wt. destruct i as [|i].
    + cbn [meta_var z_shape nth]. split; [rewrite Em'; exact MN|]. change (1 <=? Z.of_nat 0) with false. cbv iota. split; auto.
      intros n. unfold set_meta. destruct (String.eqb_spec n name) as [->|]; [exact MN|]. now rewrite Em'.
    + cbn [meta_var z_shape nth z_chunks z_attrs]. split; [rewrite Em'; exact Mn|]. rewrite Z.leb_refl. split; [|split; [|split]].
      * intros n. unfold M', set_meta. destruct (String.eqb_spec n name) as [->|]; auto.
      * apply attrs_eqb_refl.
      * repeat split; cbn; lia.
      * reflexivity.
  - intros w2 z2 m2 Wt2 Ws2 L2 Zr Em2. destruct (larger_shape _ _ L2) as (x & Sh & Lx & Ch).
    rewrite Wt2, Wt. rewrite Partition.tile_index_eq by auto. cbn [bind]. fold (tile_of r). rewrite Sh. cbn [skipn]. rewrite slice_box by auto. cbn [bind].
    change (tile_subtile_index layout (Z.of_nat r)) with (seat layout (Z.of_nat r)). fold (box_of r).
    destruct (value_ok r q W D E) as (whole & v & V1 & V2 & V3 & V4). rewrite V1. cbn [bind]. rewrite V2. cbn [bind].
    cbn [w_time w_array w_since]. unfold zarr_set. rewrite Sh, Ch. cbn [Numpy.map2 forallb length skipn].
    replace ((0 <=? Z.of_nat i) && (Z.of_nat i <? x)) with true by lia. replace ((0 <=? tile_of r) && (tile_of r <? 6)) with true by lia. cbn [andb].
    unfold box_of at 1. rewrite norm_boxes by auto. fold (box_of r). cbn [bind]. rewrite V3, idx_eqb_refl. cbn [map app].
    fold (chunks_of r i). rewrite <- (chunks_of_length r i). replace (2 * length (chunks_of r i))%nat with (2 * length (chunks_of r i) + 0)%nat by lia.
    eapply wp_bind; [apply wp_write_chunks|].
    + apply region_NoDup.
    + intros c I. apply chunks_of_spec in I. destruct I as (cc & -> & T). split.
      * rewrite Own. unfold tile_of. rewrite touched_rank by auto. apply Nat2Z.id.
      * exists (meta_var (Z.of_nat i + 1)). split; [rewrite Em2; exact MN|]. unfold chunk_inside, meta_var. cbn [z_shape z_chunks Numpy.map2 forallb].
        replace (Z.of_nat i * 1 <? Z.of_nat i + 1) with true by lia. replace (tile_of r * 1 <? 6) with true by lia. cbn [andb]. now apply (touched_inside layout (seat layout (Z.of_nat r))).
    + cbn beta. intros k3 h3 m3 _ (-> & -> & H3). constructor. split; [|split; [|split; [|split]]].
      * now apply skipn_next in S'.
      * exact Em2.
      * eexists. split; [reflexivity|]. split; cbn [w_time w_array]; [lia|]. exists z2. split; auto. intros R0. rewrite (Zr R0). f_equal. lia.
      * intros p P. assert (Pt := point_touched layout _ dims ext p Se Ce P).
        assert (I : In (Z.of_nat i :: tile_of r :: map2 Z.div p (chunk_sizes dims ext)) (chunks_of r i)) by (apply chunks_of_spec; eauto).
        eexists. split; [rewrite H3, String.eqb_refl|].
        { replace (existsb _ (chunks_of r i)) with true by (symmetry; apply existsb_exists; eexists; split; [exact I|apply idx_eqb_refl]). cbn [andb]. reflexivity. }
        unfold merged. cbn [Numpy.map2].
        rewrite div_mod_point; [|apply sizes_pos|]. 2:{ destruct (box_length r) as [B1 B2]. rewrite B2, <- B1. apply Forall2_length in P. auto. }
        unfold in_region. cbn [Numpy.map2 forallb fst snd].
        replace ((Z.of_nat i <=? Z.of_nat i * 1 + 0) && (Z.of_nat i * 1 + 0 <? Z.of_nat i + 1)) with true by lia.
        replace ((tile_of r <=? tile_of r * 1 + 0) && (tile_of r * 1 + 0 <? tile_of r + 1)) with true by lia. cbn [andb].
        pose proof (in_region_box (box_of r) p P) as IR. unfold in_region in IR. rewrite IR. cbn [skipn]. rewrite skip_within. now apply V4.
      * intros n c Nc. rewrite H3. destruct (String.eqb_spec n name) as [->|]; cbn [andb]; auto.
        destruct (existsb (idx_eqb c) (chunks_of r i)) eqn:X; auto. exfalso. apply existsb_exists in X. destruct X as (c' & I & Ec). apply idx_eqb_eq in Ec. subst c'.
        apply chunks_of_spec in I. destruct I as (cc & -> & _). cbn in Nc. intuition congruence.
Qed.
End Var.

(** ** times *)
Section TimeVar.
Variables (calendar_of text_of : Time -> string) (encode : Time -> Time -> V).
(** the first time of each rank *)
Variable first : nat -> Time.
Hypothesis Own : forall c, owner "time"%string c = 0%nat.

Definition meta_time (cnt : Z) : zmeta :=
  mkZM [cnt] [1024] (mkZA ["time"%string] (Some ("seconds since " ++ text_of (first 0%nat))%string) (Some (calendar_of (first 0%nat)))).
Definition time_writer (r i : nat) (w : writer Time) : Prop :=
  w_time w = Z.of_nat i /\
  match i with O => w_array w = None | S _ => w_since w = Some (first r) /\ exists z, w_array w = Some z /\ (r = 0%nat -> z = meta_time (Z.of_nat i)) end.
Definition time_piece (i : nat) (M : metas) : list (bool * metas) :=
  let M' := set_meta "time"%string (meta_time (Z.of_nat i + 1)) M in
  match i with
  | O => [(false, set_meta "time"%string (mkZM [1] [1024] (mkZA ["time"%string] None None)) M); (false, M'); (true, M')]
  | S _ => [(false, M'); (true, M')]
  end.
Definition time_at (h : heap) (j : nat) (v : V) : Prop :=
  exists d, h "time"%string [Z.of_nat j / 1024] = Some d /\ d [Z.of_nat j mod 1024] = v.

Lemma wp_append_time r i (w : writer Time) t k h m M rest : time_writer r i w -> (i = 0%nat -> first r = t) ->
  (r = 0%nat -> calendar_of t = calendar_of (first 0%nat)) ->
  skipn k script = (time_piece i M ++ rest)%list -> metas_eq m M -> M "time"%string = match i with O => None | S _ => Some (meta_time (Z.of_nat i)) end ->
  wp owner script r (fun k' h' m' wr => skipn k' script = rest /\ metas_eq m' (set_meta "time"%string (meta_time (Z.of_nat i + 1)) M) /\
      (exists w', wr = (w', Ok tt) /\ time_writer r (S i) w') /\
      (r = 0%nat -> time_at h' i (encode (first 0%nat) t)) /\
      (forall n c, n <> "time"%string -> h' n c = h n c) /\
      (forall j v, j <> i -> time_at h j v -> time_at h' j v))
    14 k h m (append_time V Time junk calendar_of text_of encode (Z.of_nat r) "time"%string w t).
Proof.
  intros Wr Ft Cal Sc Em Mn. set (M' := set_meta "time"%string (meta_time (Z.of_nat i + 1)) M) in *.
  set (Z1 := mkZM [1] [1024] (mkZA ["time"%string] None None)) in *. set (M0 := set_meta "time"%string Z1 M) in *.
  assert (MN : M' "time"%string = Some (meta_time (Z.of_nat i + 1))) by reflexivity.
  unfold append_time. change 14%nat with (6 + 8)%nat.
  set (mid := match i with O => S k | S _ => k end).
  eapply (wp_bind owner script r (fun k' h' m' wr => k' = mid /\ h' = h /\
     (r = 0%nat -> metas_eq m' (match i with O => M' | S _ => M end)) /\
     exists w' z, wr = (w', Ok tt) /\ w_time w' = Z.of_nat i /\ w_array w' = Some z /\ w_since w' = Some (first r) /\
       (r = 0%nat -> z = meta_time (match i with O => 1 | S _ => Z.of_nat i end)))).
  { destruct Wr as [Wt Wa]. destruct i as [|i].
    - rewrite Wa. unfold time_piece in Sc. rewrite <- (Ft eq_refl) in *. clear Ft. change 6%nat with (5 + 1)%nat. eapply wp_bind; [eapply wp_init; [exact Sc| |]|].
      + intros _. split; [rewrite Em; exact Mn|]. intros n. unfold TIME_CHUNK_SIZE, M0, set_meta. rewrite (Em n). reflexivity.
      + reflexivity.
      + cbn beta. intros k' h' m' wr (-> & -> & E3 & z & -> & L & Z0). cbn [w_array w_time w_since]. rewrite root_nat. destruct (Nat.eqb_spec r 0) as [R0|R0].
        * rewrite (Z0 R0). cbn [z_attrs za_dims z_shape z_chunks].
          eapply (wp_meta _ _ _ _ 0); [exact R0|reflexivity|cbn; rewrite (E3 "time"%string); reflexivity| |].
          -- cbn. apply set_same_grows. intros z1. rewrite (E3 "time"%string). intros [= <-]. repeat split; cbn; lia.
          -- cbn [s_meta]. constructor. split; auto. split; auto. split.
             ++ intros _ n. unfold M', set_meta. destruct (String.eqb_spec n "time") as [->|N].
                ** rewrite R0. reflexivity.
                ** rewrite E3. unfold M0, set_meta. destruct (String.eqb_spec n "time"); [contradiction|auto].
             ++ eexists _, _. split; [reflexivity|]. cbn. split; auto. split; auto. split; auto. intros _. rewrite R0. reflexivity.
        * constructor. split; auto. split; auto. split; [congruence|]. eexists _, z. split; [reflexivity|]. cbn. repeat split; auto. congruence.
    - destruct Wa as (Ws & z & Wa & Z0). rewrite Wa. constructor. repeat split; auto. exists w, z. auto. }
  cbn beta. intros k' h' m' wr (-> & -> & Em' & w' & z & -> & Wt & Wa & Ws & Z0). rewrite Wa, Ws.
  assert (S' : skipn mid script = (false, M') :: (true, M') :: rest).
  { unfold mid. unfold time_piece in Sc. destruct i; cbn [app] in Sc; [|exact Sc]. now apply skipn_next in Sc. }
  change 8%nat with (4 + 4)%nat. eapply wp_resize; [exact Wa|exact S'|exact MN| |].
  - intros R0. specialize (Z0 R0). specialize (Em' R0). subst z. rewrite Wt. destruct i as [|i].
    + cbn [meta_time z_shape nth]. split; [rewrite Em'; exact MN|]. change (1 <=? Z.of_nat 0) with false. cbv iota. split; auto.
      intros n. unfold set_meta. destruct (String.eqb_spec n "time") as [->|]; [exact MN|]. now rewrite Em'.
    + cbn [meta_time z_shape nth z_chunks z_attrs]. split; [rewrite Em'; exact Mn|]. rewrite Z.leb_refl. split; [|split; [|split]].
      * intros n. unfold M', set_meta. destruct (String.eqb_spec n "time") as [->|]; auto.
      * reflexivity.
      * repeat split; cbn; lia.
      * reflexivity.
  - intros w2 z2 m2 Wt2 Ws2 L2 Zr Em2. rewrite Wt2, Wt, Ws2, Ws. cbn [w_time w_array w_since].
    apply skipn_next in S'. destruct S' as [_ S']. destruct (skipn_next _ _ _ _ S') as [S1 S2].
    assert (Fin : forall h3 : heap, wp owner script r (fun k' h' m' wr => skipn k' script = rest /\ metas_eq m' M' /\
      (exists w', wr = (w', Ok tt) /\ time_writer r (S i) w') /\ h' = h3) 2 (S mid) h3 m2
      (SSync true (SRet (mkW (Z.of_nat i + 1) (Some z2) (Some (first r)), Ok tt)))).
    { intros h3. apply (wp_sync owner script r _ 0 (S mid) h3 m2 true M' (if Nat.eqb r 0 then m2 else M')); auto.
      - intros R0. subst r. cbn. split; auto. apply metas_eq_grows. now apply metas_eq_sym.
      - intros R0. destruct (Nat.eqb_spec r 0); congruence.
      - constructor. split; auto. split; [destruct (Nat.eqb r 0); auto; intros n; reflexivity|]. split; auto. eexists. split; [reflexivity|].
        split; cbn [w_time w_array w_since]; [lia|]. split; auto. exists z2. split; auto. intros R0. rewrite (Zr R0). f_equal. lia. }
    rewrite root_nat. destruct (Nat.eqb_spec r 0) as [R0|R0].
    + assert (F0 : first r = first 0%nat) by now rewrite R0. rewrite F0 in *. rewrite (Cal R0), String.eqb_refl. rewrite (Zr R0). unfold zarr_set. cbn [meta_time z_shape z_chunks Numpy.map2 forallb length skipn].
      replace ((0 <=? Z.of_nat i) && (Z.of_nat i <? Z.of_nat i + 1)) with true by lia. cbn [andb norm_slices bind shp map idx_eqb app].
      assert (RC : region_chunks [1024] [(Z.of_nat i, 1)] = [[Z.of_nat i / 1024]]).
      { unfold region_chunks. cbn [Numpy.map2 fst snd]. unfold chunk_first, chunk_count. change (1 <=? 0) with false. cbv iota.
        replace ((Z.of_nat i + 1 - 1) / 1024 - Z.of_nat i / 1024 + 1) with 1; [|replace (Z.of_nat i + 1 - 1) with (Z.of_nat i) by lia; lia].
        change (all_idx [1]) with [[0]]. cbn. now rewrite Z.add_0_r. }
      rewrite RC. change 4%nat with (2 * length [[(Z.of_nat i / 1024)%Z]] + 2)%nat.
      eapply wp_bind; [apply wp_write_chunks|].
      * constructor; [auto|constructor].
      * intros c [<-|[]]. split; [now rewrite Own, R0|]. exists (meta_time (Z.of_nat i + 1)). split; [rewrite Em2; exact MN|].
        unfold chunk_inside. cbn. rewrite andb_true_r. apply Z.ltb_lt. pose proof (Z.mul_div_le (Z.of_nat i) 1024). lia.
      * cbn beta. intros k3 h3 m3 _ (-> & -> & H3). rewrite (Zr R0) in Fin. cbn [w_time w_array w_since]. eapply wp_post; [apply Fin|].
        cbn beta. intros k4 h4 m4 wr (P1 & P2 & P3 & ->). split; auto. split; auto. split; auto. split; [|split].
        -- intros _. eexists. split; [rewrite H3, String.eqb_refl; cbn; rewrite Z.eqb_refl; reflexivity|].
           unfold merged, in_region. cbn [Numpy.map2 forallb fst snd]. replace (Z.of_nat i / 1024 * 1024 + Z.of_nat i mod 1024) with (Z.of_nat i).
           2:{ pose proof (Z.div_mod (Z.of_nat i) 1024). lia. }
           replace ((Z.of_nat i <=? Z.of_nat i) && (Z.of_nat i <? Z.of_nat i + 1)) with true by lia. reflexivity.
        -- intros n c N. rewrite H3. destruct (String.eqb_spec n "time"); [contradiction|reflexivity].
        -- intros j v N (d & D1 & D2). destruct (Z.eq_dec (Z.of_nat j / 1024) (Z.of_nat i / 1024)) as [Q|Q].
           ++ eexists. split; [rewrite H3, String.eqb_refl; cbn; rewrite Q, Z.eqb_refl; reflexivity|].
              unfold merged, in_region. cbn [Numpy.map2 forallb fst snd]. replace (Z.of_nat i / 1024 * 1024 + Z.of_nat j mod 1024) with (Z.of_nat j).
              2:{ rewrite <- Q. pose proof (Z.div_mod (Z.of_nat j) 1024). lia. }
              replace ((Z.of_nat i <=? Z.of_nat j) && (Z.of_nat j <? Z.of_nat i + 1)) with false by lia. cbn [andb]. rewrite <- Q, D1. exact D2.
           ++ exists d. split; auto. rewrite H3. cbn. destruct (Z.eqb_spec (Z.of_nat j / 1024) (Z.of_nat i / 1024)); [contradiction|]. exact D1.
    + eapply wp_more; [eapply wp_post; [apply Fin|]|lia]. cbn beta. intros k4 h4 m4 wr (P1 & P2 & P3 & ->). repeat split; auto. congruence.
Qed.
End TimeVar.
End Wp.
