(** Stores one after the other (C41). *)
From Verif.Base Require Import Base Lemmas.
From Verif.Model Require Import Consts Partitioner Numpy Quantity ScatterGather Shared Zarr.
From Verif.Spec Require Import Grid Layouts Views Distribute Storage.
From Verif.Proofs Require Import Slices NumpyProofs Parts RestartProofs NudgeProofs CollectiveProofs SharedProofs ZarrGeometry ZarrProofs.
From Verif.Proofs Require Partition.
From Coq Require Import ZifyBool Permutation Sorting.Sorted.
Ltac Zify.zify_post_hook ::= idtac.

Section All.
Context {V Time : Type}.
Variable junk : list Z -> V.
Variables (calendar_of text_of : Time -> string) (encode : Time -> Time -> V).
Variables (layout : Z * Z) (names : list string) (var : string -> vspec) (states : nat -> nat -> state V Time) (times : nat -> nat -> Time) (N : nat).
Notation metas := (string -> option zmeta).
Notation heap := (string -> list Z -> option (chunk V)).
Let size := ranks (CubePart layout).
Hypothesis NDn : NoDup names.
Hypothesis NoTime : ~ In "time"%string names.
Hypothesis LO : layouts_ok layout.
Hypothesis Div : forall n, In n names -> divided layout (var n).
Hypothesis Des : forall r i, (r < size)%nat -> (i < N)%nat -> described names var (times r i) (states r i).
Hypothesis Cal : forall i, (i < N)%nat -> calendar_of (times 0 i) = calendar_of (times 0 0).

Definition own (n : string) (c : list Z) : nat :=
  if String.eqb n "time" then 0%nat else match c with _ :: tile :: cc => Z.to_nat (chunk_rank layout (vs_dims (var n)) tile cc) | _ => 0%nat end.
Definition first (r : nat) : Time := times r 0%nat.
Definition mvar (n : string) (cnt : Z) : zmeta := meta_var layout (vs_dims (var n)) (vs_units (var n)) (vs_ext (var n)) cnt.
Definition meta_all (n : string) (cnt : Z) : zmeta := if String.eqb n "time" then meta_time calendar_of text_of first cnt else mvar n cnt.
Definition piece (n : string) (i : nat) (M : metas) : list (bool * metas) :=
  if String.eqb n "time" then time_piece calendar_of text_of first i M else var_piece layout n (vs_dims (var n)) (vs_units (var n)) (vs_ext (var n)) i M.
Definition next (i : nat) (n : string) (M : metas) : metas := set_meta n (meta_all n (Z.of_nat i + 1)) M.
Fixpoint names_script (i : nat) (l : list string) (M : metas) : list (bool * metas) :=
  match l with [] => [] | n :: l' => piece n i M ++ names_script i l' (next i n M) end%list.
Fixpoint metas_after (i : nat) (l : list string) (M : metas) : metas := match l with [] => M | n :: l' => metas_after i l' (next i n M) end.
Definition ord : list string := dkeys (sorted (map (fun n => (n, tt)) ("time"%string :: names))).
Fixpoint stores_script (n i : nat) (M : metas) : list (bool * metas) :=
  match n with O => [] | S n' => names_script i ord M ++ stores_script n' (S i) (metas_after i ord M) end%list.
Definition script : list (bool * metas) := stores_script N 0 (fun _ => None).

Definition writer_ok (r : nat) (n : string) (i : nat) (w : writer Time) : Prop :=
  if String.eqb n "time" then time_writer calendar_of text_of first r i w else var_writer layout (vs_dims (var n)) (vs_units (var n)) (vs_ext (var n)) r i w.
Definition cost (r : nat) (n : string) : nat := if String.eqb n "time" then 14%nat else var_cost layout (vs_dims (var n)) (vs_ext (var n)) r.
Fixpoint costs (r : nat) (l : list string) : nat := match l with [] => 0%nat | n :: l' => (cost r n + costs r l')%nat end.

Definition bump (n : string) (cnt : string -> nat) : string -> nat := fun x => if String.eqb x n then S (cnt x) else cnt x.
Fixpoint bumps (l : list string) (cnt : string -> nat) : string -> nat := match l with [] => cnt | n :: l' => bumps l' (bump n cnt) end.

Record good (r : nat) (cnt : string -> nat) (ws : dict (writer Time)) (h : heap) (m M : metas) : Prop := mkGood {
  g_eq : metas_eq m M;
  g_meta : forall n, In n ord -> M n = match cnt n with O => None | S _ => Some (meta_all n (Z.of_nat (cnt n))) end;
  g_keys : forall n, In n (dkeys ws) <-> In n ord;
  g_writers : forall n, In n ord -> exists w, dget n ws = Some w /\ writer_ok r n (cnt n) w;
  g_values : forall n j q, In n names -> (j < cnt n)%nat -> dget n (st_vars (states r j)) = Some q ->
    has_values layout n (vs_dims (var n)) (vs_ext (var n)) r j q h;
  g_times : r = 0%nat -> forall j, (j < cnt "time"%string)%nat -> time_at h j (encode (first 0%nat) (times 0 j)) }.

Lemma in_ord n : In n ord <-> n = "time"%string \/ In n names.
Proof.
  unfold ord, dkeys. rewrite sorted_perm. rewrite map_map. cbn. rewrite map_id. intuition congruence.
Qed.
Lemma ord_NoDup : NoDup ord.
Proof. unfold ord, dkeys. rewrite sorted_perm. rewrite map_map. cbn. rewrite map_id. constructor; auto. Qed.

Definition item_ok (r i : nat) (nv : string * value V Time) : Prop :=
  In (fst nv) ord /\ match snd nv with
    | VTime _ _ t => fst nv = "time"%string /\ t = times r i
    | VQuantity _ _ q => In (fst nv) names /\ dget (fst nv) (st_vars (states r i)) = Some q
    end.

Lemma time_names n : In n names -> String.eqb n "time" = false.
Proof. intros I. destruct (String.eqb_spec n "time") as [->|]; auto. contradiction. Qed.

Lemma size_spec r : (r < size)%nat -> (r < Z.to_nat (6 * (fst layout * snd layout)))%nat.
Proof. exact (fun H => H). Qed.

Lemma wp_append_all r i : (r < size)%nat -> (i < N)%nat -> forall l ws cnt h m M k rest, NoDup (map fst l) -> Forall (item_ok r i) l ->
  (forall n, In n (map fst l) -> cnt n = i) ->
  skipn k script = (names_script i (map fst l) M ++ rest)%list -> good r cnt ws h m M ->
  wp own script r (fun k' h' m' a => skipn k' script = rest /\ exists ws', a = (ws', Ok tt) /\ good r (bumps (map fst l) cnt) ws' h' m' (metas_after i (map fst l) M))
    (costs r (map fst l)) k h m (append_all V Time junk calendar_of text_of encode layout (Z.of_nat r) ws l).
Proof.
  intros Hr Hi. induction l as [|[n v] l IH]; intros ws cnt h m M k rest ND F C Sc G.
  - cbn. constructor. split; auto. exists ws. auto.
  - cbn [append_all map fst costs metas_after bumps names_script] in *. rewrite <- app_assoc in Sc.
    inversion ND as [|? ? Nn ND']; subst. inversion F as [|? ? F1 F']; subst. destruct F1 as [On Ov]. cbn [fst snd] in On, Ov.
    destruct (g_writers _ _ _ _ _ _ G n On) as (w & -> & Wn).
    assert (Cn : cnt n = i) by (apply C; now left). rewrite Cn in Wn.
    pose proof (g_meta _ _ _ _ _ _ G n On) as Mn. rewrite Cn in Mn.
    eapply (wp_bind own script r (fun k' h' m' wr => skipn k' script = (names_script i (map fst l) (next i n M) ++ rest)%list /\
      exists w', wr = (w', Ok tt) /\ good r (bump n cnt) (dset n w' ws) h' m' (next i n M))).
    + destruct v as [q|t].
      * destruct Ov as [In' Dq]. pose proof (time_names n In') as Tn. destruct (Div n In') as (D1 & D2 & D3). destruct (Des r i Hr Hi) as (P1 & P2 & P3). destruct (P3 n q Dq) as (Q1 & Q2 & Q3 & Q4).
        unfold cost, writer_ok, piece, meta_all in *. rewrite Tn in *. eapply wp_post.
        -- eapply (wp_append junk own script layout n (vs_dims (var n)) (vs_units (var n)) (vs_ext (var n))); eauto.
           ++ intros i0 tile cc. unfold own. now rewrite Tn.
           ++ apply (g_eq _ _ _ _ _ _ G).
        -- cbn beta. intros k' h' m' wr (S1 & E1 & (w' & -> & W1) & Hv & Fr). split; auto. exists w'. split; auto. constructor.
           ++ intros x. rewrite E1. unfold next, meta_all. now rewrite Tn.
           ++ intros x Ix. unfold next, bump. unfold set_meta. destruct (String.eqb_spec x n) as [->|].
              ** rewrite Cn. f_equal. f_equal. lia.
              ** now apply (g_meta _ _ _ _ _ _ G).
           ++ intros x. rewrite in_dkeys_dset. rewrite (g_keys _ _ _ _ _ _ G). intuition congruence.
           ++ intros x Ix. rewrite dget_dset. unfold bump. rewrite String.eqb_sym. destruct (String.eqb_spec n x) as [<-|].
              ** exists w'. split; auto. unfold writer_ok. now rewrite Tn, Cn.
              ** now apply (g_writers _ _ _ _ _ _ G).
           ++ intros x j q' Ix Hj Dx p Hp. unfold bump in Hj. destruct (String.eqb_spec x n) as [->|Nx].
              ** destruct (Nat.eq_dec j i) as [->|].
                 --- rewrite Dx in Dq. injection Dq as ->. now apply Hv.
                 --- rewrite Fr; [|right; cbn; intros [= E]; lia]. apply (g_values _ _ _ _ _ _ G n j q'); auto. lia.
              ** rewrite Fr by auto. apply (g_values _ _ _ _ _ _ G x j q'); auto.
           ++ intros R0 j Hj. unfold bump in Hj. destruct (String.eqb_spec "time" n) as [<-|Nx]; [discriminate|].
              destruct (g_times _ _ _ _ _ _ G R0 j Hj) as (d & D1' & D2'). exists d. rewrite Fr by auto. auto.
      * destruct Ov as [-> ->]. unfold cost, writer_ok, piece, meta_all in *. cbn [String.eqb Ascii.eqb Bool.eqb] in *. eapply wp_post.
        -- eapply (wp_append_time junk own script calendar_of text_of encode first); eauto.
           ++ intros ->. reflexivity.
           ++ intros ->. now apply Cal.
           ++ apply (g_eq _ _ _ _ _ _ G).
        -- cbn beta. intros k' h' m' wr (S1 & E1 & (w' & -> & W1) & Hv & Fr & Ft). split; auto. exists w'. split; auto. constructor.
           ++ intros x. rewrite E1. reflexivity.
           ++ intros x Ix. unfold next, bump. unfold set_meta. destruct (String.eqb_spec x "time") as [->|].
              ** rewrite Cn. f_equal. f_equal. lia.
              ** now apply (g_meta _ _ _ _ _ _ G).
           ++ intros x. rewrite in_dkeys_dset. rewrite (g_keys _ _ _ _ _ _ G). intuition congruence.
           ++ intros x Ix. rewrite dget_dset. unfold bump. rewrite String.eqb_sym. destruct (String.eqb_spec "time" x) as [<-|].
              ** exists w'. split; auto. unfold writer_ok. now rewrite Cn.
              ** now apply (g_writers _ _ _ _ _ _ G).
           ++ intros x j q' Ix Hj Dx p Hp. unfold bump in Hj. destruct (String.eqb_spec x "time") as [->|Nx]; [contradiction|].
              rewrite Fr by auto. apply (g_values _ _ _ _ _ _ G x j q'); auto.
           ++ intros R0 j Hj. unfold bump in Hj. rewrite String.eqb_refl in Hj. destruct (Nat.eq_dec j i) as [->|].
              ** subst r. now apply Hv.
              ** apply Ft; auto. apply (g_times _ _ _ _ _ _ G R0). lia.
    + cbn beta. intros k' h' m' wr (S1 & w' & -> & G'). apply IH; auto.
      intros x Ix. unfold bump. destruct (String.eqb_spec x n) as [->|]; [contradiction|]. apply C. now right.
Qed.

Lemma bumps_spec l : forall cnt n, NoDup l -> bumps l cnt n = if sin n l then S (cnt n) else cnt n.
Proof.
  induction l as [|a l IH]; intros cnt n ND; cbn; auto. inversion ND; subst. rewrite IH by auto. unfold bump. unfold sin in *. cbn. rewrite String.eqb_sym.
  destruct (String.eqb_spec a n) as [->|]; cbn; auto. destruct (existsb (String.eqb n) l) eqn:E; auto. exfalso. apply existsb_exists in E. destruct E as (x & I & E). apply String.eqb_eq in E. now subst.
Qed.

Lemma good_ext r cnt cnt' ws h m M : (forall n, In n ord -> cnt n = cnt' n) -> good r cnt ws h m M -> good r cnt' ws h m M.
Proof.
  intros E G. assert (T : cnt "time"%string = cnt' "time"%string) by (apply E, in_ord; auto). constructor; try apply G.
  - intros n I. rewrite <- E by auto. now apply G.
  - intros n I. rewrite <- E by auto. now apply G.
  - intros n j q I. rewrite <- E by (apply in_ord; auto). now apply G.
  - rewrite <- T. apply G.
Qed.

(** the items of a state *)
Lemma items_keys (s : state V Time) t : st_time s = Some t -> dkeys (items V Time s) = (dkeys (st_vars s) ++ ["time"%string])%list.
Proof. intros E. unfold items, dkeys. rewrite E, map_app, map_map. reflexivity. Qed.

Lemma items_ok r i : (r < size)%nat -> (i < N)%nat ->
  dkeys (sorted (items V Time (states r i))) = ord /\ Forall (item_ok r i) (sorted (items V Time (states r i))) /\
  forall n, In n (dkeys (items V Time (states r i))) <-> In n ord.
Proof.
  intros Hr Hi. destruct (Des r i Hr Hi) as (P1 & P2 & P3). pose proof (items_keys _ _ P2) as K.
  assert (P : Permutation (dkeys (items V Time (states r i))) ("time"%string :: names)).
  { rewrite K, P1. symmetry. apply Permutation_cons_append. }
  assert (KO : forall n, In n (dkeys (items V Time (states r i))) <-> In n ord).
  { intros n. rewrite P, in_ord. cbn. intuition congruence. }
  split; [|split; auto].
  - apply sorted_unique.
    + apply sorted_sorted. rewrite P. constructor; auto.
    + apply sorted_sorted. unfold dkeys. rewrite map_map. cbn. rewrite map_id. constructor; auto.
    + unfold ord. unfold dkeys at 1 2. rewrite !sorted_perm. rewrite map_map. cbn [fst]. rewrite map_id. exact P.
  - apply Forall_forall. intros [n v] I. apply (Permutation_in _ (sorted_perm _)) in I. split.
    + apply KO. unfold dkeys. apply in_map_iff. exists (n, v). auto.
    + unfold items in I. rewrite P2 in I. apply in_app_or in I. destruct I as [I|[I|[]]].
      * apply in_map_iff in I. destruct I as ([n' q] & E & I). injection E as <- <-. cbn [fst snd]. split.
        -- rewrite <- P1. unfold dkeys. apply in_map_iff. exists (n', q). auto.
        -- apply dget_NoDup; auto. rewrite P1. exact NDn.
      * injection I as <- <-. cbn. auto.
Qed.

Definition monitor_ok (i : nat) (m : monitor Time) (ws : dict (writer Time)) : Prop := match i with O => m = None | S _ => m = Some ws end.

Lemma wp_store r i mon ws h m M k rest : (r < size)%nat -> (i < N)%nat -> monitor_ok i mon ws ->
  match i with O => metas_eq m (fun _ => None) /\ (forall n, M n = None) | S _ => good r (fun _ => i) ws h m M end ->
  skipn k script = (names_script i ord M ++ rest)%list ->
  wp own script r (fun k' h' m' a => skipn k' script = rest /\ exists ws', a = (Some ws', Ok tt) /\ good r (fun _ => S i) ws' h' m' (metas_after i ord M))
    (costs r ord) k h m (store V Time junk calendar_of text_of encode layout (Z.of_nat r) mon (states r i)).
Proof.
  intros Hr Hi Mo G Sc. destruct (items_ok r i Hr Hi) as (K & IO & KO). unfold store.
  assert (P : forall ws0, good r (fun _ => i) ws0 h m M ->
     wp own script r (fun k' h' m' a => skipn k' script = rest /\ exists ws', a = (Some ws', Ok tt) /\ good r (fun _ => S i) ws' h' m' (metas_after i ord M))
       (costs r ord) k h m (sbind (append_all V Time junk calendar_of text_of encode layout (Z.of_nat r) ws0 (sorted (items V Time (states r i)))) (fun wr => SRet (Some (fst wr), snd wr)))).
  { intros ws0 G0. rewrite <- (Nat.add_0_r (costs r ord)). eapply wp_bind.
    - unfold dkeys in K. rewrite <- K. apply wp_append_all with (rest := rest) (M := M) (cnt := fun _ => i).
      + exact Hr.
      + exact Hi.
      + rewrite K. apply ord_NoDup.
      + exact IO.
      + auto.
      + rewrite K. exact Sc.
      + exact G0.
    - cbn beta. intros k' h' m' a (S1 & ws' & -> & G'). constructor. split; auto. exists ws'. split; auto. unfold dkeys in K. rewrite K in G'.
      eapply good_ext; [|exact G']. intros n In0. cbn beta. rewrite bumps_spec by apply ord_NoDup. replace (sin n ord) with true; auto. symmetry. now apply sin_In. }
  destruct i as [|i]; cbn in Mo; subst mon.
  - destruct G as [Em Mn]. apply P. constructor.
    + intros n. rewrite Mn. apply Em.
    + intros n I. apply Mn.
    + intros n. rewrite <- KO. unfold init_writers, dkeys. rewrite map_app, map_map. cbn. rewrite map_id, in_app_iff, filter_In. cbn.
      destruct (String.eqb_spec n "time") as [->|E]; [|intuition congruence]. split; [|auto]. intros _. apply KO, in_ord. auto.
    + intros n I. exists (new_writer Time). split.
      * unfold init_writers. destruct (Des r 0%nat Hr Hi) as (P1 & P2 & P3).
        assert (W : forall l, In n l \/ n = "time"%string -> dget n (map (fun n0 => (n0, new_writer Time)) l ++ [("time"%string, new_writer Time)])%list = Some (new_writer Time)).
        { induction l as [|a l IHl]; cbn.
          - intros [[]| ->]. reflexivity.
          - intros H. destruct (String.eqb_spec n a) as [->|]; auto. apply IHl. destruct H as [[H|H]|H]; auto. congruence. }
        apply W. destruct (String.eqb_spec n "time") as [->|E]; auto. left. apply filter_In. split; [now apply KO|]. destruct (String.eqb_spec n "time"); auto; contradiction.
      * unfold writer_ok. destruct (String.eqb n "time"); split; reflexivity.
    + intros n j q _ Hj. lia.
    + intros _ j Hj. lia.
  - replace (check_writers Time ws (dkeys (items V Time (states r (S i))))) with true; [apply P; exact G|].
    symmetry. unfold check_writers. apply andb_true_intro. split; apply forallb_forall; intros n I.
    + apply dmem_In. apply G. now apply KO.
    + apply sin_In. apply KO. now apply G.
Qed.

Lemma wp_store_all r : (r < size)%nat -> forall n i mon ws h m M k, (i + n = N)%nat -> monitor_ok i mon ws ->
  match i with O => metas_eq m (fun _ => None) /\ (forall n, M n = None) | S _ => good r (fun _ => i) ws h m M end ->
  skipn k script = stores_script n i M -> 
  wp own script r (fun k' h' m' a => skipn k' script = [] /\ exists mon' ws' M', a = (mon', Ok tt) /\ monitor_ok N mon' ws' /\
      match N with O => metas_eq m' (fun _ => None) | S _ => good r (fun _ => N) ws' h' m' M' end)
    (n * costs r ord) k h m (store_all V Time junk calendar_of text_of encode layout (Z.of_nat r) mon (map (states r) (seq i n))).
Proof.
  intros Hr. induction n as [|n IH]; intros i mon ws h m M k Hn Mo G Sc.
  - cbn. constructor. split; auto. exists mon, ws, M. split; auto. replace N with i by lia. split; auto. destruct i; [apply G|exact G].
  - cbn [seq map store_all Nat.mul]. eapply wp_bind.
    + eapply (wp_store r i mon ws h m M k); eauto. lia.
    + cbn beta. intros k' h' m' a (S1 & ws' & -> & G'). apply (IH (S i) (Some ws') ws' h' m' (metas_after i ord M)); auto; [lia|reflexivity].
Qed.

End All.

Lemma skipn_nil_len {A} (l : list A) k : skipn k l = [] -> (length l <= k)%nat.
Proof. intros E. apply (f_equal (@length A)) in E. rewrite skipn_length in E. cbn in E. lia. Qed.

Lemma wp_within {V B} owner script r (post : nat -> (string -> list Z -> option (chunk V)) -> (string -> option zmeta) -> B -> Prop) n k h m p :
  wp owner script r post n k h m p -> (k <= length script)%nat ->
  wp owner script r (fun k h m a => post k h m a /\ (k <= length script)%nat) n k h m p.
Proof.
  intros W. induction W; intros K.
  - constructor; auto.
  - constructor; auto.
  - constructor; auto.
  - constructor; auto.
  - econstructor; eauto.
  - econstructor; eauto. apply IHW. match goal with E : nth_error script k = Some _ |- _ => pose proof (proj1 (nth_error_Some script k) ltac:(congruence)) end. lia.
Qed.

(** the point of a rank's array which a point of its box is *)
Lemma box_point layout s dims ext p : seated layout s -> cells_ok dims ext -> in_box (boxes layout s dims ext) p ->
  in_shape ext (within (boxes layout s dims ext) p) /\ in_tile s dims ext (within (boxes layout s dims ext) p) = p.
Proof.
  intros Se F. unfold boxes, within. revert p. induction F as [|d e dims ext H F IH]; intros p B; inversion B as [|? x ? p' Hx B']; subst; cbn; [split; [constructor|auto]|].
  destruct (IH _ B') as [I1 I2]. unfold box1 in *. cbn [fst snd] in *. rewrite I2. split; [|f_equal; lia]. constructor; auto.
  pose proof (last1_01 layout s d). unfold last1 in *. pose proof (stag_01 d). destruct (_ =? _); lia.
Qed.

Lemma slices_either layout r dims ext : fits layout dims ext ->
  cs_subtile_slice layout r ("tile"%string :: dims) (6 :: tile_size layout dims ext) true
  = Ok (r / (fst layout * snd layout), map2 (fun d e => (along d (seat layout r) 0 * (e - stag d), along d (seat layout r) 0 * (e - stag d) + e)) dims ext) /\
  cs_subtile_slice layout r ("tile"%string :: dims) (6 :: tile_size layout dims ext) false
  = Ok (r / (fst layout * snd layout), boxes layout (seat layout r) dims ext).
Proof.
  intros Fi. destruct (fits_layout _ _ _ Fi) as [A B]. unfold cs_subtile_slice. cbn [String.eqb TILE_DIM negb Ascii.eqb Bool.eqb tl].
  rewrite !Partition.tile_index_eq by lia. cbn [bind]. rewrite slice_box, tile_slice by auto. cbn [bind]. auto.
Qed.

Lemma in_tile_box s dims ext : length ext = length dims -> forall pt, in_shape ext pt ->
  in_box (map2 (fun d e => (along d s 0 * (e - stag d), along d s 0 * (e - stag d) + e)) dims ext) (in_tile s dims ext pt).
Proof.
  revert ext. induction dims as [|d dims IH]; intros [|e ext] L pt P; try discriminate; inversion P; subst; cbn; [constructor|].
  constructor; [cbn; lia|]. apply IH; auto.
Qed.

Lemma last_rank layout dims ext g : fits layout dims ext -> horizontal dims -> cells_ok dims ext -> in_shape (6 :: tile_size layout dims ext) g ->
  exists r p, (r < ranks (CubePart layout))%nat /\ in_box (boxes layout (seat layout (Z.of_nat r)) dims ext) p /\ g = Z.of_nat r / (fst layout * snd layout) :: p /\
    forall r' pt', (r' < ranks (CubePart layout))%nat -> in_shape ext pt' -> place (CubePart layout) r' dims ext pt' = g -> (r' <= r)%nat.
Proof.
  intros Fi Ho Ce G. inversion G as [|? t ? p Ht Hp]; subst. destruct (fits_layout _ _ _ Fi) as [A B]. cbn [layout_of] in *.
  destruct (Partition.cs_partition layout dims (tile_size layout dims ext) t p (fits_tile _ _ _ Fi) Ho Ht Hp) as (r & (Hr & box & E & Hb) & _ & Mx).
  destruct (slices_either layout r dims ext Fi) as [_ E2]. rewrite E2 in E. injection E as <- <-.
  exists (Z.to_nat r), p. rewrite Z2Nat.id by lia. split; [unfold ranks; lia|]. split; auto. split; auto.
  intros r' pt' Hr' P E. unfold ranks in Hr'. unfold place in E. cbn [layout_of] in E. injection E as E3 E4.
  specialize (Mx (Z.of_nat r') ltac:(lia)). destruct (slices_either layout (Z.of_nat r') dims ext Fi) as [E5 _].
  assert (Z.of_nat r' <= r); [|lia]. apply Mx. eexists. rewrite E5, E3. split; [reflexivity|]. rewrite <- E4. apply in_tile_box; auto.
  destruct Fi as (_ & _ & F). symmetry. eapply Forall2_length; eauto.
Qed.

(** what the store holds if all ranks have completed [N] stores *)
Lemma holds_of {V Time} (calendar_of text_of : Time -> string) (encode : Time -> Time -> V) layout names var (states : nat -> nat -> state V Time) times N st hs ms :
  ~ In "time"%string names -> (0 < ranks (CubePart layout))%nat -> (forall n, In n names -> divided layout (var n)) ->
  (forall r i, (r < ranks (CubePart layout))%nat -> (i < N)%nat -> described names var (times r i) (states r i)) -> (0 < N)%nat ->
  (forall r, (r < ranks (CubePart layout))%nat -> exists ws M, good calendar_of text_of encode layout names var states times r (fun _ => N) ws (hs r) (ms r) M) ->
  (forall n c, s_cells st n c = if (own layout var n c <? ranks (CubePart layout))%nat then hs (own layout var n c) n c else None) ->
  (forall n, ms 0%nat n = s_meta st n) -> holds layout names var calendar_of text_of encode states times N st.
Proof.
  intros NT P0 Div Des HN G O3 O4. destruct N as [|N']; [lia|]. set (N := S N') in *. set (size := ranks (CubePart layout)) in *. set (ownr := own layout var) in *.
  assert (Mt : forall n, In n (ord names) -> s_meta st n = Some (meta_all calendar_of text_of layout var times n (Z.of_nat N))).
  { intros n I. destruct (G 0%nat P0) as (ws & M & G0). rewrite <- O4. rewrite (g_eq _ _ _ _ _ _ _ _ _ _ _ _ _ _ G0 n). apply (g_meta _ _ _ _ _ _ _ _ _ _ _ _ _ _ G0 n I). }
  split; [|split].
  - intros n I. assert (Tn : String.eqb n "time" = false) by (eapply time_names; eauto).
    assert (Mn : s_meta st n = Some (mvar layout var n (Z.of_nat N))).
    { rewrite Mt; [unfold meta_all; now rewrite Tn|]. apply in_ord; auto. }
    split; [exact Mn|]. intros i g Hi Hg. cbn zeta. destruct (Div n I) as (D1 & D2 & D3).
    destruct (last_rank layout _ _ g D1 D2 D3 Hg) as (r & p & Hr & Hb & -> & Mx). destruct (fits_layout _ _ _ D1) as [A B].
    destruct (box_point layout (seat layout (Z.of_nat r)) _ _ p (seat_seated _ _ A B) D3 Hb) as [B1 B2].
    destruct (Des r i Hr Hi) as (P1 & P2 & P3).
    destruct (dget n (st_vars (states r i))) as [q|] eqn:Dq.
    2:{ exfalso. apply dget_None in Dq. apply Dq. now rewrite P1. }
    exists r, (within (boxes layout (seat layout (Z.of_nat r)) (vs_dims (var n)) (vs_ext (var n))) p), q.
    split; [split; [auto|split; auto]|].
    { unfold place. cbn [layout_of]. now rewrite B2. }
    split; [intros r' pt' (X1 & X2 & X3); eapply Mx; eauto|]. split; auto.
    unfold element. rewrite Mn. cbn [mvar meta_var z_chunks Numpy.map2]. rewrite !Z.div_1_r, !Z.mod_1_r.
    rewrite O3. unfold ownr, own. rewrite Tn. pose proof (point_touched layout _ _ _ p (seat_seated _ _ A B) D3 Hb) as To.
    change (chunk_sizes (vs_dims (var n)) (vs_ext (var n))) with (chunk_sizes (vs_dims (var n)) (vs_ext (var n))) in To.
    rewrite (touched_rank layout _ _ _ A B D2 To). rewrite Nat2Z.id. replace (r <? size)%nat with true by (symmetry; now apply Nat.ltb_lt).
    destruct (G r Hr) as (ws & M & G0). destruct (g_values _ _ _ _ _ _ _ _ _ _ _ _ _ _ G0 n i q I Hi Dq p Hb) as (d & V1 & V2).
    unfold tile_of in V1. rewrite V1. cbn [option_map]. f_equal. exact V2.
  - rewrite Mt; [reflexivity|]. apply in_ord; auto.
  - intros i Hi. unfold element. rewrite Mt by (apply in_ord; auto). cbn [meta_all String.eqb Ascii.eqb Bool.eqb meta_time z_chunks Numpy.map2].
    rewrite O3. unfold ownr, own. cbn [String.eqb Ascii.eqb Bool.eqb]. replace (0 <? size)%nat with true by (symmetry; now apply Nat.ltb_lt).
    destruct (G 0%nat P0) as (ws & M & G0). destruct (g_times _ _ _ _ _ _ _ _ _ _ _ _ _ _ G0 eq_refl i Hi) as (d & V1 & V2).
    rewrite V1. cbn [option_map]. f_equal. exact V2.
Qed.

(** ** C41 *)
Theorem stores_hold {V Time} (junk : list Z -> V) (calendar_of text_of : Time -> string) (encode : Time -> Time -> V)
    layout names var (states : nat -> nat -> state V Time) times N :
  NoDup names -> ~ In "time"%string names -> layouts_ok layout -> (forall n, In n names -> divided layout (var n)) ->
  (forall r i, (r < ranks (CubePart layout))%nat -> (i < N)%nat -> described names var (times r i) (states r i)) ->
  (forall i, (i < N)%nat -> calendar_of (times 0%nat i) = calendar_of (times 0%nat 0%nat)) ->
  ends_with zexec (ranks (CubePart layout))
    (fun r => store_all V Time junk calendar_of text_of encode layout (Z.of_nat r) None (map (states r) (seq 0 N))) empty_store
    (fun st out => (forall r, (r < ranks (CubePart layout))%nat -> snd (out r) = Ok tt) /\
       ((0 < N)%nat -> holds layout names var calendar_of text_of encode states times N st)).
Proof.
  intros ND NT LO Div Des Cal. set (size := ranks (CubePart layout)).
  set (ownr := own layout var). set (scr := script calendar_of text_of layout names var times N).
  set (post := fun (r k : nat) (h : string -> list Z -> option (chunk V)) (m : string -> option zmeta) (a : monitor Time * res unit) =>
     k = length scr /\ exists mon' ws' M', a = (mon', Ok tt) /\ monitor_ok N mon' ws' /\
      match N with O => metas_eq m (fun _ => None) | S _ => good calendar_of text_of encode layout names var states times r (fun _ => N) ws' h m M' end).
  assert (P0 : (0 < size)%nat).
  { destruct LO as [LA LB]. apply layout_ok_pos in LA, LB. unfold size, ranks. nia. }
  assert (W : forall r, (r < size)%nat -> wp ownr scr r (post r) (N * costs layout var r (ord names)) 0 (fun _ _ => None) (fun _ => None)
     (store_all V Time junk calendar_of text_of encode layout (Z.of_nat r) None (map (states r) (seq 0 N)))).
  { intros r Hr. eapply wp_post.
    - apply wp_within; [|lia].
      eapply (wp_store_all junk calendar_of text_of encode layout names var states times N ND NT Div Des Cal r Hr N 0 None []) with (M := fun _ => None); auto.
      + reflexivity.
      + split; intros n; reflexivity.
    - cbn beta. intros k h m a [[K P] L]. split; [|exact P]. apply skipn_nil_len in K. fold scr in K. lia. }
  pose proof (machine ownr scr size P0 post ltac:(intros r k h m a [E _]; exact E) _ _ W) as E.
  destruct E as (bound & E). exists bound. intros delayed sched st rs R. destruct (E delayed sched st rs R) as (L & [(out & O1 & hs & ms & O2 & O3 & O4)|O]); split; auto.
  left. exists out. split; auto. split.
  { intros r Hr. destruct (O2 r Hr) as (_ & mon' & ws' & M' & -> & _). reflexivity. }
  intros HN. destruct N as [|N']; [lia|]. set (N := S N') in *.
  assert (G : forall r, (r < size)%nat -> exists ws M, good calendar_of text_of encode layout names var states times r (fun _ => N) ws (hs r) (ms r) M).
  { intros r Hr. destruct (O2 r Hr) as (_ & mon' & ws' & M' & _ & _ & G). eauto. }
  eapply (holds_of calendar_of text_of encode layout names var states times N st hs ms); auto.
Qed.
