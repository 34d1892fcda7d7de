(** Scatter, compute in steps with halo updates, gather. *)
From Verif.Base Require Import Base Lemmas.
From Verif.Model Require Import Consts Numpy Quantity Partitioner Network Communicator Collective ScatterGather.
From Verif.Spec Require Import Grid Cube Halo Lockstep Sync Client Updates Steps Layouts Views Together Distribute Whole.
From Verif.Proofs Require Import Slices CollectiveProofs StateProofs ClientProofs StepsProofs.
From Coq Require Import ZifyBool.

Lemma nth_map_seq {B} (f : nat -> B) len i b : (i < len)%nat -> nth i (map f (seq 0 len)) b = f i.
Proof.
  intros H. transitivity (nth i (map f (seq 0 len)) (f 0%nat)); [apply nth_indep; now rewrite map_length, seq_length|]. rewrite map_nth, seq_nth by lia. reflexivity.
Qed.
Lemma nth_map2 {A B C} (f : A -> B -> C) a b c : forall l l' i, length l = length l' -> (i < length l)%nat -> nth i (map2 f l l') c = f (nth i l a) (nth i l' b).
Proof.
  induction l as [|x l IH]; intros [|x' l'] i L H; try (cbn in *; lia). destruct i; cbn; auto. apply IH; cbn in *; lia.
Qed.
Lemma map2_len {A B C} (f : A -> B -> C) : forall l l', length l = length l' -> length (map2 f l l') = length l.
Proof. induction l as [|x l IH]; intros [|x' l'] L; cbn in *; try lia. rewrite IH; lia. Qed.

Lemma seat_place n r : 1 <= n -> (r < Halo.ranks n)%nat -> Cube.place n (Z.of_nat r) = (Z.of_nat r / (n * n), fst (seat (n, n) (Z.of_nat r)), snd (seat (n, n) (Z.of_nat r))).
Proof.
  intros Hn _. unfold Cube.place, seat. cbn [fst snd]. f_equal. set (x := Z.of_nat r).
  assert (E : x = x mod (n * n) + (n * (x / (n * n))) * n) by (rewrite (Z.div_mod x (n * n)) at 1 by nia; ring).
  rewrite E at 1. now rewrite Z.mod_add by lia.
Qed.


Section Geometry.
Variables (n N h : Z) (len ix iy : nat) (ext : nat -> Z) (dims : list string).
Hypothesis Hn : 1 <= n.
Hypothesis Ixy : ix <> iy.
Hypothesis Ix : (ix < len)%nat.
Hypothesis Iy : (iy < len)%nat.
Hypothesis Ld : length dims = len.
Hypothesis Ax : forall i, (i < len)%nat -> axis_of (nth i dims EmptyString) = if Nat.eqb i ix then AxX else if Nat.eqb i iy then AxY else AxOther.
Hypothesis Sx : stag (nth ix dims EmptyString) = 0.
Hypothesis Sy : stag (nth iy dims EmptyString) = 0.
Let rext := box len ix iy N ext.

Lemma rext_len : length rext = len.
Proof. unfold rext, box. now rewrite map_length, seq_length. Qed.
Lemma rext_nth i : (i < len)%nat -> xat rext i = if Nat.eqb i ix || Nat.eqb i iy then N else ext i.
Proof. intros H. unfold xat, rext, box. now rewrite nth_map_seq. Qed.

Lemma in_tile_len s : forall ds es p, length es = length ds -> length p = length ds -> length (in_tile s ds es p) = length ds.
Proof. induction ds as [|d ds IH]; intros [|e es] [|x p] L1 L2; cbn in *; try lia; rewrite ?IH; auto; lia. Qed.
Lemma in_tile_nth s : forall ds es p i, length es = length ds -> length p = length ds -> (i < length ds)%nat ->
  xat (in_tile s ds es p) i = along (nth i ds EmptyString) s 0 * (xat es i - stag (nth i ds EmptyString)) + xat p i.
Proof. induction ds as [|d ds IH]; intros [|e es] [|x p] [|i] L1 L2 Hi; cbn in *; auto; try lia. apply IH; lia. Qed.

(** where a point of a rank is in its tile *)
Lemma place_in_tile J K p : length p = len ->
  in_tile (J, K) dims rext p = tile_index len ix iy (J * N + xat p iy) (K * N + xat p ix) (map (fun i => if Nat.eqb i ix || Nat.eqb i iy then 0 else xat p i) (seq 0 len)).
Proof.
  intros L. pose proof rext_len as RL. apply nth_ext with (d := 0) (d' := 0); [unfold tile_index; rewrite in_tile_len, map_length, seq_length by lia; lia|].
  rewrite in_tile_len by lia. rewrite Ld. intros i Hi. change (xat (in_tile (J, K) dims rext p) i = nth i (tile_index len ix iy (J * N + xat p iy) (K * N + xat p ix) (map (fun i => if Nat.eqb i ix || Nat.eqb i iy then 0 else xat p i) (seq 0 len))) 0).
  rewrite in_tile_nth by lia. unfold tile_index. rewrite nth_map_seq by auto. rewrite rext_nth by auto. unfold along. rewrite Ax by auto.
  destruct (Nat.eqb_spec i ix) as [->|]; cbn [orb]; [rewrite Sx; cbn [snd]; lia|]. destruct (Nat.eqb_spec i iy) as [->|]; cbn [orb]; [rewrite Sy; cbn [fst]; lia|].
  unfold xat. rewrite nth_map_seq by auto. replace (Nat.eqb i ix || Nat.eqb i iy) with false by lia. lia.
Qed.
Lemma one_axis_at a k : (k < len)%nat -> (forall i, (i < len)%nat -> axis_of (nth i dims EmptyString) = a <-> i = k) -> one_axis a dims.
Proof.
  intros Hk H. exists (firstn k dims), (skipn (S k) dims), (nth k dims EmptyString).
  assert (E : dims = (firstn k dims ++ nth k dims EmptyString :: skipn (S k) dims)%list).
  { rewrite <- (firstn_skipn k dims) at 1. f_equal. rewrite <- Ld in Hk. clear -Hk. revert k Hk. induction dims as [|d l IH]; intros [|k] H; cbn in *; try lia; auto. apply IH. lia. }
  split; [exact E|]. split; [now apply H|]. split; apply Forall_nth; intros i dd Hi.
  - rewrite firstn_length in Hi. rewrite nth_indep with (d' := EmptyString) by (rewrite firstn_length; lia).
    assert (X : nth i (firstn k dims) EmptyString = nth i dims EmptyString). { rewrite <- (firstn_skipn k dims) at 2. rewrite app_nth1; auto. rewrite firstn_length. lia. }
    rewrite X. intros Y. apply H in Y; lia.
  - rewrite skipn_length in Hi. rewrite nth_indep with (d' := EmptyString) by (rewrite skipn_length; lia).
    assert (X : nth i (skipn (S k) dims) EmptyString = nth (S k + i) dims EmptyString). { rewrite <- (firstn_skipn (S k) dims) at 2. rewrite app_nth2; rewrite firstn_length; [f_equal; lia|lia]. }
    rewrite X. intros Y. apply H in Y; lia.
Qed.
Lemma axis_x : one_axis AxX dims.
Proof. apply one_axis_at with (k := ix); auto. intros i Hi. rewrite Ax by auto. destruct (Nat.eqb_spec i ix), (Nat.eqb_spec i iy); split; congruence. Qed.
Lemma axis_y : one_axis AxY dims.
Proof. apply one_axis_at with (k := iy); auto. intros i Hi. rewrite Ax by auto. destruct (Nat.eqb_spec i ix), (Nat.eqb_spec i iy); subst; split; congruence. Qed.
End Geometry.

(** index of a point relative to the compute domain *)
Definition relative (len : nat) (m : meta) (p : list Z) : list Z := map (rel m p) (seq 0 len).

Section Quantities.
Variables (N h : Z) (len ix iy : nat) (ext : nat -> Z) (m : meta).
Hypothesis F : Halo.fits N h len ix iy 0 0 ext m.

Lemma relative_nth p i : (i < len)%nat -> xat (relative len m p) i = rel m p i.
Proof. intros H. unfold xat, relative. now rewrite nth_map_seq. Qed.
Lemma relative_len p : length (relative len m p) = len.
Proof. unfold relative. now rewrite map_length, seq_length. Qed.
Lemma extent_eq : m_extent m = box len ix iy N ext.
Proof.
  apply nth_ext with (d := 0) (d' := 0); rewrite (fit_extent F); [unfold box; now rewrite map_length, seq_length|]. intros i Hi.
  unfold box. rewrite nth_map_seq by auto. change (nth i (m_extent m) 0) with (xat (m_extent m) i). rewrite (fit_ext F) by auto.
  destruct (Nat.eqb i ix), (Nat.eqb i iy); cbn [orb]; lia.
Qed.
Lemma shifted_relative p : length p = len -> shifted (m_origin m) (relative len m p) = p.
Proof.
  intros L. pose proof (fit_origin F) as LO. apply nth_ext with (d := 0) (d' := 0); unfold shifted; rewrite map2_len by (rewrite relative_len; lia); [lia|]. intros i Hi.
  rewrite nth_map2 with (a := 0) (b := 0) by (rewrite ?relative_len; lia). change (nth i (relative len m p) 0) with (xat (relative len m p) i). rewrite relative_nth by lia. unfold rel, xat. lia.
Qed.
Lemma relative_in p : in_domain m p -> in_shape (box len ix iy N ext) (relative len m p).
Proof.
  intros (L & D). rewrite (fit_dims F) in *. apply (Forall2_nth _ _ _ 0 0). split; [now rewrite relative_len, <- extent_eq, (fit_extent F)|]. rewrite <- extent_eq, (fit_extent F). intros i Hi.
  change (0 <= xat (relative len m p) i < xat (m_extent m) i). rewrite relative_nth by auto. now apply D.
Qed.
Lemma shifted_len pt : length pt = len -> length (shifted (m_origin m) pt) = len.
Proof. intros L. unfold shifted. rewrite map2_len; rewrite (fit_origin F); auto. Qed.
Lemma relative_shifted pt : length pt = len -> relative len m (shifted (m_origin m) pt) = pt.
Proof.
  intros L. apply nth_ext with (d := 0) (d' := 0); rewrite relative_len; auto. intros i Hi. change (xat (relative len m (shifted (m_origin m) pt)) i = nth i pt 0). rewrite relative_nth by auto.
  unfold rel, xat at 1, shifted. rewrite nth_map2 with (a := 0) (b := 0) by (rewrite (fit_origin F); auto). unfold xat. lia.
Qed.
Lemma shifted_in pt : in_shape (box len ix iy N ext) pt -> in_domain m (shifted (m_origin m) pt).
Proof.
  intros I. pose proof (Forall2_length _ _ _ I) as L. rewrite <- extent_eq, (fit_extent F) in L. split; [rewrite shifted_len, (fit_dims F); auto|]. rewrite (fit_dims F). intros i Hi.
  rewrite <- relative_nth, relative_shifted by auto. apply (Forall2_nth _ _ _ 0 0) in I. destruct I as (_ & I). rewrite <- extent_eq in I. apply I. now rewrite (fit_extent F).
Qed.
Lemma axes_from : forall o e s, length e = length o -> length s = length o -> (forall i, (i < length o)%nat -> 0 <= xat o i /\ 0 <= xat e i /\ xat o i + xat e i <= xat s i) -> axes_ok o e s.
Proof.
  induction o as [|a o IH]; intros [|b e] [|c s] L1 L2 H; cbn in *; try lia; constructor; try apply (H 0%nat ltac:(lia)). apply IH; try lia. intros i Hi. apply (H (S i)). lia.
Qed.
Lemma fits_formed : well_formed m.
Proof.
  split; [now rewrite (fit_dims F), (fit_shape F)|]. apply axes_from; rewrite ?(fit_extent F), ?(fit_origin F), ?(fit_shape F); auto. apply (fit_dom F).
Qed.
Lemma column_relative p : column m ix iy p = map (fun i => if Nat.eqb i ix || Nat.eqb i iy then 0 else xat (relative len m p) i) (seq 0 len).
Proof.
  unfold column. rewrite (fit_dims F). apply map_ext_in. intros i I. apply in_seq in I. now rewrite relative_nth by lia.
Qed.
End Quantities.


Section Whole.
Variables (V T : Type) (neg : V -> V) (d : V).
Variables (M h : Z) (len ix iy : nat) (ext : nat -> Z) (dims : list string).
Hypothesis Ixy : ix <> iy.
Hypothesis Ix : (ix < len)%nat.
Hypothesis Iy : (iy < len)%nat.
Hypothesis Ld : length dims = len.
Hypothesis Ax : forall i, (i < len)%nat -> axis_of (nth i dims EmptyString) = if Nat.eqb i ix then AxX else if Nat.eqb i iy then AxY else AxOther.
Hypothesis Sx : stag (nth ix dims EmptyString) = 0.
Hypothesis Sy : stag (nth iy dims EmptyString) = 0.

Lemma global_extent n N : n * N = M -> global_size (CubePart (n, n)) dims (box len ix iy N ext) = 6 :: box len ix iy M ext.
Proof.
  intros <-. cbn [global_size]. f_equal. pose proof (rext_len N len ix iy ext) as RL. apply nth_ext with (d := 0) (d' := 0); unfold tile_size; rewrite map2_len by lia; [now rewrite rext_len|].
  rewrite Ld. intros i Hi. rewrite nth_map2 with (a := EmptyString) (b := 0) by lia. change (nth i (box len ix iy N ext) 0) with (xat (box len ix iy N ext) i).
  change (nth i (box len ix iy (n * N) ext) 0) with (xat (box len ix iy (n * N) ext) i). rewrite !rext_nth by auto. unfold along. rewrite Ax by auto.
  destruct (Nat.eqb_spec i ix) as [->|]; cbn [orb fst snd]; [rewrite Sx; lia|]. destruct (Nat.eqb_spec i iy) as [->|]; cbn [orb fst snd]; [rewrite Sy|]; lia.
Qed.

Definition values_of (a : arr V) (t j i : Z) (c : list Z) : V := at_ a (t :: tile_index len ix iy j i c).
Definition array_of (A : Z -> Z -> Z -> list Z -> V) : arr V := mkA (6 :: box len ix iy M ext) (fun g =>
  match g with t :: g' => A t (xat g' iy) (xat g' ix) (map (fun i => if Nat.eqb i ix || Nat.eqb i iy then 0 else xat g' i) (seq 0 len)) | [] => d end).

Lemma array_of_at A t j i c : length c = len -> (forall k, (k < len)%nat -> Nat.eqb k ix || Nat.eqb k iy = true -> xat c k = 0) -> at_ (array_of A) (t :: tile_index len ix iy j i c) = A t j i c.
Proof.
  intros L Z0. cbn [array_of at_]. assert (X : forall k, (k < len)%nat -> xat (tile_index len ix iy j i c) k = if Nat.eqb k ix then i else if Nat.eqb k iy then j else xat c k).
  { intros k Hk. unfold xat at 1, tile_index. now rewrite nth_map_seq. }
  rewrite !X by auto. rewrite Nat.eqb_refl. replace (Nat.eqb iy ix) with false by (symmetry; apply Nat.eqb_neq; auto). rewrite Nat.eqb_refl. f_equal.
  apply nth_ext with (d := 0) (d' := 0); rewrite map_length, seq_length; auto. intros k Hk. rewrite nth_map_seq by auto. change (nth k c 0) with (xat c k).
  destruct (Nat.eqb k ix || Nat.eqb k iy) eqn:E; [symmetry; now apply Z0|]. rewrite X by auto. apply orb_false_iff in E. destruct E as (-> & ->). reflexivity.
Qed.

(** ranks which hold their parts of [A] and compute hold theirs of the result *)
Lemma computed (gs : list (rule V)) (A : arr V) : Forall (looks_around h (level len ix iy ext)) gs ->
  exists result : arr V, shp result = 6 :: box len ix iy M ext /\ forall n N (local outs : nat -> quantity V) fs,
    1 <= n -> n * N = M -> 1 <= h <= N ->
    (forall r, (r < Halo.ranks n)%nat -> q_dims (local r) = dims /\ Halo.fits N h len ix iy 0 0 ext (q_meta (local r))) ->
    Forall2 (applies n N ix iy (fun r => mkH 0 (q_meta (local r))) 1) gs fs ->
    let p := CubePart (n, n) in let rext := box len ix iy N ext in
    (forall r, (r < Halo.ranks n)%nat -> written (local r) (outs r) (part_of p r dims rext A)) ->
    forall started m, meaning V neg d n (stepping (fun r => mkH 0 (q_meta (local r))) h fs (length started)) started (fun r => [q_data (outs r)]) m ->
    (forall r, (r < Halo.ranks n)%nat -> exists a, nth_error (m r) 0 = Some a /\ shp a = shp (q_data (local r))) /\
    forall sent, (forall r, (r < Halo.ranks n)%nat -> q_meta (sent r) = q_meta (local r) /\ nth_error (m r) 0 = Some (q_data (sent r))) ->
    forall r, (r < Halo.ranks n)%nat -> same (domain_of (sent r)) (part_of p r dims rext result).
Proof.
  intros G. destruct (layouts_meaning V neg d M h len ix iy ext gs (values_of A) G) as (A' & LY). exists (array_of A'). split; [reflexivity|].
  intros n N local outs fs Hn HM Hh LO AP p rext SW.
  set (q := fun r => mkH 0 (q_meta (local r))) in *.
  assert (MT : forall r, (r < Halo.ranks n)%nat -> q_meta (outs r) = q_meta (local r)). { intros r Hr. destruct (SW r Hr) as (_ & X & _). exact X. }
  assert (PL : forall r pt, (r < Halo.ranks n)%nat -> length pt = len -> let '(t, J, K) := Cube.place n (Z.of_nat r) in
     Distribute.place p r dims rext pt = t :: tile_index len ix iy (J * N + xat pt iy) (K * N + xat pt ix) (map (fun i => if Nat.eqb i ix || Nat.eqb i iy then 0 else xat pt i) (seq 0 len))).
  { intros r pt Hr L. rewrite seat_place by auto. cbn [Distribute.place p layout_of fst snd]. f_equal. rewrite <- (place_in_tile N len ix iy ext dims) by auto. now destruct (seat (n, n) (Z.of_nat r)). }
  intros started m ME.
  destruct (LY n N q 1%nat fs (fun r => shp (q_data (local r))) started (fun r => [q_data (outs r)]) m) as (TL & SH); auto.
  { intros r Hr. now apply LO. }
  { intros r. cbn. lia. }
  { intros r _. reflexivity. }
  { intros r Hr. exists (q_data (outs r)). split; auto. specialize (MT r Hr). unfold q_meta in MT. congruence. }
  { intros r pp Hr D. cbn [h_meta q] in *. destruct (LO r Hr) as (_ & F). pose proof (PL r (relative len (q_meta (local r)) pp) Hr (relative_len _ _ _)) as PLr.
    destruct (Cube.place n (Z.of_nat r)) as [[t J] K]. unfold content. cbn [nth_error h_id q]. unfold values_of.
    rewrite !(relative_nth len (q_meta (local r)) pp) in PLr by auto. rewrite <- (column_relative N h len ix iy ext _ F) in PLr. rewrite <- PLr.
    destruct (SW r Hr) as ((_ & X) & _). cbn [domain_of at_ shp] in X |- *. assert (IN : in_shape (q_extent (outs r)) (relative len (q_meta (local r)) pp)).
    { change (q_extent (outs r)) with (m_extent (q_meta (outs r))). rewrite MT by auto. rewrite (extent_eq N h len ix iy ext _ F). now apply (relative_in N h len ix iy ext _ F). }
    specialize (X _ IN). cbn [part_of at_ or_blank domain_of] in X. rewrite <- X. f_equal. change (q_origin (outs r)) with (m_origin (q_meta (outs r))). rewrite MT by auto. symmetry.
    apply (shifted_relative N h len ix iy ext _ F). destruct D as (D & _). now rewrite (fit_dims F) in D. }
  split; [exact SH|]. intros sent HS r Hr. destruct (HS r Hr) as (EM & ED). destruct (LO r Hr) as (_ & F).
  assert (EX : q_extent (sent r) = rext). { change (q_extent (sent r)) with (m_extent (q_meta (sent r))). rewrite EM. exact (extent_eq N h len ix iy ext _ F). }
  split; [exact EX|]. cbn [domain_of shp]. rewrite EX. intros pt Hpt. cbn [domain_of part_of at_].
  assert (LP : length pt = len) by (apply Forall2_length in Hpt; unfold rext in Hpt; now rewrite rext_len in Hpt).
  pose proof (TL r (shifted (m_origin (q_meta (local r))) pt) Hr (shifted_in N h len ix iy ext _ F pt Hpt)) as TLr. cbn [q h_meta] in TLr. specialize (PL r pt Hr LP).
  rewrite (column_relative N h len ix iy ext _ F), <- !(relative_nth len), (relative_shifted N h len ix iy ext _ F) in TLr by auto.
  destruct (Cube.place n (Z.of_nat r)) as [[t J] K]. rewrite PL. unfold array_of. fold (array_of A'). rewrite array_of_at.
  - rewrite <- TLr. unfold content. cbn [q h_id]. rewrite ED. f_equal. change (q_origin (sent r)) with (m_origin (q_meta (sent r))). now rewrite EM.
  - now rewrite map_length, seq_length.
  - intros k Hk B. unfold xat at 1. rewrite nth_map_seq by auto. now rewrite B.
Qed.

Lemma whole_stages (gs : list (rule V)) : Forall (looks_around h (level len ix iy ext)) gs -> forall send : quantity V,
  well_formed (q_meta send) -> q_dims send = "tile"%string :: dims -> q_extent send = 6 :: box len ix iy M ext ->
  exists result : arr V, shp result = q_extent send /\ forall n N (sends : nat -> option (quantity V)) (local : nat -> quantity V) recv junk junk' fs,
    1 <= n -> n * N = M -> 1 <= h <= N -> Distribute.fits (n, n) dims (box len ix iy N ext) -> sends 0%nat = Some send ->
    (forall r, (r < Halo.ranks n)%nat -> q_dims (local r) = dims /\ Halo.fits N h len ix iy 0 0 ext (q_meta (local r))) ->
    given (global_sized (CubePart (n, n)) dims (box len ix iy N ext)) (recv 0%nat) ->
    Forall2 (applies n N ix iy (fun r => mkH 0 (q_meta (local r))) 1) gs fs ->
    let p := CubePart (n, n) in
    exists outs : nat -> quantity V,
      together (Distribute.ranks p) (fun r => scatter V T p (Z.of_nat r) (junk r) (sends r) (Some (local r))) (fun r => Ok (outs r)) /\
      (forall r, (r < Halo.ranks n)%nat -> q_meta (outs r) = q_meta (local r)) /\
      forall started m, meaning V neg d n (stepping (fun r => mkH 0 (q_meta (local r))) h fs (length started)) started (fun r => [q_data (outs r)]) m ->
      (forall r, (r < Halo.ranks n)%nat -> exists a, nth_error (m r) 0 = Some a /\ shp a = shp (q_data (local r))) /\
      forall sent, (forall r, (r < Halo.ranks n)%nat -> q_meta (sent r) = q_meta (local r) /\ nth_error (m r) 0 = Some (q_data (sent r))) ->
      exists out, together (Distribute.ranks p) (fun r => gather V T p (Z.of_nat r) (junk' r) (sent r) (recv r)) (fun r => Ok (match r with O => Some out | _ => None end)) /\
        same (domain_of out) result.
Proof.
  intros G send WF SD SE. destruct (computed gs (domain_of send) G) as (result & SR & CO). exists result. split; [now rewrite SE|].
  intros n N sends local recv junk junk' fs Hn HM Hh FT SS LO RV AP p. set (rext := box len ix iy N ext) in *.
  assert (RK : Distribute.ranks p = Halo.ranks n) by reflexivity.
  destruct (@scatter_tog V T p dims rext FT sends (fun r => Some (local r)) send junk SS) as (outs & SC & SW).
  { split; [auto|]. split; [auto|]. rewrite SE. symmetry. now apply global_extent. }
  { intros r Hr. destruct (LO r Hr) as (_ & F). split; [exact (fits_formed N h len ix iy ext _ F)|exact (extent_eq N h len ix iy ext _ F)]. }
  exists outs. split; [exact SC|]. split; [intros r Hr; destruct (SW r Hr) as (_ & X & _); exact X|]. intros started m ME.
  destruct (CO n N local outs fs Hn HM Hh LO AP SW started m ME) as (SH & RS). split; [exact SH|]. intros sent HS. specialize (RS sent HS).
  assert (ME' : forall r, (r < Halo.ranks n)%nat -> q_meta (sent r) = q_meta (local r)) by (intros r Hr; now apply HS).
  destruct (@gather_full_tog V T p dims rext FT sent recv junk') as (out & GA & GE & GV).
  { left. eapply axis_x with (ix := ix) (iy := iy); eauto. }
  { left. eapply axis_y with (ix := ix) (iy := iy); eauto. }
  { intros r Hr. destruct (LO r Hr) as (_ & F). split; [rewrite ME' by auto; exact (fits_formed N h len ix iy ext _ F)|].
    change (q_extent (sent r)) with (m_extent (q_meta (sent r))). rewrite ME' by auto. exact (extent_eq N h len ix iy ext _ F). }
  { destruct (recv 0%nat) as [q0|]; [exact RV|]. assert (R0 : (0 < Halo.ranks n)%nat) by (unfold Halo.ranks; nia). change (q_dims (sent 0%nat)) with (m_dims (q_meta (sent 0%nat))). rewrite ME' by auto. now apply LO. }
  exists out. split; [exact GA|]. split; [cbn [domain_of shp]; rewrite GE, SR; now apply global_extent|].
  intros g Hg. destruct (GV g Hg) as (r & pt & Hr & Hpt & E & Vg & _). rewrite RK in Hr. rewrite Vg. destruct (RS r Hr) as (S1 & S2). cbn [part_of shp at_] in S1, S2. rewrite S2 by now rewrite S1. rewrite <- E. reflexivity.
Qed.
Theorem whole (gs : list (rule V)) : Forall (looks_around h (level len ix iy ext)) gs -> forall send : quantity V,
  well_formed (q_meta send) -> q_dims send = "tile"%string :: dims -> q_extent send = 6 :: box len ix iy M ext ->
  exists result : arr V, shp result = q_extent send /\ forall n N (sends : nat -> option (quantity V)) (local : nat -> quantity V) recv junk junk' fs,
    1 <= n -> n * N = M -> 1 <= h <= N -> Distribute.fits (n, n) dims (box len ix iy N ext) -> sends 0%nat = Some send ->
    (forall r, (r < Halo.ranks n)%nat -> q_dims (local r) = dims /\ Halo.fits N h len ix iy 0 0 ext (q_meta (local r))) ->
    given (global_sized (CubePart (n, n)) dims (box len ix iy N ext)) (recv 0%nat) ->
    Forall2 (applies n N ix iy (fun r => mkH 0 (q_meta (local r))) 1) gs fs ->
    let p := CubePart (n, n) in
    exists (outs : nat -> quantity V) (m : nat -> mem V) out,
      always_ends (Distribute.ranks p) (fun r => scatter V T p (Z.of_nat r) (junk r) (sends r) (Some (local r))) (fun r => Ok (outs r)) /\
      always_completes (start_state (Halo.ranks n) (client_ops V neg n (stepping (fun r => mkH 0 (q_meta (local r))) h fs 0)) (fun r => [q_data (outs r)])) (tab (Halo.ranks n) m) /\
      always_ends (Distribute.ranks p) (fun r => gather V T p (Z.of_nat r) (junk' r) (with_data (outs r) (m r)) (recv r)) (fun r => Ok (match r with O => Some out | _ => None end)) /\
      same (domain_of out) result.
Proof.
  intros G send WF SD SE. destruct (whole_stages gs G send WF SD SE) as (result & SR & ST). exists result. split; auto.
  intros n N sends local recv junk junk' fs Hn HM Hh FT SS LO RV AP p. destruct (ST n N sends local recv junk junk' fs Hn HM Hh FT SS LO RV AP) as (outs & SC & MT & STP). fold p in SC.
  destruct (client_correct V neg d n 1 (stepping (fun r => mkH 0 (q_meta (local r))) h fs 0) (fun r => [q_data (outs r)])) as (m & ME & C).
  - eapply (stepping_ok V n N len ix iy (fun r => mkH 0 (q_meta (local r))) h 1 0 ext); eauto; try lia. intros r Hr. now apply LO. intros r. cbn. lia.
  - apply stepping_waits. easy.
  - intros r Hr. reflexivity.
  - destruct (STP [] m ME) as (SH & GA). destruct (GA (fun r => with_data (outs r) (m r))) as (out & TG & SM).
    { intros r Hr. destruct (SH r Hr) as (a & E & S). assert (D : nth 0 (m r) (q_data (outs r)) = a) by (destruct (m r); [discriminate|]; now injection E).
      split; [|unfold with_data; cbn [q_data]; congruence]. rewrite <- (MT r Hr). unfold q_meta, with_data. cbn [q_dims q_origin q_extent q_data]. rewrite D, S. f_equal. specialize (MT r Hr). unfold q_meta in MT. congruence. }
    exists outs, m, out. split; [now apply together_always|]. split; [exact C|]. split; [now apply together_always|exact SM].
Qed.
End Whole.

Theorem distributed V T (neg : V -> V) (d : V) M h len ix iy ext dims (gs : list (rule V)) : cell_dims len ix iy dims -> Forall (looks_around h (level len ix iy ext)) gs ->
  forall send : quantity V, well_formed (q_meta send) -> q_dims send = "tile"%string :: dims -> q_extent send = 6 :: box len ix iy M ext ->
  exists result : arr V, shp result = q_extent send /\ forall n N (sends : nat -> option (quantity V)) (local : nat -> quantity V) recv junk junk' fs,
    1 <= n -> n * N = M -> 1 <= h <= N -> Distribute.fits (n, n) dims (box len ix iy N ext) -> sends 0%nat = Some send ->
    (forall r, (r < Halo.ranks n)%nat -> q_dims (local r) = dims /\ Halo.fits N h len ix iy 0 0 ext (q_meta (local r))) ->
    given (global_sized (CubePart (n, n)) dims (box len ix iy N ext)) (recv 0%nat) ->
    Forall2 (applies n N ix iy (fun r => mkH 0 (q_meta (local r))) 1) gs fs ->
    let p := CubePart (n, n) in
    exists (outs : nat -> quantity V) (m : nat -> mem V) out,
      always_ends (Distribute.ranks p) (fun r => scatter V T p (Z.of_nat r) (junk r) (sends r) (Some (local r))) (fun r => Ok (outs r)) /\
      always_completes (start_state (Halo.ranks n) (client_ops V neg n (stepping (fun r => mkH 0 (q_meta (local r))) h fs 0)) (fun r => [q_data (outs r)])) (tab (Halo.ranks n) m) /\
      always_ends (Distribute.ranks p) (fun r => gather V T p (Z.of_nat r) (junk' r) (with_data (outs r) (m r)) (recv r)) (fun r => Ok (match r with O => Some out | _ => None end)) /\
      same (domain_of out) result.
Proof. intros (Ixy & Ix & Iy & Ld & Ax & Sx & Sy). now apply whole. Qed.
