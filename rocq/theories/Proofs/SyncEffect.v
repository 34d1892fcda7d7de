(** What interface synchronisation sends, receives and does to the arrays (C18). *)
From Verif.Base Require Import Base Lemmas.
From Verif.Model Require Import Consts Numpy Quantity Partitioner Rotate Network Communicator.
From Verif.Spec Require Import Grid Cube Halo Lockstep Sync Client.
From Verif.Proofs Require Import NumpyProofs Boundaries Regions Phases Scripts Delivery HaloOps HaloResult HaloEffect SyncGeometry SyncViews.
From Coq Require Import ZifyBool.

Definition sdir (c : bool) : btype := if c then WEST else SOUTH.
Definition rdir (c : bool) : btype := if c then EAST else NORTH.

Section Bd.
Variable n : Z.
Hypothesis Hn : 1 <= n.

Lemma edge_exists r b : (r < ranks n)%nat -> fst (heading b) = 0 \/ snd (heading b) = 0 ->
  exists B, boundary_of_type b (blist n r) = Ok B /\ In B (blist n r) /\ b_type B = b.
Proof.
  intros Hr Hb. destruct (boundary_none n Hn _ b (proj1 (rank_range n Hn r) Hr)) as ((o & E) & NN).
  destruct o as [B|]; [|apply NN in E; lia].
  assert (I : In B (blist n r)) by (apply in_blist; eauto).
  assert (T : b_type B = b) by (destruct (boundary_reciprocal n Hn _ _ _ (proj1 (rank_range n Hn r) Hr) E) as (? & _); auto).
  exists B. split; auto. unfold boundary_of_type.
  destruct (find _ _) as [B2|] eqn:Ef.
  - apply find_some in Ef. destruct Ef as [I2 Q]. f_equal. apply (blist_type_inj n Hn r); auto.
    rewrite T. destruct (b_type B2), b; try discriminate; reflexivity.
  - apply (find_none _ _ Ef) in I. rewrite T in I. destruct b; discriminate.
Qed.

Definition bd (b : btype) (r : nat) : boundary := ok_or (mkB b 0 0 0) (boundary_of_type b (blist n r)).

Lemma bd_ok r b : (r < ranks n)%nat -> fst (heading b) = 0 \/ snd (heading b) = 0 ->
  boundary_of_type b (blist n r) = Ok (bd b r) /\ In (bd b r) (blist n r) /\ b_type (bd b r) = b.
Proof. intros Hr Hb. unfold bd. destruct (edge_exists r b Hr Hb) as (B & E & I & T). rewrite E. auto. Qed.

(** who receives what is sent south and west *)
Lemma edge_back c r : (r < ranks n)%nat -> let B := bd (rdir c) r in let r' := Z.to_nat (b_to B) in
  (r' < ranks n)%nat /\ b_to B = Z.of_nat r' /\ back n r B = bd (sdir (from_comp B c)) r' /\
  b_to (bd (sdir (from_comp B c)) r') = Z.of_nat r /\
  (b_rot B = 0 /\ b_rot (back n r B) = 0 \/ b_rot B = (if c then 1 else 3) /\ b_rot (back n r B) = if c then 3 else 1).
Proof.
  intros Hr B r'. destruct (bd_ok r (rdir c) Hr) as (_ & I & T); [destruct c; simpl; auto|]. fold B in I, T.
  destruct (back_ok n r B Hn Hr I) as (Ht & I' & T').
  destruct (blist_back n Hn r B Hr I) as (Hto & _ & B2 & I2 & T2 & K & HK1 & HK2 & HD).
  assert (B2 = back n r B) by (apply (blist_to_inj n Hn r'); auto; congruence). subst B2.
  assert (EB := in_blist_type n Hn r B Hr I). rewrite T in EB.
  destruct (edge_geometry n Hn c (Z.of_nat r) B 1 0 (proj1 (rank_range n Hn r) Hr)) as [[Q _]|[Q _]]; try lia.
  { destruct c; exact EB. }
  - split; auto. split; [unfold r'; lia|].
    assert (TB : back n r B = bd (sdir (from_comp B c)) r').
    { destruct (bd_ok r' (sdir (from_comp B c)) Ht) as (_ & I3 & T3); [destruct (from_comp B c); simpl; auto|].
      apply (blist_type_inj n Hn r'); auto. rewrite T3. unfold from_comp. rewrite Q in *. cbn [Z.eqb].
      rewrite T in HD. destruct c, (b_type (back n r B)); cbn in HD; try discriminate; reflexivity. }
    split; auto. split; [now rewrite <- TB|]. left. split; auto. rewrite Q in K. destruct (Z.eq_dec (b_rot (back n r B)) 0); auto.
    rewrite Z.mod_small in K by lia. lia.
  - split; auto. split; [unfold r'; lia|].
    assert (TB : back n r B = bd (sdir (from_comp B c)) r').
    { destruct (bd_ok r' (sdir (from_comp B c)) Ht) as (_ & I3 & T3); [destruct (from_comp B c); simpl; auto|].
      apply (blist_type_inj n Hn r'); auto. rewrite T3. unfold from_comp. rewrite Q in *.
      rewrite T in HD. destruct c, (b_type (back n r B)); cbn in HD; try discriminate; reflexivity. }
    split; auto. split; [now rewrite <- TB|]. right. split; auto.
    rewrite Q in K. destruct c; assert (RK : b_rot (back n r B) = 0 \/ b_rot (back n r B) = 1 \/ b_rot (back n r B) = 2 \/ b_rot (back n r B) = 3) by lia;
      destruct RK as [RK|[RK|[RK|RK]]]; rewrite RK in *; try discriminate; reflexivity.
Qed.

(** and conversely *)
Lemma edge_forth c r : (r < ranks n)%nat -> let B := bd (sdir c) r in let r' := Z.to_nat (b_to B) in
  (r' < ranks n)%nat /\ b_to B = Z.of_nat r' /\ exists c', b_to (bd (rdir c') r') = Z.of_nat r.
Proof.
  intros Hr B r'. destruct (bd_ok r (sdir c) Hr) as (_ & I & T); [destruct c; simpl; auto|]. fold B in I, T.
  destruct (blist_back n Hn r B Hr I) as (Hto & Ht & B2 & I2 & T2 & K & HK1 & HK2 & HD). fold r' in Ht, I2.
  split; auto. split; [unfold r'; lia|].
  (* the type of the boundary back: an edge of the neighbour; south or west would give a rotation which does not occur *)
  assert (TY : b_type B2 = NORTH \/ b_type B2 = EAST).
  { assert (EB := in_blist_type n Hn r B Hr I). rewrite T in EB.
    pose proof (rotations n Hn _ _ _ (proj1 (rank_range n Hn r) Hr) EB) as RR.
    destruct (Neighbors.rank_split n Hn (Z.of_nat r) (proj1 (rank_range n Hn r) Hr)) as (t & J & i & Pt & PJ & Pi & Er).
    rewrite Er in EB. apply (boundary_inv n Hn) in EB; auto. destruct EB as (t' & J' & i' & k & EB & _ & _ & QB).
    assert (KK : k = 0 \/ k = if c then 1 else 3).
    { destruct c; cbn [sdir Neighbors.nbr Neighbors.step] in EB.
      - repeat match type of EB with context [if ?a then _ else _] => destruct a end; injection EB as <- <- <- <-; auto.
      - repeat match type of EB with context [if ?a then _ else _] => destruct a end; injection EB as <- <- <- <-; auto. }
    assert (KB : b_rot B = k) by (now rewrite QB). rewrite KB, T in HD. clear -HD KK.
    destruct KK as [-> | ->]; destruct c, (b_type B2); cbn in HD; try discriminate; auto. }
  destruct TY as [TY|TY].
  - exists false. destruct (bd_ok r' NORTH Ht) as (_ & I3 & T3); [simpl; auto|]. assert (bd (rdir false) r' = B2) as ->; auto.
    apply (blist_type_inj n Hn r'); auto. cbn [rdir]. congruence.
  - exists true. destruct (bd_ok r' EAST Ht) as (_ & I3 & T3); [simpl; auto|]. assert (bd (rdir true) r' = B2) as ->; auto.
    apply (blist_type_inj n Hn r'); auto. cbn [rdir]. congruence.
Qed.
End Bd.

Section Sync.
Variable V : Type.
Variable neg : V -> V.
Variable d : V.
Variable n : Z.
Hypothesis Hn : 1 <= n.

Definition sent_edge (c : bool) (m : meta) (k : Z) : res view :=
  do v <- edge_of c false m; rotate_scalar_data v [if c then Y_DIM else X_DIM] (- k).
Definition sent_neg (c : bool) (k : Z) : bool := if c then (k =? 1) || (k =? 2) else (k =? 3) || (k =? 2).

Definition sync_send (x y : nat -> handle) (tag : Z) (c : bool) (r : nat) : Z * Z * (mem V -> list V) :=
  let B := bd n (sdir c) r in let q := if c then y r else x r in
  (b_to B, tag, read_payload V neg (h_id q) (ok_or (v_whole []) (sent_edge c (h_meta q) (b_rot B))) (sent_neg c (b_rot B))).
Definition sync_recv (x y : nat -> handle) (tag : Z) (c : bool) (r : nat) : Z * Z * (list V -> mem V -> option (mem V)) :=
  let q := if c then y r else x r in
  (b_to (bd n (rdir c) r), tag, store_payload V (h_id q) (ok_or (v_whole []) (edge_of c true (h_meta q)))).
Definition sync_x (x y : nat -> handle) (tag : Z) : @exchange (mem V) V :=
  mkX (fun r => [sync_send x y tag false r; sync_send x y tag true r]) (fun r => [sync_recv x y tag false r; sync_recv x y tag true r]).

Lemma sync_tag x y tag t : uses_tag (ranks n) (sync_x x y tag) t -> t = tag.
Proof. intros (r & e & _ & I & <-). cbn in I. destruct I as [<-|[<-|[]]]; reflexivity. Qed.

Lemma dest_distinct r (f : bool -> btype) : (r < ranks n)%nat -> f = sdir \/ f = rdir -> b_to (bd n (f false) r) <> b_to (bd n (f true) r).
Proof.
  intros Hr Hf Q. destruct (bd_ok n Hn r (f false) Hr) as (_ & I1 & T1); [destruct Hf; subst; simpl; auto|].
  destruct (bd_ok n Hn r (f true) Hr) as (_ & I2 & T2); [destruct Hf; subst; simpl; auto|].
  apply (blist_to_inj n Hn r _ _ Hr I1 I2) in Q. rewrite Q in T1. rewrite T1 in T2. destruct Hf; subst; discriminate.
Qed.

Lemma filter_send x y tag c r : (r < ranks n)%nat ->
  filter (has_key (b_to (bd n (sdir c) r)) tag) (x_sends (sync_x x y tag) r) = [sync_send x y tag c r].
Proof.
  intros Hr. pose proof (dest_distinct r sdir Hr (or_introl eq_refl)) as NE. cbn [sync_x x_sends filter]. unfold has_key.
  change (fst (fst (sync_send x y tag false r))) with (b_to (bd n (sdir false) r)). change (snd (fst (sync_send x y tag false r))) with tag.
  change (fst (fst (sync_send x y tag true r))) with (b_to (bd n (sdir true) r)). change (snd (fst (sync_send x y tag true r))) with tag.
  rewrite Z.eqb_refl, !andb_true_r. destruct c.
  - destruct (Z.eqb_spec (b_to (bd n (sdir false) r)) (b_to (bd n (sdir true) r))); [contradiction|]. rewrite Z.eqb_refl. reflexivity.
  - rewrite Z.eqb_refl. destruct (Z.eqb_spec (b_to (bd n (sdir true) r)) (b_to (bd n (sdir false) r))); [congruence|]. reflexivity.
Qed.

Lemma sync_matched x y tag : matched (ranks n) (sync_x x y tag).
Proof.
  constructor.
  - intros r src t g Hr I. assert (exists c, src = b_to (bd n (rdir c) r) /\ t = tag) as (c & -> & ->).
    { cbn in I. destruct I as [I|[I|[]]]; injection I as <- <- _; [exists false|exists true]; auto. }
    destruct (edge_back n Hn c r Hr) as (Ht & Q & _ & T & _). split; [rewrite Q; lia|].
    pose proof (filter_send x y tag (from_comp (bd n (rdir c) r) c) _ Ht) as FS. rewrite T in FS. rewrite FS. unfold sync_send. rewrite T. eauto.
  - intros r Hr. cbn. constructor; [|repeat constructor; simpl; tauto]. cbn [In]. intros [Q|[]]. injection Q as Q.
    now apply (dest_distinct r rdir Hr (or_intror eq_refl)).
  - intros r dst t f Hr I. assert (exists c, dst = b_to (bd n (sdir c) r) /\ t = tag) as (c & -> & ->).
    { cbn in I. destruct I as [I|[I|[]]]; injection I as <- <- _; [exists false|exists true]; auto. }
    destruct (edge_forth n Hn c r Hr) as (Ht & Q & c' & T). split; [rewrite Q; lia|].
    cbn [sync_x x_recvs map fst sync_recv In]. rewrite <- T. destruct c'; auto.
Qed.

Section Args.
Variables (x y : nat -> handle) (tag : Z).
Variables (N : Z) (len ix iy : nat) (ext : nat -> Z).
Hypothesis HN : 1 <= N.
Hypothesis AXES : ((ix = 0 /\ iy = 1) \/ (ix = 1 /\ iy = 0))%nat.
Hypothesis XY : forall r, (r < ranks n)%nat -> h_id (x r) <> h_id (y r).
Hypothesis FX : forall r, (r < ranks n)%nat -> fits N 0 len ix iy 1 0 ext (h_meta (x r)).
Hypothesis FY : forall r, (r < ranks n)%nat -> fits N 0 len ix iy 0 1 ext (h_meta (y r)).
Set Default Proof Using "All".

Definition sq (c : bool) (r : nat) : handle := if c then y r else x r.
Definition fxa (c : bool) : nat := if c then ix else iy.
Definition ala (c : bool) : nat := if c then iy else ix.

Lemma FS (c : bool) r : (r < ranks n)%nat -> fits N 0 len ix iy (if c then 0 else 1) (if c then 1 else 0) ext (h_meta (sq c r)).
Proof. intros Hr. destruct c; cbn; auto. Qed.

Lemma recv_edge c r : (r < ranks n)%nat -> exists v, edge_of c true (h_meta (sq c r)) = Ok v /\ is_edge (h_meta (sq c r)) (fxa c) (ala c) N v.
Proof. intros Hr. exact (edge_view N len ix iy HN AXES c ext _ (FS c r Hr) true). Qed.

Lemma send_edge (c : bool) r k : (r < ranks n)%nat -> k = 0 \/ k = (if c then 1 else 3) -> exists v v', edge_of c false (h_meta (sq c r)) = Ok v /\
  sent_edge c (h_meta (sq c r)) k = Ok v' /\ is_edge (h_meta (sq c r)) (fxa c) (ala c) 0 v /\ v' = if k =? 0 then v else v_flip v 0.
Proof.
  intros Hr Hk. destruct (edge_view N len ix iy HN AXES c ext _ (FS c r Hr) false) as (v & E & M).
  unfold sent_edge. rewrite E. cbn [bind]. exists v. destruct Hk as [-> | ->].
  - exists v. cbn. auto.
  - exists (v_flip v 0). split; auto. split; [|split; [auto|destruct c; reflexivity]].
    destruct M as [S _]. unfold rotate_scalar_data, check_axis. rewrite S. destruct c; reflexivity.
Qed.

Lemma south_west_rot (c : bool) r : (r < ranks n)%nat -> b_rot (bd n (sdir c) r) = 0 \/ b_rot (bd n (sdir c) r) = (if c then 1 else 3).
Proof.
  intros Hr. destruct (bd_ok n Hn r (sdir c) Hr) as (_ & I & T); [destruct c; simpl; auto|].
  assert (EB := in_blist_type n Hn r _ Hr I). rewrite T in EB.
  destruct (Neighbors.rank_split n Hn (Z.of_nat r) (proj1 (rank_range n Hn r) Hr)) as (t & J & i & Pt & PJ & Pi & Er).
  rewrite Er in EB. apply (boundary_inv n Hn) in EB; auto. destruct EB as (t' & J' & i' & k & EB & _ & _ & QB).
  assert (KB : b_rot (bd n (sdir c) r) = k) by (now rewrite QB). rewrite KB.
  destruct c; cbn [sdir Neighbors.nbr Neighbors.step] in EB;
  repeat match type of EB with context [if ?a then _ else _] => destruct a end; injection EB as <- <- <- <-; auto.
Qed.

Lemma on_c_grid_ok r : (r < ranks n)%nat -> on_c_grid (h_meta (x r)) (h_meta (y r)) = true.
Proof.
  intros Hr. destruct (edge_names N len ix iy HN AXES false ext _ (FS false r Hr)) as [A1 A2].
  destruct (edge_names N len ix iy HN AXES true ext _ (FS true r Hr)) as [B1 B2]. cbn [sq] in *.
  assert (IN : forall q i s, (i < len)%nat -> length (m_dims (h_meta q)) = len -> nth i (m_dims (h_meta q)) EmptyString = s -> sin s (m_dims (h_meta q)) = true).
  { intros q i s Hi L Q. unfold sin. apply existsb_exists. exists s. split; [|apply String.eqb_refl]. rewrite <- Q. apply nth_In. lia. }
  pose proof (fit_dims (FX r Hr)). pose proof (fit_dims (FY r Hr)). pose proof (fit_ix (FX r Hr)). pose proof (fit_iy (FX r Hr)).
  unfold on_c_grid.
  rewrite (IN (x r) ix X_DIM), (IN (x r) iy Y_INTERFACE_DIM), (IN (y r) iy Y_DIM), (IN (y r) ix X_INTERFACE_DIM) by auto. reflexivity.
Qed.

Lemma isend_eq (payload : mem V -> list V) dst t c : c_running c = [] ->
  isend V payload dst t c = ([OSend dst t payload], mkC (c_tag c) (c_bounds c) (S (c_nsent c)) [], Ok (c_nsent c)).
Proof. intros R. unfold isend, ebind, clock. rewrite R. reflexivity. Qed.

Lemma start_synchronize_ok r c : (r < ranks n)%nat -> idle n r c -> tag = c_tag c + 1 ->
  start_synchronize_vector_interfaces V neg (n, n) (Z.of_nat r) (x r) (y r) c =
    (send_ops (x_sends (sync_x x y tag) r), after_send n r c 2 tag,
     Ok (mkReq V (seq (c_nsent c) 2) (recv_ops (x_recvs (sync_x x y tag) r)))).
Proof.
  intros Hr ID Et. unfold start_synchronize_vector_interfaces. rewrite on_c_grid_ok by auto. cbn [negb].
  unfold ebind at 1. unfold get_halo_tag at 1. rewrite <- Et.
  unfold isend_vector_shared_boundary, irecv_vector_shared_boundary. unfold ebind at 1 2.
  rewrite boundaries_idle by (auto; split; simpl; apply ID). cbn [c_tag c_bounds c_nsent].
  destruct (bd_ok n Hn r SOUTH Hr ltac:(simpl; auto)) as (ES & _). destruct (bd_ok n Hn r WEST Hr ltac:(simpl; auto)) as (EW & _).
  destruct (bd_ok n Hn r NORTH Hr ltac:(simpl; auto)) as (EN & _). destruct (bd_ok n Hn r EAST Hr ltac:(simpl; auto)) as (EE & _).
  destruct (send_edge false r _ Hr (south_west_rot false r Hr)) as (s1 & s2 & S1 & S2 & _).
  destruct (send_edge true r _ Hr (south_west_rot true r Hr)) as (w1 & w2 & W1 & W2 & _).
  destruct (recv_edge false r Hr) as (n1 & N1 & _). destruct (recv_edge true r Hr) as (e1 & E1 & _).
  pose proof S2 as S2'. pose proof W2 as W2'. unfold sent_edge in S2', W2'. rewrite S1 in S2'. rewrite W1 in W2'. cbn [bind sq sdir] in *.
  unfold edge_of in S1, W1, N1, E1.
  unfold elift. unfold ebind at 1. rewrite ES. unfold ebind at 1. rewrite EW. unfold ebind at 1. rewrite S1. unfold ebind at 1. rewrite S2'.
  unfold ebind at 1. rewrite W1. unfold ebind at 1. rewrite W2'.
  unfold ebind at 1. rewrite isend_eq by auto. unfold ebind at 1. rewrite isend_eq by auto. cbn [eret app c_tag c_bounds c_nsent].
  unfold ebind at 1 2. rewrite boundaries_idle by (auto; split; simpl; auto). cbn [c_tag c_bounds c_nsent].
  unfold ebind at 1. rewrite EN. unfold ebind at 1. rewrite EE. unfold ebind at 1. rewrite N1. unfold ebind at 1. rewrite E1. cbn [eret app].
  unfold sync_x, sync_send, sync_recv. cbn [x_sends x_recvs send_ops recv_ops map fst snd]. unfold edge_of. cbn [rdir sdir sq] in *. rewrite S2, W2, N1, E1. cbn [ok_or].
  unfold after_send. rewrite ?app_nil_r. repeat f_equal; try lia.
Qed.

Definition sync_write (c : bool) (r : nat) : write :=
  let B := bd n (rdir c) r in let r' := Z.to_nat (b_to B) in let c' := from_comp B c in let B' := bd n (sdir c') r' in
  mkW (b_to B) tag (h_id (sq c r)) (ok_or (v_whole []) (edge_of c true (h_meta (sq c r))))
    (h_id (sq c' r')) (ok_or (v_whole []) (sent_edge c' (h_meta (sq c' r')) (b_rot B'))) (sent_neg c' (b_rot B')).

Lemma place_edge c r j f a : (r < ranks n)%nat -> rel (h_meta (sq c r)) j (fxa c) = f -> rel (h_meta (sq c r)) j (ala c) = a ->
  place_of n N ix iy (h_meta (sq c r)) r j = edge_pos n N c (Z.of_nat r) f a /\
  dir_of n N ix iy c (h_meta (sq c r)) r j = edge_dir n N c (Z.of_nat r) f a.
Proof.
  intros Hr <- <-. pose proof (FS c r Hr) as F. unfold place_of, dir_of, x_dir_of, y_dir_of, edge_pos, edge_dir.
  rewrite (fit_sx F), (fit_sy F). destruct c; split; reflexivity.
Qed.

Lemma in_edge_iff c r v : (r < ranks n)%nat -> edge_of c true (h_meta (sq c r)) = Ok v ->
  vshp v = N :: map ext (seq 2 (len - 2)) /\ inj_view v /\
  forall j, in_edge N ix iy c (h_meta (sq c r)) j <-> exists p, in_shape (vshp v) p /\ vmap v p = j.
Proof.
  intros Hr E. destruct (recv_edge c r Hr) as (v1 & E1 & M1). assert (v1 = v) by congruence. subst v1.
  split; [exact (edge_shape N len ix iy HN AXES c ext _ (FS c r Hr) N v M1 ltac:(lia))|].
  split; [exact (edge_inj N len ix iy HN AXES c ext _ (FS c r Hr) N v M1 ltac:(lia))|].
  intros j. unfold in_edge. rewrite <- (edge_points N len ix iy HN AXES c ext _ (FS c r Hr) N v M1 ltac:(lia)). reflexivity.
Qed.

Lemma sync_message c r : (r < ranks n)%nat ->
  let w := sync_write c r in let B := bd n (rdir c) r in let r' := Z.to_nat (b_to B) in let c' := from_comp B c in
  let m := h_meta (sq c r) in let m' := h_meta (sq c' r') in
  (r' < ranks n)%nat /\ vshp (w_sview w) = vshp (w_view w) /\ inj_view (w_view w) /\
  (forall j, in_edge N ix iy c m j <-> exists p, in_shape (vshp (w_view w)) p /\ vmap (w_view w) p = j) /\
  forall p, in_shape (vshp (w_view w)) p ->
    let j := vmap (w_view w) p in let j' := vmap (w_sview w) p in
    out_edge ix iy c' m' j' /\ same_column m m' ix iy j j' /\
    place_of n N ix iy m' r' j' = place_of n N ix iy m r j /\
    dir_of n N ix iy c' m' r' j' = vscale (if w_neg w then -1 else 1) (dir_of n N ix iy c m r j).
Proof.
  intros Hr w B r' c' m m'. destruct (edge_back n Hn c r Hr) as (Ht & Qt & QB & T & K). fold B r' c' in Ht, Qt, QB, T, K.
  rewrite QB in K.
  destruct (recv_edge c r Hr) as (v1 & E1 & M1). fold m in E1, M1. destruct (in_edge_iff c r v1 Hr E1) as (S1 & J1 & P1).
  assert (RK : b_rot (bd n (sdir c') r') = 0 \/ b_rot (bd n (sdir c') r') = if c' then 1 else 3).
  { apply south_west_rot. auto. }
  destruct (send_edge c' r' _ Ht RK) as (v2 & v3 & E2 & E3 & M2 & Q3). fold m' in E2, E3, M2.
  assert (S2 := edge_shape N len ix iy HN AXES c' ext _ (FS c' r' Ht) 0 v2 M2 ltac:(lia)).
  assert (W1 : w_view w = v1) by (unfold w, sync_write; cbn [w_view]; fold m; now rewrite E1).
  assert (W3 : w_sview w = v3) by (unfold w, sync_write; cbn [w_sview]; fold B r' c' m'; now rewrite E3).
  rewrite W1, W3. assert (S3 : vshp v3 = vshp v2) by (rewrite Q3; destruct (_ =? 0); reflexivity).
  split; auto. split; [congruence|]. split; auto. split; [exact P1|].
  intros p P j j'. pose proof (in_shape_length _ _ P) as Lp.
  destruct M1 as [_ M1]. destruct (M1 p Lp) as (L1 & R1 & A1 & O1). fold j in L1, R1, A1, O1.
  assert (D1 : in_domain m j /\ rel m j (fxa c) = N) by (apply P1; exists p; auto).
  assert (P0 : 0 <= xat p 0 < N). { apply in_shape_nth in P. destruct P as [_ P]. specialize (P 0%nat). rewrite S1 in P. apply P. cbn. lia. }
  assert (ED := edge_geometry n Hn c (Z.of_nat r) B N (xat p 0) (proj1 (rank_range n Hn r) Hr)).
  destruct (bd_ok n Hn r (rdir c) Hr) as (_ & IB & TB); [destruct c; simpl; auto|]. fold B in IB, TB.
  assert (EB := in_blist_type n Hn r B Hr IB). rewrite TB in EB. specialize (ED EB HN P0).
  destruct (place_edge c r j _ _ Hr R1 A1) as [PL DI]. fold m in PL, DI.
  assert (LD : length (m_dims m) = len) by apply (fit_dims (FS c r Hr)). assert (LD' : length (m_dims m') = len) by apply (fit_dims (FS c' r' Ht)).
  (* the point read *)
  assert (PT : out_edge ix iy c' m' j' /\ rel m' j' (ala c') = (if b_rot B =? 0 then xat p 0 else N - 1 - xat p 0) /\
     forall i, (2 <= i < len)%nat -> rel m' j' i = xat p (i - 1)).
  { unfold j'. rewrite Q3. destruct K as [[K1 K2]|[K1 K2]].
    - rewrite K1, K2. cbn [Z.eqb]. pose proof M2 as M2'. destruct M2' as [_ M2']. destruct (M2' p ltac:(congruence)) as (L2 & R2 & A2 & O2).
      split; [|split; auto; intros i Hi; apply O2; lia].
      apply (edge_points N len ix iy HN AXES c' ext _ (FS c' r' Ht) 0 v2 M2 ltac:(lia)). exists p. split; auto. congruence.
    - assert (b_rot B =? 0 = false) as -> by (rewrite K1; destruct c; reflexivity).
      assert (b_rot (bd n (sdir c') r') =? 0 = false) as -> by (rewrite K2; destruct c; reflexivity).
      destruct (is_edge_flip _ _ _ _ _ M2) as (_ & M3). destruct (M3 p ltac:(congruence)) as (L2 & R2 & A2 & O2).
      assert (X0 : xat (vshp v2) 0 = N) by (rewrite S2; reflexivity). rewrite X0 in A2.
      split; [|split; auto; intros i Hi; apply O2; lia].
      apply (edge_points N len ix iy HN AXES c' ext _ (FS c' r' Ht) 0 v2 M2 ltac:(lia)).
      exists (i_flip (nth 0 (vshp v2) 0) 0 p). split; [|reflexivity].
      assert (P2 : in_shape (vshp v2) p) by congruence. apply in_shape_nth in P2. destruct P2 as [L P2]. apply in_shape_nth. unfold i_flip. rewrite length_upd. split; auto.
      intros i Hi. unfold xat. destruct i as [|i].
      + rewrite nth_upd_eq by lia. specialize (P2 0%nat Hi). unfold xat in P2. lia.
      + rewrite nth_upd_neq by lia. exact (P2 _ Hi). }
  destruct PT as (PO & PA & PC). split; auto. split.
  { intros i Hi Nx Ny. rewrite LD in Hi. rewrite O1, PC; auto; lia. }
  destruct (place_edge c' r' j' 0 _ Ht (proj2 PO) PA) as [PL' DI']. fold m' in PL', DI'.
  rewrite PL, DI, PL', DI'. rewrite <- Qt.
  assert (V1 : forall u, u = vscale 1 u) by (intros [[]]; unfold vscale; f_equal; [f_equal|]; lia).
  assert (WN : w_neg w = negb (b_rot B =? 0)).
  { unfold w, sync_write. cbn [w_neg]. fold B r' c'. unfold c', from_comp, sent_neg. destruct K as [[K1 K2]|[K1 K2]].
    - rewrite K1. cbn [Z.eqb negb]. unfold c', from_comp in K2. rewrite K1 in K2. cbn [Z.eqb] in K2. rewrite K2. destruct c; reflexivity.
    - unfold c', from_comp in K2. rewrite K1 in *. destruct c; cbn [Z.eqb negb] in *; rewrite K2; reflexivity. }
  rewrite WN. unfold c', from_comp in *. destruct ED as [(Q & G1 & G2)|(Q & G1 & G2)]; rewrite Q.
  - cbn [Z.eqb negb]. split; auto. rewrite <- V1. auto.
  - assert ((if c then 1 else 3) =? 0 = false) as -> by (destruct c; reflexivity). cbn [negb]. split; auto.
Qed.

Lemma sq_inj c c' r : (r < ranks n)%nat -> h_id (sq c r) = h_id (sq c' r) -> c = c'.
Proof. intros Hr E. specialize (XY r Hr). destruct c, c'; cbn in E; congruence. Qed.

Lemma sync_disjoint r : (r < ranks n)%nat -> disjoint_writes [sync_write false r; sync_write true r].
Proof.
  intros Hr. assert (IN : forall w, In w [sync_write false r; sync_write true r] -> exists c, w = sync_write c r) by (intros w [<-|[<-|[]]]; eauto).
  split; [|split].
  - constructor; [|repeat constructor; simpl; tauto]. intros [Q|[]]. apply (f_equal w_id) in Q. cbn in Q. now apply (XY r Hr).
  - intros w I. destruct (IN w I) as (c & ->). now apply sync_message.
  - intros w w' p p' I I' Q _ _ _. destruct (IN w I) as (c & ->), (IN w' I') as (c' & ->). apply (sq_inj c c' r) in Q; auto. now subst.
Qed.

Lemma sync_deliver k snap m r : (forall c r, (r < ranks n)%nat -> h_id (sq c r) < k)%nat ->
  (forall r, (r < ranks n)%nat -> length (snap r) = k) -> length m = k -> (r < ranks n)%nat ->
  exists m', deliver (sync_x x y tag) snap r m = Some m' /\ length m' = length m /\
    forall i a, nth_error m i = Some a -> exists a', nth_error m' i = Some a' /\ shp a' = shp a /\
      (i <> h_id (x r) -> i <> h_id (y r) -> forall p, at_ a' p = at_ a p) /\
      (forall c, i = h_id (sq c r) -> forall p,
         (in_edge N ix iy c (h_meta (sq c r)) p -> exists c' r' p', (r' < ranks n)%nat /\ out_edge ix iy c' (h_meta (sq c' r')) p' /\
            same_column (h_meta (sq c r)) (h_meta (sq c' r')) ix iy p p' /\
            place_of n N ix iy (h_meta (sq c' r')) r' p' = place_of n N ix iy (h_meta (sq c r)) r p /\
            ((dir_of n N ix iy c' (h_meta (sq c' r')) r' p' = dir_of n N ix iy c (h_meta (sq c r)) r p /\
              at_ a' p = content V snap (fun r => h_id (sq c' r)) d r' p') \/
             (dir_of n N ix iy c' (h_meta (sq c' r')) r' p' = vscale (-1) (dir_of n N ix iy c (h_meta (sq c r)) r p) /\
              at_ a' p = neg (content V snap (fun r => h_id (sq c' r)) d r' p')))) /\
         (~ in_edge N ix iy c (h_meta (sq c r)) p -> at_ a' p = at_ a p)).
Proof.
  intros Hid Hsnap Hm Hr.
  assert (IN : forall w, In w [sync_write false r; sync_write true r] <-> exists c, w = sync_write c r).
  { intros w. split; [intros [<-|[<-|[]]]; eauto|intros ([] & ->); simpl; auto]. }
  destruct (deliver_msgs neg d (sync_x x y tag) snap r [sync_write false r; sync_write true r] m) as (m' & D & L & A).
  - reflexivity.
  - now apply sync_disjoint.
  - intros w I. apply IN in I. destruct I as (c & ->).
    destruct (sync_message c r Hr) as (Ht & S & _). destruct (edge_back n Hn c r Hr) as (_ & Qt & QB & T & K).
    split; [rewrite Hm; cbn; auto|]. split; [cbn; rewrite Hsnap; auto|]. split; [auto|].
    cbn [sync_write w_src w_tag]. rewrite <- T. rewrite filter_send by auto. reflexivity.
  - exists m'. split; auto. split; auto. intros i a E. destruct (A i a E) as (a' & E' & S & VW & FR). exists a'. split; auto. split; auto. split.
    + intros NX NY p. apply FR. intros w p0 I Q. apply IN in I. destruct I as (c & ->). destruct c; cbn in Q; congruence.
    + intros c -> p. destruct (sync_message c r Hr) as (Ht & SS & _ & SD & G). split.
      * intros T. apply SD in T. destruct T as (p0 & P & <-). specialize (G p0 P). cbv zeta in G. destruct G as (G1 & G2 & G3 & G4).
        exists (from_comp (bd n (rdir c) r) c), (Z.to_nat (b_to (bd n (rdir c) r))), (vmap (w_sview (sync_write c r)) p0). split; auto. split; auto. split; auto. split; auto.
        rewrite (VW (sync_write c r)); auto; [|apply IN; eauto].
        unfold sent_value. change (w_from (sync_write c r)) with (h_id (sq (from_comp (bd n (rdir c) r) c) (Z.to_nat (b_to (bd n (rdir c) r))))).
        change (w_src (sync_write c r)) with (b_to (bd n (rdir c) r)). unfold content. destruct (w_neg (sync_write c r)); [right|left]; split; auto.
        rewrite G4. destruct (dir_of n N ix iy c _ r _) as [[]]. unfold vscale. f_equal; [f_equal|]; lia.
      * intros NT. apply FR. intros w p0 I Q P Ep. apply IN in I. destruct I as (c' & ->). apply NT.
        apply sq_inj in Q; auto. subst c'. apply SD. eauto.
Qed.
End Args.
End Sync.
