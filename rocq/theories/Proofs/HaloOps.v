(** The messages a halo update sends and receives, as an exchange. *)
From Verif.Base Require Import Base Lemmas.
From Verif.Model Require Import Consts Numpy Quantity Partitioner Rotate Network Communicator.
From Verif.Spec Require Import Grid Cube Halo Lockstep.
From Verif.Proofs Require Import Slices NumpyProofs Boundaries Regions Transfer Phases Scripts Delivery.
From Coq Require Import ZifyBool.
Ltac Zify.zify_post_hook ::= idtac.

(** the boundaries of a rank *)
Definition blist (n : Z) (r : nat) : list boundary :=
  flat_map (fun b => match cs_boundary (n, n) b (Z.of_nat r) with Ok (Some B) => [B] | _ => [] end) BOUNDARY_TYPES.

Definition ok_or {A} (d : A) (x : res A) : A := match x with Ok a => a | Err _ => d end.

Section Boundaries.
Variable n : Z.
Hypothesis Hn : 1 <= n.

Lemma rank_range r : (r < ranks n)%nat <-> 0 <= Z.of_nat r < 6 * (n * n).
Proof. unfold ranks. split; intros; nia. Qed.

Lemma in_blist r B : (r < ranks n)%nat -> In B (blist n r) <-> exists b, cs_boundary (n, n) b (Z.of_nat r) = Ok (Some B).
Proof.
  intros Hr. unfold blist. rewrite in_flat_map. split.
  - intros (b & _ & I). exists b. destruct (cs_boundary (n, n) b (Z.of_nat r)) as [[B'|]|]; simpl in I; try tauto.
    destruct I as [->|[]]. reflexivity.
  - intros (b & E). exists b. rewrite E. split; [|now left]. destruct b; simpl; tauto.
Qed.

Lemma in_blist_type r B : (r < ranks n)%nat -> In B (blist n r) -> cs_boundary (n, n) (b_type B) (Z.of_nat r) = Ok (Some B).
Proof.
  intros Hr I. apply in_blist in I; auto. destruct I as (b & E).
  destruct (boundary_reciprocal n Hn (Z.of_nat r) b B (proj1 (rank_range r) Hr) E) as (<- & _). exact E.
Qed.

Lemma blist_NoDup_to r : (r < ranks n)%nat -> NoDup (map b_to (blist n r)).
Proof.
  intros Hr. unfold blist. rewrite flat_map_concat_map, concat_map, map_map, <- flat_map_concat_map.
  apply NoDup_flat_map.
  - unfold BOUNDARY_TYPES, EDGE_BOUNDARY_TYPES, CORNER_BOUNDARY_TYPES. cbn [app].
    repeat (constructor; [cbn [In]; intuition discriminate|]). constructor.
  - intros b _. destruct (cs_boundary (n, n) b (Z.of_nat r)) as [[B|]|]; simpl; repeat constructor; simpl; tauto.
  - intros b b' t _ _ I I'. apply rank_range in Hr.
    destruct (cs_boundary (n, n) b (Z.of_nat r)) as [[B|]|] eqn:E; simpl in I; try tauto.
    destruct (cs_boundary (n, n) b' (Z.of_nat r)) as [[B'|]|] eqn:E'; simpl in I'; try tauto.
    destruct I as [I|[]], I' as [I'|[]]. apply (boundary_distinct n Hn (Z.of_nat r) b b' B B'); auto. congruence.
Qed.

Lemma blist_NoDup r : (r < ranks n)%nat -> NoDup (blist n r).
Proof. intros Hr. apply (NoDup_map_inv b_to). now apply blist_NoDup_to. Qed.

Lemma blist_to_inj r B B' : (r < ranks n)%nat -> In B (blist n r) -> In B' (blist n r) -> b_to B = b_to B' -> B = B'.
Proof.
  intros Hr I I' T. apply in_blist_type in I, I'; auto. pose proof (proj1 (rank_range r) Hr).
  assert (Q := boundary_distinct n Hn _ _ _ _ _ H I I' T). congruence.
Qed.
Lemma blist_type_inj r B B' : (r < ranks n)%nat -> In B (blist n r) -> In B' (blist n r) -> b_type B = b_type B' -> B = B'.
Proof. intros Hr I I' T. apply in_blist_type in I, I'; auto. rewrite T in I. congruence. Qed.

(** the neighbour's boundary leading back *)
Lemma blist_back r B : (r < ranks n)%nat -> In B (blist n r) ->
  0 <= b_to B < Z.of_nat (ranks n) /\ (Z.to_nat (b_to B) < ranks n)%nat /\ 
  exists B', In B' (blist n (Z.to_nat (b_to B))) /\ b_to B' = Z.of_nat r /\
    (b_rot B + b_rot B') mod 4 = 0 /\ 0 <= b_rot B < 4 /\ 0 <= b_rot B' < 4 /\
    heading (b_type B') = turn (Z.to_nat (b_rot B)) (- fst (heading (b_type B)), - snd (heading (b_type B))).
Proof.
  intros Hr I. apply in_blist_type in I; auto. pose proof (proj1 (rank_range r) Hr) as Hr'.
  destruct (boundary_reciprocal n Hn _ _ _ Hr' I) as (_ & _ & Ht & _ & Hk & b' & B' & E' & T & K & HD & _).
  assert (Z.of_nat (ranks n) = 6 * (n * n)) by (unfold ranks; nia).
  split; [lia|]. assert (Hto : (Z.to_nat (b_to B) < ranks n)%nat) by lia. split; auto.
  exists B'. assert (E2 : cs_boundary (n, n) b' (Z.of_nat (Z.to_nat (b_to B))) = Ok (Some B')) by (rewrite Z2Nat.id by lia; auto).
  destruct (boundary_reciprocal n Hn _ _ _ Ht E') as (T2 & _ & _ & _ & Hk' & _).
  split; [apply in_blist; eauto|]. split; [auto|]. split; [auto|]. split; [lia|]. split; [lia|]. rewrite T2. exact HD.
Qed.

Lemma fill_boundaries_ok r types acc : (r < ranks n)%nat ->
  fill_boundaries (n, n) (Z.of_nat r) types acc =
    ((acc ++ flat_map (fun b => match cs_boundary (n, n) b (Z.of_nat r) with Ok (Some B) => [B] | _ => [] end) types)%list, Ok tt).
Proof.
  intros Hr. revert acc. induction types as [|b types IH]; intros acc; cbn [fill_boundaries flat_map].
  - now rewrite app_nil_r.
  - destruct (boundary_none n Hn (Z.of_nat r) b (proj1 (rank_range r) Hr)) as ((B & E) & _). rewrite E.
    destruct B as [B|]; rewrite IH; [|reflexivity]. now rewrite <- app_assoc.
Qed.
End Boundaries.

(** list facts *)
Lemma filter_key {A} (key : A -> Z) l a : NoDup (map key l) -> In a l -> filter (fun x => key x =? key a) l = [a].
Proof.
  induction l as [|x l IH]; simpl; intros N I; [tauto|]. inversion N; subst. destruct I as [->|I].
  - rewrite Z.eqb_refl. f_equal. clear -H1. induction l; simpl; auto. simpl in H1.
    destruct (Z.eqb_spec (key a0) (key a)); [|apply IHl; tauto]. exfalso. apply H1. now left.
  - destruct (Z.eqb_spec (key x) (key a)) as [E|E]; auto. exfalso. apply H1. rewrite E. now apply in_map.
Qed.

Lemma filter_map {A B} (f : A -> B) p l : filter p (map f l) = map f (filter (fun a => p (f a)) l).
Proof. induction l; simpl; auto. destruct (p (f a)); simpl; now rewrite IHl. Qed.

Section Emission.
Variable V : Type.
Variable neg : V -> V.
Variable n : Z.
Hypothesis Hn : 1 <= n.

(** a communicator not in the middle of anything *)
Definition idle (r : nat) (c : comm) : Prop :=
  c_running c = [] /\ (c_bounds c = None \/ c_bounds c = Some (blist n r)).

Definition after_send (r : nat) (c : comm) (k : nat) (t : Z) : comm := mkC t (Some (blist n r)) (c_nsent c + k) [].

Lemma idle_after r c k t : idle r (after_send r c k t).
Proof. split; simpl; auto. Qed.

Lemma boundaries_idle r c : (r < ranks n)%nat -> idle r c ->
  boundaries V (n, n) (Z.of_nat r) c = ([], mkC (c_tag c) (Some (blist n r)) (c_nsent c) [], Ok (blist n r)).
Proof.
  intros Hr [R Bd]. unfold boundaries. destruct c as [t bd k run]; cbn [c_running c_bounds c_tag c_nsent] in *. subst run. destruct Bd as [-> | ->]; auto.
  now rewrite (fill_boundaries_ok n Hn r _ _ Hr).
Qed.

Lemma emapM_sends {A} (f : A -> eff V nat) (g : A -> pop V) l :
  (forall a c, In a l -> c_running c = [] -> f a c = ([g a], mkC (c_tag c) (c_bounds c) (S (c_nsent c)) [], Ok (c_nsent c))) ->
  forall c, c_running c = [] ->
  emapM V f l c = (map g l, mkC (c_tag c) (c_bounds c) (c_nsent c + length l) [], Ok (seq (c_nsent c) (length l))).
Proof.
  induction l as [|a l IH]; intros H c R; cbn [emapM map length seq].
  - unfold eret. destruct c; simpl in *. subst. now rewrite Nat.add_0_r.
  - unfold ebind. rewrite H by (simpl; auto). rewrite IH by (simpl; auto; intros; apply H; simpl; auto). cbn.
    rewrite app_nil_r. repeat f_equal. lia.
Qed.

Lemma emapM_send_pairs {A} (f : A -> eff V (list nat)) (g : A -> list (pop V)) l :
  (forall a c, In a l -> c_running c = [] -> f a c = (g a, mkC (c_tag c) (c_bounds c) (2 + c_nsent c) [], Ok [c_nsent c; S (c_nsent c)])) ->
  forall c, c_running c = [] -> exists rs,
  emapM V f l c = (flat_map g l, mkC (c_tag c) (c_bounds c) (c_nsent c + 2 * length l) [], Ok rs) /\ concat rs = seq (c_nsent c) (2 * length l).
Proof.
  induction l as [|a l IH]; intros H c R; cbn [emapM flat_map length].
  - unfold eret. exists []. destruct c; simpl in *. subst. now rewrite Nat.add_0_r.
  - destruct (IH (fun a c I => H a c (or_intror I)) (mkC (c_tag c) (c_bounds c) (2 + c_nsent c) []) eq_refl) as (rs & E & C).
    exists ([c_nsent c; S (c_nsent c)] :: rs). split.
    + unfold ebind. rewrite H by (simpl; auto). rewrite E. cbn [c_tag c_bounds c_nsent eret]. rewrite app_nil_r. f_equal. f_equal. f_equal. lia.
    + cbn [concat]. rewrite C. replace (2 * S (length l))%nat with (S (S (2 * length l))) by lia. reflexivity.
Qed.

Lemma emapM_pure {A B} (f : A -> eff V B) (g : A -> B) l :
  (forall a c, In a l -> c_running c = [] -> f a c = ([], c, Ok (g a))) ->
  forall c, c_running c = [] -> emapM V f l c = ([], c, Ok (map g l)).
Proof.
  induction l as [|a l IH]; intros H c R; cbn [emapM map]; auto.
  unfold ebind. rewrite H by (simpl; auto). rewrite IH by (auto; intros; apply H; simpl; auto). reflexivity.
Qed.

(** ** scalar *)
Definition sview (q : handle) (h : Z) (B : boundary) : view :=
  ok_or (v_whole []) (do v <- send_view B (h_meta q) h; rotate_scalar_data v (m_dims (h_meta q)) (- b_rot B)).
Definition rview (q : handle) (h : Z) (B : boundary) : view := ok_or (v_whole []) (recv_view B (h_meta q) h).

Definition halo_x (q : nat -> handle) (h tag : Z) : @exchange (mem V) V :=
  mkX (fun r => map (fun B => (b_to B, tag, read_payload V neg (h_id (q r)) (sview (q r) h B) false)) (blist n r))
      (fun r => map (fun B => (b_to B, tag, store_payload V (h_id (q r)) (rview (q r) h B))) (blist n r)).

Lemma isend_halo_ok q h tag B c : c_running c = [] ->
  (exists v v', send_view B (h_meta q) h = Ok v /\ rotate_scalar_data v (m_dims (h_meta q)) (- b_rot B) = Ok v') ->
  isend_halo V neg q h tag B c =
    ([OSend (b_to B) tag (read_payload V neg (h_id q) (sview q h B) false)], mkC (c_tag c) (c_bounds c) (S (c_nsent c)) [], Ok (c_nsent c)).
Proof.
  intros R (v & v' & E & E'). unfold sview. rewrite E. cbn [bind ok_or]. rewrite E'.
  unfold isend_halo, ebind, clock, elift. rewrite E, R. cbn. rewrite E'. cbn. reflexivity.
Qed.

Lemma irecv_halo_ok q h tag B c : c_running c = [] ->
  (exists v, recv_view B (h_meta q) h = Ok v) ->
  irecv_halo V q h tag B c = ([], c, Ok (ORecv (b_to B) tag (store_payload V (h_id q) (rview q h B)))).
Proof.
  intros R (v & E). unfold rview. rewrite E. cbn [ok_or].
  unfold irecv_halo, ebind, clock, elift. rewrite E, R. destruct c; simpl in *; subst. reflexivity.
Qed.

(** arguments for which the views exist *)
Definition views_exist (q : handle) (h : Z) (r : nat) : Prop :=
  forall B, In B (blist n r) ->
    (exists v v', send_view B (h_meta q) h = Ok v /\ rotate_scalar_data v (m_dims (h_meta q)) (- b_rot B) = Ok v') /\
    (exists v, recv_view B (h_meta q) h = Ok v).

Lemma start_halo_update_ok q h r c : (r < ranks n)%nat -> idle r c -> 1 <= h -> views_exist (q r) h r ->
  start_halo_update V neg (n, n) (Z.of_nat r) (q r) h c =
    (send_ops (x_sends (halo_x q h (c_tag c + 1)) r),
     after_send r c (length (x_sends (halo_x q h (c_tag c + 1)) r)) (c_tag c + 1),
     Ok (mkReq V (seq (c_nsent c) (length (x_sends (halo_x q h (c_tag c + 1)) r))) (recv_ops (x_recvs (halo_x q h (c_tag c + 1)) r)))).
Proof.
  intros Hr ID Hh VE. unfold start_halo_update. destruct (Z.eqb_spec h 0); [lia|].
  unfold ebind at 1. unfold get_halo_tag at 1. set (t := c_tag c + 1).
  unfold isend_halos, irecv_halos. unfold ebind.
  rewrite boundaries_idle by (auto; split; simpl; apply ID). cbn [c_tag c_bounds c_nsent].
  rewrite (emapM_sends _ (fun B => OSend (b_to B) t (read_payload V neg (h_id (q r)) (sview (q r) h B) false)))
    by (auto; intros; apply isend_halo_ok; auto; now apply VE).
  cbn [c_tag c_bounds c_nsent]. rewrite boundaries_idle by (auto; split; simpl; auto). cbn [c_tag c_bounds c_nsent].
  rewrite (emapM_pure _ (fun B => ORecv (b_to B) t (store_payload V (h_id (q r)) (rview (q r) h B))))
    by (auto; intros; apply irecv_halo_ok; auto; now apply VE).
  cbn [eret app]. unfold halo_x. cbn [x_sends x_recvs]. rewrite map_length. unfold send_ops, recv_ops. rewrite !map_map. cbn [fst snd].
  rewrite !app_nil_r. reflexivity.
Qed.

Lemma halo_matched q h tag : matched (ranks n) (halo_x q h tag).
Proof.
  constructor; cbn [halo_x x_sends x_recvs].
  - intros r src t g Hr I. apply in_map_iff in I. destruct I as (B & E & I).
    destruct (blist_back n Hn r B Hr I) as (Ht & Ht' & B' & I' & T' & _). injection E as <- <- _.
    split; [lia|]. rewrite filter_map. unfold has_key. cbn [fst snd].
    rewrite filter_ext with (g := fun x => b_to x =? b_to B') by (intros a; rewrite T'; rewrite Z.eqb_refl, andb_true_r; auto).
    rewrite (filter_key b_to) by (auto; now apply blist_NoDup_to). cbn [map]. rewrite T'. eauto.
  - intros r Hr. rewrite map_map. cbn [fst].
    rewrite <- (map_map b_to (fun d => (d, tag))). apply FinFun.Injective_map_NoDup; [intros a b E; congruence|].
    now apply blist_NoDup_to.
  - intros r d t f Hr I. apply in_map_iff in I. destruct I as (B & E & I). injection E as <- <- _.
    destruct (blist_back n Hn r B Hr I) as (Ht & Ht' & B' & I' & T' & _).
    split; [lia|]. rewrite map_map. cbn [fst]. apply in_map_iff. exists B'. split; auto. congruence.
Qed.

Lemma halo_tag q h tag t : uses_tag (ranks n) (halo_x q h tag) t -> t = tag.
Proof. intros (r & x & _ & I & <-). cbn [halo_x x_sends] in I. apply in_map_iff in I. now destruct I as (B & <- & _). Qed.

(** ** vector *)
Definition vview (x y : handle) (h : Z) (B : boundary) : (bool * view * bool) * (bool * view * bool) :=
  ok_or ((false, v_whole [], false), (false, v_whole [], false))
   (do xv <- send_view B (h_meta x) h; do yv <- send_view B (h_meta y) h;
    rotate_vector_data xv yv (- b_rot B) (m_dims (h_meta x))).
Definition vpayload (x y : handle) (d : bool * view * bool) : mem V -> list V :=
  let '(from_y, v, negated) := d in read_payload V neg (h_id (if from_y : bool then y else x)) v negated.

Definition vector_x (x y : nat -> handle) (h tag1 tag2 : Z) : @exchange (mem V) V :=
  mkX (fun r => flat_map (fun B => [(b_to B, tag1, vpayload (x r) (y r) (fst (vview (x r) (y r) h B)));
                                    (b_to B, tag2, vpayload (x r) (y r) (snd (vview (x r) (y r) h B)))]) (blist n r))
      (fun r => map (fun B => (b_to B, tag1, store_payload V (h_id (x r)) (rview (x r) h B))) (blist n r) ++
                map (fun B => (b_to B, tag2, store_payload V (h_id (y r)) (rview (y r) h B))) (blist n r))%list.

Definition vviews_exist (x y : handle) (h : Z) (r : nat) : Prop :=
  forall B, In B (blist n r) ->
    (exists xv yv d, send_view B (h_meta x) h = Ok xv /\ send_view B (h_meta y) h = Ok yv /\
       rotate_vector_data xv yv (- b_rot B) (m_dims (h_meta x)) = Ok d) /\
    (exists v, recv_view B (h_meta x) h = Ok v) /\ (exists v, recv_view B (h_meta y) h = Ok v).

Lemma isend_vector_halo_ok x y h tag1 tag2 B c : c_running c = [] ->
  (exists xv yv d, send_view B (h_meta x) h = Ok xv /\ send_view B (h_meta y) h = Ok yv /\
       rotate_vector_data xv yv (- b_rot B) (m_dims (h_meta x)) = Ok d) ->
  isend_vector_halo V neg x y h tag1 tag2 B c =
    ([OSend (b_to B) tag1 (vpayload x y (fst (vview x y h B))); OSend (b_to B) tag2 (vpayload x y (snd (vview x y h B)))],
     mkC (c_tag c) (c_bounds c) (2 + c_nsent c) [], Ok [c_nsent c; S (c_nsent c)]).
Proof.
  intros R (xv & yv & [[[fy1 v1] n1] [[fy2 v2] n2]] & E1 & E2 & E3). unfold vview. rewrite E1, E2. cbn [bind]. rewrite E3. cbn [ok_or fst snd].
  unfold isend_vector_halo, ebind, clock, elift. rewrite E1, R. cbn. rewrite E2. cbn. rewrite E3. cbn. reflexivity.
Qed.

Lemma length_pairs {A B} (f g : A -> B) l : length (flat_map (fun a => [f a; g a]) l) = (2 * length l)%nat.
Proof. induction l; simpl; lia. Qed.

Lemma start_vector_halo_update_ok x y h r c : (r < ranks n)%nat -> idle r c -> 1 <= h -> vviews_exist (x r) (y r) h r ->
  let e := vector_x x y h (c_tag c + 1) (c_tag c + 2) in
  start_vector_halo_update V neg (n, n) (Z.of_nat r) (x r) (y r) h c =
    (send_ops (x_sends e r), after_send r c (length (x_sends e r)) (c_tag c + 2),
     Ok (mkReq V (seq (c_nsent c) (length (x_sends e r))) (recv_ops (x_recvs e r)))).
Proof.
  intros Hr ID Hh VE e. unfold start_vector_halo_update. destruct (Z.eqb_spec h 0); [lia|].
  unfold ebind at 1. unfold get_halo_tag at 1. unfold ebind at 1. unfold get_halo_tag at 1. cbn [c_tag c_bounds c_nsent c_running].
  replace (c_tag c + 1 + 1) with (c_tag c + 2) by lia. set (t1 := c_tag c + 1) in *. set (t2 := c_tag c + 2) in *.
  unfold irecv_halos. unfold ebind.
  rewrite boundaries_idle by (auto; split; simpl; apply ID). cbn [c_tag c_bounds c_nsent].
  destruct (emapM_send_pairs (isend_vector_halo V neg (x r) (y r) h t1 t2)
     (fun B => [OSend (b_to B) t1 (vpayload (x r) (y r) (fst (vview (x r) (y r) h B))); OSend (b_to B) t2 (vpayload (x r) (y r) (snd (vview (x r) (y r) h B)))])
     (blist n r) ltac:(intros; apply isend_vector_halo_ok; auto; now apply VE) (mkC t2 (Some (blist n r)) (c_nsent c) []) eq_refl) as (rs & E & C).
  rewrite E. cbn [c_tag c_bounds c_nsent] in *. rewrite boundaries_idle by (auto; split; simpl; auto). cbn [c_tag c_bounds c_nsent].
  rewrite (emapM_pure _ (fun B => ORecv (b_to B) t1 (store_payload V (h_id (x r)) (rview (x r) h B))))
    by (auto; intros; apply irecv_halo_ok; auto; now apply VE).
  rewrite boundaries_idle by (auto; split; simpl; auto). cbn [c_tag c_bounds c_nsent].
  rewrite (emapM_pure _ (fun B => ORecv (b_to B) t2 (store_payload V (h_id (y r)) (rview (y r) h B))))
    by (auto; intros; apply irecv_halo_ok; auto; now apply VE).
  cbn [eret app]. rewrite C. unfold e, vector_x. cbn [x_sends x_recvs]. rewrite length_pairs.
  unfold send_ops, recv_ops. rewrite !map_app, !map_map, !app_nil_r. cbn [fst snd]. unfold after_send.
  repeat f_equal. clear. induction (blist n r); simpl; [reflexivity|]. now rewrite IHl.
Qed.

Lemma filter_pairs {A W} (key : A -> Z) (t1 t2 : Z) (f g : A -> W) who t l : t1 <> t2 ->
  filter (has_key who t) (flat_map (fun a => [(key a, t1, f a); (key a, t2, g a)]) l) =
    if t =? t1 then map (fun a => (key a, t1, f a)) (filter (fun a => key a =? who) l)
    else if t =? t2 then map (fun a => (key a, t2, g a)) (filter (fun a => key a =? who) l) else [].
Proof.
  intros NE. unfold has_key. induction l as [|a l IH]; cbn [flat_map app filter map].
  - repeat destruct (_ =? _); auto.
  - cbn [fst snd]. rewrite IH. clear IH.
    destruct (Z.eqb_spec (key a) who); cbn [andb];
    destruct (Z.eqb_spec t t1), (Z.eqb_spec t t2), (Z.eqb_spec t1 t), (Z.eqb_spec t2 t); try congruence; try lia; subst; auto.
Qed.

Lemma vector_matched x y h tag1 tag2 : tag1 <> tag2 -> matched (ranks n) (vector_x x y h tag1 tag2).
Proof.
  intros NE. constructor; cbn [vector_x x_sends x_recvs].
  - intros r src t g Hr I. apply in_app_iff in I.
    assert (exists B, In B (blist n r) /\ src = b_to B /\ (t = tag1 \/ t = tag2)) as (B & I' & -> & Ht).
    { destruct I as [I|I]; apply in_map_iff in I; destruct I as (B & E & I); injection E as <- <- _; eauto. }
    clear I. rename I' into I. destruct (blist_back n Hn r B Hr I) as (Hto & Ht' & B' & I' & T' & _).
    split; [lia|]. rewrite filter_pairs by auto.
    rewrite filter_ext with (g := fun x => b_to x =? b_to B') by (intros a; now rewrite T').
    rewrite (filter_key b_to) by (auto; now apply blist_NoDup_to). cbn [map]. rewrite T'.
    destruct Ht as [-> | ->]; rewrite Z.eqb_refl; [eauto|]. destruct (Z.eqb_spec tag2 tag1); [congruence|eauto].
  - intros r Hr. rewrite map_app, !map_map. cbn [fst]. pose proof (blist_NoDup_to n Hn r Hr) as ND. apply NoDup_app.
    + rewrite <- (map_map b_to (fun d => (d, tag1))). apply FinFun.Injective_map_NoDup; [intros a b E; congruence|auto].
    + rewrite <- (map_map b_to (fun d => (d, tag2))). apply FinFun.Injective_map_NoDup; [intros a b E; congruence|auto].
    + intros [a t] I I'. apply in_map_iff in I, I'. destruct I as (? & [= <- <-] & _), I' as (? & [= _ E] & _). congruence.
  - intros r d t f Hr I. apply in_flat_map in I. destruct I as (B & I & E).
    destruct (blist_back n Hn r B Hr I) as (Hto & Ht' & B' & I' & T' & _).
    rewrite map_app, !map_map, in_app_iff, !in_map_iff. cbn [fst].
    destruct E as [E|[E|[]]]; injection E as <- <- _; (split; [lia|]); [left|right]; exists B'; split; auto; congruence.
Qed.

Lemma vector_tag x y h tag1 tag2 t : uses_tag (ranks n) (vector_x x y h tag1 tag2) t -> t = tag1 \/ t = tag2.
Proof.
  intros (r & e & _ & I & <-). cbn [vector_x x_sends] in I. apply in_flat_map in I.
  destruct I as (B & _ & [<-|[<-|[]]]); auto.
Qed.
End Emission.
