From Coq Require Import Permutation.
From Verif.Base Require Import Base Lemmas.
From Verif.Model Require Import Numpy Buffer.
From Verif.Spec Require Import Grid Views Lending.
From Verif.Proofs Require Import NumpyProofs ScatterProofs.

Section BufferProofs.
Variable V : Type.
Notation world := (world V).

Lemma shape_eqb_ok s : forall t, shape_eqb s t = true <-> s = t.
Proof. induction s as [|a s IH]; intros [|b t]; cbn; try (split; discriminate); [tauto|]. rewrite andb_true_iff, Z.eqb_eq, IH. split; [intros (-> & ->); auto|intros [= -> ->]; auto]. Qed.
Lemma key_eqb_ok k k' : key_eqb k k' = true <-> k = k'.
Proof. destruct k as [[a s] t], k' as [[a' s'] t']; cbn. rewrite !andb_true_iff, !Nat.eqb_eq, shape_eqb_ok. split; [intros ((-> & ->) & ->); auto|intros [= -> -> ->]; auto]. Qed.

Lemma NoDup_front {A} (l l' : list A) : NoDup (l ++ l') -> NoDup l.
Proof. induction l as [|a l IH]; cbn; intros H; [constructor|]. inversion H; subst. constructor; auto. intros I. apply H2. apply in_or_app. auto. Qed.

Definition cached (c : list (key * list nat)) : list nat := flat_map snd c.
Definition lref (c : option ctx) : list nat := match c with Some (mkC (HBuf _ b) _) => [b] | _ => [] end.
Definition lent (l : list (option ctx)) : list nat := flat_map lref l.

Lemma cset_found k c l : cget k c = Some l -> exists rest, Permutation (cached c) (l ++ rest) /\ (forall l', Permutation (cached (cset k l' c)) (l' ++ rest)) /\
  (forall l' k0 l0, In (k0, l0) (cset k l' c) -> (k0 = k /\ l0 = l') \/ In (k0, l0) c) /\ In (k, l) c.
Proof.
  induction c as [|[k0 l0] c IH]; cbn [cget cset]; [discriminate|]. destruct (key_eqb k k0) eqn:E.
  - apply key_eqb_ok in E. subst k0. intros [= ->]. exists (cached c). cbn. split; auto. split; auto. split; [|auto]. intros l' k0 l0 [[= <- <-]|I]; auto.
  - intros G. destruct (IH G) as (rest & A & B & C & D). exists (l0 ++ rest). cbn [cached flat_map snd]. split; [|split; [|split]].
    + fold (cached c). rewrite A, !app_assoc. apply Permutation_app_tail, Permutation_app_comm.
    + intros l'. cbn [cached flat_map snd]. fold (cached (cset k l' c)). rewrite B, !app_assoc. apply Permutation_app_tail, Permutation_app_comm.
    + intros l' k1 l1 [[= <- <-]|I]; [right; now left|]. destruct (C _ _ _ I); auto. right. now right.
    + now right.
Qed.
Lemma cset_fresh k c l : cget k c = None -> Permutation (cached (cset k l c)) (l ++ cached c) /\ forall k0 l0, In (k0, l0) (cset k l c) -> (k0 = k /\ l0 = l) \/ In (k0, l0) c.
Proof.
  induction c as [|[k0 l0] c IH]; cbn [cget cset]. { intros _. cbn. rewrite app_nil_r. split; auto. intros k0 l0 [[= <- <-]|[]]; auto. }
  destruct (key_eqb k k0) eqn:E; [discriminate|]. intros G. destruct (IH G) as (A & B). split.
  - cbn [cached flat_map snd]. fold (cached (cset k l c)). fold (cached c). rewrite A, !app_assoc. apply Permutation_app_tail, Permutation_app_comm.
  - intros k1 l1 [[= <- <-]|I]; [right; now left|]. destruct (B _ _ I); auto. right. now right.
Qed.

Lemma lent_upd l : forall id, Permutation (lent l) (lref (nth id l None) ++ lent (upd l id None)).
Proof.
  induction l as [|c l IH]; intros [|id]; cbn; auto. fold (lent l). rewrite (IH id), !app_assoc. apply Permutation_app_tail, Permutation_app_comm.
Qed.
Lemma nth_upd_None l id i (c : ctx) : nth i (upd l id None) None = Some c -> i <> id /\ nth i l None = Some c.
Proof.
  intros H. destruct (Nat.eq_dec i id) as [->|N].
  - destruct (Nat.lt_ge_cases id (length l)); [rewrite nth_upd_eq in H by auto; discriminate|]. rewrite nth_overflow in H by now rewrite length_upd. discriminate.
  - split; auto. now rewrite nth_upd_neq in H.
Qed.
Lemma nth_in_lent l id k b t : nth id l None = Some (mkC (HBuf k b) t) -> In b (lent l).
Proof. intros H. apply (Permutation_in _ (Permutation_sym (lent_upd l id))). rewrite H. now left. Qed.

Record inv (w : world) : Prop := mkInv {
  i_nodup : NoDup (lent (w_live w) ++ cached (w_cache w));
  i_next : forall b, In b (lent (w_live w) ++ cached (w_cache w)) -> (b < w_next w)%nat;
  i_cached : forall k l b, In (k, l) (w_cache w) -> In b l -> w_made w b = k;
  i_live : forall id k b t, ctx_of w id = Some (mkC (HBuf k b) t) -> w_made w b = k /\ (forall u, t = Some u -> snd (fst k) = vshp (u_view u) /\ u_contig u = false /\ uarr_ok u);
  i_shape : forall b, (b < w_next w)%nat -> shp (w_buf w b) = snd (fst (w_made w b)) }.

Lemma take_ok k junk w w1 b : inv w -> take_buffer V k junk w = (w1, b) ->
  ~ In b (lent (w_live w)) /\ ~ In b (cached (w_cache w1)) /\ (b < w_next w1)%nat /\ w_made w1 b = k /\ w_user w1 = w_user w /\ w_live w1 = w_live w /\
  (forall x, In x (lent (w_live w)) -> w_buf w1 x = w_buf w x) /\ inv w1.
Proof.
  intros [ND NX CA LI SH] T. unfold take_buffer in T. destruct (cget k (w_cache w)) as [[|b0 bs]|] eqn:G.
  2: { apply pair_equal_spec in T. destruct T as (<- & <-). set (l := b0 :: bs) in *. destruct (cset_found _ _ _ G) as (rest & P1 & P2 & P3 & P4). cbn [w_live w_cache w_next w_made w_user w_buf].
    assert (Ne : l <> []) by discriminate. pose proof (app_removelast_last O Ne) as E. set (l1 := removelast l) in *. set (b := last l 0%nat) in *. clearbody l1 b l. subst l.
    assert (Pc : Permutation (cached (w_cache w)) (b :: cached (cset k l1 (w_cache w)))).
    { rewrite P1, (P2 l1). rewrite <- app_assoc. cbn. symmetry. apply Permutation_middle. }
    assert (Pall : Permutation (lent (w_live w) ++ cached (w_cache w)) (b :: lent (w_live w) ++ cached (cset k l1 (w_cache w)))).
    { rewrite Pc. symmetry. apply Permutation_middle. }
    pose proof (Permutation_NoDup Pall ND) as ND'. apply NoDup_cons_iff in ND'. destruct ND' as (NI & ND').
    assert (Ib : In b (lent (w_live w) ++ cached (w_cache w))) by (apply (Permutation_in _ (Permutation_sym Pall)); now left).
    split. { intros I. apply NI. apply in_or_app. auto. } split. { intros I. apply NI. apply in_or_app. auto. }
    split; [now apply NX|]. split. { apply (CA k (l1 ++ [b]) b); auto. apply in_or_app. right. now left. } split; [reflexivity|]. split; [reflexivity|]. split; [reflexivity|].
    constructor; cbn [w_live w_cache w_next w_made w_user w_buf]; auto.
    - intros x I. apply NX. apply (Permutation_in _ (Permutation_sym Pall)). now right.
    - intros k0 l0 x I Ix. destruct (P3 _ _ _ I) as [(-> & ->)|I']; [|eauto]. apply (CA k (l1 ++ [b])); auto. apply in_or_app. auto. }
  all: injection T as <- <-; cbn [w_live w_cache w_next w_made w_user w_buf]; rewrite Nat.eqb_refl.
  - assert (Fr : ~ In (w_next w) (lent (w_live w) ++ cached (w_cache w))) by (intros I; apply NX in I; lia).
    split. { intros I. apply Fr, in_or_app. auto. } split. { intros I. apply Fr, in_or_app. auto. } split; [lia|]. do 3 (split; [auto; fail|]).
    split. { intros x I. unfold mset. destruct (Nat.eqb_spec x (w_next w)) as [->|]; auto. exfalso. apply Fr, in_or_app. auto. }
    constructor; cbn [w_live w_cache w_next w_made w_user w_buf]; auto.
    + intros x I. apply NX in I. lia.
    + intros k0 l0 x I Ix. destruct (Nat.eqb_spec x (w_next w)) as [->|]; [|eauto]. exfalso. apply Fr. apply in_or_app. right. apply in_flat_map. now exists (k0, l0).
    + intros id k0 x t I. destruct (LI id k0 x t I) as (A & B). split; auto. destruct (Nat.eqb_spec x (w_next w)) as [->|]; auto. exfalso. apply Fr, in_or_app. left. now apply (nth_in_lent _ id k0 _ t).
    + intros x Hx. unfold mset. destruct (Nat.eqb_spec x (w_next w)) as [->|]; [reflexivity|]. apply SH. lia.
  - destruct (cset_fresh k (w_cache w) [] G) as (P & P3). cbn [app] in P.
    assert (Fr : ~ In (w_next w) (lent (w_live w) ++ cached (w_cache w))) by (intros I; apply NX in I; lia).
    split. { intros I. apply Fr, in_or_app. auto. } split. { intros I. apply Fr, in_or_app. right. now apply (Permutation_in _ P). } split; [lia|]. do 3 (split; [auto; fail|]).
    split. { intros x I. unfold mset. destruct (Nat.eqb_spec x (w_next w)) as [->|]; auto. exfalso. apply Fr, in_or_app. auto. }
    constructor; cbn [w_live w_cache w_next w_made w_user w_buf]; auto.
    + apply (Permutation_NoDup (l := lent (w_live w) ++ cached (w_cache w))); auto. apply Permutation_app_head. now symmetry.
    + intros x I. assert (In x (lent (w_live w) ++ cached (w_cache w))) as I' by (apply (Permutation_in _ (Permutation_app_head _ P)); auto). apply NX in I'. lia.
    + intros k0 l0 x I Ix. destruct (P3 _ _ I) as [(-> & ->)|I']; [destruct Ix|]. destruct (Nat.eqb_spec x (w_next w)) as [->|]; [|eauto]. exfalso. apply Fr. apply in_or_app. right. apply in_flat_map. now exists (k0, l0).
    + intros id k0 x t I. destruct (LI id k0 x t I) as (A & B). split; auto. destruct (Nat.eqb_spec x (w_next w)) as [->|]; auto. exfalso. apply Fr, in_or_app. left. now apply (nth_in_lent _ id k0 _ t).
    + intros x Hx. unfold mset. destruct (Nat.eqb_spec x (w_next w)) as [->|]; [reflexivity|]. apply SH. lia.
Qed.

Lemma inv_user w m a : inv w -> inv (set_user V m a w).
Proof. intros [A B C D E]. now constructor. Qed.
Lemma inv_buf w b a : inv w -> shp a = shp (w_buf w b) -> inv (set_buf V b a w).
Proof.
  intros [A B C D E] S. constructor; auto. cbn. intros x Hx. unfold mset. destruct (Nat.eqb_spec x b) as [->|]; auto. rewrite S. auto.
Qed.
Lemma lent_app l l' : lent (l ++ l') = lent l ++ lent l'.
Proof. apply flat_map_app. Qed.
Lemma inv_open_arr w u : inv w -> inv (open_ctx V (mkC (HArr u) None) w).
Proof.
  intros [A B C D E]. constructor; cbn; auto; try (rewrite lent_app; cbn; rewrite app_nil_r; auto).
  intros id k b t. unfold ctx_of. cbn. destruct (Nat.lt_ge_cases id (length (w_live w))).
  - rewrite app_nth1 by auto. apply D.
  - rewrite app_nth2 by auto. destruct (id - length (w_live w))%nat as [|[|]]; discriminate.
Qed.
Lemma inv_open_buf w k b t : inv w -> ~ In b (lent (w_live w)) -> ~ In b (cached (w_cache w)) -> (b < w_next w)%nat -> w_made w b = k ->
  (forall u, t = Some u -> snd (fst k) = vshp (u_view u) /\ u_contig u = false /\ uarr_ok u) -> inv (open_ctx V (mkC (HBuf k b) t) w).
Proof.
  intros [A B C D E] N1 N2 L M HU.
  assert (P : Permutation (lent (w_live w ++ [Some (mkC (HBuf k b) t)]) ++ cached (w_cache w)) (b :: lent (w_live w) ++ cached (w_cache w))).
  { rewrite lent_app. cbn. rewrite <- app_assoc. cbn. symmetry. apply Permutation_middle. }
  constructor; cbn; auto.
  - apply (Permutation_NoDup (Permutation_sym P)). constructor; auto. intros I. apply in_app_or in I. tauto.
  - intros x I. apply (Permutation_in _ P) in I. destruct I as [<-|I]; auto.
  - intros id k0 b0 t0. unfold ctx_of. cbn. destruct (Nat.lt_ge_cases id (length (w_live w))).
    + rewrite app_nth1 by auto. apply D.
    + rewrite app_nth2 by auto. destruct (id - length (w_live w))%nat as [|[|]]; cbn; [|discriminate|discriminate]. intros [= <- <- <-]. auto.
Qed.
Lemma inv_close w id : inv w -> inv (close_ctx V id w).
Proof.
  intros [A B C D E]. pose proof (lent_upd (w_live w) id) as P.
  assert (Q : Permutation (lent (w_live w) ++ cached (w_cache w)) (lref (nth id (w_live w) None) ++ (lent (upd (w_live w) id None) ++ cached (w_cache w)))) by (rewrite app_assoc; now apply Permutation_app_tail).
  constructor; cbn; auto.
  - eapply Permutation_NoDup in A; [|exact Q]. clear - A. induction (lref (nth id (w_live w) None)); auto. inversion A; auto.
  - intros x I. apply B. apply (Permutation_in _ (Permutation_sym Q)). apply in_or_app. auto.
  - intros i k b t H. apply nth_upd_None in H. now apply D with (id := i).
Qed.
Lemma inv_leave w id k b t : inv w -> ctx_of w id = Some (mkC (HBuf k b) t) -> inv (close_ctx V id (give_back V k b w)).
Proof.
  intros [A B C D E] H. unfold ctx_of in H. pose proof (lent_upd (w_live w) id) as P. rewrite H in P. cbn [lref app] in P.
  set (l := match cget k (w_cache w) with Some l => l | None => [] end).
  assert (Pc : Permutation (cached (cset k (l ++ [b]) (w_cache w))) (b :: cached (w_cache w)) /\
    forall k0 l0, In (k0, l0) (cset k (l ++ [b]) (w_cache w)) -> (k0 = k /\ l0 = l ++ [b]) \/ In (k0, l0) (w_cache w)).
  { subst l. destruct (cget k (w_cache w)) as [l|] eqn:G.
    - destruct (cset_found _ _ _ G) as (rest & P1 & P2 & P3 & _). split; [|apply P3]. rewrite P2, P1, <- app_assoc. cbn. symmetry. apply Permutation_middle.
    - destruct (cset_fresh k (w_cache w) [b] G) as (P1 & P2). auto. }
  destruct Pc as (Pc & Pc2).
  assert (Q : Permutation (lent (w_live w) ++ cached (w_cache w)) (lent (upd (w_live w) id None) ++ cached (cset k (l ++ [b]) (w_cache w)))).
  { rewrite P, Pc. cbn. apply Permutation_middle. }
  constructor; cbn; auto.
  - fold l. apply (Permutation_NoDup Q). auto.
  - fold l. intros x I. apply B. apply (Permutation_in _ (Permutation_sym Q)). auto.
  - fold l. intros k0 l0 x I Ix. destruct (Pc2 _ _ I) as [(-> & ->)|I']; [|eauto]. apply in_app_or in Ix. destruct Ix as [Ix|[<-|[]]]; [|now apply (D id k b t)].
    subst l. destruct (cget k (w_cache w)) as [l|] eqn:G; [|destruct Ix]. destruct (cset_found _ _ _ G) as (_ & _ & _ & _ & I2). now apply (C k l).
  - intros i k0 b0 t0 H0. apply nth_upd_None in H0. now apply D with (id := i).
Qed.

Lemma bcast_same s : exists f, bcast s s = Some f /\ forall p, in_shape s p -> f p = p.
Proof.
  unfold bcast. rewrite Nat.sub_diag. cbn [firstn skipn forallb andb].
  assert (H : forallb (fun st : Z * Z => (fst st =? snd st) || (fst st =? 1)) (combine s s) = true).
  { induction s as [|a s IH]; cbn; auto. now rewrite Z.eqb_refl, IH. }
  rewrite H. eexists. split; [reflexivity|]. cbn [map app]. intros p I. clear H. induction I; cbn; auto. f_equal; auto.
  unfold bcast1. match goal with |- context [?a =? 1] => destruct (Z.eqb_spec a 1) end; auto. lia.
Qed.

(** assigning an array of the same shape *)
Lemma assign_ok (a : arr V) v (src : arr V) : inj_view v -> vshp v <> [] -> shp src = vshp v -> exists a', assign_array V a v src = Ok a' /\ shp a' = shp a /\
  (forall p, in_shape (vshp v) p -> at_ a' (vmap v p) = at_ src p) /\ (forall i, (forall p, in_shape (vshp v) p -> i <> vmap v p) -> at_ a' i = at_ a i).
Proof.
  intros I N S. unfold assign_array, a_assign. rewrite S. destruct (bcast_same (vshp v)) as (f & -> & F).
  destruct (vshp v) as [|e s] eqn:E; [congruence|]. rewrite <- E in *. eexists. split; [reflexivity|]. split; [apply shp_a_write|]. split.
  - intros p Ip. rewrite (write_view_in a v (fun p => at_ src (f p)) p I Ip). now rewrite F.
  - intros i H. apply (write_view_frame a v (fun p => at_ src (f p)) i). intros p Ip E2. now apply (H p Ip).
Qed.
Lemma whole_inj s : inj_view (v_whole s).
Proof. intros p q _ _ H. exact H. Qed.

Lemma step_inv w o : inv w -> op_ok o -> inv (fst (bstep o w)).
Proof.
  intros I OK. destruct o as [k junk|al u junk|al u junk|id|id|id f|m f]; cbn [bstep].
  - destruct (take_buffer V k junk w) as [w1 b] eqn:T. destruct (take_ok _ _ _ _ _ I T) as (A1 & A2 & A3 & A4 & A5 & A6 & A7 & A8).
    cbn [fst]. apply inv_open_buf; auto; [now rewrite A6|discriminate].
  - destruct (u_contig u) eqn:C; [now apply inv_open_arr|]. cbn zeta.
    destruct (take_buffer V _ junk w) as [w1 b] eqn:T. destruct (take_ok _ _ _ _ _ I T) as (A1 & A2 & A3 & A4 & A5 & A6 & A7 & A8).
    destruct OK as (U1 & U2).
    assert (Sb : shp (w_buf w1 b) = vshp (u_view u)) by (rewrite (i_shape _ A8) by auto; now rewrite A4).
    destruct (assign_ok (w_buf w1 b) (v_whole (shp (w_buf w1 b))) (u_read w1 u)) as (a' & -> & S' & _); [apply whole_inj|cbn; rewrite Sb; auto|cbn; now rewrite Sb|].
    cbn [fst]. apply inv_open_buf; try (cbn; auto; fail); [now apply inv_buf|cbn; now rewrite A6|discriminate].
  - destruct (u_contig u) eqn:C; [now apply inv_open_arr|]. cbn zeta.
    destruct (take_buffer V _ junk w) as [w1 b] eqn:T. destruct (take_ok _ _ _ _ _ I T) as (A1 & A2 & A3 & A4 & A5 & A6 & A7 & A8).
    cbn [fst]. apply inv_open_buf; auto; [now rewrite A6|]. intros u' [= <-]. auto.
  - destruct (ctx_of w id) as [[[k b|u] [t|]]|] eqn:E; cbn [fst]; auto using inv_close.
    + destruct (assign_array V _ _ _); cbn [fst]; [|now apply inv_close]. apply (inv_leave _ id k b (Some t)); [now apply inv_user|exact E].
    + now apply (inv_leave _ id k b None).
  - now apply inv_close.
  - destruct (ctx_of w id) as [[[k b|u] t]|] eqn:E; cbn [fst]; auto; [now apply inv_buf|now apply inv_user].
  - now apply inv_user.
Qed.

Lemma run_inv os : forall w, inv w -> Forall op_ok os -> inv (brun os w).
Proof. induction os as [|o os IH]; intros w I F; cbn; auto. inversion F; subst. apply IH; auto. now apply step_inv. Qed.
Lemma empty_inv (user : nat -> arr V) : inv (empty_world user).
Proof. constructor; cbn; try (intros; lia); try tauto; [constructor|]. intros id k b t. unfold ctx_of. cbn. now destruct id. Qed.

(** C36 *)
Theorem buffers_distinct (user : nat -> arr V) os : Forall op_ok os -> let w := brun os (empty_world user) in
  (forall i j k k' b b' t t', ctx_of w i = Some (mkC (HBuf k b) t) -> ctx_of w j = Some (mkC (HBuf k' b') t') -> i <> j -> b <> b') /\
  (forall i k b t, ctx_of w i = Some (mkC (HBuf k b) t) -> w_made w b = k /\ shp (w_buf w b) = snd (fst k)).
Proof.
  intros F w. pose proof (run_inv os _ (empty_inv user) F) as I. fold w in I. clearbody w. split.
  - intros i j k k' b b' t t' Hi Hj N ->. destruct I as [ND _ _ _ _]. unfold ctx_of in *.
    pose proof (lent_upd (w_live w) i) as P. rewrite Hi in P. cbn in P.
    assert (In b' (lent (upd (w_live w) i None))) as X by (apply (nth_in_lent _ j k' _ t'); now rewrite nth_upd_neq by auto).
    apply NoDup_front in ND. eapply Permutation_NoDup in ND; [|exact P]. inversion ND; auto.
  - intros i k b t H. destruct (i_live _ I i k b t H) as (M & _). split; auto. rewrite (i_shape _ I); [now rewrite M|]. apply (i_next _ I), in_or_app. left. now apply (nth_in_lent _ i k _ t).
Qed.

(** the contents of a lent buffer change only through its own context *)
Lemma step_isolated w o id k b t : inv w -> op_ok o -> ctx_of w id = Some (mkC (HBuf k b) t) -> ~ about id o ->
  w_buf (fst (bstep o w)) b = w_buf w b /\ ctx_of (fst (bstep o w)) id = Some (mkC (HBuf k b) t).
Proof.
  intros I OK H NA. assert (Lid : (id < length (w_live w))%nat).
  { destruct (Nat.lt_ge_cases id (length (w_live w))); auto. unfold ctx_of in H. rewrite nth_overflow in H by auto. discriminate. }
  assert (Lb : In b (lent (w_live w))) by (now apply (nth_in_lent _ id k _ t)).
  assert (Open : forall c w', w_live w' = w_live w -> ctx_of (open_ctx V c w') id = Some (mkC (HBuf k b) t)) by (intros c w' E; unfold ctx_of in *; cbn; rewrite E, app_nth1; auto).
  destruct o as [k0 junk|al u junk|al u junk|i|i|i f|m f]; cbn [bstep about] in *.
  - destruct (take_buffer V k0 junk w) as [w1 b1] eqn:T. destruct (take_ok _ _ _ _ _ I T) as (A1 & A2 & A3 & A4 & A5 & A6 & A7 & A8). cbn [fst]. split; [cbn; auto|auto].
  - destruct (u_contig u) eqn:C; [cbn [fst]; split; [reflexivity|auto]|]. cbn zeta.
    destruct (take_buffer V _ junk w) as [w1 b1] eqn:T. destruct (take_ok _ _ _ _ _ I T) as (A1 & A2 & A3 & A4 & A5 & A6 & A7 & A8).
    destruct (assign_array V _ _ _); cbn [fst]; [|split; [auto|unfold ctx_of in *; now rewrite A6]]. split; [|apply Open; exact A6]. cbn. unfold mset. destruct (Nat.eqb_spec b b1) as [->|]; [tauto|auto].
  - destruct (u_contig u) eqn:C; [cbn [fst]; split; [reflexivity|auto]|]. cbn zeta.
    destruct (take_buffer V _ junk w) as [w1 b1] eqn:T. destruct (take_ok _ _ _ _ _ I T) as (A1 & A2 & A3 & A4 & A5 & A6 & A7 & A8). cbn [fst]. split; [cbn; auto|auto].
  - assert (Cl : forall w', w_live w' = w_live w -> ctx_of (close_ctx V i w') id = Some (mkC (HBuf k b) t)) by (intros w' E; unfold ctx_of in *; cbn; rewrite E, nth_upd_neq; auto).
    destruct (ctx_of w i) as [[[k1 b1|u] [t1|]]|]; cbn [fst]; try (split; [reflexivity|apply Cl; reflexivity]); auto.
    destruct (assign_array V _ _ _); cbn [fst]; (split; [reflexivity|apply Cl; reflexivity]).
  - cbn [fst]. split; [reflexivity|]. unfold ctx_of in *. cbn. rewrite nth_upd_neq; auto.
  - destruct (ctx_of w i) as [[[k1 b1|u] t1]|] eqn:E; cbn [fst]; auto. split; auto. cbn. unfold mset. destruct (Nat.eqb_spec b b1) as [->|]; auto. exfalso.
    destruct I as [ND _ _ _ _]. apply NoDup_front in ND. pose proof (lent_upd (w_live w) i) as P. unfold ctx_of in E, H. rewrite E in P. cbn in P. eapply Permutation_NoDup in ND; [|exact P]. inversion ND; subst. apply H2.
    apply (nth_in_lent _ id k _ t). now rewrite nth_upd_neq by auto.
  - cbn [fst]. auto.
Qed.
Lemma run_isolated os : forall w id k b t, inv w -> Forall op_ok os -> Forall (fun o => ~ about id o) os -> ctx_of w id = Some (mkC (HBuf k b) t) ->
  w_buf (brun os w) b = w_buf w b /\ ctx_of (brun os w) id = Some (mkC (HBuf k b) t).
Proof.
  induction os as [|o os IH]; intros w id k b t I F NA H; cbn; auto. inversion F; inversion NA; subst.
  destruct (step_isolated w o id k b t I) as (A & B); auto. rewrite <- A. apply IH; auto. now apply step_inv.
Qed.

(** C37: send_buffer *)
Theorem send_copies (user : nat -> arr V) os alloc u junk later : Forall op_ok os -> uarr_ok u -> Forall op_ok later ->
  let w := brun os (empty_world user) in let id := length (w_live w) in
  let '(w', r) := bstep (OSend alloc u junk) w in
  r = Ok tt /\ w_user w' = w_user w /\
  exists h, ctx_of w' id = Some (mkC h None) /\ same (contents w' h) (u_read w u) /\
    (u_contig u = true -> h = HArr u) /\
    (u_contig u = false -> Forall (fun o => ~ about id o) later -> same (contents (brun later w') h) (u_read w u)).
Proof.
  intros F OK FL w id. pose proof (run_inv os _ (empty_inv user) F) as I. fold w in I.
  destruct (u_contig u) eqn:C; cbn [bstep]; rewrite C.
  - split; auto. split; auto. exists (HArr u). unfold ctx_of. cbn. rewrite app_nth2, Nat.sub_diag by auto. split; auto. split; [now split|]. split; [auto|discriminate].
  - pose proof (step_inv w (OSend alloc u junk) I OK) as I'. cbn [bstep] in I'. rewrite C in I'. cbn zeta in *.
    destruct (take_buffer V (alloc, vshp (u_view u), u_dtype u) junk w) as [w1 b] eqn:T. destruct (take_ok _ _ _ _ _ I T) as (A1 & A2 & A3 & A4 & A5 & A6 & A7 & A8).
    destruct OK as (U1 & U2). assert (Sb : shp (w_buf w1 b) = vshp (u_view u)) by (rewrite (i_shape _ A8) by auto; now rewrite A4).
    destruct (assign_ok (w_buf w1 b) (v_whole (shp (w_buf w1 b))) (u_read w1 u)) as (a' & E & S' & V1 & _); [apply whole_inj|cbn; rewrite Sb; auto|cbn; now rewrite Sb|].
    rewrite E in *. cbn [fst] in I'. split; auto. split; [cbn; auto|].
    set (w' := open_ctx V _ _) in *. exists (HBuf (alloc, vshp (u_view u), u_dtype u) b).
    assert (Hc : ctx_of w' id = Some (mkC (HBuf (alloc, vshp (u_view u), u_dtype u) b) None)).
    { unfold ctx_of, w'. cbn. rewrite A6. rewrite app_nth2, Nat.sub_diag by auto. reflexivity. }
    assert (Same : same (contents w' (HBuf (alloc, vshp (u_view u), u_dtype u) b)) (u_read w u)).
    { cbn [contents]. assert (Eb : w_buf w' b = a') by (unfold w'; cbn; unfold mset; now rewrite Nat.eqb_refl). rewrite Eb. split; [rewrite S', Sb; reflexivity|]. rewrite S', Sb.
      intros p Ip. specialize (V1 p). cbn in V1. rewrite V1 by (now rewrite Sb). unfold u_read, v_read. cbn. now rewrite A5. }
    split; auto. split; auto. split; [discriminate|]. intros _ NA.
    destruct (run_isolated later w' id _ _ _ I' FL NA Hc) as (B & _). cbn [contents] in *. now rewrite B.
Qed.

(** what leaving and breaking off a receive context do *)
Theorem recv_copies (user : nat -> arr V) os id k b u f later : Forall op_ok os -> Forall op_ok later ->
  let w := brun os (empty_world user) in
  ctx_of w id = Some (mkC (HBuf k b) (Some u)) -> Forall (fun o => ~ about id o) later ->
  let w1 := brun later (fst (bstep (OFill id f) w)) in
  let '(w2, r) := bstep (OLeave id) w1 in
  r = Ok tt /\ same (u_read w2 u) (mkA (vshp (u_view u)) f) /\ ctx_of w2 id = None /\
  (forall m, m <> u_mem u -> w_user w2 m = w_user w1 m) /\ shp (w_user w2 (u_mem u)) = shp (w_user w1 (u_mem u)) /\
  (forall i, (forall p, in_shape (vshp (u_view u)) p -> i <> vmap (u_view u) p) -> at_ (w_user w2 (u_mem u)) i = at_ (w_user w1 (u_mem u)) i) /\
  w_user (fst (bstep (OThrow id) w1)) = w_user w1.
Proof.
  intros F FL w H NA w1. pose proof (run_inv os _ (empty_inv user) F) as I. fold w in I.
  assert (I0 : inv (fst (bstep (OFill id f) w))) by (apply step_inv; auto; exact Logic.I).
  assert (H0 : ctx_of (fst (bstep (OFill id f) w)) id = Some (mkC (HBuf k b) (Some u)) /\ w_buf (fst (bstep (OFill id f) w)) b = mkA (shp (w_buf w b)) f).
  { cbn [bstep]. rewrite H. cbn [fst]. split; [exact H|]. cbn. unfold mset. now rewrite Nat.eqb_refl. }
  destruct H0 as (H0 & B0). destruct (run_isolated later _ id _ _ _ I0 FL NA H0) as (B1 & H1). fold w1 in B1, H1. rewrite B0 in B1.
  pose proof (run_inv later _ I0 FL) as I1. fold w1 in I1.
  destruct (i_live _ I id k b (Some u) H) as (M & HU). destruct (HU u eq_refl) as (K & C & (U1 & U2)).
  assert (Sb : shp (w_buf w b) = vshp (u_view u)). { rewrite (i_shape _ I), M; auto. apply (i_next _ I), in_or_app. left. now apply (nth_in_lent _ id k _ (Some u)). }
  assert (Lid : (id < length (w_live w1))%nat).
  { destruct (Nat.lt_ge_cases id (length (w_live w1))); auto. unfold ctx_of in H1. rewrite nth_overflow in H1 by auto. discriminate. }
  cbn [bstep]. rewrite H1, B1.
  destruct (assign_ok (w_user w1 (u_mem u)) (u_view u) (mkA (shp (w_buf w b)) f)) as (a' & -> & S' & V1 & V2); auto.
  assert (Er : forall w', w_user w' (u_mem u) = a' -> same (u_read w' u) (mkA (vshp (u_view u)) f)).
  { intros w' E. unfold u_read. rewrite E. split; [reflexivity|]. cbn. intros p Ip. apply V1. exact Ip. }
  split; auto. split; [apply Er; cbn; unfold mset; now rewrite Nat.eqb_refl|].
  split. { unfold ctx_of. cbn. rewrite nth_upd_eq; auto. }
  split. { intros m N. cbn. unfold mset. now destruct (Nat.eqb_spec m (u_mem u)). }
  split. { cbn. unfold mset. now rewrite Nat.eqb_refl. }
  split; [|reflexivity]. intros i Hi. cbn. unfold mset. rewrite Nat.eqb_refl. auto.
Qed.
End BufferProofs.
