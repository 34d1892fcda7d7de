(** Boundary lookups do not depend on history (C10). *)
From Verif.Base Require Import Base Lemmas.
From Verif.Model Require Import Consts Partitioner Cache.

Lemma btype_eqb_eq a b : btype_eqb a b = true <-> a = b.
Proof. destruct a, b; simpl; split; congruence. Qed.

Lemma key_eqb_eq a b : key_eqb a b = true <-> a = b.
Proof.
  destruct a as [a1 a2], b as [b1 b2]. unfold key_eqb. simpl. rewrite andb_true_iff, btype_eqb_eq, Z.eqb_eq.
  split; [intros [-> ->]; auto|intros [= -> ->]; auto].
Qed.

Lemma cfind_In {V} k (c : list ((btype * Z) * V)) v : cfind k c = Some v -> In (k, v) c.
Proof.
  induction c as [|[k' v'] c IH]; simpl; [discriminate|].
  destruct (key_eqb k k') eqn:E; [|auto]. intros [= ->]. apply key_eqb_eq in E. subst. now left.
Qed.

Section S.
Variable layout : layout_t.

Definition owned (s : cstate) (l : nat) : Prop :=
  (exists k, In (k, l) (tcache s)) \/ (exists k, In (k, Some l) (ccache s)).

Record inv (s : cstate) (refs : list nat) : Prop := {
  inv_t : forall bt rk l, In ((bt, rk), l) (tcache s) -> (l < length (heap s))%nat /\
            nth l (heap s) dummy_boundary = tp_boundary layout bt rk;
  inv_c : forall bt rk o, In ((bt, rk), o) (ccache s) ->
            match o with
            | None => cs_boundary layout bt rk = Ok None
            | Some l => (l < length (heap s))%nat /\
                        cs_boundary layout bt rk = Ok (Some (nth l (heap s) dummy_boundary))
            end;
  inv_r : forall l, In l refs -> (l < length (heap s))%nat /\ ~ owned s l }.

Definition frame (s s' : cstate) : Prop :=
  (length (heap s) <= length (heap s'))%nat /\
  (forall l, (l < length (heap s))%nat -> nth l (heap s') dummy_boundary = nth l (heap s) dummy_boundary) /\
  (forall l, owned s' l -> owned s l \/ (length (heap s) <= l)%nat).

Lemma frame_refl s : frame s s.
Proof. repeat split; auto. Qed.

Lemma frame_trans a b c : frame a b -> frame b c -> frame a c.
Proof.
  intros (L1 & H1 & O1) (L2 & H2 & O2). split; [lia|]. split.
  - intros l Hl. rewrite H2 by lia. auto.
  - intros l Ho. apply O2 in Ho. destruct Ho as [Ho|Ho]; [|lia]. apply O1 in Ho. destruct Ho; [auto|lia].
Qed.

(** [m] returns a fresh, unshared object with the value of [pure] *)
Definition fresh (m : CM nat) (pure : res boundary) : Prop :=
  forall s refs, inv s refs -> let '(s', r) := m s in inv s' refs /\ frame s s' /\
    match r, pure with
    | Ok l, Ok b => (length (heap s) <= l < length (heap s'))%nat /\ nth l (heap s') dummy_boundary = b /\ ~ owned s' l
    | Err e, Err e' => e = e'
    | _, _ => False
    end.

Lemma inv_frame_new s refs b : inv s refs ->
  inv (mkCS (heap s ++ [b]) (tcache s) (ccache s)) refs /\
  frame s (mkCS (heap s ++ [b]) (tcache s) (ccache s)).
Proof.
  intros [T C R]. split.
  - constructor; simpl; rewrite app_length; simpl.
    + intros bt rk l H. apply T in H. destruct H. rewrite app_nth1 by lia. split; [lia|auto].
    + intros bt rk [l|] H; apply C in H; auto. destruct H. rewrite app_nth1 by lia. split; [lia|auto].
    + intros l H. apply R in H. destruct H. split; [lia|auto].
  - split; simpl; [rewrite app_length; lia|]. split.
    + intros. now rewrite app_nth1.
    + intros l H. now left.
Qed.

Lemma owned_bound s refs l : inv s refs -> owned s l -> (l < length (heap s))%nat.
Proof. intros [T C R] [[[bt rk] H]|[[bt rk] H]]; [apply T in H|apply C in H]; tauto. Qed.

Lemma fresh_new b : fresh (new_obj b) (Ok b).
Proof.
  intros s refs I. unfold new_obj. destruct (inv_frame_new s refs b I) as [I' F].
  split; [auto|]. split; [auto|]. simpl. rewrite app_length, app_nth2, Nat.sub_diag by lia. simpl.
  split; [lia|]. split; [auto|]. intros O. change (owned s (length (heap s))) in O.
  apply (owned_bound _ _ _ I) in O. lia.
Qed.

Lemma fresh_tile bt rk : fresh (tile_boundary_obj layout bt rk) (Ok (tp_boundary layout bt rk)).
Proof.
  intros s refs I. unfold tile_boundary_obj, mbind, tile_cached.
  destruct (cfind (bt, rk) (tcache s)) as [l|] eqn:E.
  - apply cfind_In in E. unfold copy_obj, mbind, deref.
    destruct I as [T C R] eqn:EI. pose proof (T _ _ _ E) as [_ V]. rewrite V.
    exact (fresh_new (tp_boundary layout bt rk) s refs I).
  - unfold new_obj at 1. cbn [heap tcache ccache].
    set (s1 := mkCS (heap s ++ [tp_boundary layout bt rk]) ((bt, rk, length (heap s)) :: tcache s) (ccache s)).
    destruct (inv_frame_new s refs (tp_boundary layout bt rk) I) as [I' F'].
    assert (I1 : inv s1 refs).
    { destruct I' as [T C R]. simpl in *. rewrite app_length in *. simpl in *. constructor; simpl; rewrite ?app_length; simpl.
      - intros bt' rk' l [[= <- <- <-]|H]; [|now apply T in H].
        rewrite app_nth2, Nat.sub_diag by lia. split; [lia|auto].
      - auto.
      - intros l H. split; [now apply R|]. intros O.
        assert (l < length (heap s))%nat by (apply (inv_r _ _ I); auto).
        apply (inv_r _ _ I) in H. apply H.
        destruct O as [[k [[= <-]|O]]|O]; [lia|left; eauto|right; auto]. }
    assert (F1 : frame s s1).
    { destruct F' as (L & H & O). split; [exact L|]. split; [exact H|].
      intros l [[k [[= <- <-]|O']]|O']; [right; lia|left; left; eauto|left; right; auto]. }
    unfold copy_obj, mbind, deref.
    replace (nth (length (heap s)) (heap s1) dummy_boundary) with (tp_boundary layout bt rk).
    2: { simpl. rewrite app_nth2, Nat.sub_diag by lia. reflexivity. }
    pose proof (fresh_new (tp_boundary layout bt rk) s1 refs I1) as H. unfold new_obj in *.
    destruct H as (I2 & F2 & B & V & O). split; [auto|]. split; [eapply frame_trans; eauto|].
    split; [|auto]. destruct F1. lia.
Qed.

Lemma fresh_lift {A} (r : res A) (k : A -> CM nat) pure :
  (forall a, r = Ok a -> fresh (k a) (pure a)) -> fresh (mbind (lift r) k) (bind r pure).
Proof.
  intros H s refs I. unfold mbind, lift. destruct r as [a|e]; simpl.
  - apply H; auto.
  - split; [auto|]. split; [apply frame_refl|reflexivity].
Qed.

(** modifying a fresh object *)
Lemma inv_put s refs l b : inv s refs -> ~ owned s l -> (l < length (heap s))%nat ->
  inv (fst (put l b s)) refs.
Proof.
  intros [T C R] O L. constructor; simpl; rewrite length_upd.
  - intros bt rk l' H. assert (l' <> l) by (intros ->; apply O; left; eauto).
    rewrite nth_upd_neq by auto. now apply T.
  - intros bt rk [l'|] H; [|now apply C in H]. assert (l' <> l) by (intros ->; apply O; right; eauto).
    rewrite nth_upd_neq by auto. now apply C in H.
  - intros l' H. apply R in H. exact H.
Qed.

Lemma fresh_modify m pure f : fresh m (Ok pure) ->
  fresh (mbind m (fun l => mbind (modify_to l f) (fun _ => ret l))) (Ok (set_to pure (f (b_to pure)))).
Proof.
  intros H s refs I. specialize (H s refs I). unfold mbind. destruct (m s) as [s' [l|e]]; [|destruct H as (?&?&[])].
  destruct H as (I' & F & B & V & O). unfold modify_to, mbind, deref, put, ret. rewrite V.
  split; [apply (inv_put s' refs l _ I' O); lia|]. simpl. split.
  - destruct F as (L & H & Ow). split; simpl; rewrite ?length_upd; [lia|]. split; [|exact Ow].
    intros l' Hl'. rewrite nth_upd_neq by lia. auto.
  - rewrite length_upd, nth_upd_eq by lia. repeat split; auto; lia.
Qed.

Lemma fresh_left rk : fresh (left_edge_obj layout rk) (cs_left_edge layout rk).
Proof.
  unfold left_edge_obj, cs_left_edge. apply fresh_lift. intros _ _.
  destruct (tp_on_left layout rk); [|apply fresh_tile].
  apply fresh_lift. intros ti _. destruct (is_even ti).
  - apply fresh_lift. intros. apply fresh_new.
  - apply fresh_modify with (f := fun r => r - tile_total_ranks layout), fresh_tile.
Qed.
Lemma fresh_right rk : fresh (right_edge_obj layout rk) (cs_right_edge layout rk).
Proof.
  unfold right_edge_obj, cs_right_edge. apply fresh_lift. intros _ _.
  destruct (tp_on_right layout rk); [|apply fresh_tile].
  apply fresh_lift. intros ti _. destruct (negb (is_even ti)).
  - apply fresh_lift. intros. apply fresh_new.
  - apply fresh_modify with (f := fun r => r + tile_total_ranks layout), fresh_tile.
Qed.
Lemma fresh_top rk : fresh (top_edge_obj layout rk) (cs_top_edge layout rk).
Proof.
  unfold top_edge_obj, cs_top_edge. apply fresh_lift. intros _ _.
  destruct (tp_on_top layout rk); [|apply fresh_tile].
  apply fresh_lift. intros ti _. destruct (is_even ti).
  - apply fresh_lift. intros. apply fresh_new.
  - apply fresh_modify with (f := fun r => r + tile_total_ranks layout), fresh_tile.
Qed.
Lemma fresh_ret m pure : fresh m pure -> fresh (mbind m (fun b => ret b)) pure.
Proof.
  intros H s refs I. specialize (H s refs I). unfold mbind, ret. destruct (m s) as [s' [l|e]]; auto.
Qed.
Lemma fresh_bottom rk : fresh (bottom_edge_obj layout rk) (cs_bottom_edge layout rk).
Proof.
  unfold bottom_edge_obj, cs_bottom_edge. apply fresh_lift. intros _ _.
  apply fresh_lift. intros ob _. destruct ob.
  - apply fresh_lift. intros. apply fresh_lift. intros. apply fresh_new.
  - destruct (tp_on_bottom layout rk).
    + apply fresh_modify with (f := fun r => r - tile_total_ranks layout), fresh_tile.
    + apply fresh_ret, fresh_tile.
Qed.

(** optional results *)
Definition fresh_opt (m : CM (option nat)) (pure : res (option boundary)) : Prop :=
  forall s refs, inv s refs -> let '(s', r) := m s in inv s' refs /\ frame s s' /\
    match r, pure with
    | Ok (Some l), Ok (Some b) => (length (heap s) <= l < length (heap s'))%nat /\ nth l (heap s') dummy_boundary = b /\ ~ owned s' l
    | Ok None, Ok None => True
    | Err e, Err e' => e = e'
    | _, _ => False
    end.

Lemma fresh_some m pure : fresh m pure -> fresh_opt (mbind m (fun l => ret (Some l))) (rmap Some pure).
Proof.
  intros H s refs I. specialize (H s refs I). unfold mbind, ret. destruct (m s) as [s' [l|e]];
  destruct pure as [b|e']; simpl; auto.
Qed.

Lemma fresh_opt_lift {A} (r : res A) (k : A -> CM (option nat)) pure :
  (forall a, r = Ok a -> fresh_opt (k a) (pure a)) -> fresh_opt (mbind (lift r) k) (bind r pure).
Proof.
  intros H s refs I. unfold mbind, lift. destruct r as [a|e]; simpl.
  - apply H; auto.
  - split; [auto|]. split; [apply frame_refl|reflexivity].
Qed.

Lemma fresh_corner bt rk m1 m2 p1 p2 : (forall r, fresh (m1 r) (p1 r)) -> (forall r, fresh (m2 r) (p2 r)) ->
  fresh_opt (get_corner_obj bt rk m1 m2) (cs_get_corner bt rk p1 p2).
Proof.
  intros H1 H2 s refs I. unfold get_corner_obj, cs_get_corner, mbind.
  specialize (H1 rk s refs I). destruct (m1 rk s) as [s1 [l1|e1]].
  2:{ destruct H1 as (I1 & F1 & H1). destruct (p1 rk); [contradiction|]. subst. simpl. auto. }
  destruct H1 as (I1 & F1 & H1). destruct (p1 rk) as [b1|]; [|contradiction].
  destruct H1 as (B1 & V1 & O1). simpl bind. unfold deref at 1. rewrite V1.
  specialize (H2 (b_to b1) s1 refs I1). destruct (m2 (b_to b1) s1) as [s2 [l2|e2]].
  2:{ destruct H2 as (I2 & F2 & H2). destruct (p2 (b_to b1)); [contradiction|]. subst. simpl.
      split; auto. split; auto. eapply frame_trans; eauto. }
  destruct H2 as (I2 & F2 & H2). destruct (p2 (b_to b1)) as [b2|]; [|contradiction].
  destruct H2 as (B2 & V2 & O2). simpl bind. unfold deref. rewrite V2.
  replace (nth l1 (heap s2) dummy_boundary) with b1.
  2:{ destruct F2 as (L & N & _). rewrite N by lia. auto. }
  pose proof (fresh_new (mkB bt rk (b_to b2) (b_rot b1 + b_rot b2)) s2 refs I2) as H3.
  unfold new_obj in *. destruct H3 as (I3 & F3 & B3 & V3 & O3). unfold ret.
  split; [auto|]. split; [eapply frame_trans; [eauto|]; eapply frame_trans; eauto|].
  split; [|auto]. destruct F1, F2. lia.
Qed.

Lemma fresh_opt_none : fresh_opt (ret None) (Ok None).
Proof. intros s refs I. simpl. split; [auto|]. split; [apply frame_refl|auto]. Qed.

Lemma fresh_tl rk : fresh_opt (top_left_corner_obj layout rk) (cs_top_left_corner layout rk).
Proof.
  unfold top_left_corner_obj, cs_top_left_corner. destruct (_ && _); [apply fresh_opt_none|].
  apply fresh_opt_lift. intros ti _. apply fresh_corner; [apply fresh_left|].
  destruct (_ && _); [apply fresh_left|apply fresh_top].
Qed.
Lemma fresh_tr rk : fresh_opt (top_right_corner_obj layout rk) (cs_top_right_corner layout rk).
Proof.
  unfold top_right_corner_obj, cs_top_right_corner. destruct (_ && _); [apply fresh_opt_none|].
  apply fresh_opt_lift. intros ti _. apply fresh_corner; [apply fresh_top|].
  destruct (_ && _); [apply fresh_bottom|apply fresh_right].
Qed.
Lemma fresh_bl rk : fresh_opt (bottom_left_corner_obj layout rk) (cs_bottom_left_corner layout rk).
Proof.
  unfold bottom_left_corner_obj, cs_bottom_left_corner. destruct (_ && _); [apply fresh_opt_none|].
  apply fresh_opt_lift. intros ti _. apply fresh_corner; [apply fresh_bottom|].
  destruct (_ && _); [apply fresh_top|apply fresh_left].
Qed.
Lemma fresh_br rk : fresh_opt (bottom_right_corner_obj layout rk) (cs_bottom_right_corner layout rk).
Proof.
  unfold bottom_right_corner_obj, cs_bottom_right_corner. destruct (_ && _); [apply fresh_opt_none|].
  apply fresh_opt_lift. intros ti _. apply fresh_corner; [apply fresh_bottom|].
  destruct (_ && _); [apply fresh_bottom|apply fresh_right].
Qed.

Lemma fresh_mod m pure f : fresh_opt m pure ->
  fresh_opt (mbind m (fun b => match b with
     | Some l => mbind (modify_to l f) (fun _ => ret (Some l)) | None => ret None end))
   (do b <- pure; match b with None => Ok None | Some b => Ok (Some (set_to b (f (b_to b)))) end).
Proof.
  intros H s refs I. specialize (H s refs I). unfold mbind. destruct (m s) as [s' [[l|]|e]].
  - destruct H as (I' & F & H). destruct pure as [[b|]|]; try contradiction. destruct H as (B & V & O).
    unfold modify_to, mbind, deref, put, ret. rewrite V. simpl bind. cbv iota.
    split; [apply (inv_put s' refs l _ I' O); lia|]. simpl. split.
    + destruct F as (L & H & Ow). split; simpl; rewrite ?length_upd; [lia|]. split; [|exact Ow].
      intros l' Hl'. rewrite nth_upd_neq by lia. auto.
    + rewrite length_upd, nth_upd_eq by lia. repeat split; auto; lia.
  - destruct H as (I' & F & H). destruct pure as [[b|]|]; try contradiction. simpl. auto.
  - destruct H as (I' & F & H). destruct pure as [[b|]|]; try contradiction. simpl. auto.
Qed.

Lemma fresh_cube bt rk : fresh_opt (cube_boundary_obj layout bt rk) (cs_boundary layout bt rk).
Proof.
  intros s refs I. unfold cube_boundary_obj, mbind at 1. unfold cube_cached.
  destruct (cfind (bt, rk) (ccache s)) as [[l|]|] eqn:E.
  - apply cfind_In in E. pose proof (inv_c _ _ I _ _ _ E) as [L V]. rewrite V.
    pose proof (fresh_new (nth l (heap s) dummy_boundary) s refs I) as H.
    unfold mbind, copy_obj, deref, ret, mbind, new_obj in *. exact H.
  - apply cfind_In in E. pose proof (inv_c _ _ I _ _ _ E) as V. simpl in V. rewrite V.
    unfold ret. split; [auto|]. split; [apply frame_refl|auto].
  - set (m := mbind _ _).
    assert (F : fresh_opt m (cs_boundary layout bt rk)).
    { unfold m, cs_boundary. clear. 
      apply (fresh_mod _ _ (fun r => r mod total_ranks layout)).
      destruct bt; first [apply fresh_some|idtac];
        auto using fresh_left, fresh_right, fresh_top, fresh_bottom, fresh_tl, fresh_tr, fresh_bl, fresh_br. }
    clearbody m. specialize (F s refs I). destruct (m s) as [s1 [o|e]].
    2:{ destruct F as (I1 & F1 & H). destruct (cs_boundary layout bt rk); [contradiction|]. auto. }
    destruct F as (I1 & F1 & H).
    set (s2 := mkCS (heap s1) (tcache s1) ((bt, rk, o) :: ccache s1)).
    assert (I2 : inv s2 refs).
    { constructor; simpl.
      - apply (inv_t _ _ I1).
      - intros bt' rk' o' [[= <- <- <-]|Hin]; [|now apply (inv_c _ _ I1)].
        destruct o as [l|]; destruct (cs_boundary layout bt rk) as [[b|]|]; try contradiction; auto.
        destruct H as (B & V & O). subst b. split; [lia|auto].
      - intros l Hl. pose proof (inv_r _ _ I1 l Hl) as [L NO]. split; [auto|].
        intros [[k O]|[k [Hk|O]]]; [apply NO; left; eauto| |apply NO; right; eauto].
        injection Hk as <- ->. destruct (cs_boundary layout bt rk) as [[b|]|]; try contradiction.
        destruct H as (B & V & O). pose proof (inv_r _ _ I l Hl). lia. }
    assert (F2 : frame s s2).
    { destruct F1 as (L & N & O). split; [exact L|]. split; [exact N|].
      intros l [[k Ho]|[k [Hk|Ho]]]; [apply O; left; eauto| |apply O; right; eauto].
      injection Hk as <- ->. destruct (cs_boundary layout bt rk) as [[b|]|]; try contradiction.
      destruct H as (B & V & _). right. lia. }
    destruct o as [l|].
    + destruct (cs_boundary layout bt rk) as [[b|]|]; try contradiction. destruct H as (B & V & O).
      unfold mbind, copy_obj, deref, mbind.
      change (heap s2) with (heap s1). rewrite V.
      pose proof (fresh_new b s2 refs I2) as H. unfold new_obj in *. destruct H as (I3 & F3 & B3 & V3 & O3).
      unfold ret. split; [auto|]. split; [eapply frame_trans; eauto|]. split; [|auto].
      change (heap s2) with (heap s1) in B3. destruct F1 as [F1 _]. cbn [heap] in *. unfold s2 in *. cbn [heap] in *. lia.
    + destruct (cs_boundary layout bt rk) as [[b|]|]; try contradiction. unfold ret. auto.
Qed.

Lemma inv_ref s refs l : inv s refs -> (l < length (heap s))%nat -> ~ owned s l -> inv s (refs ++ [l]).
Proof.
  intros [T C R] L O. constructor; auto. intros l' H. apply in_app_iff in H. destruct H as [H|[<-|[]]]; auto.
Qed.

Lemma inv_step c s : inv (fst s) (snd s) -> inv (fst (client_step layout c s)) (snd (client_step layout c s)).
Proof.
  destruct s as [s refs]. cbn [fst snd]. intros I. destruct c as [bt rk|bt rk|i b]; unfold client_step.
  - pose proof (fresh_tile bt rk s refs I) as H. destruct (tile_boundary_obj layout bt rk s) as [s' [l|e]]; cbn [fst snd].
    + destruct H as (I' & F & B & V & O). apply inv_ref; auto. lia.
    + tauto.
  - pose proof (fresh_cube bt rk s refs I) as H. destruct (cube_boundary_obj layout bt rk s) as [s' [[l|]|e]]; cbn [fst snd].
    + destruct H as (I' & F & H). destruct (cs_boundary layout bt rk) as [[b|]|]; try contradiction.
      destruct H as (B & V & O). apply inv_ref; auto. lia.
    + tauto.
    + tauto.
  - destruct (nth_error refs i) as [l|] eqn:E; cbn [fst snd]; auto.
    apply nth_error_In in E. pose proof (inv_r _ _ I l E) as [L O]. now apply inv_put.
Qed.

Lemma inv_run cs : inv (fst (client_run layout cs)) (snd (client_run layout cs)).
Proof.
  unfold client_run.
  assert (G : forall cs s, inv (fst s) (snd s) ->
    inv (fst (fold_left (fun s c => client_step layout c s) cs s)) (snd (fold_left (fun s c => client_step layout c s) cs s))).
  { clear. induction cs; simpl; intros; auto. apply IHcs. now apply inv_step. }
  apply G. constructor; simpl; intros; contradiction.
Qed.

Lemma lookup_cube_pure cs bt rk : lookup_cube layout cs bt rk = cs_boundary layout bt rk.
Proof.
  unfold lookup_cube. pose proof (fresh_cube bt rk _ _ (inv_run cs)) as H.
  destruct (cube_boundary_obj layout bt rk _) as [s' [[l|]|e]]; destruct H as (I' & F & H);
    destruct (cs_boundary layout bt rk) as [[b|]|]; try contradiction; try congruence.
  destruct H as (B & V & O). now rewrite V.
Qed.

Lemma lookup_tile_pure cs bt rk : lookup_tile layout cs bt rk = Ok (tp_boundary layout bt rk).
Proof.
  unfold lookup_tile. pose proof (fresh_tile bt rk _ _ (inv_run cs)) as H.
  destruct (tile_boundary_obj layout bt rk _) as [s' [l|e]]; destruct H as (I' & F & H); try contradiction.
  destruct H as (B & V & O). now rewrite V.
Qed.
End S.
