(** Memory of quantities (C82). *)
From Verif.Base Require Import Base Lemmas.
From Verif.Model Require Import Consts Partitioner Numpy Quantity Sizer Storage.
From Verif.Spec Require Import Grid Views Sharing.
From Verif.Proofs Require Import NumpyProofs ViewProofs ValuesProofs BufferProofs.

Section Sharing.
Context {V : Type}.
Variable refuses : string -> list Z -> list Z -> option exc.
Variable junk : nat -> idx -> V.
Implicit Types (w : world V) (s : sharing) (m : memory V) (u : use V) (q : gquantity).
Let perf := perform refuses junk.
Let perfs := perform_all refuses junk.

Definition storage_fine q : Prop :=
  match g_storage q, g_backend q with
  | Some st, Some b => s_ref st = g_ref q /\ s_backend st = b
  | None, None => True
  | _, _ => False
  end.
Definition inv w s : Prop :=
  map r_block (w_arrays w) = sh_arrays s /\
  map (fun q => (r_block (g_ref q), g_backend q)) (w_quantities w) = sh_quantities s /\
  length (w_mem w) = sh_next s /\
  Forall (fun r => r_block r < length (w_mem w))%nat (w_arrays w) /\
  Forall (fun q => r_block (g_ref q) < length (w_mem w))%nat (w_quantities w) /\
  Forall storage_fine (w_quantities w).

Lemma inv_start : inv empty_world nothing_shared.
Proof. repeat split; constructor. Qed.

Lemma write_length m r es src m' e : write m r es src = (m', e) -> length m' = length m.
Proof.
  unfold write. destruct (nth_error m (r_block r)) as [a|]; [|intros [= <- _]; auto]. destruct (do v <- _; _); intros [= <- _]; auto. apply length_upd.
Qed.
Lemma write_other m r es src m' e b : write m r es src = (m', e) -> b <> r_block r -> nth_error m' b = nth_error m b.
Proof.
  unfold write. destruct (nth_error m (r_block r)) as [a|]; [|intros [= <- _]; auto]. destruct (do v <- _; _); intros [= <- _] N; auto.
  rewrite nth_error_upd. destruct (Nat.eqb_spec (r_block r) b); congruence.
Qed.
Lemma write_err m r es src m' e : write m r es src = (m', Err e) -> m' = m.
Proof.
  unfold write. destruct (nth_error m (r_block r)) as [a|]; [|intros [= <- _]; auto]. destruct (do v <- _; _); intros [= <- _]; auto.
Qed.

Definition extends m m' : Prop := exists l, m' = (m ++ l)%list.
Lemma extends_refl m : extends m m.
Proof. exists []. now rewrite app_nil_r. Qed.
Lemma extends_nth m m' b : extends m m' -> (b < length m)%nat -> nth_error m' b = nth_error m b.
Proof. intros (l & ->) L. now apply nth_error_app1. Qed.

Lemma upd_app_last {A} (l : list A) a b : upd (l ++ [a]) (length l) b = (l ++ [b])%list.
Proof. induction l as [|x l IH]; cbn; auto. now rewrite IH. Qed.



Lemma copy_whole (a c : arr V) : shp c = shp a -> exists c', a_assign c (v_whole (shp c)) a = Ok c' /\ same c' a.
Proof.
  intros E. unfold a_assign. cbn [vshp v_whole]. rewrite E. destruct (bcast_same (shp a)) as (f & -> & F). eexists. split; [reflexivity|]. split; [rewrite shp_a_write; auto|].
  intros p Hp. rewrite shp_a_write, E in Hp. cbn [vmap].
  rewrite (a_write_in _ _ _ (at_ a (f p))); [now rewrite F|rewrite map_map; cbn; rewrite map_id; apply all_idx_NoDup|].
  apply in_map_iff. exists p. split; auto. now apply in_all_idx.
Qed.

Lemma initialize_ok m r o b m' st : (r_block r < length m)%nat -> initialize_storage refuses junk m r o b = (m', Ok st) ->
  exists a c, show m r = Some a /\ same c a /\ m' = (m ++ [c])%list /\ st = mkSto b o (mkRef (length m) (v_whole (r_shape r))).
Proof.
  intros L. unfold initialize_storage. destruct (refuses _ _ _); [discriminate|]. cbn [new_array shp]. unfold show. rewrite nth_error_app1 by auto.
  destruct (nth_error m (r_block r)) as [a|] eqn:E; [|discriminate]. cbn [option_map]. unfold write. cbn [r_block r_view].
  rewrite nth_error_app2, Nat.sub_diag by lia. cbn [nth_error].
  replace (v_index (v_whole (r_shape r)) []) with (Ok (v_whole (r_shape r))) by reflexivity. cbn [bind].
  destruct (copy_whole (v_read a (r_view r)) (mkA (r_shape r) (junk (length m))) eq_refl) as (c & C & S). cbn [shp] in C. rewrite C, upd_app_last.
  intros [= <- <-]. exists (v_read a (r_view r)), c. auto.
Qed.
Lemma initialize_works m r o b : (r_block r < length m)%nat -> refuses b o (r_shape r) = None -> exists m' st, initialize_storage refuses junk m r o b = (m', Ok st).
Proof.
  intros L N. unfold initialize_storage. rewrite N. cbn [new_array shp]. unfold show. rewrite nth_error_app1 by auto.
  destruct (nth_error m (r_block r)) as [a|] eqn:E; [|apply nth_error_None in E; lia]. cbn [option_map]. unfold write. cbn [r_block r_view].
  rewrite nth_error_app2, Nat.sub_diag by lia. cbn [nth_error].
  replace (v_index (v_whole (r_shape r)) []) with (Ok (v_whole (r_shape r))) by reflexivity. cbn [bind].
  destruct (copy_whole (v_read a (r_view r)) (mkA (r_shape r) (junk (length m))) eq_refl) as (c & C & S). cbn [shp] in C. rewrite C. eauto.
Qed.

Lemma show_shape m r a : show m r = Some a -> shp a = r_shape r.
Proof. unfold show. destruct (nth_error m (r_block r)); [|discriminate]. now intros [= <-]. Qed.

(** ** constructing *)
Definition block_of (d : source) : nat := match d with FromArray r => r_block r | FromStorage s => r_block (s_ref s) end.
Definition ref_of (d : source) : ref := match d with FromArray r => r | FromStorage s => s_ref s end.
Definition the_origin (dims : list string) (origin : option (list Z)) : list Z := match origin with Some o => o | None => map (fun _ => 0) dims end.
Definition the_extent (shape o : list Z) (extent : option (list Z)) : list Z := match extent with Some e => e | None => map2 Z.sub shape o end.

Lemma construct_err m d dims units o e b m' x : construct refuses junk m d dims units o e b = (m', Err x) -> m' = m.
Proof.
  unfold construct. destruct d as [r|st], b as [b|].
  - destruct (initialize_storage _ _ _ _ _ _) as [m1 [st|]]; [destruct (validate_lengths _ _ _ _)|]; now intros [= <- _].
  - destruct (validate_lengths _ _ _ _); now intros [= <- _].
  - now intros [= <- _].
  - destruct (validate_lengths _ _ _ _); now intros [= <- _].
Qed.
Lemma construct_shared m d dims units o e m' q : construct refuses junk m d dims units o e None = (m', Ok q) ->
  m' = m /\ q = mkGQ (ref_of d) (match d with FromStorage s => Some s | _ => None end) (match d with FromStorage s => Some (s_backend s) | _ => None end)
                  dims units (the_origin dims o) (the_extent (r_shape (ref_of d)) (the_origin dims o) e) /\
  validate_lengths (r_shape (ref_of d)) dims (g_origin q) (g_extent q) = Ok tt.
Proof.
  unfold construct. destruct d as [r|st]; cbn [ref_of]; destruct (validate_lengths _ _ _ _) as [[]|] eqn:E; intros [= <- <-]; auto.
Qed.
Lemma construct_copied m d dims units o e b m' q : (block_of d < length m)%nat -> construct refuses junk m d dims units o e (Some b) = (m', Ok q) ->
  exists r a c, d = FromArray r /\ show m r = Some a /\ same c a /\ m' = (m ++ [c])%list /\
    let ref := mkRef (length m) (v_whole (r_shape r)) in
    q = mkGQ ref (Some (mkSto b (the_origin dims o) ref)) (Some b) dims units (the_origin dims o) (the_extent (r_shape r) (the_origin dims o) e) /\
    validate_lengths (r_shape r) dims (g_origin q) (g_extent q) = Ok tt.
Proof.
  intros L. unfold construct. destruct d as [r|st]; [|discriminate]. cbn [block_of] in L.
  destruct (initialize_storage _ _ _ _ _ _) as [m1 [st|]] eqn:I; [|discriminate].
  destruct (validate_lengths _ _ _ _) as [[]|] eqn:E; [|discriminate]. intros [= <- <-].
  destruct (initialize_ok _ _ _ _ _ _ L I) as (a & c & S & C & -> & ->). exists r, a, c. cbn [s_ref]. repeat split; auto.
  - apply C.
  - apply C.
Qed.

(** ** one step *)
Definition grown w w' : Prop :=
  (length (w_mem w) <= length (w_mem w'))%nat /\
  (forall n r, nth_error (w_arrays w) n = Some r -> nth_error (w_arrays w') n = Some r) /\
  (forall i q, nth_error (w_quantities w) i = Some q -> nth_error (w_quantities w') i = Some q).
Lemma grown_refl w : grown w w.
Proof. repeat split; auto. Qed.
Lemma grown_trans w1 w2 w3 : grown w1 w2 -> grown w2 w3 -> grown w1 w3.
Proof. intros (A & B & C) (A' & B' & C'). repeat split; auto. lia. Qed.

Lemma nth_app_l {A} (l l' : list A) i a : nth_error l i = Some a -> nth_error (l ++ l') i = Some a.
Proof. intros E. rewrite nth_error_app1; auto. apply nth_error_Some. congruence. Qed.
Lemma Forall_nth_error {A} (P : A -> Prop) l i a : Forall P l -> nth_error l i = Some a -> P a.
Proof. intros F E. rewrite Forall_forall in F. apply F. eapply nth_error_In; eauto. Qed.

Lemma found_block w s o d : inv w s -> find_object w o = Ok d -> family_of s o = Some (block_of d) /\ (block_of d < length (w_mem w))%nat.
Proof.
  intros (A & Q & N & FA & FQ & FS) E. destruct o as [n|i|i]; cbn in *.
  - destruct (nth_error (w_arrays w) n) as [r|] eqn:R; [|discriminate]. injection E as <-. rewrite <- A, nth_error_map, R. split; [reflexivity|]. eapply (Forall_nth_error _ _ _ _ FA R).
  - destruct (nth_error (w_quantities w) i) as [q|] eqn:R; [|discriminate]. injection E as <-. rewrite <- Q, nth_error_map, R. split; [reflexivity|]. eapply (Forall_nth_error _ _ _ _ FQ R).
  - destruct (nth_error (w_quantities w) i) as [q|] eqn:R; [|discriminate]. unfold get_storage in E. pose proof (Forall_nth_error _ _ _ _ FS R) as G. unfold storage_fine in G.
    destruct (g_storage q) as [st|]; [|discriminate]. injection E as <-. destruct (g_backend q) as [b|]; [|tauto]. destruct G as [G _].
    rewrite <- Q, nth_error_map, R. cbn [option_map fst block_of]. rewrite G. split; [reflexivity|]. eapply (Forall_nth_error _ _ _ _ FQ R).
Qed.
Lemma Forall_snoc {A} (P : A -> Prop) l a : Forall P l -> P a -> Forall P (l ++ [a]).
Proof. intros F H. apply Forall_app. auto. Qed.
Lemma Forall_lt {A} (f : A -> nat) l n n' : (n <= n')%nat -> Forall (fun x => f x < n)%nat l -> Forall (fun x => f x < n')%nat l.
Proof. intros L. apply Forall_impl. intros; lia. Qed.

(** a quantity which has been added *)
Lemma add_shared w s q f b : inv w s -> r_block (g_ref q) = f -> g_backend q = b -> (f < length (w_mem w))%nat -> storage_fine q ->
  inv (mkSW (w_mem w) (w_arrays w) (w_quantities w ++ [q])) (add_quantity (Some f) b s).
Proof.
  intros (A & Q & N & FA & FQ & FS) <- <- L G. cbn. repeat split; auto.
  - cbn. rewrite map_app, Q. reflexivity.
  - now apply Forall_snoc.
  - now apply Forall_snoc.
Qed.
Lemma add_copied w s q b c : inv w s -> r_block (g_ref q) = length (w_mem w) -> g_backend q = b -> storage_fine q ->
  inv (mkSW (w_mem w ++ [c]) (w_arrays w) (w_quantities w ++ [q])) (add_quantity None b s).
Proof.
  intros (A & Q & N & FA & FQ & FS) E <- G. cbn [add_quantity]. unfold inv. cbn [w_mem w_arrays w_quantities sh_arrays sh_quantities sh_next]. rewrite app_length. cbn [length].
  repeat split; auto.
  - rewrite map_app, Q. cbn [map]. now rewrite E, N.
  - lia.
  - eapply Forall_lt; [|exact FA]. lia.
  - apply Forall_snoc; [eapply Forall_lt; [|exact FQ]; lia|]. cbn. rewrite E. lia.
  - now apply Forall_snoc.
Qed.

Lemma same_written m' w s : inv w s -> length m' = length (w_mem w) -> inv (mkSW m' (w_arrays w) (w_quantities w)) s.
Proof. intros (A & Q & N & FA & FQ & FS) L. unfold inv. cbn. rewrite L. auto 10. Qed.

Definition okb {A} (r : res A) : bool := match r with Ok _ => true | Err _ => false end.

Ltac same_world I := split; [destruct I as (? & ? & ? & ? & ? & ?); repeat split; auto|split; [apply grown_refl || (repeat split; auto)|auto using extends_refl]].

Lemma make_step w s o dims units origin extent backend w' r : inv w s -> perf (UMake o dims units origin extent backend) w = (w', r) ->
  inv w' (evolve (UMake o dims units origin extent backend : use V) (okb r) s) /\ grown w w' /\ extends (w_mem w) (w_mem w').
Proof.
  intros I. unfold perf. cbn [perform]. destruct (find_object w o) as [d|x] eqn:F; [|intros [= <- <-]; same_world I].
  destruct (found_block _ _ _ _ I F) as [FB L]. destruct (construct _ _ _ _ _ _ _ _ _) as [m1 [q|x]] eqn:C; cbn [keep]; intros [= <- <-]; cbn [okb evolve].
  - destruct backend as [b|].
    + destruct (construct_copied _ _ _ _ _ _ _ _ _ L C) as (r & a & c & -> & S & SC & -> & -> & VL). split; [|split].
      * destruct o; (apply add_copied; [exact I|reflexivity|reflexivity|cbn; auto]).
      * split; [cbn; rewrite app_length; lia|]. split; auto. intros i q E. cbn. now apply nth_app_l.
      * exists [c]. reflexivity.
    + destruct (construct_shared _ _ _ _ _ _ _ _ C) as (-> & -> & VL). split; [|split].
      * destruct o as [n|i|i].
        -- rewrite FB. apply add_shared; auto; cbn in F; destruct (nth_error _ _) as [r|]; try discriminate; injection F as <-; cbn; auto.
        -- rewrite FB. apply add_shared; auto; cbn in F; destruct (nth_error _ _) as [q|]; try discriminate; injection F as <-; cbn; auto.
        -- rewrite FB. pose proof I as (A & Q & N & FA & FQ & FS). rewrite <- Q, nth_error_map. cbn in F.
           destruct (nth_error (w_quantities w) i) as [q|] eqn:R; [|discriminate]. unfold get_storage in F. pose proof (Forall_nth_error _ _ _ _ FS R) as G. unfold storage_fine in G.
           destruct (g_storage q) as [st|]; [|discriminate]. injection F as <-. destruct (g_backend q) as [b|] eqn:GB; [|tauto]. destruct G as [G1 G2]. cbn [option_map].
           apply add_shared; auto; cbn; auto. now rewrite G2, GB.
      * split; [cbn; lia|]. split; auto. intros i q E. cbn. now apply nth_app_l.
      * apply extends_refl.
  - apply construct_err in C. subst m1. same_world I.
Qed.

Lemma transpose_step w s i targets w' r : inv w s -> perf (UTranspose i targets) w = (w', r) ->
  inv w' (evolve (UTranspose i targets : use V) (okb r) s) /\ grown w w' /\ extends (w_mem w) (w_mem w').
Proof.
  intros I. unfold perf. cbn [perform]. destruct (nth_error (w_quantities w) i) as [q|] eqn:R; [|intros [= <- <-]; same_world I].
  pose proof I as (A & Q & N & FA & FQ & FS). pose proof (Forall_nth_error _ _ _ _ FQ R) as L. cbn in L.
  assert (SQ : nth_error (sh_quantities s) i = Some (r_block (g_ref q), g_backend q)) by (rewrite <- Q, nth_error_map, R; reflexivity).
  unfold g_transpose. destruct (transpose_order _ _) as [order|x]; [|intros [= <- <-]; same_world I].
  destruct (is_perm _ _); [|intros [= <- <-]; same_world I].
  destruct (construct _ _ _ _ _ _ _ _ _) as [m1 [q'|x]] eqn:C; cbn [keep]; intros [= <- <-]; cbn [okb evolve]; rewrite ?SQ.
  - destruct (g_backend q) as [b|] eqn:B.
    + destruct (fun L => construct_copied _ _ _ _ _ _ _ _ _ L C) as (r & a & c & _ & S & SC & -> & -> & VL); [exact L|]. split; [|split].
      * apply add_copied; [exact I|reflexivity|reflexivity|cbn; auto].
      * split; [cbn; rewrite app_length; lia|]. split; auto. intros j q0 E. cbn. now apply nth_app_l.
      * exists [c]. reflexivity.
    + destruct (construct_shared _ _ _ _ _ _ _ _ C) as (-> & -> & VL). split; [|split].
      * apply add_shared; cbn; auto.
      * split; [cbn; lia|]. split; auto. intros j q0 E. cbn. now apply nth_app_l.
      * apply extends_refl.
  - apply construct_err in C. subst m1. same_world I.
Qed.

Lemma step_inv u w s w' r : inv w s -> perf u w = (w', r) -> inv w' (evolve u (okb r) s) /\ grown w w' /\
  (forall b, (b < length (w_mem w))%nat -> ~ writes u s b -> nth_error (w_mem w') b = nth_error (w_mem w) b).
Proof.
  intros I E. assert (KX : forall b, extends (w_mem w) (w_mem w') -> (b < length (w_mem w))%nat -> nth_error (w_mem w') b = nth_error (w_mem w) b) by (intros; now apply extends_nth).
  destruct u as [a|o dims units origin extent backend|i targets|o src|i index src].
  - unfold perf in E. cbn in E. injection E as <- <-. pose proof I as (A & Q & N & FA & FQ & FS). cbn [okb evolve]. split; [|split].
    + unfold inv. cbn. rewrite app_length. cbn. repeat split; auto.
      * rewrite map_app, A. cbn. now rewrite N.
      * lia.
      * apply Forall_snoc; [eapply Forall_lt; [|exact FA]; lia|]. cbn. lia.
      * eapply Forall_lt; [|exact FQ]. lia.
    + split; [cbn; rewrite app_length; lia|]. split; auto. intros n r R. cbn. now apply nth_app_l.
    + intros b L _. cbn. now apply nth_error_app1.
  - destruct (make_step _ _ _ _ _ _ _ _ _ _ I E) as (I' & G & X). auto.
  - destruct (transpose_step _ _ _ _ _ _ I E) as (I' & G & X). auto.
  - unfold perf in E. cbn [perform] in E. destruct (find_object w o) as [d|x] eqn:F; [|injection E as <- <-; same_world I].
    destruct (write _ _ _ _) as [m e] eqn:W in E. injection E as <- <-. destruct (found_block _ _ _ _ I F) as [FB L]. replace (evolve _ _ s) with s by (destruct (okb e); reflexivity). split; [|split].
    + apply same_written; auto. eapply write_length; eauto.
    + split; [cbn; rewrite (write_length _ _ _ _ _ _ W); lia|auto].
    + intros b Lb NW. cbn. eapply write_other; eauto. intros ->. apply NW. exists o. split; auto. rewrite FB. destruct d; reflexivity.
  - unfold perf in E. cbn [perform] in E. destruct (nth_error (w_quantities w) i) as [q|] eqn:R; [|injection E as <- <-; same_world I].
    destruct (get_compute_index _ _) as [es|x]; [|injection E as <- <-; same_world I].
    destruct (write _ _ _ _) as [m e] eqn:W in E. injection E as <- <-. replace (evolve _ _ s) with s by (destruct (okb e); reflexivity). split; [|split].
    + apply same_written; auto. eapply write_length; eauto.
    + split; [cbn; rewrite (write_length _ _ _ _ _ _ W); lia|auto].
    + intros b Lb NW. cbn. eapply write_other; eauto. intros ->. apply NW. exists (OData i). split; auto. destruct I as (_ & Q & _). cbn. rewrite <- Q, nth_error_map, R. reflexivity.
Qed.
Lemma run_inv us : forall w s w' oks, inv w s -> perfs us w = (w', oks) -> inv w' (sharing_after us oks s) /\ grown w w' /\
  (forall b, (b < length (w_mem w))%nat -> ~ touches us oks s b -> nth_error (w_mem w') b = nth_error (w_mem w) b).
Proof.
  induction us as [|u us IH]; intros w s w' oks I E; unfold perfs in E; cbn [perform_all] in E.
  - injection E as <- <-. same_world I.
  - destruct (perform refuses junk u w) as [w1 r] eqn:P. destruct (perform_all refuses junk us w1) as [w2 l] eqn:P2. injection E as <- <-.
    change (match r with Ok _ => true | Err _ => false end) with (okb r).
    destruct (step_inv _ _ _ _ _ I P) as (I1 & G1 & K1). destruct (IH _ _ _ _ I1 P2) as (I2 & G2 & K2). split; [exact I2|]. split; [eapply grown_trans; eauto|].
    intros b L NT. cbn [touches] in NT. destruct G1 as (G1 & _). rewrite K2; [apply K1; tauto|lia|tauto].
Qed.

(** ** statements *)
Lemma found_later w w' o d : grown w w' -> find_object w o = Ok d -> find_object w' o = Ok d.
Proof.
  intros (_ & GA & GQ). destruct o as [n|i|i]; cbn.
  - destruct (nth_error (w_arrays w) n) as [r|] eqn:E; [|discriminate]. now rewrite (GA _ _ E).
  - destruct (nth_error (w_quantities w) i) as [q|] eqn:E; [|discriminate]. now rewrite (GQ _ _ E).
  - destruct (nth_error (w_quantities w) i) as [q|] eqn:E; [|discriminate]. now rewrite (GQ _ _ E).
Qed.
Lemma shown_ref w o d : find_object w o = Ok d -> shown w o = show (w_mem w) (ref_of d).
Proof. unfold shown. intros ->. now destruct d. Qed.
Lemma block_ref d : block_of d = r_block (ref_of d).
Proof. now destruct d. Qed.

Theorem separate us w oks us' w' oks' o f : perfs us empty_world = (w, oks) -> let s := sharing_after us oks nothing_shared in
  perfs us' w = (w', oks') -> shown w o <> None -> family_of s o = Some f -> ~ touches us' oks' s f -> shown w' o = shown w o.
Proof.
  intros E s E' X F NT. destruct (run_inv _ _ _ _ _ inv_start E) as (I & _ & _). fold s in I. destruct (run_inv _ _ _ _ _ I E') as (_ & G & K).
  destruct (find_object w o) as [d|] eqn:D; [|unfold shown in X; now rewrite D in X].
  destruct (found_block _ _ _ _ I D) as [FB L]. rewrite (shown_ref _ _ _ D), (shown_ref _ _ _ (found_later _ _ _ _ G D)). unfold show. rewrite <- block_ref.
  rewrite FB in F. injection F as <-. now rewrite K.
Qed.

Lemma nth_last {A} (l : list A) a : nth_error (l ++ [a]) (length l) = Some a.
Proof. rewrite nth_error_app2, Nat.sub_diag by lia. reflexivity. Qed.
Lemma family_range w s o f : inv w s -> family_of s o = Some f -> (f < sh_next s)%nat.
Proof.
  intros (A & Q & N & FA & FQ & FS). destruct o as [n|i|i]; cbn; [rewrite <- A|rewrite <- Q..]; rewrite nth_error_map; destruct (nth_error _ _) as [x|] eqn:E; try discriminate; intros [= <-]; rewrite <- N.
  - exact (Forall_nth_error _ _ _ _ FA E).
  - exact (Forall_nth_error _ _ _ _ FQ E).
  - exact (Forall_nth_error _ _ _ _ FQ E).
Qed.
Lemma quantities_length w s : inv w s -> length (w_quantities w) = length (sh_quantities s).
Proof. intros (_ & Q & _). now rewrite <- Q, map_length. Qed.
Lemma family_new w s b : inv w s -> let s' := add_quantity None b s in let k := length (w_quantities w) in
  family_of s' (OData k) = Some (sh_next s) /\ (forall o f, family_of s o = Some f -> family_of s' o = Some f /\ f <> sh_next s).
Proof.
  intros I s' k. split.
  - cbn. unfold k. rewrite (quantities_length _ _ I), nth_last. reflexivity.
  - intros o f F. split; [|pose proof (family_range _ _ _ _ I F); lia]. destruct o as [n|i|i]; cbn in *; auto; destruct (nth_error (sh_quantities s) i) eqn:E; try discriminate; now rewrite (nth_app_l _ _ _ _ E).
Qed.

(** what a new quantity shows *)
Theorem made_shared us w oks o dims units origin extent w' : perfs us empty_world = (w, oks) ->
  perf (UMake o dims units origin extent None) w = (w', Ok tt) -> let k := length (w_quantities w) in
  forall us' w'' oks', perfs us' w' = (w'', oks') -> exists a, shown w'' (OData k) = Some a /\ shown w'' o = Some a.
Proof.
  intros E P k us' w'' oks' E'. destruct (run_inv _ _ _ _ _ inv_start E) as (I & _ & _). destruct (step_inv _ _ _ _ _ I P) as (I1 & G1 & _). destruct (run_inv _ _ _ _ _ I1 E') as (I2 & G2 & _).
  unfold perf in P. cbn [perform] in P. destruct (find_object w o) as [d|x] eqn:F; [|discriminate]. destruct (construct _ _ _ _ _ _ _ _ _) as [m1 [q|x]] eqn:C; [|discriminate].
  cbn [keep] in P. injection P as <-. destruct (construct_shared _ _ _ _ _ _ _ _ C) as (-> & Eq & _).
  pose proof (found_later _ _ _ _ (grown_trans _ _ _ G1 G2) F) as F2. destruct (found_block _ _ _ _ I2 F2) as [_ L].
  assert (F3 : find_object w'' (OData k) = Ok (FromArray (g_ref q))) by (cbn; destruct G2 as (_ & _ & GQ); rewrite (GQ k q); [reflexivity|apply nth_last]).
  rewrite (shown_ref _ _ _ F2), (shown_ref _ _ _ F3), Eq. cbn [ref_of g_ref]. unfold show. rewrite <- block_ref. destruct (nth_error (w_mem w'') (block_of d)) eqn:M; [cbn; eauto|apply nth_error_None in M; lia].
Qed.

Theorem made_copied us w oks o dims units origin extent b w' : perfs us empty_world = (w, oks) ->
  perf (UMake o dims units origin extent (Some b)) w = (w', Ok tt) -> let k := length (w_quantities w) in
  let s := sharing_after us oks nothing_shared in let s' := evolve (UMake o dims units origin extent (Some b) : use V) true s in
  (exists a c, shown w o = Some a /\ shown w' (OData k) = Some c /\ same c a) /\
  family_of s' (OData k) = Some (sh_next s) /\ (forall o f, family_of s o = Some f -> family_of s' o = Some f /\ f <> sh_next s).
Proof.
  intros E P k s s'. destruct (run_inv _ _ _ _ _ inv_start E) as (I & _ & _). fold s in I.
  unfold perf in P. cbn [perform] in P. destruct (find_object w o) as [d|x] eqn:F; [|discriminate]. destruct (construct _ _ _ _ _ _ _ _ _) as [m1 [q|x]] eqn:C; [|discriminate].
  cbn [keep] in P. injection P as <-. destruct (found_block _ _ _ _ I F) as [_ L].
  destruct (construct_copied _ _ _ _ _ _ _ _ _ L C) as (r & a & c & -> & S & SC & -> & Eq & VL). split.
  - exists a, c. split; [now rewrite (shown_ref _ _ _ F)|]. split; auto. unfold shown, find_object. cbn [w_quantities]. unfold k. rewrite nth_last. cbn [w_mem]. rewrite Eq. unfold show. cbn [g_ref r_block r_view].
    rewrite nth_last. cbn. f_equal. unfold v_read, v_whole. cbn. replace (r_shape r) with (shp c); [now destruct c|]. destruct SC as [SC _]. rewrite SC. exact (show_shape _ _ _ S).
  - replace s' with (add_quantity None (Some b) s) by (unfold s'; now destruct o). now apply family_new.
Qed.

(** transposing *)
Lemma transpose_view m q targets Q : as_quantity m q = Some Q ->
  q_transpose Q targets =
    (do order <- transpose_order (g_dims q) targets;
     if is_perm order (length (r_shape (g_ref q))) then
       match construct refuses junk m (FromArray (mkRef (r_block (g_ref q)) (v_transpose (r_view (g_ref q)) order)))
          (map (fun i => nth i (g_dims q) EmptyString) order) (g_units q)
          (Some (map (fun i => nth i (g_origin q) 0) order)) (Some (map (fun i => nth i (g_extent q) 0) order)) None with
       | (_, Ok q') => match as_quantity m q' with Some Q' => Ok Q' | None => Err IndexError end
       | (_, Err e) => Err e
       end
     else Err ValueError).
Proof.
  unfold as_quantity, show. destruct (nth_error m (r_block (g_ref q))) as [a|] eqn:E; [|discriminate]. intros [= <-]. unfold q_transpose. cbn [q_dims q_data shp v_read q_units q_origin q_extent].
  destruct (transpose_order _ _) as [order|x]; [|reflexivity]. cbn [bind]. fold (r_shape (g_ref q)). destruct (is_perm _ _); [|reflexivity].
  unfold new_quantity, construct. cbn [r_shape r_view v_transpose vshp shp v_read v_whole].
  fold (r_shape (g_ref q)). cbn [bind]. destruct (validate_lengths _ _ _ _) as [[]|x]; [|reflexivity]. cbn [bind g_ref r_block]. rewrite E. reflexivity.
Qed.
Lemma quantity_later w s q i w' s' : inv w s -> nth_error (w_quantities w) i = Some q -> grown w w' -> inv w' s' -> exists Q, as_quantity (w_mem w') q = Some Q.
Proof.
  intros I E (_ & _ & G) (_ & _ & _ & _ & FQ & _). pose proof (Forall_nth_error _ _ _ _ FQ (G _ _ E)) as L. cbn in L. unfold as_quantity, show.
  destruct (nth_error (w_mem w') (r_block (g_ref q))) eqn:M; [cbn; eauto|apply nth_error_None in M; lia].
Qed.

Theorem transposed_shared us w oks i q targets w' r : perfs us empty_world = (w, oks) -> nth_error (w_quantities w) i = Some q -> g_backend q = None ->
  perf (UTranspose i targets) w = (w', r) ->
  match r with
  | Err e => exists Q, as_quantity (w_mem w) q = Some Q /\ q_transpose Q targets = Err e
  | Ok _ => exists q', nth_error (w_quantities w') (length (w_quantities w)) = Some q' /\
      forall us' w'' oks', perfs us' w' = (w'', oks') ->
        exists Q Q', as_quantity (w_mem w'') q = Some Q /\ as_quantity (w_mem w'') q' = Some Q' /\ q_transpose Q targets = Ok Q'
  end.
Proof.
  intros E R B P. destruct (run_inv _ _ _ _ _ inv_start E) as (I & _ & _). destruct (step_inv _ _ _ _ _ I P) as (I1 & G1 & _).
  destruct (quantity_later _ _ _ _ _ _ I R (grown_refl w) I) as (Q0 & E0). unfold perf in P. cbn [perform] in P. rewrite R in P. unfold g_transpose in P. rewrite B in P.
  pose proof (fun m Q => transpose_view m q targets Q) as T. destruct (transpose_order (g_dims q) targets) as [order|x]; cbn [bind] in T; [|injection P as <- <-; eauto].
  destruct (is_perm _ _); [|injection P as <- <-; eauto].
  destruct (construct _ _ _ _ _ _ _ _ _) as [m1 [q'|x]] eqn:C in P; cbn [keep] in P; injection P as <- <-.
  - exists q'. split; [apply nth_last|]. intros us' w'' oks' E'. destruct (run_inv _ _ _ _ _ I1 E') as (I2 & G2 & _).
    destruct (construct_shared _ _ _ _ _ _ _ _ C) as (-> & Eq & _).
    destruct (quantity_later _ _ _ _ _ _ I R (grown_trans _ _ _ G1 G2) I2) as (Q & EQ).
    destruct (fun H => quantity_later _ _ q' (length (w_quantities w)) _ _ I1 H G2 I2) as (Q' & EQ'); [apply nth_last|].
    exists Q, Q'. repeat split; auto. rewrite (T _ _ EQ).
    assert (C2 : forall m, construct refuses junk m (FromArray (mkRef (r_block (g_ref q)) (v_transpose (r_view (g_ref q)) order)))
          (map (fun i => nth i (g_dims q) EmptyString) order) (g_units q)
          (Some (map (fun i => nth i (g_origin q) 0) order)) (Some (map (fun i => nth i (g_extent q) 0) order)) None = (m, Ok q'))
      by (intros m; revert C; unfold construct; destruct (validate_lengths _ _ _ _); intros [= <-]; reflexivity).
    now rewrite C2, EQ'.
  - exists Q0. split; auto. rewrite (T _ _ E0). now rewrite C.
Qed.

Theorem transposed_copied us w oks i q b targets w' : perfs us empty_world = (w, oks) -> nth_error (w_quantities w) i = Some q -> g_backend q = Some b ->
  perf (UTranspose i targets) w = (w', Ok tt) -> let k := length (w_quantities w) in
  let s := sharing_after us oks nothing_shared in let s' := evolve (UTranspose i targets : use V) true s in
  (exists q' Q Q' C, nth_error (w_quantities w') k = Some q' /\ as_quantity (w_mem w) q = Some Q /\ q_transpose Q targets = Ok Q' /\
     as_quantity (w_mem w') q' = Some C /\ q_meta C = q_meta Q' /\ q_units C = q_units Q' /\ same (q_data C) (q_data Q') /\ g_backend q' = Some b) /\
  family_of s' (OData k) = Some (sh_next s) /\ (forall o f, family_of s o = Some f -> family_of s' o = Some f /\ f <> sh_next s).
Proof.
  intros E R B P k s s'. destruct (run_inv _ _ _ _ _ inv_start E) as (I & _ & _). fold s in I.
  destruct (quantity_later _ _ _ _ _ _ I R (grown_refl w) I) as (Q0 & E0). unfold perf in P. cbn [perform] in P. rewrite R in P. unfold g_transpose in P. rewrite B in P.
  pose proof (transpose_view _ _ targets _ E0) as T. destruct (transpose_order (g_dims q) targets) as [order|x]; cbn [bind] in T; [|discriminate].
  destruct (is_perm _ _); [|discriminate]. destruct (construct _ _ _ _ _ _ _ _ (Some b)) as [m1 [q'|x]] eqn:C in P; cbn [keep] in P; [|discriminate]. injection P as <-.
  destruct (fun L => construct_copied _ _ _ _ _ _ _ _ _ L C) as (r & a & c & Er & S & SC & -> & Eq & VL).
  { pose proof I as (_ & _ & _ & _ & FQ & _). exact (Forall_nth_error _ _ _ _ FQ R). }
  injection Er as <-. split.
  - unfold construct in T. cbn [r_shape r_view] in T. subst q'. cbn [g_origin g_extent the_origin the_extent r_shape r_view] in VL. rewrite VL in T.
    unfold as_quantity at 1 in T. cbn [g_ref] in T. rewrite S in T. cbn [option_map g_dims g_units g_origin g_extent] in T.
    eexists _, Q0, _, _. split; [apply nth_last|]. split; auto. split; [exact T|]. unfold as_quantity. cbn [w_mem g_ref g_dims g_units g_origin g_extent g_backend the_origin the_extent].
    unfold show. cbn [r_block r_view]. rewrite nth_last. cbn [option_map]. split; [reflexivity|].
    assert (H : shp c = shp a) by apply SC. assert (H2 : shp a = vshp (v_transpose (r_view (g_ref q)) order)).
    { exact (show_shape _ _ _ S). }
    unfold q_meta. cbn [q_units q_data q_dims q_origin q_extent shp v_read v_whole vshp r_shape r_view]. repeat split; auto.
    + now rewrite H2.
    + intros p Hp. cbn [at_ v_read vmap]. apply SC. now rewrite H, H2.
  - replace s' with (add_quantity None (Some b) s).
    + now apply family_new.
    + unfold s'. cbn. pose proof I as (_ & Q & _). rewrite <- Q, nth_error_map, R. cbn. now rewrite B.
Qed.

(** the storage attribute *)
Theorem storage_attribute us w oks i q : perfs us empty_world = (w, oks) -> nth_error (w_quantities w) i = Some q ->
  option_map snd (nth_error (sh_quantities (sharing_after us oks nothing_shared)) i) = Some (g_backend q) /\
  match g_backend q with
  | None => get_storage q = Err TypeError
  | Some b => exists st, get_storage q = Ok st /\ s_backend st = b /\ shown w (OStorage i) = shown w (OData i)
  end.
Proof.
  intros E R. destruct (run_inv _ _ _ _ _ inv_start E) as (I & _ & _). pose proof I as (_ & Q & _ & _ & _ & FS). split; [rewrite <- Q, nth_error_map, R; reflexivity|].
  pose proof (Forall_nth_error _ _ _ _ FS R) as G. unfold storage_fine in G. unfold shown, find_object, get_storage. rewrite R.
  destruct (g_storage q) as [st|] eqn:S, (g_backend q) as [b|]; try tauto. exists st. destruct G as [G1 G2]. cbn. rewrite G1. auto.
Qed.
Theorem storage_origin us w oks o dims units origin extent b w' : perfs us empty_world = (w, oks) ->
  perf (UMake o dims units origin extent (Some b)) w = (w', Ok tt) ->
  exists q st, nth_error (w_quantities w') (length (w_quantities w)) = Some q /\ get_storage q = Ok st /\ s_default_origin st = g_origin q /\
    g_origin q = match origin with Some o => o | None => map (fun _ => 0) dims end.
Proof.
  intros E P. destruct (run_inv _ _ _ _ _ inv_start E) as (I & _ & _).
  unfold perf in P. cbn [perform] in P. destruct (find_object w o) as [d|x] eqn:F; [|discriminate]. destruct (construct _ _ _ _ _ _ _ _ _) as [m1 [q|x]] eqn:C; [|discriminate].
  cbn [keep] in P. injection P as <-. destruct (found_block _ _ _ _ I F) as [_ L].
  destruct (construct_copied _ _ _ _ _ _ _ _ _ L C) as (r & a & c & -> & S & SC & -> & -> & VL). eexists _, _. split; [apply nth_last|]. cbn. auto.
Qed.
Theorem storage_given us w oks i dims units origin extent w' : perfs us empty_world = (w, oks) ->
  perf (UMake (OStorage i) dims units origin extent None) w = (w', Ok tt) ->
  exists q q', nth_error (w_quantities w) i = Some q /\ nth_error (w_quantities w') (length (w_quantities w)) = Some q' /\
    get_storage q' = get_storage q /\ g_backend q' = g_backend q /\ g_backend q <> None.
Proof.
  intros E P. destruct (run_inv _ _ _ _ _ inv_start E) as (I & _ & _). pose proof I as (_ & _ & _ & _ & _ & FS).
  unfold perf in P. cbn [perform find_object] in P. destruct (nth_error (w_quantities w) i) as [q|] eqn:R; [|discriminate]. unfold get_storage in P. pose proof (Forall_nth_error _ _ _ _ FS R) as G. unfold storage_fine in G.
  destruct (g_storage q) as [st|] eqn:S; [|discriminate]. cbn [rmap] in P. destruct (construct _ _ _ _ _ _ _ _ _) as [m1 [q'|x]] eqn:C; [|discriminate].
  cbn [keep] in P. injection P as <-. destruct (construct_shared _ _ _ _ _ _ _ _ C) as (-> & -> & VL). exists q. eexists. split; auto. split; [apply nth_last|]. unfold get_storage. cbn. rewrite S.
  destruct (g_backend q); [|tauto]. destruct G as [_ ->]. repeat split. discriminate.
Qed.
Theorem backend_twice us w oks i dims units origin extent b w' r : perfs us empty_world = (w, oks) ->
  perf (UMake (OStorage i) dims units origin extent (Some b)) w = (w', r) -> w' = w /\ (shown w (OStorage i) <> None -> r = Err TypeError).
Proof.
  intros E P. unfold perf in P. cbn [perform find_object] in P. unfold shown, find_object. destruct (nth_error (w_quantities w) i) as [q|]; [|injection P as <- <-; split; congruence].
  unfold get_storage in *. destruct (g_storage q); injection P as <- <-; (split; [now destruct w|congruence]).
Qed.

(** storages made by a factory *)
Theorem factory_storage sz backend contents m dims units m' q : storage_allocate refuses junk sz backend contents m dims units = (m', Ok q) ->
  (exists st, get_storage q = Ok st /\ s_backend st = backend /\ s_default_origin st = map (fun _ => 0) dims) /\ g_origin q = get_origin sz dims /\
  (exists a, m' = (m ++ [a])%list) /\ forall Q, allocate sz contents dims units = Ok Q -> as_quantity m' q = Some Q.
Proof.
  unfold storage_allocate, allocate. destruct (get_extent sz dims) as [extent|]; [|discriminate]. destruct (get_shape sz dims) as [shape|] eqn:Sh; [|discriminate].
  destruct (refuses _ _ _); [discriminate|]. cbn [new_array]. cbn [shp]. destruct (construct _ _ _ _ _ _ _ _ _) as [m2 [q0|]] eqn:C; [|discriminate]. intros [= <- <-].
  destruct (construct_shared _ _ _ _ _ _ _ _ C) as (-> & -> & VL). cbn [ref_of s_ref r_shape r_view vshp v_whole g_origin g_extent the_origin the_extent g_dims] in VL.
  cbn. repeat split.
  - eexists. split; [reflexivity|]. cbn. split; auto. unfold get_shape in Sh. apply rmapM_Ok in Sh. clear - Sh. induction Sh; cbn; congruence.
  - eauto.
  - intros Q. unfold numpy_alloc. destruct (forallb _ _); [|discriminate]. cbn [bind new_quantity shp]. rewrite VL. cbn [bind]. intros [= <-]. unfold as_quantity, show. cbn [g_ref r_block r_view]. rewrite nth_last. reflexivity.
Qed.
End Sharing.
