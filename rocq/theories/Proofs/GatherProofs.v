(** gather, and gather after scatter and vice versa *)
From Verif.Base Require Import Base Lemmas.
From Verif.Model Require Import Consts Partitioner Numpy Quantity Collective ScatterGather.
From Verif.Spec Require Import Grid Layouts Views Together Distribute.
From Verif.Proofs Require Import NumpyProofs Regions ViewProofs CornerProofs CollectiveProofs Slices Parts ScatterProofs.
From Coq Require Import ZifyBool.
Ltac Zify.zify_post_hook ::= idtac.
Notation map2 := Numpy.map2.

Section G.
Context {V : Type}.

Lemma written_trans (q q' q'' : quantity V) a a' : written q q' a -> written q' q'' a' -> written q q'' a'.
Proof.
  intros (S1 & M1 & U1 & F1) (S2 & M2 & U2 & F2). pose proof M1 as M1'. unfold q_meta in M1. injection M1 as E1 E2 E3 E4. split; auto. split; [congruence|]. split; [congruence|].
  intros i I N. rewrite F2, F1; auto; [congruence|]. intros p P. rewrite E2. rewrite E3 in P. now apply N.
Qed.

Lemma written_self (q : quantity V) : written q q (domain_of q).
Proof. split; [split; auto|]. auto. Qed.

Lemma written_same (q q' : quantity V) a a' : written q q' a -> same a a' -> written q q' a'.
Proof. intros ((S1 & S2) & R) (T1 & T2). split; auto. split; [congruence|]. intros p P. rewrite S2 by auto. apply T2. congruence. Qed.

(** metadata other than contents *)
Lemma written_meta (q q' : quantity V) a : written q q' a -> q_dims q' = q_dims q /\ q_origin q' = q_origin q /\ q_extent q' = q_extent q /\ shp (q_data q') = shp (q_data q).
Proof. intros (_ & M & _). unfold q_meta in M. now injection M. Qed.

Section Part.
Variables (p : partitioner) (dims : list string) (rext : list Z).
Hypothesis Fi : fits (layout_of p) dims rext.

Lemma sized_written (q q' : quantity V) a : written q q' a -> global_sized p dims rext q -> global_sized p dims rext q'.
Proof. intros W (A & B & C). destruct (written_meta _ _ _ W) as (D1 & D2 & D3 & D4). destruct W as (_ & M & _). split; [now rewrite M|]. split; congruence. Qed.

(** the receive buffer *)
Lemma flat_map_rows (f : nat -> idx -> V) s n : flat_map (fun r => map (f r) (all_idx s)) (seq 0 n) = map (fun i => f (Z.to_nat (hd 0 i)) (tl i)) (all_idx (Z.of_nat n :: s)).
Proof.
  cbn [all_idx]. rewrite map_flat_map. unfold zrange. rewrite Nat2Z.id. induction (seq 0 n) as [|x l IH]; cbn [flat_map map]; auto.
  rewrite IH, map_map. f_equal. apply map_ext. intros i. cbn [hd tl]. now rewrite Nat2Z.id.
Qed.

Lemma filled_rows (f : nat -> idx -> V) s n junk : let shape := Z.of_nat n :: s in
  let b := a_write (combine (all_idx shape) (flat_map (fun r => map (f r) (all_idx s)) (seq 0 n))) (mkA shape junk) in
  shp b = shape /\ forall r pt, (r < n)%nat -> in_shape s pt -> at_ b (Z.of_nat r :: pt) = f r pt.
Proof.
  intros shape b. split; [unfold b; now rewrite shp_a_write|]. intros r pt Hr P. unfold b. rewrite flat_map_rows. fold shape.
  rewrite <- (map_id (all_idx shape)) at 1. rewrite combine_map.
  assert (J : inj_view (v_whole shape)) by (intros x y _ _ E; exact E).
  assert (I : in_shape shape (Z.of_nat r :: pt)) by (constructor; auto; lia).
  pose proof (write_view_in (mkA shape junk) (v_whole shape) (fun i => f (Z.to_nat (hd 0 i)) (tl i)) (Z.of_nat r :: pt) J I) as W. cbn [v_whole vshp vmap] in W.
  rewrite W. cbn [hd tl]. now rewrite Nat2Z.id.
Qed.

Definition upto (n : nat) (vals : nat -> arr V) (old a : arr V) : Prop :=
  forall g, in_shape (global_size p dims rext) g ->
    (exists r pt, (r < n)%nat /\ in_shape rext pt /\ place p r dims rext pt = g /\ at_ a g = at_ (vals r) pt /\
       forall r' pt', (r' < n)%nat -> in_shape rext pt' -> place p r' dims rext pt' = g -> (r' <= r)%nat) \/
    ((forall r' pt', (r' < n)%nat -> in_shape rext pt' -> place p r' dims rext pt' <> g) /\ at_ a g = at_ old g).

Lemma unpack_ok (q : quantity V) buf vals : global_sized p dims rext q -> shp buf = p_total_ranks p :: rext ->
  (forall r pt, (r < ranks p)%nat -> in_shape rext pt -> at_ buf (Z.of_nat r :: pt) = at_ (vals r) pt) ->
  exists q' a, unpack V p buf q = Ok q' /\ written q q' a /\ gathered p dims rext vals (domain_of q) a.
Proof.
  intros Q SB B. destruct (rext_shape p dims rext Fi) as (e & s & ER & He). unfold unpack. rewrite <- (ranks_total p dims rext Fi) in *.
  destruct (rfold_range (fun recv rank => do sl <- p_subtile_slice p rank (q_dims recv) (q_extent recv); do a <- getitem buf [IInt rank; IALL]; view_set recv (PTuple sl) a)
    (fun n q' => exists a, written q q' a /\ upto (Z.to_nat n) vals (domain_of q) a) (ranks p) q) as (q' & E & a & W & U).
  - exists (domain_of q). split; [apply written_self|]. intros g G. right. split; auto. cbn. lia.
  - intros r q' Hr (a & W & U). pose proof (sized_written _ _ _ W Q) as Q'. pose proof Q' as (_ & D & E). rewrite D, E, (slice_ok p dims rext Fi). cbn [bind].
    destruct (row_get buf (Z.of_nat (ranks p)) e s (Z.of_nat r)) as (src & ES & SS & AS); try congruence; try lia. rewrite ES. cbn [bind].
    destruct (part_set p dims rext Fi q' r src Q' Hr ltac:(congruence)) as (q'' & a' & -> & W' & A1 & A2).
    exists q''. split; auto. exists a'. split; [eapply written_trans; eauto|].
    replace (Z.to_nat (Z.of_nat r + 1)) with (S r) by lia. rewrite Nat2Z.id in U. intros g G.
    destruct (in_dec (list_eq_dec Z.eq_dec) g (map (place p r dims rext) (all_idx rext))) as [I|I].
    + apply in_map_iff in I. destruct I as (pt & EG & P). rewrite in_all_idx in P. left. exists r, pt. split; [lia|]. split; auto. split; auto. split; [|lia].
      rewrite <- EG, A1 by auto. rewrite AS by congruence. now apply B.
    + assert (N : forall pt, in_shape rext pt -> g <> place p r dims rext pt).
      { intros pt P X. apply I. apply in_map_iff. exists pt. rewrite in_all_idx. auto. }
      assert (AG : at_ a' g = at_ a g).
      { rewrite A2 by auto. destruct W as ((SW & AW) & _). apply AW. cbn [domain_of shp]. now rewrite E. }
      destruct (U g G) as [(r0 & pt & H1 & H2 & H3 & H4 & H5)|(H1 & H2)].
      * left. exists r0, pt. split; [lia|]. split; auto. split; auto. split; [congruence|]. intros r' pt' H' P' E'.
        destruct (Nat.eq_dec r' r) as [->|]; [|apply (H5 r' pt'); auto; lia]. exfalso. eapply N; eauto.
      * right. split; [|congruence]. intros r' pt' H' P' E'. destruct (Nat.eq_dec r' r) as [->|]; [eapply N; eauto|]. apply (H1 r' pt'); auto; lia.
  - exists q', a. split; auto. split; auto. rewrite Nat2Z.id in U. destruct W as ((SW & _) & M & _). split; [|intros g G; apply U].
    + cbn [domain_of shp] in SW. rewrite <- SW. unfold q_meta in M. injection M as _ _ -> _. apply Q.
    + cbn [domain_of shp] in SW. rewrite <- SW in G. unfold q_meta in M. injection M as _ _ M _. rewrite M in G. destruct Q as (_ & _ & Q). now rewrite <- Q.
Qed.

Lemma fits_nonneg : Forall (Z.le 0) rext.
Proof.
  destruct Fi as (_ & _ & F). clear - F. induction F as [|d e ds re (H & _) F IH]; constructor; auto. destruct (stag_01 d); lia.
Qed.

Lemma gather_dims_ok : gather_dims p dims = global_dims p dims.
Proof. reflexivity. Qed.
Lemma global_extent_ok : p_global_extent p dims rext = global_size p dims rext.
Proof.
  clear Fi. unfold p_global_extent, tp_global_extent, cs_global_extent, global_size. destruct p; rewrite tile_extent_ok; reflexivity.
Qed.

Lemma tile_size_nonneg : Forall (Z.le 0) (global_size p dims rext) /\ length (global_size p dims rext) = length (global_dims p dims).
Proof.
  pose proof (fits_layout _ _ _ Fi) as [A B]. destruct Fi as (LO & _ & F). unfold global_size, global_dims.
  assert (X : Forall (Z.le 0) (tile_size (layout_of p) dims rext) /\ length (tile_size (layout_of p) dims rext) = length dims).
  { clear Fi. clear A B. induction F as [|d e ds re (H & _) F IH]; cbn [tile_size map2]; [split; [constructor|auto]|]. fold (tile_size (layout_of p) ds re).
    destruct IH. split; [constructor; auto|cbn; lia]. pose proof (layout_ok_pos _ (along_ok _ d LO)). destruct (stag_01 d); nia. }
  destruct X. destruct p; cbn [layout_of] in *; auto. split; [constructor; auto; lia|]. cbn. lia.
Qed.

Lemma blank_global units (contents : idx -> V) : global_sized p dims rext (blank (global_dims p dims) units (global_size p dims rext) contents).
Proof.
  destruct tile_size_nonneg as (F & L). split; [|split; reflexivity]. split; cbn; [lia|].
  revert L. generalize (global_dims p dims). clear Fi. induction F as [|e re H F IH]; intros [|d ds] L; cbn in L; try discriminate; [constructor|].
  injection L as L. cbn [map]. constructor; auto; lia.
Qed.

Lemma new_global units (contents : idx -> V) : new_quantity (DArray (mkA (global_size p dims rext) contents)) (global_dims p dims) units (Some (map (fun _ => 0) (global_dims p dims))) (Some (global_size p dims rext))
  = Ok (blank (global_dims p dims) units (global_size p dims rext) contents).
Proof.
  destruct tile_size_nonneg as (_ & L). unfold new_quantity, validate_lengths. cbn [bind shp]. rewrite map_length, L, Nat.eqb_refl. cbn [negb bind]. reflexivity.
Qed.

Variables (sends : nat -> quantity V) (recv : option (quantity V)) (others : nat -> option (quantity V)) (junk : nat -> nat -> idx -> V).
Hypothesis HS : forall r, (r < ranks p)%nat -> rank_sized rext (sends r).
Hypothesis HR : match recv with Some q => global_sized p dims rext q | None => q_dims (sends 0%nat) = dims end.

Let base := or_blank recv (blank (global_dims p dims) (q_units (sends 0%nat)) (global_size p dims rext) (junk 0%nat 0%nat)).

Lemma base_global : global_sized p dims rext base.
Proof. unfold base. destruct recv; auto. apply blank_global. Qed.

Lemma base_made {T} : plift match recv with Some q => Ok q | None => new_quantity (DArray (mkA (p_global_extent p (q_dims (sends 0%nat)) rext) (junk 0%nat 0%nat))) (gather_dims p (q_dims (sends 0%nat))) (q_units (sends 0%nat))
        (Some (map (fun _ => 0) (gather_dims p (q_dims (sends 0%nat))))) (Some (p_global_extent p (q_dims (sends 0%nat)) rext)) end = PRet base :> proc (obj T) V _.
Proof. unfold base. destruct recv as [q|]; auto. rewrite HR, gather_dims_ok, global_extent_ok, new_global. reflexivity. Qed.

Let buffer : arr V :=
  a_write (combine (all_idx (p_total_ranks p :: rext)) (flat_map (fun r => map (at_ (domain_of (sends r))) (all_idx rext)) (seq 0 (ranks p)))) (mkA (p_total_ranks p :: rext) (junk 0%nat 1%nat)).
Definition gather_result : quantity V := ok_or (unpack V p buffer base) base.

Lemma buffer_ok : shp buffer = p_total_ranks p :: rext /\ forall r pt, (r < ranks p)%nat -> in_shape rext pt -> at_ buffer (Z.of_nat r :: pt) = at_ (domain_of (sends r)) pt.
Proof. unfold buffer. rewrite <- (ranks_total p dims rext Fi). apply filled_rows. Qed.

Lemma unpacked : exists a, unpack V p buffer base = Ok gather_result /\ written base gather_result a /\ gathered p dims rext (fun r => domain_of (sends r)) (domain_of base) a.
Proof.
  destruct buffer_ok as (S1 & B). destruct (unpack_ok base buffer (fun r => domain_of (sends r)) base_global S1 B) as (q' & a & E & W & G).
  exists a. unfold gather_result. rewrite E. cbn [ok_or]. auto.
Qed.

Theorem gather_together {T} : together (ranks p) (fun r => gather V T p (Z.of_nat r) (junk r) (sends r) (match r with O => recv | _ => others r end))
  (fun r => Ok (match r with O => Some gather_result | _ => None end)).
Proof.
  pose proof (ranks_pos p dims rext Fi) as RP.
  assert (VB : forall r, (r < ranks p)%nat -> exists v, view_all V (sends r) = Ok v /\ view_elements V (sends r) v = map (at_ (domain_of (sends r))) (all_idx rext)).
  { intros r Hr. destruct (HS r Hr) as (W & X). destruct (view_all_ok (sends r) W) as (v & E & S1 & M).
    { destruct (rext_shape p dims rext Fi) as (e & s & Y & _). rewrite X. congruence. }
    exists v. split; auto. rewrite <- X. now apply view_elements_ok. }
  destruct unpacked as (a & EU & _).
  eapply together_ext; [|eapply (together_gather (ranks p) (fun r => map (at_ (domain_of (sends r))) (all_idx rext))
    (fun r => match r with O => Some (length (all_idx (p_total_ranks p :: rext))) | _ => None end) (length (all_idx rext))
    (fun r => match r with O => gather_rest V T p (junk 0%nat) (sends 0%nat) recv | _ => fun _ => PRet None end)); [exact RP| | |]].
  - intros r Hr. unfold gather. destruct (VB r Hr) as (v & -> & EL). cbn [plift pbind]. rewrite EL. destruct r as [|r].
    + change (Z.of_nat 0 =? ROOT_RANK) with true. cbv iota. destruct (HS _ Hr) as (_ & ->). reflexivity.
    + replace (Z.of_nat (S r) =? ROOT_RANK) with false by (unfold ROOT_RANK; lia). reflexivity.
  - intros r Hr. now rewrite map_length.
  - f_equal. cbn [all_idx]. rewrite (flat_map_length_const _ (length (all_idx rext))) by (intros; apply map_length). rewrite length_zrange.
    rewrite <- (ranks_total p dims rext Fi). lia.
  - apply tg_end. intros r Hr. destruct r as [|r]; [|reflexivity]. cbn [Nat.eqb]. unfold gather_rest. destruct (HS _ Hr) as (_ & ->).
    cbv zeta. rewrite base_made. cbn [pbind]. fold buffer. rewrite EU. reflexivity.
Qed.

Theorem gather_written : exists a, written base gather_result a /\ gathered p dims rext (fun r => domain_of (sends r)) (domain_of base) a.
Proof. destruct unpacked as (a & _ & W & G). eauto. Qed.
End Part.
End G.
