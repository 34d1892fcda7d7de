(** Transposition and construction of quantities. *)
From Verif.Base Require Import Base Lemmas.
From Verif.Model Require Import Consts Numpy Quantity.
From Verif.Spec Require Import Grid Views.
From Verif.Proofs Require Import NumpyProofs.
From Coq Require Import Permutation.

Lemma dindex_lt d dims : In d dims -> (dindex d dims < length dims)%nat /\ nth (dindex d dims) dims EmptyString = d.
Proof.
  induction dims as [|d' dims IH]; cbn; [tauto|]. intros I. destruct (String.eqb_spec d d'); [subst; split; auto; lia|].
  destruct I as [->|I]; [congruence|]. destruct (IH I). split; auto. lia.
Qed.

Lemma dindex_nth dims : NoDup dims -> forall i, (i < length dims)%nat -> dindex (nth i dims EmptyString) dims = i.
Proof.
  induction 1 as [|d dims N ND IH]; cbn; [lia|]. intros [|i] H; [now rewrite String.eqb_refl|].
  destruct (String.eqb_spec (nth i dims EmptyString) d) as [E|E]; [|now rewrite IH by lia]. exfalso. apply N. rewrite <- E. apply nth_In. lia.
Qed.

Lemma map_dindex dims : NoDup dims -> map (fun d => dindex d dims) dims = seq 0 (length dims).
Proof.
  intros N. apply nth_ext with (d := O) (d' := O); [now rewrite map_length, seq_length|]. rewrite map_length. intros i H.
  rewrite seq_nth by auto. rewrite nth_indep with (d' := (fun d => dindex d dims) EmptyString) by now rewrite map_length.
  rewrite (map_nth (fun d => dindex d dims)). now apply dindex_nth.
Qed.

Lemma map_nth_seq {A} (l : list A) d : map (fun i => nth i l d) (seq 0 (length l)) = l.
Proof.
  apply nth_ext with (d := d) (d' := d); rewrite map_length, seq_length; auto. intros i H.
  rewrite nth_indep with (d' := (fun i => nth i l d) O) by now rewrite map_length, seq_length.
  rewrite (map_nth (fun i => nth i l d)). now rewrite seq_nth.
Qed.

Lemma is_perm_spec order n : is_perm order n = true <-> Permutation order (seq 0 n).
Proof.
  unfold is_perm. rewrite andb_true_iff, Nat.eqb_eq, forallb_forall. split.
  - intros (L & F). symmetry. apply NoDup_Permutation_bis; [apply seq_NoDup|rewrite seq_length; lia|]. intros i I. apply F in I. apply existsb_exists in I. destruct I as (j & I & E).
    apply Nat.eqb_eq in E. now subst.
  - intros P. split; [now rewrite (Permutation_length P), seq_length|]. intros i I. apply existsb_exists. exists i. split; [|apply Nat.eqb_refl].
    eapply Permutation_in; [symmetry; exact P|exact I].
Qed.

Lemma untranspose_gen order : forall (q : idx) (p : idx), NoDup order -> length p = length order -> Forall (fun j => (j < length q)%nat) order ->
  let r := fold_left (fun q ij => upd q (fst ij) (snd ij)) (combine order p) q in
  length r = length q /\ (forall i, (i < length order)%nat -> nth (nth i order O) r 0 = nth i p 0) /\ (forall j, ~ In j order -> nth j r 0 = nth j q 0).
Proof.
  induction order as [|j order IH]; intros q [|x p] N L F; try discriminate; cbn [combine fold_left].
  - cbn. repeat split; auto; intros; lia.
  - inversion N; subst. inversion F; subst. cbn in L. destruct (IH (upd q j x) p) as (A & B & C); auto; [eapply Forall_impl; [|eassumption]; cbn; intros; now rewrite length_upd|].
    cbn [fst snd]. split; [rewrite A; apply length_upd|]. split.
    + intros [|i] Hi; cbn [nth]; [|apply B; cbn in Hi; lia]. rewrite C by auto. now apply nth_upd_eq.
    + intros j' NI. rewrite C by (intros I; apply NI; now right). apply nth_upd_neq. intros ->. apply NI. now left.
Qed.

Lemma untranspose_nth order p : Permutation order (seq 0 (length order)) -> length p = length order ->
  length (i_untranspose order p) = length order /\ forall i, (i < length order)%nat -> nth (nth i order O) (i_untranspose order p) 0 = nth i p 0.
Proof.
  intros P L. unfold i_untranspose. destruct (untranspose_gen order (map (fun _ => 0) order) p) as (A & B & _); auto.
  - eapply Permutation_NoDup; [symmetry; exact P|apply seq_NoDup].
  - rewrite map_length. apply Forall_forall. intros j I. apply (Permutation_in j P) in I. apply in_seq in I. lia.
  - cbv zeta in *. rewrite map_length in A. auto.
Qed.

Lemma perm_covers order n j : Permutation order (seq 0 n) -> (j < n)%nat -> exists i, (i < length order)%nat /\ nth i order O = j.
Proof.
  intros P H. assert (I : In j order) by (eapply Permutation_in; [symmetry; exact P|apply in_seq; lia]). apply In_nth with (d := O) in I. destruct I as (i & A & B). eauto.
Qed.

(** the element under named coordinates *)
Lemma untranspose_names order dims coord : Permutation order (seq 0 (length dims)) ->
  i_untranspose order (map coord (map (fun i => nth i dims EmptyString) order)) = map coord dims.
Proof.
  intros P. assert (L : length order = length dims) by (rewrite (Permutation_length P); apply seq_length).
  destruct (untranspose_nth order (map coord (map (fun i => nth i dims EmptyString) order))) as (A & B); [now rewrite L|now rewrite !map_length|].
  apply nth_ext with (d := 0) (d' := 0); [now rewrite A, map_length|]. intros j Hj. rewrite A in Hj.
  destruct (perm_covers order (length dims) j P) as (i & Hi & <-); [lia|]. rewrite B by auto.
  assert (Hn : (nth i order O < length dims)%nat).
  { assert (I : In (nth i order O) order) by now apply nth_In. apply (Permutation_in _ P) in I. apply in_seq in I. lia. }
  rewrite map_map. rewrite nth_indep with (d' := (fun i => coord (nth i dims EmptyString)) O) by now rewrite map_length.
  rewrite (map_nth (fun i => coord (nth i dims EmptyString))).
  rewrite nth_indep with (l := map coord dims) (d' := coord EmptyString) by now rewrite map_length. now rewrite map_nth.
Qed.

(** ** which dimensions the targets mean *)
Lemma sin_In s l : sin s l = true <-> In s l.
Proof.
  unfold sin. rewrite existsb_exists. split; [intros (x & I & E); apply String.eqb_eq in E; now subst|].
  intros I. exists s. split; auto. apply String.eqb_refl.
Qed.

Lemma filter_one {A} (f : A -> bool) l d : filter f l = [d] <-> f d = true /\ exists l1 l2, l = (l1 ++ d :: l2)%list /\ Forall (fun x => f x = false) (l1 ++ l2).
Proof.
  split.
  - induction l as [|a l IH]; cbn; [discriminate|]. destruct (f a) eqn:E.
    + intros [= -> H]. split; auto. exists [], l. split; auto. cbn. apply Forall_forall. intros x I. destruct (f x) eqn:X; auto.
      exfalso. assert (In x (filter f l)) by (apply filter_In; auto). now rewrite H in *.
    + intros H. destruct (IH H) as (A1 & l1 & l2 & -> & F). split; auto. exists (a :: l1), l2. split; auto. cbn. constructor; auto.
  - intros (E & l1 & l2 & -> & F). rewrite filter_app. cbn. rewrite E. apply Forall_app in F. destruct F as (F1 & F2).
    assert (X : forall l, Forall (fun x => f x = false) l -> filter f l = []) by (clear; induction 1; cbn; auto; now rewrite H). now rewrite !X.
Qed.

Lemma collapse_spec dims t d : collapse_dim dims t = Ok d <-> means dims t d.
Proof.
  unfold means, collapse_dim. destruct t as [d'|l].
  - destruct (sin d' dims) eqn:S; [apply sin_In in S|].
    + split; [intros [= <-]; auto|intros (_ & ->); reflexivity].
    + split; [discriminate|]. intros (I & ->). apply sin_In in I. congruence.
  - assert (Q : forall l1 l2 : list string, Forall (fun d' => ~ In d' dims) (l1 ++ l2) <-> Forall (fun x => sin x dims = false) (l1 ++ l2)).
    { intros. split; intros H; (eapply Forall_impl; [|exact H]); cbn; intros a.
      - intros X. destruct (sin a dims) eqn:Y; auto. apply sin_In in Y. contradiction.
      - intros X Y. apply sin_In in Y. congruence. }
    pose proof (filter_one (fun d => sin d dims) l d) as FO. cbn beta in FO. split.
    + destruct (filter _ l) as [|x [|? ?]] eqn:E; try discriminate. intros [= ->]. apply proj1 in FO. destruct (FO eq_refl) as (A & l1 & l2 & -> & F). apply sin_In in A.
      split; auto. exists l1, l2. split; auto. now apply Q.
    + intros (A & l1 & l2 & -> & F). apply sin_In in A. apply Q in F. apply proj2 in FO. rewrite FO; eauto.
Qed.

Lemma collapse_err dims t : (exists d, collapse_dim dims t = Ok d) \/ collapse_dim dims t = Err ValueError.
Proof. destruct t; cbn; [destruct (sin d dims); eauto|]. destruct (filter _ l) as [|? [|? ?]]; eauto. Qed.

Lemma collapse_dims_spec dims ts : forall l, collapse_dims ts dims = Ok l <-> Forall2 (means dims) ts l.
Proof.
  unfold collapse_dims. induction ts as [|t ts IH]; intros l; cbn [rmapM].
  - split; [intros [= <-]; constructor|intros H; inversion H; reflexivity].
  - split.
    + destruct (collapse_dim dims t) as [d|] eqn:E; [|discriminate]. cbn [bind]. destruct (rmapM (collapse_dim dims) ts) as [r|] eqn:R; [|discriminate]. cbn. intros [= <-].
      constructor; [now apply collapse_spec|now apply IH].
    + intros H. inversion H; subst. apply collapse_spec in H2. rewrite H2. cbn [bind]. apply IH in H4. now rewrite H4.
Qed.
Lemma collapse_dims_err dims ts : (exists l, collapse_dims ts dims = Ok l) \/ collapse_dims ts dims = Err ValueError.
Proof.
  unfold collapse_dims. induction ts as [|t ts IH]; cbn [rmapM]; eauto. destruct (collapse_err dims t) as [(d & ->)| ->]; auto. cbn [bind].
  destruct IH as [(l & ->)| ->]; cbn; eauto.
Qed.

Section Q.
Context {V : Type}.
Lemma combine_perm {A} (dims : list string) (l : list A) d order : length l = length dims -> Permutation order (seq 0 (length dims)) ->
  Permutation (combine (map (fun i => nth i dims EmptyString) order) (map (fun i => nth i l d) order)) (combine dims l).
Proof.
  intros L P. assert (E : forall o, combine (map (fun i => nth i dims EmptyString) o) (map (fun i => nth i l d) o) = map (fun i => (nth i dims EmptyString, nth i l d)) o).
  { clear. induction o; cbn; congruence. }
  rewrite E. rewrite (Permutation_map (fun i => (nth i dims EmptyString, nth i l d)) P). rewrite <- E. rewrite map_nth_seq. rewrite <- L at 1. now rewrite map_nth_seq.
Qed.

Theorem transpose_ok (q : quantity V) targets t : lengths_ok q -> NoDup (q_dims q) -> Forall2 (means (q_dims q)) targets t -> Permutation t (q_dims q) ->
  exists q', q_transpose q targets = Ok q' /\ q_dims q' = t /\ q_units q' = q_units q /\
    Permutation (combine t (q_origin q')) (combine (q_dims q) (q_origin q)) /\
    Permutation (combine t (q_extent q')) (combine (q_dims q) (q_extent q)) /\
    Permutation (combine t (shp (q_data q'))) (combine (q_dims q) (shp (q_data q))) /\
    (forall coord, at_names (q_data q') t coord = at_names (q_data q) (q_dims q) coord) /\ lengths_ok q'.
Proof.
  intros (L1 & L2 & L3) N M P. unfold q_transpose, transpose_order. apply collapse_dims_spec in M. rewrite M. cbn [bind].
  set (order := map (fun d => dindex d (q_dims q)) t).
  assert (PO : Permutation order (seq 0 (length (q_dims q)))) by (unfold order; rewrite (Permutation_map _ P); now rewrite map_dindex).
  assert (ET : map (fun i => nth i (q_dims q) EmptyString) order = t).
  { unfold order. rewrite map_map. rewrite <- (map_id t) at 2. apply map_ext_in. intros d I. apply dindex_lt. eapply Permutation_in; eauto. }
  assert (PO' := PO). rewrite L1 in PO'. apply is_perm_spec in PO'. rewrite PO'. unfold new_quantity. cbn [bind]. rewrite ET.
  assert (LO : length order = length (shp (q_data q))) by (rewrite (Permutation_length PO), seq_length; auto).
  assert (LT : length t = length (shp (q_data q))) by (rewrite (Permutation_length P); auto).
  unfold validate_lengths. cbn [v_read shp v_transpose vshp v_whole]. rewrite !map_length. rewrite LO, LT, Nat.eqb_refl. cbn [negb bind].
  eexists. split; [reflexivity|]. cbn [q_dims q_units q_origin q_extent q_data shp]. split; auto. split; auto.
  split; [rewrite <- ET; apply combine_perm; auto; lia|]. split; [rewrite <- ET; apply combine_perm; auto; lia|].
  split; [rewrite <- ET; cbn [v_read shp v_transpose vshp v_whole]; apply combine_perm; auto; lia|]. split.
  - intros coord. unfold at_names. cbn [v_read at_ v_transpose vmap v_whole]. rewrite <- ET at 1. now rewrite untranspose_names.
  - unfold lengths_ok. cbn [q_dims q_units q_origin q_extent q_data shp v_read v_transpose v_whole vshp]. rewrite !map_length. lia.
Qed.

Theorem transpose_err (q : quantity V) targets : lengths_ok q -> NoDup (q_dims q) ->
  (forall t, Forall2 (means (q_dims q)) targets t -> ~ Permutation t (q_dims q)) -> q_transpose q targets = Err ValueError.
Proof.
  intros (L1 & L2 & L3) N H. unfold q_transpose, transpose_order. destruct (collapse_dims_err (q_dims q) targets) as [(t & E)| ->]; auto. rewrite E. cbn [bind].
  apply collapse_dims_spec in E. specialize (H t E). rewrite <- L1. destruct (is_perm _ _) eqn:P; auto. exfalso. apply H. apply is_perm_spec in P.
  apply (Permutation_map (fun i => nth i (q_dims q) EmptyString)) in P. rewrite map_nth_seq in P. rewrite map_map in P.
  rewrite (map_ext_in _ (fun d => d)) in P; [now rewrite map_id in P|]. intros d I.
  apply dindex_lt. clear - E I. induction E; [destruct I|]. destruct I as [->|I]; auto. apply H.
Qed.

(** equal under all names and same names: same arrays *)
Lemma coord_exists dims : NoDup dims -> forall p : list Z, length p = length dims -> exists coord : string -> Z, map coord dims = p.
Proof.
  intros N p L. exists (fun d : string => nth (dindex d dims) p 0). apply nth_ext with (d := 0) (d' := 0); [now rewrite map_length|]. rewrite map_length. intros i H.
  rewrite nth_indep with (d' := (fun d => nth (dindex d dims) p 0) EmptyString) by now rewrite map_length.
  rewrite (map_nth (fun d => nth (dindex d dims) p 0)). now rewrite dindex_nth.
Qed.

Lemma combine_perm_eq {A} (dims : list string) (l l' : list A) : NoDup dims -> length l = length dims -> length l' = length dims ->
  Permutation (combine dims l) (combine dims l') -> l = l'.
Proof.
  revert l l'. induction dims as [|d dims IH]; intros [|a l] [|a' l'] N L L' P; try discriminate; auto. inversion N; subst. cbn in *.
  assert (a = a').
  { assert (I : In (d, a) ((d, a') :: combine dims l')) by (eapply Permutation_in; [exact P|now left]). destruct I as [[= ->]|I]; auto. apply in_combine_l in I. contradiction. }
  subst. apply Permutation_cons_inv in P. f_equal. apply IH; auto.
Qed.

Theorem transpose_back (q : quantity V) targets t q' : lengths_ok q -> NoDup (q_dims q) -> Forall2 (means (q_dims q)) targets t -> Permutation t (q_dims q) ->
  q_transpose q targets = Ok q' -> exists q'', q_transpose q' (map TName (q_dims q)) = Ok q'' /\ q_meta q'' = q_meta q /\ q_units q'' = q_units q /\ same (q_data q'') (q_data q).
Proof.
  intros L N M P E. destruct (transpose_ok q targets t L N M P) as (q1 & E1 & D & U & PO & PE & PS & AN & L'). rewrite E in E1. injection E1 as <-.
  destruct (transpose_ok q' (map TName (q_dims q)) (q_dims q)) as (q2 & E2 & D2 & U2 & PO2 & PE2 & PS2 & AN2 & L2); auto.
  - rewrite D. eapply Permutation_NoDup; [symmetry; exact P|auto].
  - rewrite D. assert (X : forall l, incl l t -> Forall2 (means t) (map TName l) l).
    { induction l as [|d l IH]; cbn; intros I; constructor; [split; auto; apply I; now left|apply IH; intros x Hx; apply I; now right]. }
    apply X. intros d I. eapply Permutation_in; [symmetry; exact P|exact I].
  - rewrite D. now symmetry.
  - exists q2. split; auto. destruct L as (La & Lb & Lc). destruct L2 as (Ld & Le & Lf). rewrite D2 in Ld.
    assert (SO : q_origin q2 = q_origin q) by (apply (combine_perm_eq (q_dims q)); auto; [lia|lia|]; rewrite PO2, D; exact PO).
    assert (SE : q_extent q2 = q_extent q) by (apply (combine_perm_eq (q_dims q)); auto; [lia|lia|]; rewrite PE2, D; exact PE).
    assert (SS : shp (q_data q2) = shp (q_data q)) by (apply (combine_perm_eq (q_dims q)); auto; rewrite PS2, D; exact PS).
    split; [unfold q_meta; congruence|]. split; [congruence|]. split; auto. intros p Hp. apply in_shape_length in Hp.
    destruct (coord_exists (q_dims q) N p) as (c & <-); [lia|]. specialize (AN2 c). specialize (AN c). unfold at_names in *. rewrite D in AN2. congruence.
Qed.
End Q.

(** ** construction *)
Theorem construct_array {V} (a : arr V) dims units origin extent :
  let o := default_origin dims origin in let e := match extent with Some e => e | None => map2 Z.sub (shp a) o end in
  let ok := length dims = length (shp a) /\ length o = length (shp a) /\ length e = length (shp a) in
  (ok -> new_quantity (DArray a) dims units origin extent = Ok (mkQ a dims units o e)) /\
  (~ ok -> new_quantity (DArray a) dims units origin extent = Err ValueError).
Proof.
  intros o e ok. unfold new_quantity. fold (default_origin dims origin). fold o.
  replace (match extent with Some e => Ok e | None => Ok (map2 Z.sub (shp a) o) end) with (@Ok (list Z) e) by (unfold e; destruct extent; reflexivity). cbn [bind]. unfold validate_lengths.
  split.
  - intros (A & B & C). rewrite A, B, C, Nat.eqb_refl. reflexivity.
  - intros NO. destruct (Nat.eqb_spec (length dims) (length (shp a))); cbn; auto. destruct (Nat.eqb_spec (length o) (length (shp a))); cbn; auto.
    destruct (Nat.eqb_spec (length e) (length (shp a))); cbn; auto. exfalso. apply NO. repeat split; auto.
Qed.

Theorem construct_plain {V} (a : arr V) dims units origin extent :
  exists e, new_quantity (DPlain a) dims units origin extent = Err e /\ (extent = None -> e = AttributeError) /\
    (forall x, extent = Some x -> (e = AttributeError <-> length dims = length (shp a) /\ length (default_origin dims origin) = length (shp a) /\ length x = length (shp a)) /\
                                  (e = AttributeError \/ e = ValueError)).
Proof.
  unfold new_quantity. fold (default_origin dims origin). destruct extent as [x|]; cbn [bind]; [|eexists; split; [reflexivity|]; split; auto; discriminate].
  unfold validate_lengths. destruct (Nat.eqb_spec (length dims) (length (shp a))); cbn; [destruct (Nat.eqb_spec (length (default_origin dims origin)) (length (shp a))); cbn;
    [destruct (Nat.eqb_spec (length x) (length (shp a))); cbn|]|]; eexists; (split; [reflexivity|]); split; try discriminate; intros x' [= <-]; intuition congruence.
Qed.

(** ** selecting by name does not depend on the order of dimensions *)
From Verif.Proofs Require Import CornerProofs.
Section Sel.
Context {V : Type}.
Lemma picked_by_name k dims (oz ez : string -> Z) (g : string -> offset) :
  all_picked k dims (map oz dims) (map ez dims) (map g dims) = map (fun d => picked k d (oz d) (ez d) (g d)) dims.
Proof. induction dims as [|d dims IH]; cbn; [reflexivity|]. now rewrite IH. Qed.

Lemma coord_transposed dims t (l l' : list Z) (c : string -> Z) : NoDup dims -> Permutation t dims -> length l' = length t -> l = map c dims ->
  Permutation (combine t l') (combine dims l) -> l' = map c t.
Proof.
  intros ND PT L -> P. apply combine_perm_eq with (dims := t); auto.
  - eapply Permutation_NoDup; [symmetry|]; eauto.
  - now rewrite map_length.
  - rewrite P. assert (X : forall l, combine l (map c l) = map (fun d => (d, c d)) l) by (induction l; cbn; congruence). rewrite !X. apply Permutation_map. now symmetry.
Qed.

Theorem sel_transposed (q : quantity V) targets q' k (kw : dict offset) : lengths_ok q -> NoDup (q_dims q) -> q_transpose q targets = Ok q' ->
  let sel_picks (q : quantity V) := all_picked k (q_dims q) (q_origin q) (q_extent q) (map (fun d => match dget d kw with Some f => f | None => OAll end) (q_dims q)) in
  exists along, sel_picks q = map along (q_dims q) /\ sel_picks q' = map along (q_dims q').
Proof.
  intros LK ND E. cbv zeta. destruct (collapse_dims_err (q_dims q) targets) as [(t & C)|C].
  2:{ unfold q_transpose, transpose_order in E. rewrite C in E. discriminate. }
  apply collapse_dims_spec in C.
  assert (D : Permutation t (q_dims q) \/ ~ Permutation t (q_dims q)).
  { destruct (is_perm (map (fun d => dindex d (q_dims q)) t) (length (q_dims q))) eqn:P.
    - left. apply is_perm_spec in P. assert (IN : Forall (fun d => In d (q_dims q)) t) by (clear - C; induction C; constructor; auto; apply H).
      apply Permutation_map with (f := fun i => nth i (q_dims q) EmptyString) in P. rewrite map_nth_seq, map_map in P.
      rewrite map_ext_in with (g := fun d => d) in P; [now rewrite map_id in P|]. intros d Hd. rewrite Forall_forall in IN. apply dindex_lt; auto.
    - right. intros Q. assert (is_perm (map (fun d => dindex d (q_dims q)) t) (length (q_dims q)) = true); [|congruence].
      apply is_perm_spec. rewrite <- map_dindex by auto. now apply Permutation_map. }
  destruct D as [PT|NP].
  2:{ rewrite transpose_err in E; [discriminate|auto|auto|]. intros t' C' P'. apply NP. apply collapse_dims_spec in C, C'. congruence. }
  destruct (transpose_ok q targets t LK ND C PT) as (q1 & E1 & D1 & U1 & PO & PE & PS & _ & L1). rewrite E1 in E. injection E as ->.
  destruct LK as (LD & LO & LE). destruct L1 as (LD1 & LO1 & LE1).
  destruct (coord_exists (q_dims q) ND (q_origin q)) as (oz & Z1); [lia|]. destruct (coord_exists (q_dims q) ND (q_extent q)) as (ez & Z2); [lia|].
  assert (O' : q_origin q' = map oz t) by (apply (coord_transposed (q_dims q) t (q_origin q)); auto; rewrite <- D1; lia).
  assert (E' : q_extent q' = map ez t) by (apply (coord_transposed (q_dims q) t (q_extent q)); auto; rewrite <- D1; lia).
  exists (fun d => picked k d (oz d) (ez d) (match dget d kw with Some f => f | None => OAll end)).
  rewrite D1, <- Z1, <- Z2, O', E'. split; apply (picked_by_name k _ oz ez (fun d => match dget d kw with Some f => f | None => OAll end)).
Qed.
End Sel.
