(** Arrays in memory (C99). *)
From Verif.Base Require Import Base Lemmas.
From Verif.Model Require Import Consts Numpy Quantity Partitioner Rotate Strides.
From Verif.Spec Require Import Grid Memory.
From Verif.Proofs Require Import NumpyProofs Transfer TransposeProofs.
From Coq Require Import Permutation.
From Coq Require Import ZifyBool.
Ltac Zify.zify_post_hook ::= idtac.

(** ** addresses *)
Lemma dot_upd_r s : forall p i x, (i < length p)%nat -> length s = length p -> dot s (upd p i x) = dot s p + nth i s 0 * (x - nth i p 0).
Proof.
  induction s as [|a s IH]; intros [|b p] [|i] x Hi L; cbn in Hi, L |- *; try lia.
  rewrite IH by lia. lia.
Qed.
Lemma dot_upd_l s : forall p i x, (i < length p)%nat -> length s = length p -> dot (upd s i x) p = dot s p + (x - nth i s 0) * nth i p 0.
Proof.
  induction s as [|a s IH]; intros [|b p] [|i] x Hi L; cbn in Hi, L |- *; try lia.
  rewrite IH by lia. lia.
Qed.
Lemma dot_swap s p i j : (i < length p)%nat -> (j < length p)%nat -> length s = length p -> dot (i_swap i j s) p = dot s (i_swap i j p).
Proof.
  intros Hi Hj L. unfold i_swap. rewrite dot_upd_l, dot_upd_l by (rewrite ?length_upd; lia). rewrite dot_upd_r, dot_upd_r by (rewrite ?length_upd; lia).
  destruct (Nat.eq_dec j i) as [->|N]; [rewrite !nth_upd_eq by lia; lia|]. rewrite !nth_upd_neq by auto. lia.
Qed.
Lemma dot_flip s p i n : (i < length p)%nat -> length s = length p ->
  (n - 1) * nth i s 0 + dot (upd s i (- nth i s 0)) p = dot s (i_flip n i p).
Proof. intros Hi L. unfold i_flip. rewrite dot_upd_l, dot_upd_r by lia. lia. Qed.

Lemma slice_len n start stop step a len st : 0 <= n -> slice_norm n start stop step = Ok (a, len, st) -> 0 <= len.
Proof.
  unfold slice_norm. intros Hn E.
  set (k := match step with Some s => s | None => 1 end) in *. destruct (Z.eqb_spec k 0); [discriminate|].
  set (x := match start with Some _ => _ | None => _ end) in *. set (y := match stop with Some _ => _ | None => _ end) in *.
  injection E as <- <- <-. destruct (Z.ltb_spec k 0).
  - destruct (Z.ltb_spec y x); [|lia]. pose proof (Z.div_pos (x - y - 1) (- k)). lia.
  - destruct (Z.ltb_spec x y); [|lia]. pose proof (Z.div_pos (y - x - 1) k). lia.
Qed.

Lemma index_agrees es : forall s st, length st = length s -> Forall (Z.le 0) s ->
  match index_apply es s with
  | Ok (s', f) => exists o st', index_strided es s st = Ok (o, s', st') /\ length st' = length s' /\ Forall (Z.le 0) s' /\
      forall p, in_shape s' p -> dot st (f p) = o + dot st' p
  | Err e => index_strided es s st = Err e
  end.
Proof.
  induction es as [|e es IH]; intros s st L P; cbn [index_apply index_strided].
  { exists 0, st. repeat split; auto. }
  destruct e as [i|start stop step|].
  - destruct s as [|n s], st as [|t st]; try discriminate; [reflexivity|]. injection L as L. inversion P; subst.
    destruct ((- n <=? i) && (i <? n)); [|reflexivity]. specialize (IH s st L H2).
    destruct (index_apply es s) as [[s' f]|e]; cbn [bind]; [|now rewrite IH].
    destruct IH as (o & st' & -> & L' & P' & M). cbn [bind]. do 2 eexists. split; [reflexivity|]. split; auto. split; auto.
    intros p Hp. cbn [dot]. rewrite M by auto. lia.
  - destruct s as [|n s], st as [|t st]; try discriminate; [reflexivity|]. injection L as L. inversion P; subst.
    destruct (slice_norm n start stop step) as [[[a len] k]|e] eqn:E; cbn [bind]; [|reflexivity]. specialize (IH s st L H2).
    destruct (index_apply es s) as [[s' f]|e]; cbn [bind]; [|now rewrite IH].
    destruct IH as (o & st' & -> & L' & P' & M). cbn [bind]. do 2 eexists. split; [reflexivity|]. split; [cbn; lia|].
    split; [constructor; [exact (slice_len _ _ _ _ _ _ _ H1 E)|auto]|].
    intros p Hp. inversion Hp as [|? x ? p' Hx Hp']; subst. cbn [hd tl dot]. rewrite M by auto.
    destruct (Z.eqb_spec len 0); [lia|]. lia.
  - specialize (IH s st L P). destruct (index_apply es s) as [[s' f]|e]; cbn [bind]; [|now rewrite IH].
    destruct IH as (o & st' & -> & L' & P' & M). cbn [bind]. do 2 eexists. split; [reflexivity|]. split; [cbn; lia|]. split; [constructor; [lia|auto]|].
    intros p Hp. inversion Hp as [|? x ? p' Hx Hp']; subst. cbn [tl dot]. rewrite M by auto. lia.
Qed.

Lemma clamp_up n k b : 0 <= n -> 0 < k -> 0 <= clamp n k b <= n.
Proof. intros. unfold clamp. destruct (Z.ltb_spec k 0); [lia|]. destruct (Z.ltb_spec b 0); [destruct (Z.ltb_spec (b + n) 0); lia|destruct (Z.leb_spec n b); lia]. Qed.
Lemma clamp_down n k b : 0 <= n -> k < 0 -> -1 <= clamp n k b <= n - 1.
Proof. intros. unfold clamp. destruct (Z.ltb_spec k 0); [|lia]. destruct (Z.ltb_spec b 0); [destruct (Z.ltb_spec (b + n) 0); lia|destruct (Z.leb_spec n b); lia]. Qed.

Lemma slice_inside n start stop step a len st i : 0 <= n -> slice_norm n start stop step = Ok (a, len, st) -> 0 <= i < len -> 0 <= a + i * st < n.
Proof.
  unfold slice_norm. intros Hn E Hi.
  set (k := match step with Some s => s | None => 1 end) in *. destruct (Z.eqb_spec k 0); [discriminate|].
  destruct (Z.ltb_spec k 0) as [Hk|Hk].
  - set (x := match start with Some _ => _ | None => _ end) in *. set (y := match stop with Some _ => _ | None => _ end) in *.
    assert (X : -1 <= x <= n - 1) by (unfold x; destruct start; [now apply clamp_down|lia]).
    assert (Y : -1 <= y <= n - 1) by (unfold y; destruct stop; [now apply clamp_down|lia]).
    clearbody x y k. injection E as <- <- <-. destruct (Z.ltb_spec y x); [|lia].
    pose proof (Z.mul_div_le (x - y - 1) (- k) ltac:(lia)). nia.
  - set (x := match start with Some _ => _ | None => _ end) in *. set (y := match stop with Some _ => _ | None => _ end) in *.
    assert (X : 0 <= x <= n) by (unfold x; destruct start; [apply clamp_up; lia|lia]).
    assert (Y : 0 <= y <= n) by (unfold y; destruct stop; [apply clamp_up; lia|lia]).
    clearbody x y k. injection E as <- <- <-. destruct (Z.ltb_spec x y); [|lia].
    pose proof (Z.mul_div_le (y - x - 1) k ltac:(lia)). nia.
Qed.

Lemma index_inside es : forall s s' f p, index_apply es s = Ok (s', f) -> Forall (Z.le 0) s -> in_shape s' p -> in_shape s (f p).
Proof.
  induction es as [|e es IH]; intros s s' f p E P Hp; cbn [index_apply] in E.
  { injection E as <- <-. exact Hp. }
  destruct e as [i|start stop step|].
  - destruct s as [|n s]; [discriminate|]. inversion P; subst. destruct ((- n <=? i) && (i <? n)) eqn:B; [|discriminate].
    destruct (index_apply es s) as [[s1 f1]|] eqn:E1; cbn [bind] in E; [|discriminate]. injection E as <- <-.
    constructor; [destruct (Z.ltb_spec i 0); lia|]. exact (IH _ _ _ _ E1 H2 Hp).
  - destruct s as [|n s]; [discriminate|]. inversion P; subst. destruct (slice_norm n start stop step) as [[[a len] k]|] eqn:E0; cbn [bind] in E; [|discriminate].
    destruct (index_apply es s) as [[s1 f1]|] eqn:E1; cbn [bind] in E; [|discriminate]. injection E as <- <-.
    inversion Hp as [|? x ? p' Hx Hp']; subst. cbn [hd tl]. constructor; [exact (slice_inside _ _ _ _ _ _ _ _ H1 E0 Hx)|]. exact (IH _ _ _ _ E1 H2 Hp').
  - destruct (index_apply es s) as [[s1 f1]|] eqn:E1; cbn [bind] in E; [|discriminate]. injection E as <- <-.
    inversion Hp as [|? x ? p' Hx Hp']; subst. cbn [tl]. exact (IH _ _ _ _ E1 P Hp').
Qed.

Lemma shape_nth s p : in_shape s p <-> length p = length s /\ forall i, (i < length s)%nat -> 0 <= nth i p 0 < nth i s 0.
Proof.
  unfold in_shape. rewrite (Forall2_nth _ _ _ 0 0). split; intros [A B]; (split; [congruence|exact B]).
Qed.

Lemma nth_swap (l : list Z) i j k : (i < length l)%nat -> (j < length l)%nat ->
  nth k (i_swap i j l) 0 = if Nat.eqb k j then nth i l 0 else if Nat.eqb k i then nth j l 0 else nth k l 0.
Proof.
  intros Hi Hj. unfold i_swap. destruct (Nat.eqb_spec k j) as [->|Nj]; [rewrite nth_upd_eq; [auto|now rewrite length_upd]|].
  rewrite nth_upd_neq by auto. destruct (Nat.eqb_spec k i) as [->|Ni]; [now rewrite nth_upd_eq|now rewrite nth_upd_neq].
Qed.

Lemma swap_inside s i j p : (i < length s)%nat -> (j < length s)%nat -> in_shape (i_swap i j s) p -> in_shape s (i_swap i j p).
Proof.
  intros Hi Hj. rewrite !shape_nth, !length_i_swap. intros [L H]. split; [auto|]. intros k Hk. rewrite nth_swap by lia.
  assert (Q : forall k, (k < length s)%nat -> 0 <= nth k p 0 < (if Nat.eqb k j then nth i s 0 else if Nat.eqb k i then nth j s 0 else nth k s 0)).
  { intros k' Hk'. rewrite <- nth_swap by auto. auto. }
  destruct (Nat.eqb_spec k j) as [->|Nj].
  { specialize (Q i Hi). destruct (Nat.eqb_spec i j) as [->|]; [auto|]. now rewrite Nat.eqb_refl in Q. }
  destruct (Nat.eqb_spec k i) as [->|Ni].
  { specialize (Q j Hj). now rewrite Nat.eqb_refl in Q. }
  specialize (Q k Hk). destruct (Nat.eqb_spec k j); [contradiction|]. destruct (Nat.eqb_spec k i); [contradiction|]. exact Q.
Qed.

Lemma flip_inside s i p : (i < length s)%nat -> in_shape s p -> in_shape s (i_flip (nth i s 0) i p).
Proof.
  intros Hi. rewrite !shape_nth, length_i_flip. intros [L H]. split; [auto|]. intros k Hk. unfold i_flip.
  destruct (Nat.eq_dec k i) as [->|N]; [rewrite nth_upd_eq by lia; specialize (H i Hi); lia|rewrite nth_upd_neq by auto; auto].
Qed.

Lemma Forall_swap (s : list Z) i j : (i < length s)%nat -> (j < length s)%nat -> Forall (Z.le 0) s -> Forall (Z.le 0) (i_swap i j s).
Proof.
  intros Hi Hj F. rewrite Forall_forall in *. intros x Hx. apply (In_nth _ _ 0) in Hx. destruct Hx as (k & Hk & <-). rewrite length_i_swap in Hk. rewrite nth_swap by auto.
  destruct (Nat.eqb k j); [apply F, nth_In; lia|]. destruct (Nat.eqb k i); apply F, nth_In; lia.
Qed.

(** ** numpy.transpose *)
Lemma axes_ok_perm order n : axes_ok order n = true -> Permutation order (seq 0 n) /\ length order = n.
Proof.
  unfold axes_ok. intros E. apply andb_true_iff in E. destruct E as [L F]. apply Nat.eqb_eq in L. split; [|exact L]. apply Permutation_sym. apply NoDup_Permutation_bis; [apply seq_NoDup|rewrite seq_length; lia|].
  intros i Hi. rewrite forallb_forall in F. specialize (F i Hi). apply existsb_exists in F. destruct F as (j & Hj & E). apply Nat.eqb_eq in E. now subst j.
Qed.
Definition total (l : list Z) : Z := fold_right Z.add 0 l.
Lemma total_perm l l' : Permutation l l' -> total l = total l'.
Proof. induction 1; cbn; try fold (total l) in *; try fold (total l') in *; unfold total in *; lia. Qed.
Lemma dot_total s : forall p, length s = length p -> dot s p = total (map (fun i => nth i s 0 * nth i p 0) (seq 0 (length s))).
Proof.
  induction s as [|a s IH]; intros [|x p] L; cbn in L; try discriminate; [reflexivity|]. injection L as L. cbn [dot length seq map total fold_right nth]. rewrite <- seq_shift, map_map. cbn [nth].
  rewrite (IH p L). unfold total. lia.
Qed.
Lemma map_nth_seq {A} (l : list A) d : map (fun i => nth i l d) (seq 0 (length l)) = l.
Proof. induction l as [|a l IH]; [reflexivity|]. cbn [length seq map nth]. rewrite <- seq_shift, map_map. cbn [nth]. now rewrite IH. Qed.
Lemma nth_picked (s : list Z) (order : list nat) i : (i < length order)%nat -> nth i (map (fun j => nth j s 0) order) 0 = nth (nth i order O) s 0.
Proof. intros H. rewrite (nth_indep _ 0 (nth O s 0)) by now rewrite map_length. now rewrite (map_nth (fun j => nth j s 0)). Qed.

Lemma dot_transpose s order p : Permutation order (seq 0 (length s)) -> length order = length s -> length p = length s ->
  dot s (i_untranspose order p) = dot (map (fun i => nth i s 0) order) p.
Proof.
  intros P L Lp. destruct (untranspose_nth order p) as (A & B); [now rewrite L|lia|].
  rewrite dot_total by lia. rewrite dot_total by (rewrite map_length; lia). rewrite map_length.
  rewrite <- (total_perm _ _ (Permutation_map (fun i => nth i s 0 * nth i (i_untranspose order p) 0) P)).
  f_equal. rewrite <- (map_nth_seq order O) at 1. rewrite map_map. apply map_ext_in. intros i Hi. apply in_seq in Hi. rewrite B by lia. now rewrite nth_picked by lia.
Qed.

Lemma transpose_inside s order p : Permutation order (seq 0 (length s)) -> length order = length s -> in_shape (map (fun i => nth i s 0) order) p -> in_shape s (i_untranspose order p).
Proof.
  intros P L. rewrite !shape_nth, map_length. intros [Lp H]. destruct (untranspose_nth order p) as (A & B); [now rewrite L|lia|]. split; [lia|]. intros k Hk.
  assert (I : In k order) by (apply (Permutation_in k (Permutation_sym P)), in_seq; lia). apply (In_nth _ _ O) in I. destruct I as (i & Hi & <-). rewrite B by lia. specialize (H i Hi). now rewrite nth_picked in H.
Qed.

Lemma transpose_one_to_one order p q : Permutation order (seq 0 (length order)) -> length p = length order -> length q = length order -> i_untranspose order p = i_untranspose order q -> p = q.
Proof.
  intros P Lp Lq E. destruct (untranspose_nth order p) as (_ & B); [auto|auto|]. destruct (untranspose_nth order q) as (_ & B'); [auto|auto|].
  apply (nth_ext _ _ 0 0); [lia|]. intros i Hi. rewrite <- B, <- B' by lia. now rewrite E.
Qed.

(** ** views of arrays in memory *)
Definition stays (base : strided) (v : view) : Prop := forall p, in_shape (vshp v) p -> in_shape (s_shape base) (vmap v p).

Lemma op_shows base v a o : shows base v a -> stays base v ->
  match view_op o v with
  | Ok v' => exists a', strided_op o a = Ok a' /\ shows base v' a' /\ stays base v'
  | Err e => strided_op o a = Err e
  end.
Proof.
  intros ((L & P) & S & M) I. destruct o as [es|i|i j|order]; cbn [view_op strided_op]; rewrite ?S in *.
  - unfold v_index. pose proof (index_agrees es (vshp v) (s_strides a) L P) as A. pose proof (index_inside es (vshp v)) as J.
    destruct (index_apply es (vshp v)) as [[s' f]|e]; cbn [bind]; [|now rewrite A].
    destruct A as (o & st' & -> & L' & P' & M'). cbn [bind]. specialize (J s' f). eexists. split; [reflexivity|]. split; [|intros p Hp; apply I, J; auto].
    split; [split; auto|]. split; [reflexivity|]. cbn [vshp vmap s_shape]. intros p Hp. rewrite <- M by (apply J; auto). unfold address. cbn [s_offset s_strides].
    rewrite M' by auto. lia.
  - destruct (Nat.ltb_spec i (length (vshp v))); [|reflexivity]. eexists. split; [reflexivity|]. cbn [vshp vmap v_flip].
    split; [|intros p Hp; apply I; cbn; now apply flip_inside].
    split; [split; cbn; [now rewrite length_upd|auto]|]. split; [reflexivity|]. cbn [vshp vmap v_flip s_shape]. intros p Hp.
    rewrite <- M by now apply flip_inside. unfold address. cbn [s_offset s_strides].
    pose proof (in_shape_length _ _ Hp). pose proof (dot_flip (s_strides a) p i (nth i (vshp v) 0) ltac:(lia) ltac:(lia)). lia.
  - destruct (Nat.ltb_spec i (length (vshp v))); [|reflexivity]. destruct (Nat.ltb_spec j (length (vshp v))); [|reflexivity]. cbn [andb].
    eexists. split; [reflexivity|]. split; [|intros p Hp; apply I; cbn; now apply swap_inside].
    split; [split; cbn; [now rewrite !length_i_swap|now apply Forall_swap]|]. split; [reflexivity|]. cbn [vshp vmap v_swap s_shape]. intros p Hp.
    rewrite <- M by now apply swap_inside. unfold address. cbn [s_offset s_strides].
    pose proof (in_shape_length _ _ Hp) as LP. rewrite length_i_swap in LP. rewrite dot_swap by lia. reflexivity.
  - destruct (axes_ok order (length (vshp v))) eqn:X; [|reflexivity]. apply axes_ok_perm in X. destruct X as (PO & LO).
    eexists. split; [reflexivity|]. split; [|intros p Hp; apply I; cbn; now apply transpose_inside].
    split; [split; cbn; [now rewrite !map_length|]|].
    { rewrite Forall_forall in *. intros x Hx. apply in_map_iff in Hx. destruct Hx as (i & <- & Hi). apply P, nth_In. apply (Permutation_in i PO), in_seq in Hi. lia. }
    split; [reflexivity|]. cbn [vshp vmap v_transpose s_shape]. intros p Hp.
    rewrite <- M by now apply transpose_inside. unfold address. cbn [s_offset s_strides].
    pose proof (in_shape_length _ _ Hp) as LP. rewrite map_length in LP. rewrite dot_transpose; [reflexivity|now rewrite L|lia|lia].
Qed.

Lemma chain_shows base ops : forall a v, shows base v a -> stays base v ->
  match chain view_op ops v with
  | Ok v' => exists a', chain strided_op ops a = Ok a' /\ shows base v' a' /\ stays base v'
  | Err e => chain strided_op ops a = Err e
  end.
Proof.
  induction ops as [|o ops IH]; intros a v H I; cbn [chain].
  { exists a. split; auto. }
  pose proof (op_shows base v a o H I) as O. destruct (view_op o v) as [v'|e]; cbn [bind]; [|now rewrite O].
  destruct O as (a' & -> & H' & I'). cbn [bind]. now apply IH.
Qed.

Theorem views_in_memory base ops : proper base ->
  match chain view_op ops (v_whole (s_shape base)) with
  | Ok v => exists a, chain strided_op ops base = Ok a /\ shows base v a /\ forall p, in_shape (vshp v) p -> in_shape (s_shape base) (vmap v p)
  | Err e => chain strided_op ops base = Err e
  end.
Proof.
  intros P. apply chain_shows; [split; [auto|split; reflexivity]|intros p Hp; exact Hp].
Qed.

(** different indices of a view are different elements *)
Lemma index_one_to_one es : forall s s' f p q, index_apply es s = Ok (s', f) -> in_shape s' p -> in_shape s' q -> f p = f q -> p = q.
Proof.
  induction es as [|e es IH]; intros s s' f p q E Hp Hq F; cbn [index_apply] in E.
  { injection E as <- <-. exact F. }
  destruct e as [i|start stop step|].
  - destruct s as [|n s]; [discriminate|]. destruct ((- n <=? i) && (i <? n)) eqn:B; [|discriminate].
    destruct (index_apply es s) as [[s1 f1]|] eqn:E1; cbn [bind] in E; [|discriminate]. injection E as <- <-. injection F as F. exact (IH _ _ _ _ _ E1 Hp Hq F).
  - destruct s as [|n s]; [discriminate|]. destruct (slice_norm n start stop step) as [[[a len] k]|] eqn:E0; cbn [bind] in E; [|discriminate].
    assert (K : k <> 0). { unfold slice_norm in E0. destruct (Z.eqb_spec (match step with Some s => s | None => 1 end) 0); [discriminate|]. injection E0 as _ _ <-. assumption. }
    destruct (index_apply es s) as [[s1 f1]|] eqn:E1; cbn [bind] in E; [|discriminate]. injection E as <- <-.
    inversion Hp as [|? x ? p' Hx Hp']; subst. inversion Hq as [|? y ? q' Hy Hq']; subst. cbn [hd tl] in F. injection F as F1 F2.
    f_equal; [nia|]. exact (IH _ _ _ _ _ E1 Hp' Hq' F2).
  - destruct (index_apply es s) as [[s1 f1]|] eqn:E1; cbn [bind] in E; [|discriminate]. injection E as <- <-.
    inversion Hp as [|? x ? p' Hx Hp']; subst. inversion Hq as [|? y ? q' Hy Hq']; subst. cbn [tl] in F. f_equal; [lia|]. exact (IH _ _ _ _ _ E1 Hp' Hq' F).
Qed.

Lemma swap_swap i j (p : list Z) : (i < length p)%nat -> (j < length p)%nat -> i_swap i j (i_swap i j p) = p.
Proof.
  intros Hi Hj. apply (nth_ext _ _ 0 0); [now rewrite !length_i_swap|]. intros k _. rewrite nth_swap by now rewrite length_i_swap. rewrite !nth_swap by auto.
  repeat match goal with |- context [Nat.eqb ?a ?b] => destruct (Nat.eqb_spec a b); subst end; congruence.
Qed.

Lemma flip_flip n i (p : list Z) : (i < length p)%nat -> i_flip n i (i_flip n i p) = p.
Proof.
  intros Hi. apply (nth_ext _ _ 0 0); [now rewrite !length_i_flip|]. intros k _. unfold i_flip.
  destruct (Nat.eq_dec k i) as [->|N]; [rewrite !nth_upd_eq by (rewrite ?length_upd; lia); lia|now rewrite !nth_upd_neq by auto].
Qed.

Lemma op_one_to_one o v v' : Forall (Z.le 0) (vshp v) -> view_op o v = Ok v' -> inj_view v -> inj_view v'.
Proof.
  unfold inj_view. intros P E I. destruct o as [es|i|i j|order]; cbn [view_op] in E.
  - unfold v_index in E. destruct (index_apply es (vshp v)) as [[s f]|] eqn:E1; cbn [bind] in E; [|discriminate]. injection E as <-. cbn [vshp vmap]. intros p q Hp Hq F.
    apply (index_one_to_one _ _ _ _ _ _ E1 Hp Hq). apply I; auto; eapply index_inside; eauto.
  - destruct (Nat.ltb_spec i (length (vshp v))); [|discriminate]. injection E as <-. cbn [vshp vmap v_flip]. intros p q Hp Hq F.
    apply I in F; try now apply flip_inside. pose proof (in_shape_length _ _ Hp). pose proof (in_shape_length _ _ Hq).
    rewrite <- (flip_flip (nth i (vshp v) 0) i p), F, flip_flip by lia. reflexivity.
  - destruct (Nat.ltb_spec i (length (vshp v))); [|discriminate]. destruct (Nat.ltb_spec j (length (vshp v))); [|discriminate]. cbn [andb] in E. injection E as <-. cbn [vshp vmap v_swap]. intros p q Hp Hq F.
    pose proof (in_shape_length _ _ Hp) as LP. pose proof (in_shape_length _ _ Hq) as LQ. rewrite length_i_swap in LP, LQ.
    apply I in F; try now apply swap_inside. rewrite <- (swap_swap i j p), F, swap_swap by lia. reflexivity.
  - destruct (axes_ok order (length (vshp v))) eqn:X; [|discriminate]. apply axes_ok_perm in X. destruct X as (PO & LO). injection E as <-. cbn [vshp vmap v_transpose]. intros p q Hp Hq F.
    apply I in F; try now apply transpose_inside. pose proof (in_shape_length _ _ Hp) as LP. pose proof (in_shape_length _ _ Hq) as LQ. rewrite map_length in LP, LQ.
    apply (transpose_one_to_one order); auto. now rewrite LO.
Qed.

Lemma chain_one_to_one base ops : forall a v v', shows base v a -> stays base v -> chain view_op ops v = Ok v' -> inj_view v -> inj_view v'.
Proof.
  induction ops as [|o ops IH]; intros a v v' H I E J; cbn [chain] in E; [injection E as <-; exact J|].
  pose proof (op_shows base v a o H I) as O. destruct (view_op o v) as [v1|] eqn:E1; cbn [bind] in E; [|discriminate]. destruct O as (a1 & _ & H1 & I1).
  apply (IH a1 v1); auto. eapply op_one_to_one; eauto. destruct H as ((_ & P) & <- & _). exact P.
Qed.

Lemma NoDup_elements_inj a p q : NoDup (elements a) -> in_shape (s_shape a) p -> in_shape (s_shape a) q -> address a p = address a q -> p = q.
Proof.
  intros N Hp Hq E. apply in_all_idx in Hp, Hq. unfold elements in N. revert N Hp Hq. generalize (all_idx (s_shape a)). induction l as [|x l IH]; intros N A B; [contradiction|]. cbn [map] in N. inversion N as [|? ? N1 N2]; subst. destruct A as [A|A]; destruct B as [B|B].
  - congruence.
  - exfalso. apply N1. subst x. rewrite E. now apply in_map.
  - exfalso. apply N1. subst x. rewrite <- E. now apply in_map.
  - auto.
Qed.

Theorem views_separate base ops a : proper base -> NoDup (elements base) -> chain strided_op ops base = Ok a -> NoDup (elements a).
Proof.
  intros P N E. pose proof (views_in_memory base ops P) as W. destruct (chain view_op ops (v_whole (s_shape base))) as [v|] eqn:V; [|congruence].
  destruct W as (a' & E' & (Pa & S & M) & I). assert (a' = a) by congruence. subst a'.
  assert (J : inj_view v). { eapply chain_one_to_one; [| |exact V|]; [split; [exact P|split; reflexivity]|intros p Hp; exact Hp|]. intros p q _ _ F. exact F. }
  unfold elements. apply NoDup_map_inj; [apply all_idx_NoDup|]. intros p q Hp Hq F. apply in_all_idx in Hp, Hq. rewrite S in Hp, Hq. rewrite !M in F by auto.
  apply J; auto. apply (NoDup_elements_inj base); auto.
Qed.

(** ** contiguity *)
Lemma zrange_add a b : 0 <= a -> 0 <= b -> zrange (a + b) = (zrange a ++ map (Z.add a) (zrange b))%list.
Proof.
  intros Ha. revert b. apply (natlike_ind (fun b => zrange (a + b) = (zrange a ++ map (Z.add a) (zrange b))%list)).
  - rewrite Z.add_0_r. cbn. now rewrite app_nil_r.
  - intros b Hb IH. unfold Z.succ. rewrite Z.add_assoc, !zrange_succ by lia. rewrite IH, map_app, app_assoc. reflexivity.
Qed.

Lemma zrange_mul N d : 0 <= N -> 0 <= d -> zrange (d * N) = flat_map (fun i => map (fun k => i * N + k) (zrange N)) (zrange d).
Proof.
  intros HN. revert d. apply (natlike_ind (fun d => zrange (d * N) = flat_map (fun i => map (fun k => i * N + k) (zrange N)) (zrange d))); [reflexivity|].
  intros d Hd IH. unfold Z.succ. rewrite zrange_succ, flat_map_app by lia. cbn [flat_map]. rewrite app_nil_r, <- IH.
  replace ((d + 1) * N) with (d * N + N) by lia. rewrite zrange_add by nia. reflexivity.
Qed.

Definition offs (shape strides : list Z) : list Z := map (dot strides) (all_idx shape).
Lemma offs_cons d s shape strides : offs (d :: shape) (s :: strides) = flat_map (fun i => map (fun x => i * s + x) (offs shape strides)) (zrange d).
Proof.
  unfold offs. cbn [all_idx]. induction (zrange d) as [|i l IH]; [reflexivity|]. cbn [flat_map]. rewrite map_app, IH, !map_map. reflexivity.
Qed.

Lemma length_all_idx shape : Forall (Z.le 0) shape -> Z.of_nat (length (all_idx shape)) = size shape.
Proof.
  induction 1 as [|d shape Hd _ IH]; [reflexivity|]. cbn [all_idx size fold_right]. fold (size shape). rewrite <- IH. clear IH.
  assert (L : forall l, Z.of_nat (length (flat_map (fun i => map (cons i) (all_idx shape)) l)) = Z.of_nat (length l) * Z.of_nat (length (all_idx shape))).
  { induction l as [|i l IH]; [reflexivity|]. cbn [flat_map length]. rewrite app_length, map_length, Nat2Z.inj_add, IH, Nat2Z.inj_succ. unfold Z.succ. rewrite Z.mul_add_distr_r, Z.mul_1_l. apply Z.add_comm. }
  rewrite L, length_zrange, Z2Nat.id by auto. reflexivity.
Qed.

Lemma size_nonneg shape : Forall (Z.le 0) shape -> 0 <= size shape.
Proof. intros H. rewrite <- (length_all_idx _ H). lia. Qed.

Lemma app_inv_length {A} (a b c d : list A) : length a = length c -> (a ++ b = c ++ d)%list -> a = c /\ b = d.
Proof. revert c. induction a as [|x a IH]; intros [|y c] L E; cbn in L, E; try discriminate; [auto|]. injection E as -> E. destruct (IH c) as [-> ->]; auto. Qed.

Lemma flat_map_blocks {A B} (f g : A -> list B) l : (forall i, length (f i) = length (g i)) -> flat_map f l = flat_map g l -> forall i, In i l -> f i = g i.
Proof.
  intros L. induction l as [|x l IH]; intros E i []; cbn [flat_map] in E.
  - subst x. apply app_inv_length in E; [|apply L]. tauto.
  - apply app_inv_length in E; [|apply L]. apply IH; tauto.
Qed.

Lemma scan_size item shape : forall strides, length strides = length shape -> snd (c_scan item shape strides) = item * size shape.
Proof.
  induction shape as [|d shape IH]; intros [|s strides] L; cbn in L; try discriminate; [cbn; lia|]. injection L as L. specialize (IH strides L).
  cbn [c_scan size fold_right]. fold (size shape). destruct (c_scan item shape strides) as [ok sd]. cbn [snd] in IH. subst sd. destruct (Z.eqb_spec d 1) as [->|]; cbn [snd]; lia.
Qed.

Lemma scan_iff item shape : forall strides, length strides = length shape -> Forall (Z.lt 0) shape ->
  fst (c_scan item shape strides) = true <-> offs shape strides = map (fun k => k * item) (zrange (size shape)).
Proof.
  induction shape as [|d shape IH]; intros [|s strides] L P; cbn in L; try discriminate; [cbn; tauto|]. injection L as L. inversion P as [|? ? Hd P']; subst.
  specialize (IH strides L P'). pose proof (scan_size item shape strides L) as Z. rewrite offs_cons. cbn [c_scan size fold_right]. fold (size shape).
  assert (P0 : Forall (Z.le 0) shape) by (eapply Forall_impl; [|exact P']; intros; cbn in *; lia).
  assert (N1 : 0 < size shape). { clear -P'. induction P'; cbn; [lia|]. fold (size l). nia. }
  assert (LO : length (offs shape strides) = length (zrange (size shape))). { unfold offs. rewrite map_length, length_zrange. rewrite <- (length_all_idx _ P0), Nat2Z.id. reflexivity. }
  rewrite zrange_mul by lia. destruct (c_scan item shape strides) as [ok sd]. cbn [fst snd] in IH, Z. subst sd.
  replace (map (fun k => k * item) (flat_map (fun i => map (fun k => i * size shape + k) (zrange (size shape))) (zrange d)))
    with (flat_map (fun i => map (fun k => (i * size shape + k) * item) (zrange (size shape))) (zrange d))
    by (induction (zrange d) as [|i l IHl]; [reflexivity|]; cbn [flat_map]; rewrite map_app, map_map, <- IHl; reflexivity).
  split.
  - intros F. assert (F' : ok = true /\ (d = 1 \/ s = item * size shape)).
    { destruct (Z.eqb_spec d 1); cbn [fst] in F; [auto|]. apply andb_true_iff in F. destruct F as [F1 F2]. split; [auto|right; lia]. }
    destruct F' as [-> F']. destruct IH as [IH _]. rewrite (IH eq_refl).
    assert (G : forall l, (forall i, In i l -> In i (zrange d)) -> flat_map (fun i => map (fun x => i * s + x) (map (fun k => k * item) (zrange (size shape)))) l =
      flat_map (fun i => map (fun k => (i * size shape + k) * item) (zrange (size shape))) l); [|apply G; auto].
    induction l as [|i l IHl]; intros Hl; [reflexivity|]. cbn [flat_map]. rewrite IHl by (intros; apply Hl; now right). f_equal. rewrite map_map. apply map_ext. intros k.
    assert (Hi : 0 <= i < d) by (apply in_zrange, Hl; now left). destruct F' as [->| ->]; [assert (i = 0) by lia; subst i; lia|lia].
  - intros E. assert (B : forall i, In i (zrange d) -> map (fun x => i * s + x) (offs shape strides) = map (fun k => (i * size shape + k) * item) (zrange (size shape))).
    { apply flat_map_blocks; [|exact E]. intros i. rewrite !map_length. exact LO. }
    assert (B0 : offs shape strides = map (fun k => k * item) (zrange (size shape))).
    { specialize (B 0 ltac:(apply in_zrange; lia)). rewrite <- (map_id (offs shape strides)) at 1. erewrite map_ext; [rewrite B|]; [apply map_ext; intros; lia|]. intros; cbn; lia. }
    destruct IH as [_ IH]. rewrite (IH B0). destruct (Z.eqb_spec d 1); [reflexivity|]. cbn [fst andb]. apply Z.eqb_eq.
    specialize (B 1 ltac:(apply in_zrange; lia)). rewrite B0, map_map in B. assert (Q : 1 * s + 0 * item = (1 * size shape + 0) * item); [|lia].
    refine (ext_in_map B 0 _). apply in_zrange. lia.
Qed.

Lemma existsb_zero shape : existsb (Z.eqb 0) shape = true -> Forall (Z.le 0) shape -> size shape = 0.
Proof.
  intros E P. induction P as [|d shape Hd P IH]; [discriminate|]. cbn [existsb] in E. cbn [size fold_right]. fold (size shape). apply orb_true_iff in E. destruct E as [E|E]; [|rewrite (IH E); lia].
  apply Z.eqb_eq in E. nia.
Qed.
Lemma existsb_positive shape : existsb (Z.eqb 0) shape = false -> Forall (Z.le 0) shape -> Forall (Z.lt 0) shape.
Proof.
  intros E P. induction P as [|d shape Hd P IH]; [constructor|]. cbn [existsb] in E. apply orb_false_iff in E. destruct E as [E1 E2]. constructor; [destruct (Z.eqb_spec 0 d); [discriminate|lia]|auto].
Qed.
Lemma elements_offs a : elements a = map (Z.add (s_offset a)) (offs (s_shape a) (s_strides a)).
Proof. unfold elements, offs. rewrite map_map. reflexivity. Qed.
Lemma map_add_inj o (l l' : list Z) : map (Z.add o) l = map (Z.add o) l' -> l = l'.
Proof.
  revert l'. induction l as [|x l IH]; intros [|y l'] E; cbn in E; try discriminate; [auto|]. injection E as E1 E2. f_equal; [lia|auto].
Qed.

Theorem c_flag_iff item a : proper a -> c_flag item a = true <-> elements a = block item a.
Proof.
  intros (L & P). unfold c_flag, block. rewrite elements_offs. rewrite <- (map_map (fun k => k * item) (Z.add (s_offset a))). destruct (existsb (Z.eqb 0) (s_shape a)) eqn:E.
  - split; [intros _|auto]. pose proof (existsb_zero _ E P) as Z0. rewrite Z0. pose proof (length_all_idx _ P) as LI. rewrite Z0 in LI. unfold offs. destruct (all_idx (s_shape a)); [reflexivity|discriminate].
  - pose proof (existsb_positive _ E P) as P'. rewrite (scan_iff item _ _ L P'). split; [intros ->; reflexivity|apply map_add_inj].
Qed.

(** the other order: the first index runs fastest *)
Lemma dot_app s : forall t p q, length s = length p -> dot (s ++ t) (p ++ q) = dot s p + dot t q.
Proof. induction s as [|a s IH]; intros t [|x p] q L; cbn in L; try discriminate; cbn [app dot]; [lia|]. rewrite IH by lia. lia. Qed.
Lemma dot_rev s : forall p, length s = length p -> dot (rev s) p = dot s (rev p).
Proof.
  intros p L. rewrite <- (rev_involutive p) at 1. generalize (rev p) (eq_trans L (eq_sym (rev_length p))). clear. intros p. revert s.
  induction p as [|x p IH]; intros [|a s] L; cbn in L; try discriminate; [reflexivity|]. injection L as L. cbn [rev dot]. rewrite dot_app by (rewrite !rev_length; auto). rewrite IH by auto. cbn [dot]. lia.
Qed.
Lemma size_rev shape : size (rev shape) = size shape.
Proof.
  assert (A : forall s t, size (s ++ t) = size s * size t).
  { induction s as [|d s IH]; intros t; [change (size ([] ++ t)) with (size t); change (size []) with 1; lia|].
    change (size ((d :: s) ++ t)) with (d * size (s ++ t)). change (size (d :: s)) with (d * size s). rewrite IH. lia. }
  induction shape as [|d s IH]; [reflexivity|]. cbn [rev]. rewrite A, IH. change (size [d]) with (d * 1). change (size (d :: s)) with (d * size s). lia.
Qed.
Theorem f_flag_iff item a : proper a -> f_flag item a = true <-> map (fun p => address a (rev p)) (all_idx (rev (s_shape a))) = block item a.
Proof.
  intros (L & P). set (b := mkS (s_offset a) (rev (s_shape a)) (rev (s_strides a))). assert (PB : proper b) by (split; cbn; [now rewrite !rev_length|now apply Forall_rev]).
  pose proof (c_flag_iff item b PB) as H. unfold block in *. cbn [b s_shape s_offset] in H. rewrite size_rev in H.
  replace (f_flag item a) with (c_flag item b).
  - rewrite H. unfold elements. cbn [b s_shape]. assert (E : map (address b) (all_idx (rev (s_shape a))) = map (fun p => address a (rev p)) (all_idx (rev (s_shape a)))); [|rewrite E; tauto].
    apply map_ext_in. intros p Hp. apply in_all_idx, in_shape_length in Hp. unfold address, b. cbn [s_offset s_strides]. rewrite dot_rev; [reflexivity|]. rewrite Hp, rev_length. exact L.
  - unfold c_flag, f_flag, b. cbn [s_shape s_strides]. replace (existsb (Z.eqb 0) (rev (s_shape a))) with (existsb (Z.eqb 0) (s_shape a)); [reflexivity|].
    apply Bool.eq_iff_eq_true. rewrite !existsb_exists. split; intros (x & Hx & E); exists x; (split; [|exact E]); [now apply -> in_rev|now apply in_rev].
Qed.

(** a new array *)
Lemma new_proper item o shape : Forall (Z.le 0) shape -> proper (new_array item o shape).
Proof. intros P. split; [|exact P]. cbn. clear P. induction shape; cbn; auto. Qed.
Lemma new_scan item shape : fst (c_scan item shape (c_strides item shape)) = true.
Proof.
  induction shape as [|d shape IH]; [reflexivity|]. cbn [c_scan c_strides]. pose proof (scan_size item shape (c_strides item shape)) as Z.
  destruct (c_scan item shape (c_strides item shape)) as [ok sd]. cbn [fst snd] in *. subst ok. rewrite Z by (clear; induction shape; cbn; auto). destruct (d =? 1); [reflexivity|]. cbn [fst andb]. apply Z.eqb_refl.
Qed.
Lemma new_contiguous item o shape : c_flag item (new_array item o shape) = true.
Proof. unfold c_flag. cbn [new_array s_shape s_strides]. destruct (existsb (Z.eqb 0) shape); [reflexivity|apply new_scan]. Qed.
Lemma block_NoDup item a : item <> 0 -> NoDup (block item a).
Proof. intros H. unfold block. apply NoDup_map_inj; [apply zrange_NoDup|]. intros x y _ _ E. nia. Qed.
Theorem new_separate item o shape : item <> 0 -> Forall (Z.le 0) shape -> NoDup (elements (new_array item o shape)).
Proof. intros H P. rewrite (proj1 (c_flag_iff item _ (new_proper item o shape P)) (new_contiguous item o shape)). now apply block_NoDup. Qed.
Lemma length_block item a : Forall (Z.le 0) (s_shape a) -> length (block item a) = length (all_idx (s_shape a)).
Proof. intros P. unfold block. rewrite map_length, length_zrange, <- (length_all_idx _ P), Nat2Z.id. reflexivity. Qed.

Theorem new_views_separate item o shape ops a : item <> 0 -> Forall (Z.le 0) shape -> chain strided_op ops (new_array item o shape) = Ok a -> NoDup (elements a).
Proof. intros H P. apply views_separate; [now apply new_proper|now apply new_separate]. Qed.
Theorem contiguous_iff item a : proper a ->
  ensure_contiguous item a = Ok tt <-> elements a = block item a \/ map (fun p => address a (rev p)) (all_idx (rev (s_shape a))) = block item a.
Proof.
  intros P. rewrite <- (c_flag_iff item a P), <- (f_flag_iff item a P), <- orb_true_iff. unfold ensure_contiguous, is_contiguous.
  destruct (c_flag item a || f_flag item a); split; congruence.
Qed.

Section Store.
Variable V : Type.
Implicit Types m : memory V.

Lemma store_other (l : list (Z * V)) : forall m x, ~ In x (map fst l) -> store V l m x = m x.
Proof.
  induction l as [|[a v] l IH]; intros m x H; [reflexivity|]. cbn in H |- *. fold (store V l). unfold store in *. rewrite IH by tauto. destruct (Z.eqb_spec x a); [subst; tauto|reflexivity].
Qed.
Lemma combine_fst {A B} (l : list A) : forall l' : list B, length l = length l' -> map fst (combine l l') = l.
Proof. induction l as [|a l IH]; intros [|b l'] L; cbn in *; try discriminate; f_equal; auto. Qed.
Lemma store_at keys : forall (vals : list V) m, NoDup keys -> length keys = length vals -> map (store V (combine keys vals) m) keys = vals.
Proof.
  induction keys as [|k keys IH]; intros [|v vals] m N L; cbn in L; try discriminate; [reflexivity|]. inversion N as [|? ? N1 N2]; subst. cbn [combine map].
  change (store V ((k, v) :: combine keys vals) m) with (store V (combine keys vals) (fun x => if x =? k then v else m x)). f_equal; [|apply IH; auto].
  rewrite store_other by (rewrite combine_fst; auto). now rewrite Z.eqb_refl.
Qed.

Theorem sent_elements item free a m : item <> 0 -> proper a -> sent V item free a m = map m (elements a).
Proof.
  intros H P. unfold sent, is_c_contiguous. destruct (c_flag item a) eqn:C.
  - apply (c_flag_iff item a P) in C. now rewrite C.
  - pose proof (new_proper item free (s_shape a) (proj2 P)) as PN. pose proof (proj1 (c_flag_iff item _ PN) (new_contiguous item free (s_shape a))) as B. rewrite <- B.
    unfold assign. apply store_at; [apply new_separate; [auto|apply P]|]. unfold elements. now rewrite !map_length.
Qed.

Theorem received_elements item free a body m : item <> 0 -> proper a -> NoDup (elements a) -> length body = length (elements a) ->
  map (received V item free a body m) (elements a) = body /\
  forall x, ~ In x (elements a) -> c_flag item a = true \/ ~ In x (block item (new_array item free (s_shape a))) -> received V item free a body m x = m x.
Proof.
  intros H P N L. unfold received, is_c_contiguous. destruct (c_flag item a) eqn:C.
  - pose proof (proj1 (c_flag_iff item a P) C) as B. rewrite <- B. split; [apply store_at; auto|]. intros x Hx _. apply store_other. rewrite combine_fst; auto.
  - set (b := new_array item free (s_shape a)). pose proof (new_proper item free (s_shape a) (proj2 P)) as PN. pose proof (proj1 (c_flag_iff item _ PN) (new_contiguous item free (s_shape a))) as B. fold b in B, PN.
    assert (LB : length (elements b) = length body) by (rewrite L; unfold elements; now rewrite !map_length).
    assert (R : map (store V (combine (block item b) body) m) (elements b) = body) by (rewrite <- B; apply store_at; [apply new_separate; [auto|apply P]|exact LB]).
    unfold assign. rewrite R. split; [apply store_at; auto|]. intros x Hx [F|F]; [discriminate|]. rewrite store_other by (rewrite combine_fst; auto). apply store_other. rewrite combine_fst; [exact F|]. now rewrite <- B.
Qed.

(** from one process to another *)
Theorem message_between item free free' a b m m' p : item <> 0 -> proper a -> proper b -> s_shape b = s_shape a -> NoDup (elements b) -> in_shape (s_shape a) p ->
  received V item free' b (sent V item free a m) m' (address b p) = m (address a p).
Proof.
  intros H PA PB S N Hp. rewrite sent_elements by auto.
  assert (L : length (map m (elements a)) = length (elements b)) by (unfold elements; rewrite !map_length, S; reflexivity).
  destruct (received_elements item free' b _ m' H PB N L) as (R & _). unfold elements in R at 2 3. rewrite S, !map_map in R.
  apply (ext_in_map R p). now apply in_all_idx.
Qed.
End Store.

(** ** the messages of halo updates *)
Lemma chain_app {A} (f : vop -> A -> res A) l : forall l' x, chain f (l ++ l') x = bind (chain f l x) (chain f l').
Proof. induction l as [|o l IH]; intros l' x; [reflexivity|]. cbn [app chain]. destruct (f o x); cbn [bind]; auto. Qed.

Lemma rot90_chain v i j : (i < length (vshp v))%nat -> (j < length (vshp v))%nat -> chain view_op [OFlip j; OSwap i j] v = Ok (v_rot90 v i j).
Proof.
  intros Hi Hj. cbn [chain view_op]. rewrite (proj2 (Nat.ltb_lt _ _) Hj). cbn [bind v_flip vshp]. rewrite (proj2 (Nat.ltb_lt _ _) Hi), (proj2 (Nat.ltb_lt _ _) Hj). reflexivity.
Qed.
Lemma flip_chain v i : (i < length (vshp v))%nat -> chain view_op [OFlip i] v = Ok (v_flip v i).
Proof. intros Hi. cbn [chain view_op]. now rewrite (proj2 (Nat.ltb_lt _ _) Hi). Qed.
Lemma check_axis_ok v i u : check_axis v i = Ok u -> (i < length (vshp v))%nat.
Proof. unfold check_axis. destruct (Nat.ltb_spec i (length (vshp v))); [auto|discriminate]. Qed.
Lemma rotate_chain v dims k v' : rotate_scalar_data v dims k = Ok v' -> exists ops, chain view_op ops v = Ok v'.
Proof.
  unfold rotate_scalar_data. intros E. assert (Z0 : forall w, Ok w = Ok v' -> w = v -> exists ops, chain view_op ops v = Ok v') by (intros w Ew ->; exists []; exact Ew).
  destruct (k mod 4 =? 0); [eauto|]. destruct ((k mod 4 =? 1) || (k mod 4 =? 3)); [|exists [OIndex (reverse_entries dims)]; cbn [chain view_op]; now rewrite E].
  destruct (find_xy 0 dims (None, None)) as [[x|] [y|]].
  - destruct (check_axis v x) eqn:X; cbn [bind] in E; [|discriminate]. destruct (check_axis v y) eqn:Y; cbn [bind] in E; [|discriminate]. apply check_axis_ok in X, Y.
    destruct (k mod 4 =? 1); rewrite <- E; eexists; now apply rot90_chain.
  - destruct (k mod 4 =? 1); [|eauto]. destruct (check_axis v x) eqn:X; cbn [bind] in E; [|discriminate]. apply check_axis_ok in X. rewrite <- E. eexists. now apply flip_chain.
  - destruct (k mod 4 =? 3); [|eauto]. destruct (check_axis v y) eqn:Y; cbn [bind] in E; [|discriminate]. apply check_axis_ok in Y. rewrite <- E. eexists. now apply flip_chain.
  - eauto.
Qed.

Lemma boundary_chain b m n interior v : boundary_view b m n interior = Ok v -> exists ops, chain view_op ops (v_whole (m_shape m)) = Ok v.
Proof.
  unfold boundary_view. destruct (get_boundary_slice _ _ _ _ _ _ _) as [sl|]; cbn [bind]; [|discriminate]. intros E. exists [OIndex (map (fun se => ISL (fst se) (snd se)) sl)]. cbn [chain view_op]. now rewrite E.
Qed.

Lemma made_of base ops v : proper base -> chain view_op ops (v_whole (s_shape base)) = Ok v -> exists a, chain strided_op ops base = Ok a /\ shows base v a.
Proof. intros P E. pose proof (views_in_memory base ops P) as W. rewrite E in W. destruct W as (a & A & S & _). eauto. Qed.

Section Halo.
Variable V : Type.

Theorem halo_sent item free base b m n k v v' (mm : memory V) : item <> 0 -> proper base -> s_shape base = m_shape m ->
  send_view b m n = Ok v -> rotate_scalar_data v (m_dims m) k = Ok v' ->
  exists ops a, chain strided_op ops base = Ok a /\ shows base v' a /\ sent V item free a mm = map (fun p => mm (address base (vmap v' p))) (all_idx (vshp v')).
Proof.
  intros H P S E R. destruct (boundary_chain _ _ _ _ _ E) as (o1 & C1). destruct (rotate_chain _ _ _ _ R) as (o2 & C2). rewrite <- S in C1.
  destruct (made_of base (o1 ++ o2) v' P) as (a & A & (PA & SA & MA)); [rewrite chain_app, C1; exact C2|]. exists (o1 ++ o2)%list, a. split; [exact A|]. split; [split; auto|]. rewrite sent_elements by auto.
  unfold elements. rewrite SA, map_map. apply map_ext_in. intros p Hp. apply in_all_idx in Hp. now rewrite MA.
Qed.

Theorem halo_received item free base b m n v body (mm : memory V) : item <> 0 -> proper base -> NoDup (elements base) -> s_shape base = m_shape m ->
  recv_view b m n = Ok v -> length body = length (all_idx (vshp v)) ->
  exists ops a, chain strided_op ops base = Ok a /\ shows base v a /\
    map (fun p => received V item free a body mm (address base (vmap v p))) (all_idx (vshp v)) = body /\
    forall q, in_shape (m_shape m) q -> (forall p, in_shape (vshp v) p -> vmap v p <> q) -> ~ In (address base q) (block item (new_array item free (vshp v))) ->
      received V item free a body mm (address base q) = mm (address base q).
Proof.
  intros H P N S E L. destruct (boundary_chain _ _ _ _ _ E) as (o1 & C1). rewrite <- S in C1. pose proof (views_in_memory base o1 P) as W. rewrite C1 in W. destruct W as (a & A & (PA & SA & MA) & I).
  exists o1, a. split; [exact A|]. split; [split; auto|]. assert (NA : NoDup (elements a)) by exact (views_separate base o1 a P N A).
  destruct (received_elements V item free a body mm H PA NA) as (R1 & R2); [unfold elements; rewrite map_length, SA; exact L|]. split.
  - transitivity (map (received V item free a body mm) (elements a)); [|exact R1]. unfold elements. rewrite SA, map_map. apply map_ext_in. intros p Hp. apply in_all_idx in Hp. now rewrite MA.
  - intros q Hq O F. apply R2; [|right; now rewrite SA]. intros X. unfold elements in X. apply in_map_iff in X. destruct X as (p & X1 & X2). rewrite SA in X2. apply in_all_idx in X2. rewrite MA in X1 by auto.
    apply (O p X2). apply (NoDup_elements_inj base); auto. rewrite S. exact Hq.
Qed.
End Halo.

(** ** the buffers of scatter and gather *)
Lemma row_elements item a n s r : item <> 0 -> proper a -> s_shape a = Z.of_nat n :: s -> c_flag item a = true -> (r < n)%nat ->
  exists b, strided_op (OIndex [IInt (Z.of_nat r)]) a = Ok b /\ s_shape b = s /\ elements b = chunk item n a r.
Proof.
  intros H P S C Hr. destruct P as (L & P). rewrite S in L, P. destruct a as [o sh st]. cbn [s_shape s_strides] in *. subst sh. destruct st as [|t st]; [discriminate|]. injection L as L.
  inversion P as [|? ? P0 P1]; subst. cbn [strided_op s_shape s_strides s_offset index_strided].
  replace ((- Z.of_nat n <=? Z.of_nat r) && (Z.of_nat r <? Z.of_nat n)) with true by (symmetry; apply andb_true_iff; split; [apply Z.leb_le|apply Z.ltb_lt]; lia).
  cbn [bind]. replace (Z.of_nat r <? 0) with false by (symmetry; apply Z.ltb_ge; lia). eexists. split; [reflexivity|]. split; [reflexivity|].
  assert (PA : proper (mkS o (Z.of_nat n :: s) (t :: st))) by (split; cbn; [now rewrite L|exact P]). apply (c_flag_iff item _ PA) in C.
  unfold block in C. rewrite elements_offs in C. cbn [s_offset s_shape s_strides] in C. rewrite <- (map_map (fun k => k * item) (Z.add o)) in C. apply map_add_inj in C.
  rewrite offs_cons in C. change (size (Z.of_nat n :: s)) with (Z.of_nat n * size s) in C. pose proof (size_nonneg s P1) as SN. rewrite zrange_mul in C by lia.
  assert (E : map (fun k => k * item) (flat_map (fun i => map (fun k => i * size s + k) (zrange (size s))) (zrange (Z.of_nat n))) =
    flat_map (fun i => map (fun k => (i * size s + k) * item) (zrange (size s))) (zrange (Z.of_nat n))).
  { clear. induction (zrange (Z.of_nat n)) as [|i l IHl]; [reflexivity|]. cbn [flat_map]. rewrite map_app, map_map, <- IHl. reflexivity. }
  rewrite E in C. clear E.
  assert (LO : length (offs s st) = length (zrange (size s))). { unfold offs. rewrite map_length, length_zrange, <- (length_all_idx _ P1), Nat2Z.id. reflexivity. }
  pose proof (flat_map_blocks _ _ _ (fun i => eq_trans (map_length _ _) (eq_trans LO (eq_sym (map_length _ _)))) C (Z.of_nat r) ltac:(apply in_zrange; lia)) as B. cbn beta in B.
  rewrite elements_offs. cbn [s_offset s_shape s_strides]. unfold chunk. cbn [s_offset s_shape]. change (size (Z.of_nat n :: s)) with (Z.of_nat n * size s).
  rewrite (Z.mul_comm (Z.of_nat n)), Z.div_mul by lia.
  transitivity (map (Z.add o) (map (fun x => Z.of_nat r * t + x) (offs s st))); [rewrite map_map; apply map_ext; intros; lia|]. rewrite B, map_map. reflexivity.
Qed.

Lemma chunk_apart item n a r r' x : item <> 0 -> In x (chunk item n a r) -> In x (chunk item n a r') -> r = r'.
Proof.
  intros H. unfold chunk. set (c := size (s_shape a) / Z.of_nat n). rewrite !in_map_iff. intros (k & E & K) (k' & E' & K'). apply in_zrange in K, K'.
  assert (Q : (Z.of_nat r * c + k) * item = (Z.of_nat r' * c + k') * item) by lia. apply Z.mul_reg_r in Q; [|auto]. assert (Z.of_nat r = Z.of_nat r') by nia. lia.
Qed.
Lemma chunk_NoDup item n a r : item <> 0 -> NoDup (chunk item n a r).
Proof. intros H. unfold chunk. apply NoDup_map_inj; [apply zrange_NoDup|]. intros x y _ _ E. nia. Qed.

Section Collective.
Variable V : Type.

Theorem scattered_rows item a n s r (m : memory V) : item <> 0 -> proper a -> s_shape a = Z.of_nat n :: s -> is_c_contiguous item a = true -> (r < n)%nat ->
  exists b, strided_op (OIndex [IInt (Z.of_nat r)]) a = Ok b /\ s_shape b = s /\ scattered V item n a m r = map m (elements b).
Proof.
  intros H P S C Hr. destruct (row_elements item a n s r H P S C Hr) as (b & B1 & B2 & B3). exists b. split; [exact B1|]. split; [exact B2|]. unfold scattered. now rewrite B3.
Qed.

Lemma combine_parts {A B} (l1 : list A) : forall l2 (k1 k2 : list B), length l1 = length k1 -> combine (l1 ++ l2) (k1 ++ k2) = (combine l1 k1 ++ combine l2 k2)%list.
Proof. induction l1 as [|x l1 IH]; intros l2 [|y k1] k2 L; cbn in L; try discriminate; cbn; [reflexivity|]. f_equal. apply IH. lia. Qed.
Lemma gather_other item n a l : forall (m : memory V) x, (forall r body, In (r, body) l -> ~ In x (chunk item n a r)) ->
  fold_left (fun m rb => store V (combine (chunk item n a (fst rb)) (snd rb)) m) l m x = m x.
Proof.
  induction l as [|[r body] l IH]; intros m x N; [reflexivity|]. cbn [fold_left fst snd]. rewrite IH by (intros; apply (N r0 body0); now right). apply store_other.
  intros X. apply (N r body (or_introl eq_refl)). apply in_map_iff in X. destruct X as ([u w] & <- & X). exact (in_combine_l _ _ _ _ X).
Qed.

Theorem gathered_rows item a n s bodies (m : memory V) : item <> 0 -> proper a -> s_shape a = Z.of_nat n :: s -> is_c_contiguous item a = true ->
  length bodies = n -> Forall (fun body => length body = length (all_idx s)) bodies ->
  (forall r body, nth_error bodies r = Some body -> exists b, strided_op (OIndex [IInt (Z.of_nat r)]) a = Ok b /\ s_shape b = s /\ map (gathered V item n a bodies m) (elements b) = body) /\
  forall x, ~ In x (elements a) -> gathered V item n a bodies m x = m x.
Proof.
  intros H P S C L F. split.
  - intros r body E. assert (Hr : (r < n)%nat) by (rewrite <- L; apply nth_error_Some; congruence).
    destruct (row_elements item a n s r H P S C Hr) as (b & B1 & B2 & B3). exists b. split; [exact B1|]. split; [exact B2|]. rewrite B3. unfold gathered.
    assert (LB : length (chunk item n a r) = length body).
    { rewrite <- B3. unfold elements. rewrite map_length, B2. symmetry. rewrite Forall_forall in F. apply F. eapply nth_error_In; eauto. }
    destruct (nth_error_split _ _ E) as (l1 & l2 & -> & L1). rewrite app_length in L. cbn [length] in L.
    assert (SQ : seq 0 n = (seq 0 r ++ r :: seq (Datatypes.S r) (length l2))%list).
    { rewrite <- L, L1, seq_app. cbn. reflexivity. }
    rewrite SQ, combine_parts by (now rewrite seq_length). cbn [combine]. rewrite fold_left_app. cbn [fold_left fst snd].
    transitivity (map (store V (combine (chunk item n a r) body) (fold_left (fun m rb => store V (combine (chunk item n a (fst rb)) (snd rb)) m) (combine (seq 0 r) l1) m)) (chunk item n a r)); [|apply store_at; [now apply chunk_NoDup|exact LB]].
    apply map_ext_in. intros x Hx. apply gather_other. intros r' body' I' X. apply in_combine_l, in_seq in I'. pose proof (chunk_apart item n a r r' x H Hx X). lia.
  - intros x Hx. unfold gathered. apply gather_other. intros r body I X. apply in_combine_l, in_seq in I. apply Hx.
    destruct (row_elements item a n s r H P S C ltac:(lia)) as (b & B1 & B2 & B3). rewrite <- B3 in X.
    pose proof (views_in_memory a [OIndex [IInt (Z.of_nat r)]] P) as W. cbn [chain] in W. rewrite B1 in W. cbn [bind] in W.
    destruct (view_op (OIndex [IInt (Z.of_nat r)]) (v_whole (s_shape a))) as [v|]; cbn [bind] in W; [|discriminate]. destruct W as (b' & E' & (_ & SB & MB) & IN). injection E' as <-.
    unfold elements in X |- *. apply in_map_iff in X. destruct X as (p & <- & Hp). rewrite SB in Hp. apply in_all_idx in Hp. rewrite MB by exact Hp. apply in_map. apply in_all_idx. now apply IN.
Qed.
End Collective.

(** ** arrays in the order of Fortran *)
Definition fx : strided := mkS 0 [2; 2] [1; 2].
Theorem fortran_refuted : exists a, proper a /\ NoDup (elements a) /\ ensure_contiguous 1 a = Ok tt /\ ~ (forall (m : memory Z), map m (block 1 a) = map m (elements a)).
Proof.
  exists fx. split; [split; [reflexivity|repeat constructor; lia]|]. split; [change (elements fx) with [0; 2; 1; 3]; repeat (constructor; [cbn; lia|]); constructor|]. split; [reflexivity|].
  intros H. specialize (H (fun x => x)). cbn in H. discriminate.
Qed.
