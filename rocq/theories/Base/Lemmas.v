(** General lemmas. *)
From Verif.Base Require Import Base.
From Coq Require Import ZifyBool FinFun.

Lemma bind_Ok {A B} (m : res A) (f : A -> res B) b :
  bind m f = Ok b <-> exists a, m = Ok a /\ f a = Ok b.
Proof.
  destruct m; simpl; split.
  - intros H. now exists a.
  - intros (a' & E & H). congruence.
  - discriminate.
  - intros (a' & E & H). discriminate.
Qed.

Lemma in_zrange n i : In i (zrange n) <-> 0 <= i < n.
Proof.
  unfold zrange. rewrite in_map_iff. split.
  - intros (k & <- & H). apply in_seq in H. lia.
  - intros H. exists (Z.to_nat i). split; [lia|]. apply in_seq. lia.
Qed.

Lemma zrange_NoDup n : NoDup (zrange n).
Proof.
  unfold zrange. apply FinFun.Injective_map_NoDup; [|apply seq_NoDup].
  intros x y H. lia.
Qed.

Lemma length_zrange n : length (zrange n) = Z.to_nat n.
Proof. unfold zrange. now rewrite map_length, seq_length. Qed.

Lemma nth_zrange n i : 0 <= i < n -> nth (Z.to_nat i) (zrange n) 0 = i.
Proof.
  intros H. unfold zrange. rewrite (nth_indep _ 0 (Z.of_nat 0)).
  - rewrite map_nth, seq_nth; lia.
  - rewrite map_length, seq_length. lia.
Qed.

Lemma zrange_succ n : 0 <= n -> zrange (n + 1) = (zrange n ++ [n])%list.
Proof.
  intros H. unfold zrange. replace (Z.to_nat (n + 1)) with (Z.to_nat n + 1)%nat by lia.
  rewrite seq_app, map_app. simpl. do 2 f_equal. lia.
Qed.

Lemma length_upd {A} (l : list A) i a : length (upd l i a) = length l.
Proof. revert i; induction l; destruct i; simpl; auto. Qed.

Lemma nth_upd_eq {A} (l : list A) i a d : (i < length l)%nat -> nth i (upd l i a) d = a.
Proof. revert i; induction l; destruct i; simpl; intros; try lia; auto. apply IHl. lia. Qed.

Lemma nth_upd_neq {A} (l : list A) i j a d : i <> j -> nth i (upd l j a) d = nth i l d.
Proof. revert i j; induction l; destruct i, j; simpl; intros; try lia; auto. Qed.

Lemma upd_upd {A} (l : list A) i a b : upd (upd l i a) i b = upd l i b.
Proof. revert i; induction l; destruct i; simpl; auto. now rewrite IHl. Qed.

Lemma upd_comm {A} (l : list A) i j a b : i <> j -> upd (upd l i a) j b = upd (upd l j b) i a.
Proof.
  revert i j; induction l; destruct i, j; simpl; intros; try lia; auto. rewrite IHl; auto.
Qed.

Lemma upd_nth {A} (l : list A) i d : upd l i (nth i l d) = l.
Proof. revert i; induction l; destruct i; simpl; auto. now rewrite IHl. Qed.

Lemma nth_eq {A} (l l' : list A) d : length l = length l' ->
  (forall i, (i < length l)%nat -> nth i l d = nth i l' d) -> l = l'.
Proof. intros. eapply nth_ext; eauto. Qed.

Lemma Forall2_nth {A B} (P : A -> B -> Prop) l l' a b : 
  Forall2 P l l' <-> length l = length l' /\ forall i, (i < length l)%nat -> P (nth i l a) (nth i l' b).
Proof.
  split.
  - induction 1; simpl; split; auto; try lia.
    destruct i; intros; auto. apply IHForall2. lia.
  - revert l'; induction l; destruct l'; simpl; intros [L H]; try lia; constructor.
    + apply (H O). lia.
    + apply IHl. split; [lia|]. intros i Hi. apply (H (S i)). lia.
Qed.

Lemma Forall2_length {A B} (P : A -> B -> Prop) l l' : Forall2 P l l' -> length l = length l'.
Proof. induction 1; simpl; auto. Qed.

Lemma rmapM_Ok {A B} (f : A -> res B) l r : rmapM f l = Ok r <-> Forall2 (fun a b => f a = Ok b) l r.
Proof.
  revert r; induction l; simpl; intros r; split.
  - intros [= <-]. constructor.
  - inversion 1. auto.
  - intros H. apply bind_Ok in H. destruct H as (b & E & H).
    apply bind_Ok in H. destruct H as (r' & E' & H). injection H as <-.
    constructor; auto. now apply IHl.
  - inversion 1; subst. rewrite H2. simpl. rewrite (proj2 (IHl l')); auto.
Qed.

(** dictionaries *)
Lemma dget_dset {A} k k' (a : A) d :
  dget k (dset k' a d) = if String.eqb k k' then Some a else dget k d.
Proof.
  induction d as [|[k2 a2] d IH]; simpl.
  - reflexivity.
  - destruct (String.eqb_spec k' k2); simpl.
    + subst. destruct (String.eqb_spec k k2); auto.
    + destruct (String.eqb_spec k k2); auto.
      subst. destruct (String.eqb_spec k2 k'); [congruence|auto].
Qed.

Lemma dget_In {A} k (d : dict A) a : dget k d = Some a -> In (k, a) d.
Proof.
  induction d as [|[k2 a2] d IH]; simpl; [discriminate|].
  destruct (String.eqb_spec k k2); intros H.
  - injection H as ->. subst. now left.
  - right. auto.
Qed.

Lemma dget_None {A} k (d : dict A) : dget k d = None <-> ~ In k (dkeys d).
Proof.
  induction d as [|[k2 a2] d IH]; simpl.
  - tauto.
  - destruct (String.eqb_spec k k2); split; intros H.
    + discriminate.
    + exfalso. apply H. now left.
    + intros [E|I]; [congruence|]. now apply IH in H.
    + apply IH. intros I. apply H. now right.
Qed.

Lemma dget_NoDup {A} k (d : dict A) a : NoDup (dkeys d) -> dget k d = Some a <-> In (k, a) d.
Proof.
  intros N. split; [apply dget_In|].
  induction d as [|[k2 a2] d IH]; simpl; [tauto|].
  inversion N; subst. intros [E|I].
  - injection E as -> ->. now rewrite String.eqb_refl.
  - destruct (String.eqb_spec k k2); [|auto]. subst. exfalso. apply H1.
    change (In k2 (map fst d)). apply in_map_iff. now exists (k2, a).
Qed.

Lemma dget_dpop {A} k k' (d : dict A) : NoDup (dkeys d) ->
  dget k (dpop k' d) = if String.eqb k k' then None else dget k d.
Proof.
  induction d as [|[k2 a2] d IH]; simpl; intros N.
  - now destruct (String.eqb k k').
  - inversion N; subst. destruct (String.eqb_spec k' k2); simpl.
    + subst. destruct (String.eqb_spec k k2); auto. subst. now apply dget_None.
    + rewrite IH by auto. destruct (String.eqb_spec k k2); auto.
      subst. destruct (String.eqb_spec k2 k'); [congruence|auto].
Qed.

Lemma in_dkeys_dset {A} k k' (a : A) d : In k (dkeys (dset k' a d)) <-> k = k' \/ In k (dkeys d).
Proof.
  induction d as [|[k2 a2] d IH]; simpl.
  - intuition.
  - destruct (String.eqb_spec k' k2); simpl; rewrite ?IH; intuition congruence.
Qed.

Lemma NoDup_dset {A} k (a : A) d : NoDup (dkeys d) -> NoDup (dkeys (dset k a d)).
Proof.
  induction d as [|[k2 a2] d IH]; simpl; intros N.
  - constructor; [simpl; tauto|constructor].
  - inversion N; subst. destruct (String.eqb_spec k k2); simpl; constructor; auto.
    intros I. apply in_dkeys_dset in I. destruct I; congruence.
Qed.

Lemma in_dkeys_dpop {A} k k' (d : dict A) : In k (dkeys (dpop k' d)) -> In k (dkeys d).
Proof.
  induction d as [|[k2 a2] d IH]; simpl; [tauto|].
  destruct (String.eqb_spec k' k2); simpl; intuition.
Qed.

Lemma NoDup_dpop {A} k (d : dict A) : NoDup (dkeys d) -> NoDup (dkeys (dpop k d)).
Proof.
  induction d as [|[k2 a2] d IH]; simpl; intros N; [auto|].
  inversion N; subst. destruct (String.eqb_spec k k2); simpl; auto.
  constructor; auto. intros I. now apply in_dkeys_dpop in I.
Qed.
