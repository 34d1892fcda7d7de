From Verif.Base Require Import Base.
From Verif.Model Require Import Units.
From Verif.Spec Require Import Trim.

Section UnitsProofs.
Variable Ch : Type.
Variable space : Ch -> bool.
Variable eqb : Ch -> Ch -> bool.
Hypothesis eqb_ok : forall c d, eqb c d = true <-> c = d.
Notation lstrip := (lstrip Ch space). Notation strip := (strip Ch space).
Notation blanks := (blanks Ch space). Notation trimmed := (trimmed Ch space). Notation core := (core Ch space).

Lemma str_eqb_ok s : forall t, str_eqb Ch eqb s t = true <-> s = t.
Proof.
  induction s as [|c s IH]; intros [|d t]; cbn; try (split; [discriminate|discriminate]); [tauto|].
  rewrite andb_true_iff, eqb_ok, IH. split; [intros (-> & ->); reflexivity|intros [= -> ->]; auto].
Qed.

Lemma lstrip_ok s : exists p, blanks p /\ s = p ++ lstrip s /\ (forall c t, lstrip s = c :: t -> space c = false).
Proof.
  induction s as [|c s (p & A & B & C)]; cbn; [exists []; repeat split; [constructor|discriminate]|].
  destruct (space c) eqn:E.
  - exists (c :: p). split; [now constructor|]. split; [now rewrite B at 1|exact C].
  - exists []. split; [constructor|]. split; [reflexivity|]. intros ? ? [= <- <-]. exact E.
Qed.

Lemma blanks_rev p : blanks p -> blanks (rev p).
Proof. unfold Trim.blanks. rewrite !Forall_forall. intros H x I. apply H. now apply in_rev. Qed.

Lemma strip_core s : core s (strip s).
Proof.
  unfold strip. destruct (lstrip_ok s) as (p & A & B & C). destruct (lstrip_ok (rev (lstrip s))) as (q & A' & B' & C').
  exists p, (rev q). split; [exact A|]. split; [now apply blanks_rev|].
  assert (E : lstrip s = rev (lstrip (rev (lstrip s))) ++ rev q) by (rewrite <- rev_app_distr, <- B'; now rewrite rev_involutive).
  split; [congruence|]. split.
  - intros c t H. unfold Units.strip in H. apply (C c (t ++ rev q)). rewrite E at 1. rewrite H. reflexivity.
  - intros c t H. apply (C' c (rev t)). apply (f_equal (@rev Ch)) in H. rewrite rev_involutive, rev_app_distr in H. exact H.
Qed.

Lemma lstrip_blanks p s : blanks p -> lstrip (p ++ s) = lstrip s.
Proof. induction 1; cbn; auto. now rewrite H. Qed.
Lemma lstrip_id s : (forall c t, s = c :: t -> space c = false) -> lstrip s = s.
Proof. destruct s as [|c s]; cbn; auto. intros H. now rewrite (H c s). Qed.

Lemma core_strip s k : core s k -> strip s = k.
Proof.
  intros (p & q & Bp & Bq & -> & L & T). unfold Units.strip. rewrite lstrip_blanks by auto.
  assert (X : lstrip (k ++ q) = k ++ q \/ (k = [] /\ lstrip (k ++ q) = [])).
  { destruct k as [|c k]; [right|left].
    - split; auto. cbn. clear -Bq. induction Bq; cbn; auto. now rewrite H.
    - apply lstrip_id. cbn. intros c' t [= <- _]. now apply (L c k). }
  destruct X as [->|(-> & ->)]; [|reflexivity].
  rewrite rev_app_distr, lstrip_blanks by now apply blanks_rev. rewrite lstrip_id; [apply rev_involutive|].
  intros c t H. apply (T c (rev t)). apply (f_equal (@rev Ch)) in H. rewrite rev_involutive in H. exact H.
Qed.

(** C50 *)
Theorem units_equal_iff u v : units_are_equal Ch space eqb u v = true <-> exists k, core u k /\ core v k.
Proof.
  unfold units_are_equal. rewrite str_eqb_ok. split.
  - intros E. exists (strip u). split; [apply strip_core|]. rewrite E. apply strip_core.
  - intros (k & A & B). now rewrite (core_strip u k A), (core_strip v k B).
Qed.

Theorem units_equivalence : (forall u, units_are_equal Ch space eqb u u = true) /\
  (forall u v, units_are_equal Ch space eqb u v = units_are_equal Ch space eqb v u) /\
  (forall u v w, units_are_equal Ch space eqb u v = true -> units_are_equal Ch space eqb v w = true -> units_are_equal Ch space eqb u w = true) /\
  (forall u v p q, blanks p -> blanks q -> units_are_equal Ch space eqb (p ++ u ++ q) v = units_are_equal Ch space eqb u v).
Proof.
  unfold units_are_equal. repeat split.
  - intros u. now apply str_eqb_ok.
  - intros u v. apply eq_true_iff_eq. rewrite !str_eqb_ok. split; congruence.
  - intros u v w. rewrite !str_eqb_ok. congruence.
  - intros u v p q Bp Bq. f_equal. apply core_strip. destruct (strip_core u) as (p' & q' & A & B & E & L & T).
    exists (p ++ p'), (q' ++ q). split; [now apply Forall_app|]. split; [now apply Forall_app|]. split; [|split; auto].
    rewrite E at 1. now rewrite <- !app_assoc.
Qed.

Theorem ensure_raises u v : (ensure_equal_units Ch space eqb u v = Ok tt <-> exists k, core u k /\ core v k) /\
  (ensure_equal_units Ch space eqb u v = Err UnitsError <-> ~ exists k, core u k /\ core v k).
Proof. unfold ensure_equal_units. rewrite <- units_equal_iff. destruct (units_are_equal Ch space eqb u v); split; split; try discriminate; try reflexivity; intros; [exfalso; auto|discriminate..]. Qed.
End UnitsProofs.
