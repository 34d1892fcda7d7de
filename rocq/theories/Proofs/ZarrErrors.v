(** Refused stores (C43, C44), shared chunks (C42). *)
From Verif.Base Require Import Base Lemmas.
From Verif.Model Require Import Consts Partitioner Numpy Quantity ScatterGather Shared Zarr.
From Verif.Spec Require Import Grid Layouts Views Distribute Storage.
From Verif.Proofs Require Import RestartProofs.

Section Names.
Context {V Time : Type}.
Variable junk : list Z -> V.
Variables (calendar_of text_of : Time -> string) (encode : Time -> Time -> V).
Variables (layout : Z * Z) (rank : Z).
Notation append_all := (append_all V Time junk calendar_of text_of encode layout rank).
Notation store := (store V Time junk calendar_of text_of encode layout rank).
Notation store_each := (store_each V Time junk calendar_of text_of encode layout rank).

Lemma returns_bind {Op Ans A B} (P : A -> Prop) (Q : B -> Prop) (p : sproc Op Ans A) f :
  returns P p -> (forall a, P a -> returns Q (f a)) -> returns Q (sbind p f).
Proof. intros R F. induction R; cbn; [now apply F|constructor; auto|constructor; auto]. Qed.
Lemma returns_impl {Op Ans A} (P Q : A -> Prop) (p : sproc Op Ans A) : returns P p -> (forall a, P a -> Q a) -> returns Q p.
Proof. intros R F. induction R; constructor; auto. Qed.
Lemma returns_any {Op Ans A} (p : sproc Op Ans A) : returns (fun _ => True) p.
Proof. induction p; constructor; auto. Qed.

Lemma append_all_keys l : forall ws, returns (fun a => forall n, In n (dkeys (fst a)) <-> In n (dkeys ws)) (append_all ws l).
Proof.
  induction l as [|[n v] l IH]; intros ws; cbn [Zarr.append_all]; [constructor; cbn; tauto|].
  destruct (dget n ws) as [w|] eqn:D; [|constructor; cbn; tauto].
  eapply returns_bind; [apply returns_any|]. intros [w' r] _.
  assert (K : forall x, In x (dkeys (dset n w' ws)) <-> In x (dkeys ws)).
  { intros x. rewrite in_dkeys_dset. split; [|auto]. intros [->|H]; auto. eapply dget_some_in; eauto. }
  destruct r as [[]|e]; [|constructor; cbn; auto]. eapply returns_impl; [apply IH|]. cbn beta. intros a H x. rewrite H. auto.
Qed.

Definition mon_keys (names : list string) (m : monitor Time) : Prop := exists ws, m = Some ws /\ forall n, In n (dkeys ws) <-> In n names.

Lemma store_keys names m s : mon_keys names m -> returns (fun a => mon_keys names (fst a)) (store m s).
Proof.
  intros (ws & -> & K). cbn [Zarr.store]. destruct (check_writers _ _ _).
  - eapply returns_bind; [apply append_all_keys|]. intros [ws' r] H. constructor. exists ws'. split; auto. cbn in H. intros n. rewrite H. auto.
  - constructor. exists ws. auto.
Qed.
Lemma store_each_keys names l : forall m, mon_keys names m -> returns (fun a => mon_keys names (fst a)) (store_each m l).
Proof.
  induction l as [|s l IH]; intros m K; cbn [Zarr.store_each]; [now constructor|].
  eapply returns_bind; [apply store_keys; eauto|]. intros [m' r] H. cbn [fst snd] in *. eapply returns_bind; [apply IH; eauto|].
  intros [m2 rs] H2. constructor. exact H2.
Qed.

Lemma init_keys names n : In n (dkeys (init_writers Time names)) <-> n = "time"%string \/ In n names.
Proof.
  unfold init_writers, dkeys. rewrite map_app, map_map. cbn. rewrite map_id, in_app_iff, filter_In. cbn.
  destruct (String.eqb_spec n "time") as [->|E]; intuition congruence.
Qed.

Lemma first_keys s0 : returns (fun a => mon_keys ("time"%string :: dkeys (items V Time s0)) (fst a)) (store None s0).
Proof.
  cbn [Zarr.store]. eapply returns_bind; [apply append_all_keys|]. intros [ws' r] H. constructor. exists ws'. split; auto. cbn in H.
  intros n. rewrite H, init_keys. cbn. intuition congruence.
Qed.

Theorem other_names_refused s0 l s : (exists n, ~ (In n (names_of s) <-> n = "time"%string \/ In n (names_of s0))) ->
  returns (fun a => store (fst a) s = SRet (fst a, Err ValueError)) (store_each None (s0 :: l)).
Proof.
  intros (n & D).
  cbn [Zarr.store_each]. eapply returns_bind; [apply first_keys|]. intros [m r] H. cbn [fst snd] in *.
  eapply returns_bind; [apply store_each_keys; eauto|]. intros [m2 rs] (ws & E & K). cbn [fst] in E. subst m2. constructor. cbn [fst snd].
  cbn [Zarr.store]. replace (check_writers Time ws (dkeys (items V Time s))) with false; [reflexivity|].
  symmetry. apply Bool.not_true_is_false. unfold check_writers. rewrite andb_true_iff. intros [C1 C2]. rewrite forallb_forall in C1, C2. apply D.
  assert (KN : forall t, In n (names_of t) <-> In n (dkeys (items V Time t))).
  { intros t. unfold names_of, items, dkeys. rewrite map_app, map_map, !in_app_iff. destruct (st_time t); cbn; tauto. }
  rewrite !KN. split.
  - intros I. specialize (C1 n I). apply dmem_In in C1. apply K in C1. destruct C1 as [<-|C1]; auto.
  - intros I. specialize (C2 n). apply sin_In. apply C2. apply K. destruct I as [->|I]; [now left|now right].
Qed.
End Names.

(** a refused attribute comes after the array has been enlarged *)
Theorem refused_after_resize {V Time} (junk : list Z -> V) layout name (w : writer Time) (z : zmeta) (q : quantity V) :
  w_array w = Some z -> nth 0 (z_shape z) 0 <= w_time w -> attrs_eqb (z_attrs z) (get_attrs V q) = false ->
  let shape := w_time w + 1 :: 6 :: tp_global_extent layout (q_dims q) (q_extent q) in
  append V Time junk layout 0 name w q =
  SDo (OResize name shape) (fun a => match a with ARaised e => SRet (w, Err e) | _ => SRet (mkW (w_time w) (Some (mkZM shape (z_chunks z) (z_attrs z))) (w_since w), Err ValueError) end).
Proof.
  intros Wa Le At shape. unfold append. rewrite Wa. cbn [sbind]. rewrite Wa. unfold resize.
  replace (nth 0 (z_shape z) 0 <=? w_time w) with true by (symmetry; now apply Z.leb_le). cbn [andb]. change (0 =? ROOT_RANK) with true. cbv iota.
  rewrite At. reflexivity.
Qed.
