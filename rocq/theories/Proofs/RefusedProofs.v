(** Scattering a quantity without tile dimension, or gathering into one, on a cubed sphere communicator *)
From Verif.Base Require Import Base Lemmas.
From Verif.Model Require Import Consts Partitioner Numpy Quantity Collective ScatterGather.
From Verif.Spec Require Import Grid Layouts Views Together Distribute Refused.
From Verif.Proofs Require Import NumpyProofs Regions ViewProofs CornerProofs CollectiveProofs Slices Parts ScatterProofs GatherProofs StateProofs.
From Coq Require Import ZifyBool.
Ltac Zify.zify_post_hook ::= idtac.

Section R.
Context {V T : Type}.
Variable l : layout_t.
Notation p := (CubePart l).

Lemma extent_refused dims extent e : refusal dims = Some e -> cs_subtile_extent l dims extent = Err e.
Proof.
  unfold refusal, cs_subtile_extent, TILE_DIM. destruct dims as [|d dims]; [now intros [= <-]|].
  destruct (String.eqb d "tile"); [discriminate|]. now intros [= <-].
Qed.
Lemma slice_refused rank dims extent e : refusal dims = Some e -> p_subtile_slice p rank dims extent = Err e.
Proof.
  unfold refusal, p_subtile_slice, cs_subtile_slice, TILE_DIM. destruct dims as [|d dims]; [now intros [= <-]|].
  destruct (String.eqb d "tile"); [discriminate|]. now intros [= <-].
Qed.

Lemma scatter_refused_tog size (sends recv : nat -> option (quantity V)) send junk e : (0 < size)%nat -> sends 0%nat = Some send -> refusal (q_dims send) = Some e ->
  together size (fun r => scatter V T p (Z.of_nat r) (junk r) (sends r) (recv r)) (fun _ => Err e).
Proof.
  intros Hs S0 R.
  eapply together_ext; [|eapply (together_bcast size (fun r => match r with O => OMeta (metadata V send) | _ => ONone T end)
      (fun r => scatter_rest V T p (Z.of_nat r) (junk r) (sends r) (recv r))); [exact Hs|]].
  - intros r Hr. unfold scatter. destruct r as [|r].
    + change (Z.of_nat 0 =? ROOT_RANK) with true. cbv iota. now rewrite S0.
    + now rewrite not_root by lia.
  - cbv beta iota. apply tg_end. intros r Hr. unfold scatter_rest, metadata. cbn [qm_dims qm_extent p_subtile_extent].
    now rewrite (extent_refused _ _ _ R).
Qed.

Theorem scatter_refused size (sends recv : nat -> option (quantity V)) send junk e : (0 < size)%nat -> sends 0%nat = Some send -> refusal (q_dims send) = Some e ->
  always_ends size (fun r => scatter V T p (Z.of_nat r) (junk r) (sends r) (recv r)) (fun _ => Err e).
Proof. intros. apply together_always. eapply scatter_refused_tog; eauto. Qed.

(** a state: the quantities before the one refused are distributed, and lost with the exception *)
Variables (D : string -> list string) (E : string -> list Z).

Lemma scatter_vars_refused (send : dict (quantity V)) junk bad rest q e names : dget bad send = Some q -> refusal (q_dims q) = Some e -> (0 < ranks p)%nat -> NoDup (names ++ [bad]) -> forall (recvs : nat -> dict (quantity V)),
  (forall name, In name names -> fits (layout_of p) (D name) (E name) /\ (exists q, dget name send = Some q /\ global_sized p (D name) (E name) q) /\
     forall r, (r < ranks p)%nat -> given (rank_sized (E name)) (dget name (recvs r))) ->
  together (ranks p) (fun r => scatter_vars V T p (Z.of_nat r) (junk r) (match r with O => send | _ => [] end) (names ++ bad :: rest) (recvs r)) (fun _ => Err e).
Proof.
  intros Q R RP. induction names as [|name names IH]; intros ND recvs H; cbn [app scatter_vars].
  - apply (together_bind_err (ranks p) _ (fun _ => e)). eapply scatter_refused_tog; [exact RP| |exact R]. cbv beta. change (Z.of_nat 0 =? ROOT_RANK) with true. exact Q.
  - cbn [app] in ND. inversion ND as [|? ? N ND']. subst. destruct (H name (or_introl eq_refl)) as (Fi & (q1 & Eq & GS) & HR).
    destruct (scatter_tog p (D name) (E name) Fi (fun r => if Z.of_nat r =? ROOT_RANK then dget name (match r with O => send | _ => [] end) else None)
      (fun r => dget name (recvs r)) q1 (fun r => junk r name) (T := T)) as (o1 & T1 & W1); auto.
    refine (together_bind (ranks p) _ o1 (fun r q' => scatter_vars V T p (Z.of_nat r) (junk r) (match r with O => send | _ => [] end) (names ++ bad :: rest) (dset name q' (recvs r))) _ T1 _).
    apply (IH ND' (fun r => dset name (o1 r) (recvs r))).
    intros name' I. destruct (H name' (or_intror I)) as (A & B & C). split; auto. split; auto. intros r Hr. rewrite dget_dset.
    destruct (String.eqb_spec name' name) as [->|]; [exfalso; apply N; rewrite in_app_iff; auto|]. now apply C.
Qed.

Theorem scatter_state_refused (send : state V T) (sends recvs : nat -> option (state V T)) junk names bad rest q e : sends 0%nat = Some send -> (0 < ranks p)%nat ->
  dkeys (st_vars send) = (names ++ bad :: rest)%list -> NoDup (names ++ [bad]) -> dget bad (st_vars send) = Some q -> refusal (q_dims q) = Some e ->
  let vars r := match recvs r with Some s => st_vars s | None => [] end in
  (forall name, In name names -> fits (layout_of p) (D name) (E name) /\ (exists q, dget name (st_vars send) = Some q /\ global_sized p (D name) (E name) q) /\
     forall r, (r < ranks p)%nat -> given (rank_sized (E name)) (dget name (vars r))) ->
  always_ends (ranks p) (fun r => scatter_state V T p (Z.of_nat r) (junk r) (sends r) (recvs r)) (fun _ => Err e).
Proof.
  intros S0 RP K ND Q R vars H. apply together_always.
  eapply together_ext; [|eapply (together_bcast (ranks p) (fun r => match r with O => ONames (dkeys (st_vars send)) | _ => ONone T end)
      (fun r o => match o with ONames l0 =>
         pbind (scatter_vars V T p (Z.of_nat r) (junk r) (match r with O => st_vars send | _ => [] end) l0 (vars r)) (fun vs =>
         pbcast (OTime (match r with O => st_time send | _ => None end)) (fun o => match o with OTime t => PRet (mkSt vs t) | _ => PErr TypeError end))
         | _ => PErr TypeError end)); [exact RP|]].
  - intros r Hr. unfold scatter_state, vars. destruct r as [|r].
    + change (Z.of_nat 0 =? ROOT_RANK) with true. cbv iota. rewrite S0. cbn [st_vars st_time]. destruct (recvs 0%nat); reflexivity.
    + rewrite not_root by lia. cbv iota. destruct (recvs (S r)); reflexivity.
  - cbv beta iota. rewrite K. apply (together_bind_err (ranks p) _ (fun _ => e)). eapply scatter_vars_refused; eauto.
Qed.

(** gathering: the root raises when it has received everything, the others do not notice *)
Theorem gather_refused size (sends : nat -> quantity V) (recv : nat -> option (quantity V)) junk ext q e : Z.of_nat size = total_ranks l -> (0 < size)%nat -> ext <> [] ->
  (forall r, (r < size)%nat -> rank_sized ext (sends r)) -> recv 0%nat = Some q -> refusal (q_dims q) = Some e ->
  always_ends size (fun r => gather V T p (Z.of_nat r) (junk r) (sends r) (recv r)) (fun r => match r with O => Err e | _ => Ok None end).
Proof.
  intros TR RP NE HS R0 R. apply together_always.
  assert (VB : forall r, (r < size)%nat -> exists v, view_all V (sends r) = Ok v /\ view_elements V (sends r) v = map (at_ (domain_of (sends r))) (all_idx ext)).
  { intros r Hr. destruct (HS r Hr) as (W & X). destruct (view_all_ok (sends r) W) as (v & E1 & S1 & M); [congruence|].
    exists v. split; auto. rewrite <- X. now apply view_elements_ok. }
  eapply together_ext; [|eapply (together_gather size (fun r => map (at_ (domain_of (sends r))) (all_idx ext))
    (fun r => match r with O => Some (length (all_idx (p_total_ranks p :: ext))) | _ => None end) (length (all_idx ext))
    (fun r => match r with O => gather_rest V T p (junk 0%nat) (sends 0%nat) (Some q) | _ => fun _ => PRet None end)); [exact RP| | |]].
  - intros r Hr. unfold gather. destruct (VB r Hr) as (v & -> & EL). cbn [plift pbind]. rewrite EL. destruct r as [|r].
    + change (Z.of_nat 0 =? ROOT_RANK) with true. cbv iota. destruct (HS _ Hr) as (_ & ->). rewrite R0. reflexivity.
    + rewrite not_root by lia. reflexivity.
  - intros r Hr. now rewrite map_length.
  - f_equal. cbn [all_idx p_total_ranks]. rewrite (flat_map_length_const _ (length (all_idx ext))) by (intros; apply map_length). rewrite length_zrange.
    rewrite <- TR. lia.
  - apply tg_end. intros r Hr. destruct r as [|r]; [|reflexivity]. cbn [Nat.eqb]. unfold gather_rest. cbv zeta. cbn [plift pbind].
    unfold unpack. cbn [p_total_ranks]. rewrite <- TR. destruct size as [|n]; [lia|].
    replace (zrange (Z.of_nat (S n))) with (0 :: map Z.of_nat (seq 1 n)) by (unfold zrange; rewrite Nat2Z.id; reflexivity).
    cbn [rfold]. rewrite (slice_refused _ _ _ _ R). reflexivity.
Qed.
End R.
