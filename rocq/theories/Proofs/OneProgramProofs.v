(** Scatter, compute in steps with halo updates, gather, as one program. *)
From Verif.Base Require Import Base Lemmas.
From Verif.Model Require Import Consts Numpy Quantity Partitioner Network Communicator Collective ScatterGather Cluster.
From Verif.Spec Require Import Grid Cube Halo Lockstep Sync Client Updates Steps Layouts Views Together Distribute Whole Mixed OneProgram.
From Verif.Proofs Require Import Slices CollectiveProofs StateProofs ClientProofs StepsProofs WholeProofs MixedProofs.

Section Updates.
Variables Ob V St : Type.
Variable neg : V -> V.
Variable layout : Partitioner.layout_t.
Variable d : V.
Variable n : Z.
Variable k : nat.
Notation achieves := (achieves Ob V St neg layout d n k).
Notation updates := (updates Ob V St).

Lemma achieves_updates rest Q calls : forall started m o, (forall started' m', meaning V neg d n calls started m m' -> achieves rest started' m' o Q) ->
  achieves (map MUpdate calls ++ rest) started m o Q.
Proof.
  induction calls as [|c calls IH]; intros started m o H; cbn [map app].
  - apply H. cbn. auto.
  - destruct c; cbn [Mixed.achieves]; try (apply IH; intros; apply H; assumption). intros c sent m' E EF. apply IH. intros started' m2 M. apply H. cbn [meaning]. eauto 6.
Qed.
Lemma updates_map calls rest : updates (map MUpdate calls ++ rest) = (calls ++ updates rest)%list.
Proof. induction calls as [|c calls IH]; cbn; auto. now rewrite IH. Qed.

Lemma effect_lengths c sent m m' : starts V c = true -> effect V neg d n c sent m m' -> forall r, (r < Halo.ranks n)%nat -> length (m' r) = length (m r).
Proof. destruct c; try discriminate; intros _ (OC & _) r Hr; now apply OC. Qed.
Lemma meaning_lengths calls : Forall (call_ok V n k) calls -> forall started m m', Forall (fun c => starts V (fst c) = true) started -> (forall r, (r < Halo.ranks n)%nat -> length (m r) = k) ->
  meaning V neg d n calls started m m' -> forall r, (r < Halo.ranks n)%nat -> length (m' r) = k.
Proof.
  induction 1 as [|c calls OK _ IH]; intros started m m' S L M.
  - intros r Hr. rewrite M; auto.
  - destruct c; cbn [meaning] in M.
    1-3: eapply IH; [|exact L|exact M]; apply Forall_app; repeat constructor; auto.
    + destruct M as (c & sent & m1 & E & EF & M). eapply IH; [exact S| |exact M]. intros r Hr. rewrite (effect_lengths c sent m m1); auto.
      apply nth_error_In in E. rewrite Forall_forall in S. exact (S _ E).
    + eapply IH; [exact S| |exact M]. intros r Hr. now apply OK; auto.
Qed.
End Updates.

Theorem one_program V T (neg : V -> V) (d : V) M h len ix iy ext dims (gs : list (rule V)) : cell_dims len ix iy dims -> Forall (looks_around h (level len ix iy ext)) gs ->
  forall send : quantity V, well_formed (q_meta send) -> q_dims send = "tile"%string :: dims -> q_extent send = 6 :: box len ix iy M ext ->
  exists result : arr V, shp result = q_extent send /\ forall n N (sends : nat -> option (quantity V)) (local : nat -> quantity V) recv junk junk' fs,
    1 <= n -> n * N = M -> 1 <= h <= N -> Distribute.fits (n, n) dims (box len ix iy N ext) -> sends 0%nat = Some send ->
    (forall r, (r < Halo.ranks n)%nat -> q_dims (local r) = dims /\ Halo.fits N h len ix iy 0 0 ext (q_meta (local r))) ->
    given (global_sized (CubePart (n, n)) dims (box len ix iy N ext)) (recv 0%nat) ->
    Forall2 (applies n N ix iy (fun r => mkH 0 (q_meta (local r))) 1) gs fs ->
    exists m o out,
      cluster_ends (Mixed.size (n, n))
        (mixed_program (obj T) V (option (quantity V)) neg (n, n) (scatter_compute_gather (CubePart (n, n)) h fs sends local recv junk junk') (fun r => [q_data (local r)]) (fun _ => None))
        (fun r => Ok (m r, o r)) /\
      (forall r, (r < Mixed.size (n, n))%nat -> o r = match r with O => Some out | _ => None end) /\ same (domain_of out) result.
Proof.
  intros (Ixy & Ix & Iy & Ld & Ax & Sx & Sy) G send WF SD SE.
  destruct (whole_stages V T neg d M h len ix iy ext dims Ixy Ix Iy Ld Ax Sx Sy gs G send WF SD SE) as (result & SR & ST). exists result. split; auto.
  intros n N sends local recv junk junk' fs Hn HM Hh FT SS LO RV AP. destruct (ST n N sends local recv junk junk' fs Hn HM Hh FT SS LO RV AP) as (outs & SC & MT & STP).
  set (p := CubePart (n, n)) in *. assert (RK : Distribute.ranks p = Mixed.size (n, n)) by reflexivity. assert (RK' : Halo.ranks n = Mixed.size (n, n)) by reflexivity.
  set (calls := scatter_compute_gather p h fs sends local recv junk junk').
  assert (SOK : Forall (call_ok V n 1) (stepping (fun r => mkH 0 (q_meta (local r))) h fs 0)).
  { apply (stepping_ok V n N len ix iy (fun r => mkH 0 (q_meta (local r))) h 1 0 ext Hn ltac:(lia) Hh) with (gs := gs); auto. intros r Hr. now apply LO. intros r. cbn. lia. }
  destruct (mixed_correct (obj T) V (option (quantity V)) neg (n, n) d n 1 Hn Hn calls (fun r => [q_data (local r)]) (fun _ => None)
    (fun m o => exists out, (forall r, (r < Mixed.size (n, n))%nat -> o r = match r with O => Some out | _ => None end) /\ same (domain_of out) result)) as (m & o & (out & O & S) & C).
  - unfold mixed_ok, calls, scatter_compute_gather. cbn [updates]. rewrite updates_map. cbn [updates]. rewrite app_nil_r. split; [auto|]. split.
    + exact SOK.
    + apply stepping_waits. easy.
  - intros r Hr. reflexivity.
  - unfold calls, scatter_compute_gather. cbn [achieves]. exists (fun r => [q_data (outs r)]), (fun _ => None). split; [|split].
    + rewrite RK in SC. eapply together_ext; [|exact (together_bind _ _ outs (fun r q => PRet ([q_data q], None)) (fun r => Ok ([q_data (outs r)], None)) SC (tg_end (Mixed.size (n, n)) _ (fun r => Ok _) (fun r Hr => eq_refl)))].
      intros r Hr. cbn [fst snd]. assert (W : with_data (local r) [q_data (local r)] = local r) by (destruct (local r); reflexivity). now rewrite W.
    + reflexivity.
    + apply achieves_updates. intros started' m' ME. cbn [achieves]. destruct (STP [] m' ME) as (SH & GA). destruct (GA (fun r => with_data (local r) (m' r))) as (out & TG & SM).
      { intros r Hr. destruct (SH r Hr) as (a & E & S). assert (D : nth 0 (m' r) (q_data (local r)) = a) by (destruct (m' r); [discriminate|]; now injection E).
        split; [|unfold with_data; cbn [q_data]; congruence]. unfold q_meta, with_data. cbn [q_dims q_origin q_extent q_data]. now rewrite D, S. }
      exists m', (fun r => match r with O => Some out | _ => None end). split; [|split].
      * rewrite RK in TG. exact (together_bind _ _ (fun r => match r with O => Some out | _ => None end) (fun r o => PRet (m' r, o)) (fun r => Ok (m' r, match r with O => Some out | _ => None end)) TG (tg_end (Mixed.size (n, n)) _ (fun r => Ok _) (fun r Hr => eq_refl))).
      * intros r Hr. apply (meaning_lengths V neg d n 1 _ SOK [] (fun r => [q_data (outs r)]) m'); auto.
      * exists out. auto.
  - exists m, o, out. auto.
Qed.
