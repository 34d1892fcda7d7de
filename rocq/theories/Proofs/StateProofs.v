(** scatter and gather in terms of executions; one after the other; states *)
From Verif.Base Require Import Base Lemmas.
From Verif.Model Require Import Consts Partitioner Numpy Quantity Collective ScatterGather.
From Verif.Spec Require Import Grid Layouts Views Together Distribute.
From Verif.Proofs Require Import NumpyProofs Regions ViewProofs CornerProofs CollectiveProofs Slices Parts ScatterProofs GatherProofs.
From Coq Require Import ZifyBool.
Ltac Zify.zify_post_hook ::= idtac.

Section S.
Context {V T : Type}.
Notation scatter := (scatter V T).
Notation gather := (gather V T).

Section Part.
Variables (p : partitioner) (dims : list string) (rext : list Z).
Hypothesis Fi : fits (layout_of p) dims rext.

Lemma scatter_tog (sends recv : nat -> option (quantity V)) send junk : sends 0%nat = Some send -> global_sized p dims rext send ->
  (forall r, (r < ranks p)%nat -> given (rank_sized rext) (recv r)) ->
  exists outs, together (ranks p) (fun r => scatter p (Z.of_nat r) (junk r) (sends r) (recv r)) (fun r => Ok (outs r)) /\
    forall r, (r < ranks p)%nat -> written (or_blank (recv r) (blank dims (q_units send) rext (junk r 0%nat))) (outs r) (part_of p r dims rext (domain_of send)).
Proof.
  intros S0 HS HR. set (recv' := fun r => if Nat.ltb r (ranks p) then recv r else None).
  assert (HR' : forall r, given (rank_sized rext) (recv' r)).
  { intros r. unfold recv'. destruct (Nat.ltb_spec r (ranks p)); [auto|exact I]. }
  assert (ER : forall r, (r < ranks p)%nat -> recv' r = recv r) by (intros r Hr; unfold recv'; now rewrite (proj2 (Nat.ltb_lt _ _) Hr)).
  assert (HC : forall r, given (same_count rext) (recv' r)).
  { intros r. specialize (HR' r). destruct (recv' r); auto. now apply (sized_count p dims). }
  exists (scattered p dims rext send recv' junk). split.
  - eapply together_ext; [|exact (scatter_together p dims rext Fi send sends recv' junk HS HC)]. intros [|r] Hr; cbv beta iota; rewrite ?ER by auto; [now rewrite S0|reflexivity].
  - intros r Hr. rewrite <- ER by auto. apply (scattered_written p dims rext Fi send recv' junk); auto.
Qed.

Lemma gather_tog (sends : nat -> quantity V) (recv : nat -> option (quantity V)) junk : (forall r, (r < ranks p)%nat -> rank_sized rext (sends r)) ->
  match recv 0%nat with Some q => global_sized p dims rext q | None => q_dims (sends 0%nat) = dims end ->
  exists out, together (ranks p) (fun r => gather p (Z.of_nat r) (junk r) (sends r) (recv r)) (fun r => Ok (match r with O => Some out | _ => None end)) /\
    let base := or_blank (recv 0%nat) (blank (global_dims p dims) (q_units (sends 0%nat)) (global_size p dims rext) (junk 0%nat 0%nat)) in
    exists a, written base out a /\ gathered p dims rext (fun r => domain_of (sends r)) (domain_of base) a.
Proof.
  intros HS HR. exists (gather_result p dims rext sends (recv 0%nat) junk). split.
  - eapply together_ext; [|exact (gather_together p dims rext Fi sends (recv 0%nat) recv junk HS HR)]. intros [|r] Hr; reflexivity.
  - cbv zeta. apply (gather_written p dims rext Fi sends (recv 0%nat) junk HR).
Qed.

Theorem scatter_result (sends recv : nat -> option (quantity V)) send junk : sends 0%nat = Some send -> global_sized p dims rext send ->
  (forall r, (r < ranks p)%nat -> given (rank_sized rext) (recv r)) ->
  exists outs, always_ends (ranks p) (fun r => scatter p (Z.of_nat r) (junk r) (sends r) (recv r)) (fun r => Ok (outs r)) /\
    forall r, (r < ranks p)%nat -> written (or_blank (recv r) (blank dims (q_units send) rext (junk r 0%nat))) (outs r) (part_of p r dims rext (domain_of send)).
Proof. intros A B C. destruct (scatter_tog sends recv send junk A B C) as (o & Tg & W). exists o. split; auto. now apply together_always. Qed.

(** a receive quantity of another shape with as many points is filled in C order *)
Theorem scatter_reshape (sends recv : nat -> option (quantity V)) send junk : sends 0%nat = Some send -> global_sized p dims rext send ->
  (forall r, given (same_count rext) (recv r)) ->
  exists outs, always_ends (ranks p) (fun r => scatter p (Z.of_nat r) (junk r) (sends r) (recv r)) (fun r => Ok (outs r)) /\
    forall r, (r < ranks p)%nat -> ravel (domain_of (outs r)) = ravel (part_of p r dims rext (domain_of send)) /\
      q_meta (outs r) = q_meta (or_blank (recv r) (blank dims (q_units send) rext (junk r 0%nat))).
Proof.
  intros S0 HS HR. exists (scattered p dims rext send recv junk). split.
  - apply together_always. eapply together_ext; [|exact (scatter_together p dims rext Fi send sends recv junk HS HR)]. intros [|r] Hr; cbv beta iota; [now rewrite S0|reflexivity].
  - intros r Hr. split; [now apply scattered_ravel|]. unfold scattered, fill_view, q_with_data, q_meta. cbn. now rewrite shp_a_write.
Qed.

Theorem gather_outcome (sends : nat -> quantity V) (recv : nat -> option (quantity V)) junk : (forall r, (r < ranks p)%nat -> rank_sized rext (sends r)) ->
  match recv 0%nat with Some q => global_sized p dims rext q | None => q_dims (sends 0%nat) = dims end ->
  exists out a, always_ends (ranks p) (fun r => gather p (Z.of_nat r) (junk r) (sends r) (recv r)) (fun r => Ok (match r with O => Some out | _ => None end)) /\
    written (or_blank (recv 0%nat) (blank (global_dims p dims) (q_units (sends 0%nat)) (global_size p dims rext) (junk 0%nat 0%nat))) out a /\
    gathered p dims rext (fun r => domain_of (sends r)) (domain_of (or_blank (recv 0%nat) (blank (global_dims p dims) (q_units (sends 0%nat)) (global_size p dims rext) (junk 0%nat 0%nat)))) a.
Proof. intros A B. destruct (gather_tog sends recv junk A B) as (o & Tg & a & W & G). exists o, a. split; auto. now apply together_always. Qed.

Theorem scatter_frame (sends recv : nat -> option (quantity V)) send junk : sends 0%nat = Some send -> global_sized p dims rext send ->
  (forall r, (r < ranks p)%nat -> given (rank_sized rext) (recv r)) ->
  exists outs, always_ends (ranks p) (fun r => scatter p (Z.of_nat r) (junk r) (sends r) (recv r)) (fun r => Ok (outs r)) /\
    forall r q, (r < ranks p)%nat -> recv r = Some q -> q_meta (outs r) = q_meta q /\ q_units (outs r) = q_units q /\
      forall i, in_shape (shp (q_data q)) i -> (forall pt, in_shape (q_extent q) pt -> i <> shifted (q_origin q) pt) -> at_ (q_data (outs r)) i = at_ (q_data q) i.
Proof.
  intros A B C. destruct (scatter_result sends recv send junk A B C) as (outs & R & W). exists outs. split; auto. intros r q Hr E. specialize (W r Hr). rewrite E in W.
  destruct W as (_ & M & U & F). auto.
Qed.

Theorem gather_frame (sends : nat -> quantity V) (recv : nat -> option (quantity V)) q junk : (forall r, (r < ranks p)%nat -> rank_sized rext (sends r)) ->
  recv 0%nat = Some q -> global_sized p dims rext q ->
  exists out, always_ends (ranks p) (fun r => gather p (Z.of_nat r) (junk r) (sends r) (recv r)) (fun r => Ok (match r with O => Some out | _ => None end)) /\
    q_meta out = q_meta q /\ q_units out = q_units q /\
    forall i, in_shape (shp (q_data q)) i -> (forall pt, in_shape (q_extent q) pt -> i <> shifted (q_origin q) pt) -> at_ (q_data out) i = at_ (q_data q) i.
Proof.
  intros A B C. destruct (gather_outcome sends recv junk A) as (out & a & R & W & _). { now rewrite B. }
  exists out. split; auto. rewrite B in W. destruct W as (_ & M & U & F). auto.
Qed.

Lemma gather_full_tog (sends : nat -> quantity V) (recv : nat -> option (quantity V)) junk : at_most_one AxX dims -> at_most_one AxY dims ->
  (forall r, (r < ranks p)%nat -> rank_sized rext (sends r)) ->
  match recv 0%nat with Some q => global_sized p dims rext q | None => q_dims (sends 0%nat) = dims end ->
  exists out, together (ranks p) (fun r => gather p (Z.of_nat r) (junk r) (sends r) (recv r)) (fun r => Ok (match r with O => Some out | _ => None end)) /\
    q_extent out = global_size p dims rext /\
    forall g, in_shape (q_extent out) g -> exists r pt, (r < ranks p)%nat /\ in_shape rext pt /\ place p r dims rext pt = g /\
      at_ (domain_of out) g = at_ (domain_of (sends r)) pt /\
      forall r' pt', (r' < ranks p)%nat -> in_shape rext pt' -> place p r' dims rext pt' = g -> (r' <= r)%nat.
Proof.
  intros OX OY A B. destruct (gather_tog sends recv junk A B) as (out & R & a & W & G). exists out. split; auto.
  assert (GF : shp a = global_size p dims rext /\ forall g, in_shape (shp a) g -> exists r pt, (r < ranks p)%nat /\ in_shape rext pt /\ place p r dims rext pt = g /\ at_ a g = at_ (domain_of (sends r)) pt /\
       forall r' pt', (r' < ranks p)%nat -> in_shape rext pt' -> place p r' dims rext pt' = g -> (r' <= r)%nat).
  { destruct G as (S1 & G). split; auto. intros g I. destruct (G g I) as [H|(N & _)]; auto. rewrite S1 in I.
    destruct (covered p dims rext g Fi OX OY I) as (r & pt & Hr & P & E). destruct (N r pt Hr P E). }
  destruct GF as (S1 & GF). destruct W as ((SW & AW) & _). cbn [domain_of shp] in SW. split; [congruence|]. intros g I.
  destruct (GF g) as (r & pt & H1 & H2 & H3 & H4 & H5); [congruence|]. exists r, pt. split; auto. split; auto. split; auto. split; auto. rewrite AW; auto.
Qed.
Theorem gather_full (sends : nat -> quantity V) (recv : nat -> option (quantity V)) junk : at_most_one AxX dims -> at_most_one AxY dims ->
  (forall r, (r < ranks p)%nat -> rank_sized rext (sends r)) ->
  match recv 0%nat with Some q => global_sized p dims rext q | None => q_dims (sends 0%nat) = dims end ->
  exists out, always_ends (ranks p) (fun r => gather p (Z.of_nat r) (junk r) (sends r) (recv r)) (fun r => Ok (match r with O => Some out | _ => None end)) /\
    q_extent out = global_size p dims rext /\
    forall g, in_shape (q_extent out) g -> exists r pt, (r < ranks p)%nat /\ in_shape rext pt /\ place p r dims rext pt = g /\
      at_ (domain_of out) g = at_ (domain_of (sends r)) pt /\
      forall r' pt', (r' < ranks p)%nat -> in_shape rext pt' -> place p r' dims rext pt' = g -> (r' <= r)%nat.
Proof.
  intros OX OY A B. destruct (gather_full_tog sends recv junk OX OY A B) as (out & TG & W). exists out. split; auto. now apply together_always.
Qed.

Lemma rank_sized_written (q q' : quantity V) a : written q q' a -> rank_sized rext q -> rank_sized rext q'.
Proof. intros W (A & B). destruct (written_meta _ _ _ W) as (D1 & D2 & D3 & D4). destruct W as (_ & M & _). split; [now rewrite M|congruence]. Qed.

Lemma or_blank_sized o units contents : given (rank_sized rext) o -> rank_sized rext (or_blank o (@blank V dims units rext contents)).
Proof.
  intros G. destruct o; auto. now apply (blank_sized p).
Qed.

(** one dimension per axis: gathered data has no gaps *)
Lemma gathered_full vals (old a : arr V) : at_most_one AxX dims -> at_most_one AxY dims -> gathered p dims rext vals old a ->
  shp a = global_size p dims rext /\ forall g, in_shape (shp a) g -> exists r pt, (r < ranks p)%nat /\ in_shape rext pt /\ place p r dims rext pt = g /\ at_ a g = at_ (vals r) pt /\
       forall r' pt', (r' < ranks p)%nat -> in_shape rext pt' -> place p r' dims rext pt' = g -> (r' <= r)%nat.
Proof.
  intros OX OY (S1 & G). split; auto. intros g I. destruct (G g I) as [H|(N & _)]; auto. rewrite S1 in I.
  destruct (covered p dims rext g Fi OX OY I) as (r & pt & Hr & P & E). destruct (N r pt Hr P E).
Qed.

Theorem gather_scatter (sends recv : nat -> option (quantity V)) (recv' : nat -> option (quantity V)) send junk junk' :
  at_most_one AxX dims -> at_most_one AxY dims -> sends 0%nat = Some send -> global_sized p dims rext send ->
  (forall r, (r < ranks p)%nat -> given (fun q => rank_sized rext q /\ q_dims q = dims) (recv r)) ->
  given (global_sized p dims rext) (recv' 0%nat) ->
  exists out, always_ends (ranks p) (fun r => pbind (scatter p (Z.of_nat r) (junk r) (sends r) (recv r)) (fun q => gather p (Z.of_nat r) (junk' r) q (recv' r)))
      (fun r => Ok (match r with O => Some out | _ => None end)) /\
    same (domain_of out) (domain_of send) /\ q_dims out = global_dims p dims.
Proof.
  intros OX OY S0 HS HR HR'. pose proof (ranks_pos p dims rext Fi) as RP.
  destruct (scatter_tog sends recv send junk S0 HS) as (outs & T1 & W1).
  { intros r Hr. specialize (HR r Hr). destruct (recv r); cbn in *; tauto. }
  assert (RS : forall r, (r < ranks p)%nat -> rank_sized rext (outs r)).
  { intros r Hr. eapply rank_sized_written; [now apply W1|]. apply or_blank_sized. specialize (HR r Hr). destruct (recv r); cbn in *; tauto. }
  destruct (gather_tog outs recv' junk' RS) as (out & T2 & a & W2 & G).
  { destruct (recv' 0%nat); auto. destruct (written_meta _ _ _ (W1 0%nat RP)) as (-> & _). specialize (HR 0%nat RP). destruct (recv 0%nat); cbn in *; tauto. }
  exists out. split; [|split].
  - apply together_always. exact (together_bind (ranks p) _ outs (fun r q => gather p (Z.of_nat r) (junk' r) q (recv' r)) _ T1 T2).
  - destruct (gathered_full _ _ _ OX OY G) as (S1 & GF). destruct W2 as ((SW & AW) & _). destruct HS as (_ & _ & ES).
    split; [cbn [domain_of shp] in *; congruence|]. intros g I. rewrite AW by auto. rewrite SW in I.
    destruct (GF g I) as (r & pt & Hr & P & E & -> & _). destruct (W1 r Hr) as ((SW1 & AW1) & _). cbn [part_of shp at_] in *. rewrite <- E. apply AW1. now rewrite SW1.
  - destruct (written_meta _ _ _ W2) as (-> & _). destruct (recv' 0%nat) as [q|]; [apply HR'|reflexivity].
Qed.

Theorem scatter_gather (qs : nat -> quantity V) (recv : nat -> option (quantity V)) (recv' : nat -> option (quantity V)) junk junk' :
  (forall r, (r < ranks p)%nat -> rank_sized rext (qs r)) ->
  match recv' 0%nat with Some q => global_sized p dims rext q | None => q_dims (qs 0%nat) = dims end ->
  (forall r, (r < ranks p)%nat -> given (rank_sized rext) (recv r)) ->
  exists outs, always_ends (ranks p) (fun r => pbind (gather p (Z.of_nat r) (junk' r) (qs r) (recv' r)) (fun g => scatter p (Z.of_nat r) (junk r) g (recv r)))
      (fun r => Ok (outs r)) /\
    ((forall r, (r < ranks p)%nat -> same (domain_of (outs r)) (domain_of (qs r))) <-> consistent p dims rext (fun r => domain_of (qs r))).
Proof.
  intros HS HR' HR. pose proof (ranks_pos p dims rext Fi) as RP.
  destruct (gather_tog qs recv' junk' HS HR') as (out & T2 & a & W2 & G).
  assert (GS : global_sized p dims rext out).
  { eapply sized_written; [exact W2|]. destruct (recv' 0%nat); auto. now apply blank_global. }
  destruct (scatter_tog (fun r => match r with O => Some out | _ => None end) recv out junk eq_refl GS HR) as (outs & T1 & W1).
  exists outs. split.
  - apply together_always. exact (together_bind (ranks p) _ (fun r => match r with O => Some out | _ => None end) (fun r g => scatter p (Z.of_nat r) (junk r) g (recv r)) _ T2 T1).
  - assert (OUT : forall r pt, (r < ranks p)%nat -> in_shape rext pt -> at_ (domain_of (outs r)) pt = at_ a (place p r dims rext pt)).
    { intros r pt Hr P. destruct (W1 r Hr) as ((SW & AW) & _). cbn [part_of shp at_] in *. rewrite AW by (now rewrite SW). destruct W2 as ((SW2 & AW2) & _). apply AW2.
      destruct G as (SG & _). rewrite SW2, SG. now apply place_in. }
    split.
    + intros H r r' pt pt' Hr Hr' P P' E. destruct (H r Hr) as (S1 & A1). destruct (H r' Hr') as (S2 & A2).
      destruct (HS r Hr) as (_ & X1). destruct (HS r' Hr') as (_ & X2).
      rewrite <- A1, <- A2 by (rewrite ?S1, ?S2; cbn [domain_of shp]; rewrite ?X1, ?X2; auto). rewrite !OUT, E by auto. reflexivity.
    + intros C r Hr. destruct (HS r Hr) as (_ & X1). destruct (W1 r Hr) as ((SW & _) & _). cbn [part_of shp] in SW.
      split; [rewrite SW; cbn [domain_of shp]; auto|]. intros pt P. rewrite SW in P. rewrite OUT by auto. destruct G as (SG & G).
      destruct (G (place p r dims rext pt)) as [(r0 & pt0 & H1 & H2 & H3 & -> & _)|(N & _)].
      * rewrite SG. now apply place_in.
      * now apply C.
      * destruct (N r pt Hr P eq_refl).
Qed.
End Part.

(** ** states *)
Variable p : partitioner.
Variables (D : string -> list string) (E : string -> list Z).   (* dims and extent of the variables on a rank *)

Lemma scatter_vars_tog (send : dict (quantity V)) junk names : NoDup names -> forall (recvs : nat -> dict (quantity V)),
  (forall name, In name names -> fits (layout_of p) (D name) (E name) /\ (exists q, dget name send = Some q /\ global_sized p (D name) (E name) q) /\
     forall r, (r < ranks p)%nat -> given (rank_sized (E name)) (dget name (recvs r))) -> (0 < ranks p)%nat ->
  exists outs, together (ranks p) (fun r => scatter_vars V T p (Z.of_nat r) (junk r) (match r with O => send | _ => [] end) names (recvs r)) (fun r => Ok (outs r)) /\
    forall r, (r < ranks p)%nat ->
      (forall name q, In name names -> dget name send = Some q -> exists q', dget name (outs r) = Some q' /\
         written (or_blank (dget name (recvs r)) (blank (D name) (q_units q) (E name) (junk r name 0%nat))) q' (part_of p r (D name) (E name) (domain_of q))) /\
      (forall name, ~ In name names -> dget name (outs r) = dget name (recvs r)).
Proof.
  induction 1 as [|name names N ND IH]; intros recvs H RP.
  - exists recvs. split; [apply tg_end; auto|]. intros r Hr. split; [intros ? ? []|auto].
  - destruct (H name (or_introl eq_refl)) as (Fi & (q & Eq & GS) & HR).
    destruct (scatter_tog p (D name) (E name) Fi (fun r => if Z.of_nat r =? ROOT_RANK then dget name (match r with O => send | _ => [] end) else None)
      (fun r => dget name (recvs r)) q (fun r => junk r name)) as (o1 & T1 & W1); auto.
    destruct (IH (fun r => dset name (o1 r) (recvs r))) as (o2 & T2 & W2); auto.
    { intros name' I. destruct (H name' (or_intror I)) as (A & B & C). split; auto. split; auto. intros r Hr. rewrite dget_dset.
      destruct (String.eqb_spec name' name) as [->|]; [contradiction|]. now apply C. }
    exists o2. split.
    + exact (together_bind (ranks p) _ o1 (fun r q' => scatter_vars V T p (Z.of_nat r) (junk r) (match r with O => send | _ => [] end) names (dset name q' (recvs r))) _ T1 T2).
    + intros r Hr. destruct (W2 r Hr) as (A & B). split.
      * intros name' q1 [<-|I] E1.
        -- rewrite Eq in E1. injection E1 as <-. exists (o1 r). split; [|now apply W1]. rewrite B by auto. rewrite dget_dset. now rewrite String.eqb_refl.
        -- destruct (A name' q1 I E1) as (q' & E' & W'). exists q'. split; auto. rewrite dget_dset in W'.
           destruct (String.eqb_spec name' name) as [->|]; [contradiction|]. exact W'.
      * intros name' I. cbn in I. rewrite B by tauto. rewrite dget_dset. destruct (String.eqb_spec name' name) as [->|]; [tauto|reflexivity].
Qed.

Lemma scatter_state_tog (send : state V T) (sends recvs : nat -> option (state V T)) junk : sends 0%nat = Some send -> NoDup (dkeys (st_vars send)) -> (0 < ranks p)%nat ->
  let vars r := match recvs r with Some s => st_vars s | None => [] end in
  (forall name q, dget name (st_vars send) = Some q -> fits (layout_of p) (D name) (E name) /\ global_sized p (D name) (E name) q /\
     forall r, (r < ranks p)%nat -> given (rank_sized (E name)) (dget name (vars r))) ->
  exists outs, together (ranks p) (fun r => scatter_state V T p (Z.of_nat r) (junk r) (sends r) (recvs r)) (fun r => Ok (outs r)) /\
    forall r, (r < ranks p)%nat -> st_time (outs r) = st_time send /\
      (forall name q, dget name (st_vars send) = Some q -> exists q', dget name (st_vars (outs r)) = Some q' /\
         written (or_blank (dget name (vars r)) (blank (D name) (q_units q) (E name) (junk r name 0%nat))) q' (part_of p r (D name) (E name) (domain_of q))) /\
      (forall name, dget name (st_vars send) = None -> dget name (st_vars (outs r)) = dget name (vars r)).
Proof.
  intros S0 ND RP vars H.
  destruct (scatter_vars_tog (st_vars send) junk (dkeys (st_vars send)) ND vars) as (outs & T1 & W); auto.
  { intros name I. destruct (dget name (st_vars send)) as [q|] eqn:Q; [|apply dget_None in Q; contradiction]. destruct (H name q Q) as (A & B & C). eauto. }
  exists (fun r => mkSt (outs r) (st_time send)). split.
  - 
    eapply together_ext; [|eapply (together_bcast (ranks p) (fun r => match r with O => ONames (dkeys (st_vars send)) | _ => ONone T end)
      (fun r o => match o with ONames l =>
         pbind (scatter_vars V T p (Z.of_nat r) (junk r) (match r with O => st_vars send | _ => [] end) l (vars r)) (fun vs =>
         pbcast (OTime (match r with O => st_time send | _ => None end)) (fun o => match o with OTime t => PRet (mkSt vs t) | _ => PErr TypeError end))
         | _ => PErr TypeError end)); [exact RP|]].
    + intros r Hr. unfold scatter_state, vars. destruct r as [|r].
      * change (Z.of_nat 0 =? ROOT_RANK) with true. cbv iota. rewrite S0. cbn [st_vars st_time]. destruct (recvs 0%nat); reflexivity.
      * replace (Z.of_nat (S r) =? ROOT_RANK) with false by (unfold ROOT_RANK; lia). cbv iota. destruct (recvs (S r)); reflexivity.
    + cbv beta iota.
      refine (together_bind (ranks p) _ outs (fun r vs => pbcast (OTime (match r with O => st_time send | _ => None end)) (fun o => match o with OTime t => PRet (mkSt vs t) | _ => PErr TypeError end)) _ T1 _).
      apply (together_bcast (ranks p) (fun r => OTime (match r with O => st_time send | _ => None end)) (fun r o => match o with OTime t => PRet (mkSt (outs r) t) | _ => PErr TypeError end)); auto.
      apply tg_end. reflexivity.
  - intros r Hr. destruct (W r Hr) as (A & B). split; [reflexivity|]. cbn [st_vars]. split.
    + intros name q Q. apply A; auto. apply dget_In in Q. now apply (in_map fst) in Q.
    + intros name Q. apply B. now apply dget_None in Q.
Qed.
Theorem scatter_state_result (send : state V T) (sends recvs : nat -> option (state V T)) junk : sends 0%nat = Some send -> NoDup (dkeys (st_vars send)) -> (0 < ranks p)%nat ->
  let vars r := match recvs r with Some s => st_vars s | None => [] end in
  (forall name q, dget name (st_vars send) = Some q -> fits (layout_of p) (D name) (E name) /\ global_sized p (D name) (E name) q /\
     forall r, (r < ranks p)%nat -> given (rank_sized (E name)) (dget name (vars r))) ->
  exists outs, always_ends (ranks p) (fun r => scatter_state V T p (Z.of_nat r) (junk r) (sends r) (recvs r)) (fun r => Ok (outs r)) /\
    forall r, (r < ranks p)%nat -> st_time (outs r) = st_time send /\
      (forall name q, dget name (st_vars send) = Some q -> exists q', dget name (st_vars (outs r)) = Some q' /\
         written (or_blank (dget name (vars r)) (blank (D name) (q_units q) (E name) (junk r name 0%nat))) q' (part_of p r (D name) (E name) (domain_of q))) /\
      (forall name, dget name (st_vars send) = None -> dget name (st_vars (outs r)) = dget name (vars r)).
Proof.
  intros S0 ND RP vars H. destruct (scatter_state_tog send sends recvs junk S0 ND RP H) as (outs & TG & W). exists outs. split; auto. now apply together_always.
Qed.

(** the variables on each rank as a list of functions of the rank *)
Lemma gather_vars_tog junk (qs : list (nat -> quantity V)) : forall (names : list string) (sends : nat -> dict (quantity V)) (recvs : nat -> dict (quantity V)),
  NoDup names -> (0 < ranks p)%nat ->
  (forall r, (r < ranks p)%nat -> map snd (sends r) = map (fun f => f r) qs) -> dkeys (sends 0%nat) = names ->
  (forall name f, In (name, f) (combine names qs) -> fits (layout_of p) (D name) (E name) /\ (forall r, (r < ranks p)%nat -> rank_sized (E name) (f r)) /\
     match dget name (recvs 0%nat) with Some q => global_sized p (D name) (E name) q | None => q_dims (f 0%nat) = D name end) ->
  exists outs, together (ranks p) (fun r => gather_vars V T p (Z.of_nat r) (junk r) (sends r) (recvs r)) (fun r => Ok (outs r)) /\
    (forall r, (0 < r < ranks p)%nat -> outs r = recvs r) /\
    (forall name f, In (name, f) (combine names qs) -> exists q' a, dget name (outs 0%nat) = Some q' /\
         let base := or_blank (dget name (recvs 0%nat)) (blank (global_dims p (D name)) (q_units (f 0%nat)) (global_size p (D name) (E name)) (junk 0%nat name 0%nat)) in
         written base q' a /\ gathered p (D name) (E name) (fun r => domain_of (f r)) (domain_of base) a) /\
    (forall name, ~ In name names -> dget name (outs 0%nat) = dget name (recvs 0%nat)).
Proof.
  induction qs as [|f qs IH]; intros names sends recvs ND RP HM HN H.
  - assert (X : forall r, (r < ranks p)%nat -> sends r = []) by (intros r Hr; specialize (HM r Hr); now destruct (sends r)).
    exists recvs. split; [apply tg_end; intros r Hr; now rewrite X|]. split; auto. split; [intros name f I; destruct names; destruct I|auto].
  - assert (X : forall r, (r < ranks p)%nat -> exists nm rest, sends r = (nm, f r) :: rest /\ map snd rest = map (fun f => f r) qs).
    { intros r Hr. specialize (HM r Hr). destruct (sends r) as [|[nm q] rest]; [discriminate|]. cbn in HM. injection HM as -> HM. eauto. }
    destruct (X 0%nat RP) as (name & rest0 & E0 & M0). rewrite E0 in HN. cbn in HN. subst names. inversion ND as [|? ? N1 N2]; subst.
    destruct (H name f) as (Fi & HS & HR); [left; reflexivity|].
    set (nm := fun r => match sends r with (n, _) :: _ => n | [] => ""%string end).
    destruct (gather_tog p (D name) (E name) Fi f (fun r => dget (nm r) (recvs r)) (fun r => junk r (nm r))) as (out & T1 & a & W & G); auto.
    { unfold nm. rewrite E0. exact HR. }
    destruct (IH (dkeys rest0) (fun r => tl (sends r)) (fun r => match r with O => dset name out (recvs 0%nat) | _ => recvs r end)) as (outs & T2 & O1 & O2 & O3); auto.
    { intros r Hr. destruct (X r Hr) as (nm' & rest & Er & Mr). now rewrite Er. }
    { now rewrite E0. }
    { intros name' f' I'. destruct (H name' f' (or_intror I')) as (A & B & C). split; auto. split; auto. rewrite dget_dset.
      destruct (String.eqb_spec name' name) as [->|]; [|exact C]. apply in_combine_l in I'. contradiction. }
    exists outs. split; [|split; [|split]].
    + assert (T3 : together (ranks p) (fun r => gather_vars V T p (Z.of_nat r) (junk r) (tl (sends r)) (match (match r with O => Some out | _ => None end) with Some g => dset (nm r) g (recvs r) | None => recvs r end)) (fun r => Ok (outs r))).
      { eapply together_ext; [|exact T2]. intros [|r] Hr; [|reflexivity]. unfold nm. cbv beta iota. rewrite E0. reflexivity. }
      eapply together_ext; [|exact (together_bind (ranks p) _ (fun r => match r with O => Some out | _ => None end)
        (fun r g => gather_vars V T p (Z.of_nat r) (junk r) (tl (sends r)) (match g with Some g => dset (nm r) g (recvs r) | None => recvs r end)) _ T1 T3)].
      intros r Hr. destruct (X r Hr) as (nm' & rest & Er & Mr). unfold nm. rewrite Er. reflexivity.
    + intros r Hr. rewrite O1 by auto. destruct r; [lia|reflexivity].
    + intros name' f' [[= <- <-]|I'].
      * exists out, a. rewrite O3 by auto. rewrite dget_dset, String.eqb_refl. split; auto. unfold nm in W, G. rewrite E0 in W, G. auto.
      * destruct (O2 name' f' I') as (q' & a' & E' & W'). exists q', a'. split; auto. rewrite dget_dset in W'.
        destruct (String.eqb_spec name' name) as [->|]; [|exact W']. apply in_combine_l in I'. contradiction.
    + intros name' I'. cbn in I'. rewrite O3 by tauto. rewrite dget_dset. destruct (String.eqb_spec name' name) as [->|]; [tauto|reflexivity].
Qed.

Lemma gather_state_tog junk (qs : list (nat -> quantity V)) (sends : nat -> state V T) (recvs : nat -> option (state V T)) :
  let names := dkeys (st_vars (sends 0%nat)) in
  let vars := match recvs 0%nat with Some s => st_vars s | None => [] end in
  NoDup names -> (0 < ranks p)%nat ->
  (forall r, (r < ranks p)%nat -> map snd (st_vars (sends r)) = map (fun f => f r) qs) ->
  (forall name f, In (name, f) (combine names qs) -> fits (layout_of p) (D name) (E name) /\ (forall r, (r < ranks p)%nat -> rank_sized (E name) (f r)) /\
     match dget name vars with Some q => global_sized p (D name) (E name) q | None => q_dims (f 0%nat) = D name end) ->
  exists out, together (ranks p) (fun r => gather_state V T p (Z.of_nat r) (junk r) (sends r) (recvs r)) (fun r => Ok (match r with O => Some out | _ => recvs r end)) /\
    st_time out = match st_time (sends 0%nat) with Some t => Some t | None => match recvs 0%nat with Some s => st_time s | None => None end end /\
    (forall name f, In (name, f) (combine names qs) -> exists q' a, dget name (st_vars out) = Some q' /\
         written (or_blank (dget name vars) (blank (global_dims p (D name)) (q_units (f 0%nat)) (global_size p (D name) (E name)) (junk 0%nat name 0%nat))) q' a /\
         gathered p (D name) (E name) (fun r => domain_of (f r)) (domain_of (or_blank (dget name vars) (blank (global_dims p (D name)) (q_units (f 0%nat)) (global_size p (D name) (E name)) (junk 0%nat name 0%nat)))) a) /\
    (forall name, ~ In name names -> dget name (st_vars out) = dget name vars).
Proof.
  intros names vars ND RP HM H.
  destruct (gather_vars_tog junk qs names (fun r => st_vars (sends r)) (fun r => match recvs r with Some s => st_vars s | None => [] end) ND RP HM eq_refl H) as (outs & T1 & O1 & O2 & O3).
  exists (mkSt (outs 0%nat) (match st_time (sends 0%nat) with Some t => Some t | None => match recvs 0%nat with Some s => st_time s | None => None end end)).
  split; [|split; [reflexivity|split; auto]].
   
  eapply together_ext; [|refine (together_bind (ranks p) _ outs (fun r vars => PRet (match (if Z.of_nat r =? ROOT_RANK then Some (match recvs r with Some s => s | None => mkSt [] None end) else recvs r) with
        | None => None
        | Some s => Some (mkSt vars (if Z.of_nat r =? ROOT_RANK then match st_time (sends r) with Some t => Some t | None => st_time s end else st_time s))
        end)) _ T1 _)].
  - intros [|r] Hr; unfold gather_state.
    + change (Z.of_nat 0 =? ROOT_RANK) with true. cbv iota. destruct (recvs 0%nat); reflexivity.
    + replace (Z.of_nat (S r) =? ROOT_RANK) with false by (unfold ROOT_RANK; lia). reflexivity.
  - apply tg_end. intros [|r] Hr.
    + change (Z.of_nat 0 =? ROOT_RANK) with true. cbv iota. destruct (recvs 0%nat); reflexivity.
    + replace (Z.of_nat (S r) =? ROOT_RANK) with false by (unfold ROOT_RANK; lia). cbv iota. rewrite O1 by lia. destruct (recvs (S r)) as [[]|]; reflexivity.
Qed.
Theorem gather_state_result junk (qs : list (nat -> quantity V)) (sends : nat -> state V T) (recvs : nat -> option (state V T)) :
  let names := dkeys (st_vars (sends 0%nat)) in
  let vars := match recvs 0%nat with Some s => st_vars s | None => [] end in
  NoDup names -> (0 < ranks p)%nat ->
  (forall r, (r < ranks p)%nat -> map snd (st_vars (sends r)) = map (fun f => f r) qs) ->
  (forall name f, In (name, f) (combine names qs) -> fits (layout_of p) (D name) (E name) /\ (forall r, (r < ranks p)%nat -> rank_sized (E name) (f r)) /\
     match dget name vars with Some q => global_sized p (D name) (E name) q | None => q_dims (f 0%nat) = D name end) ->
  exists out, always_ends (ranks p) (fun r => gather_state V T p (Z.of_nat r) (junk r) (sends r) (recvs r)) (fun r => Ok (match r with O => Some out | _ => recvs r end)) /\
    st_time out = match st_time (sends 0%nat) with Some t => Some t | None => match recvs 0%nat with Some s => st_time s | None => None end end /\
    (forall name f, In (name, f) (combine names qs) -> exists q' a, dget name (st_vars out) = Some q' /\
         written (or_blank (dget name vars) (blank (global_dims p (D name)) (q_units (f 0%nat)) (global_size p (D name) (E name)) (junk 0%nat name 0%nat))) q' a /\
         gathered p (D name) (E name) (fun r => domain_of (f r)) (domain_of (or_blank (dget name vars) (blank (global_dims p (D name)) (q_units (f 0%nat)) (global_size p (D name) (E name)) (junk 0%nat name 0%nat)))) a) /\
    (forall name, ~ In name names -> dget name (st_vars out) = dget name vars).
Proof.
  intros names vars ND RP HM H. destruct (gather_state_tog junk qs sends recvs ND RP HM H) as (out & TG & W). exists out. split; auto. now apply together_always.
Qed.

Theorem gather_state_names junk (names : list string) (Q : string -> nat -> quantity V) (sends : nat -> state V T) (recvs : nat -> option (state V T)) :
  let vars := match recvs 0%nat with Some s => st_vars s | None => [] end in
  NoDup names -> (0 < ranks p)%nat ->
  (forall r, (r < ranks p)%nat -> st_vars (sends r) = map (fun name => (name, Q name r)) names) ->
  (forall name, In name names -> fits (layout_of p) (D name) (E name) /\ (forall r, (r < ranks p)%nat -> rank_sized (E name) (Q name r)) /\
     match dget name vars with Some q => global_sized p (D name) (E name) q | None => q_dims (Q name 0%nat) = D name end) ->
  exists out, always_ends (ranks p) (fun r => gather_state V T p (Z.of_nat r) (junk r) (sends r) (recvs r)) (fun r => Ok (match r with O => Some out | _ => recvs r end)) /\
    st_time out = match st_time (sends 0%nat) with Some t => Some t | None => match recvs 0%nat with Some s => st_time s | None => None end end /\
    (forall name, In name names -> exists q' a, dget name (st_vars out) = Some q' /\
         written (or_blank (dget name vars) (blank (global_dims p (D name)) (q_units (Q name 0%nat)) (global_size p (D name) (E name)) (junk 0%nat name 0%nat))) q' a /\
         gathered p (D name) (E name) (fun r => domain_of (Q name r)) (domain_of (or_blank (dget name vars) (blank (global_dims p (D name)) (q_units (Q name 0%nat)) (global_size p (D name) (E name)) (junk 0%nat name 0%nat)))) a) /\
    (forall name, ~ In name names -> dget name (st_vars out) = dget name vars).
Proof.
  intros vars ND RP HS H.
  assert (K : dkeys (st_vars (sends 0%nat)) = names) by (rewrite HS by auto; unfold dkeys; rewrite map_map; apply map_id).
  assert (C : forall name f, In (name, f) (combine names (map Q names)) <-> In name names /\ f = Q name).
  { clear. intros name f. split.
    - induction names as [|n names IH]; cbn; [tauto|]. intros [[= <- <-]|I]; [auto|]. destruct (IH I). auto.
    - intros (I & ->). induction names as [|n names IH]; cbn in *; [tauto|]. destruct I as [->|I]; auto. }
  destruct (gather_state_result junk (map Q names) sends recvs) as (out & A & B1 & B2 & B3).
  - now rewrite K.
  - auto.
  - intros r Hr. rewrite HS by auto. now rewrite !map_map.
  - rewrite K. intros name f I. apply C in I. destruct I as (I & ->). now apply H.
  - rewrite K in *. exists out. split; auto. split; auto. split; auto. intros name I. apply (B2 name (Q name)). now apply C.
Qed.

Theorem time_removed (send : state V T) (sends recvs : nat -> option (state V T)) junk : sends 0%nat = Some send -> st_time send = None -> NoDup (dkeys (st_vars send)) -> (0 < ranks p)%nat ->
  let vars r := match recvs r with Some s => st_vars s | None => [] end in
  (forall name q, dget name (st_vars send) = Some q -> fits (layout_of p) (D name) (E name) /\ global_sized p (D name) (E name) q /\
     forall r, (r < ranks p)%nat -> given (rank_sized (E name)) (dget name (vars r))) ->
  exists outs, always_ends (ranks p) (fun r => scatter_state V T p (Z.of_nat r) (junk r) (sends r) (recvs r)) (fun r => Ok (outs r)) /\
    forall r, (r < ranks p)%nat -> st_time (outs r) = None /\
      forall name, dget name (st_vars send) = None -> dget name (st_vars (outs r)) = dget name (vars r).
Proof.
  intros S0 N ND RP vars H. destruct (scatter_state_result send sends recvs junk S0 ND RP H) as (outs & A & B). exists outs. split; auto.
  intros r Hr. destruct (B r Hr) as (B1 & _ & B3). rewrite B1. auto.
Qed.

Lemma not_root r : (0 < r)%nat -> (Z.of_nat r =? ROOT_RANK) = false.
Proof. unfold ROOT_RANK. lia. Qed.

Theorem scatter_nothing size (sends recv : nat -> option (quantity V)) junk delayed sched s : (0 < size)%nat -> sends 0%nat = None ->
  crun delayed sched (cstart size (fun r => scatter p (Z.of_nat r) (junk r) (sends r) (recv r))) = Some s ->
  (exists c, nth_error s 0 = Some c /\ outcome_of c = Some (Err TypeError)) /\ forall r, (0 < r < size)%nat -> exists c, nth_error s r = Some c /\ outcome_of c = None.
Proof.
  intros Hs S0. apply root_raises; auto.
  - unfold ScatterGather.scatter. change (Z.of_nat 0 =? ROOT_RANK) with true. cbv iota. now rewrite S0.
  - intros r Hr. unfold ScatterGather.scatter. rewrite not_root by lia. eauto.
Qed.

Theorem scatter_state_nothing size (sends recv : nat -> option (state V T)) junk delayed sched s : (0 < size)%nat -> sends 0%nat = None ->
  crun delayed sched (cstart size (fun r => scatter_state V T p (Z.of_nat r) (junk r) (sends r) (recv r))) = Some s ->
  (exists c, nth_error s 0 = Some c /\ outcome_of c = Some (Err TypeError)) /\ forall r, (0 < r < size)%nat -> exists c, nth_error s r = Some c /\ outcome_of c = None.
Proof.
  intros Hs S0. apply root_raises; auto.
  - unfold scatter_state. change (Z.of_nat 0 =? ROOT_RANK) with true. cbv iota. now rewrite S0.
  - intros r Hr. unfold scatter_state. rewrite not_root by lia. eauto.
Qed.
End S.
