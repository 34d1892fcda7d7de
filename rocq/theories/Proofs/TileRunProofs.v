(** Data distributed and collected tile by tile. *)
From Verif.Base Require Import Base Lemmas.
From Verif.Model Require Import Consts Numpy Quantity Partitioner Network Communicator Collective ScatterGather Cluster TileComm.
From Verif.Spec Require Import Grid Cube Halo Lockstep Sync Client Updates Steps Layouts Views Together Distribute Whole Mixed OneProgram TileRun.
From Verif.Proofs Require Import Slices Parts CollectiveProofs StateProofs ClientProofs StepsProofs WholeProofs MixedProofs TileCommProofs OneProgramProofs.

Lemma ends_of_halts {Ob V A} size (ps : nat -> rproc Ob V A) out : cluster_halts size ps (fun r => Some (out r)) -> cluster_ends size ps out.
Proof.
  intros (b & H). exists b. intros bf dl sched s R. destruct (H bf dl sched s R) as (L & S & O). split; auto. split.
  - destruct (existsb (fun r => match cl_step bf dl r s with Some _ => true | None => false end) (seq 0 (length (cl_ranks s)))) eqn:X.
    + right. apply existsb_exists in X. destruct X as (r & _ & X). destruct (cl_step bf dl r s) eqn:E; [eauto|discriminate].
    + left. apply S. intros r. destruct (cl_step bf dl r s) eqn:E; auto. exfalso.
      assert (LR : (r < length (cl_ranks s))%nat). { apply nth_error_Some. intros N. unfold cl_step, react in E. rewrite N in E. discriminate. }
      assert (Y : existsb (fun r => match cl_step bf dl r s with Some _ => true | None => false end) (seq 0 (length (cl_ranks s))) = true); [|congruence].
      apply existsb_exists. exists r. split; [apply in_seq; lia|]. now rewrite E.
  - intros r k x N E. specialize (O r k x N E). congruence.
Qed.

Section Tiles.
Variable l : layout_t.
Hypothesis Hy : 1 <= fst l.
Hypothesis Hx : 1 <= snd l.
Notation size := (Mixed.size l).
Notation T := (per_tile l).

Theorem on_tiles {Ob V A} (ps : nat -> nat -> proc Ob V A) out : (forall t, (t < 6)%nat -> together T (fun i => ps (t * T + i)%nat i) (fun i => out (t * T + i)%nat)) ->
  cluster_ends size (fun r => TileComm.on_tile l r (all_ranks size) (ps r)) out.
Proof.
  intros H. apply ends_of_halts. apply (on_tile_halts l Hy Hx (fun _ => true)). intros t Ht first. exists (fun i => out (first + i)%nat). split; [now apply H|reflexivity].
Qed.

Lemma of_T : Z.of_nat T = fst l * snd l.
Proof. unfold per_tile. nia. Qed.
Lemma seat_tile t i : seat l (Z.of_nat (t * T + i)) = seat l (Z.of_nat i).
Proof.
  unfold seat. rewrite Nat2Z.inj_add, Nat2Z.inj_mul, of_T. rewrite Z.add_comm, Z.mod_add by nia. reflexivity.
Qed.
Lemma place_cube t i dims rext pt : (i < T)%nat -> place (CubePart l) (t * T + i) dims rext pt = Z.of_nat t :: place (TilePart l) i dims rext pt.
Proof.
  intros Hi. unfold place. cbn [layout_of]. rewrite seat_tile. f_equal. rewrite <- of_T, <- Nat2Z.inj_div. now rewrite (proj1 (place_unique l t i Hi)).
Qed.
Lemma place_cube' r dims rext pt : place (CubePart l) r dims rext pt = Z.of_nat (r / T) :: place (TilePart l) (r mod T) dims rext pt.
Proof. destruct (place_of l Hy Hx r) as (E & L). rewrite E at 1. now apply place_cube. Qed.

Context {V : Type}.
Theorem parts_of_tiles t i dims rext (a : arr V) : (i < T)%nat -> same (part_of (TilePart l) i dims rext (slab t a)) (part_of (CubePart l) (t * T + i) dims rext a).
Proof. intros Hi. split; [reflexivity|]. intros pt _. cbn [part_of at_ slab]. now rewrite place_cube. Qed.

Theorem gathered_tiles t dims rext vals (old a : arr V) : (t < 6)%nat -> gathered (CubePart l) dims rext vals old a ->
  gathered (TilePart l) dims rext (fun i => vals (t * T + i)%nat) (slab t old) (slab t a).
Proof.
  intros Ht (S1 & G). cbn [global_size] in S1. split; [cbn [slab shp]; now rewrite S1|]. cbn [slab shp at_]. rewrite S1. cbn [tl]. intros g Hg.
  assert (RK : ranks (TilePart l) = T) by reflexivity. assert (RC : ranks (CubePart l) = size) by reflexivity. pose proof (size_eq l Hy Hx) as SZ.
  destruct (G (Z.of_nat t :: g)) as [(r & pt & Hr & Hp & E & Va & Mx)|(N & Va)]; [rewrite S1; constructor; [lia|auto]| |].
  - left. destruct (place_of l Hy Hx r) as (ER & LR). rewrite place_cube' in E. injection E as ET EG. assert (ET' : (r / T = t)%nat) by lia.
    exists (r mod T)%nat, pt. split; [now rewrite RK|]. split; auto. split; auto. rewrite ET' in ER. split; [now rewrite <- ER|].
    intros i pt' Hi Hpt E'. rewrite RK in Hi. assert (Le : (t * T + i <= r)%nat). { apply (Mx _ pt'); auto; [rewrite RC; nia|]. rewrite place_cube by auto. congruence. } lia.
  - right. split; auto. intros i pt Hi Hp E. rewrite RK in Hi. apply (N (t * T + i)%nat pt); auto; [rewrite RC; nia|]. rewrite place_cube by auto. congruence.
Qed.

Lemma written_same (q q' : quantity V) a b : written q q' a -> same a b -> written q q' b.
Proof. intros ((S1 & E1) & W) (S2 & E2). split; auto. split; [congruence|]. intros i Hi. rewrite E1 by auto. apply E2. now rewrite <- S1. Qed.

Context {Tm : Type}.
Lemma scatter_tiles_tog dims rext (send : nat -> quantity V) (sends recv : nat -> option (quantity V)) junk :
  (forall t, (t < 6)%nat -> fits l (dims t) (rext t) /\ sends (t * T)%nat = Some (send t) /\ global_sized (TilePart l) (dims t) (rext t) (send t) /\
     forall i, (i < T)%nat -> given (rank_sized (rext t)) (recv (t * T + i)%nat)) ->
  exists outs, (forall t, (t < 6)%nat -> together T (fun i => scatter V Tm (TilePart l) (Z.of_nat i) (junk (t * T + i)%nat) (sends (t * T + i)%nat) (recv (t * T + i)%nat)) (fun i => Ok (outs (t * T + i)%nat))) /\
    forall t i, (t < 6)%nat -> (i < T)%nat -> let r := (t * T + i)%nat in
      written (or_blank (recv r) (blank (dims t) (q_units (send t)) (rext t) (junk r 0%nat))) (outs r) (part_of (TilePart l) i (dims t) (rext t) (domain_of (send t))).
Proof.
  intros H.
  destruct (finite_choice (fun _ => send 0%nat) (fun t o => together T (fun i => scatter V Tm (TilePart l) (Z.of_nat i) (junk (t * T + i)%nat) (sends (t * T + i)%nat) (recv (t * T + i)%nat)) (fun i => Ok (o i)) /\
    forall i, (i < T)%nat -> let r := (t * T + i)%nat in written (or_blank (recv r) (blank (dims t) (q_units (send t)) (rext t) (junk r 0%nat))) (o i) (part_of (TilePart l) i (dims t) (rext t) (domain_of (send t)))) 6) as (f & F).
  { intros t Ht. destruct (H t Ht) as (Fi & S0 & GS & HR).
    destruct (@scatter_tog V Tm (TilePart l) (dims t) (rext t) Fi (fun i => sends (t * T + i)%nat) (fun i => recv (t * T + i)%nat) (send t) (fun i => junk (t * T + i)%nat)) as (o & TG & W); auto.
    { now rewrite Nat.add_0_r. } exists o. split; [exact TG|exact W]. }
  exists (fun r => f (r / T)%nat (r mod T)%nat). split.
  - intros t Ht. destruct (F t Ht) as (TG & _). eapply together_out; [|exact TG]. intros i Hi. cbv beta. destruct (place_unique l t i Hi) as (-> & ->). reflexivity.
  - intros t i Ht Hi r. destruct (F t Ht) as (_ & W). unfold r. destruct (place_unique l t i Hi) as (-> & ->). now apply W.
Qed.
Theorem scatter_tiles dims rext (send : nat -> quantity V) (sends recv : nat -> option (quantity V)) junk :
  (forall t, (t < 6)%nat -> fits l (dims t) (rext t) /\ sends (t * T)%nat = Some (send t) /\ global_sized (TilePart l) (dims t) (rext t) (send t) /\
     forall i, (i < T)%nat -> given (rank_sized (rext t)) (recv (t * T + i)%nat)) ->
  exists outs, cluster_ends size (fun r => TileComm.on_tile l r (all_ranks size) (fun i => scatter V Tm (TilePart l) (Z.of_nat i) (junk r) (sends r) (recv r))) (fun r => Ok (outs r)) /\
    forall t i, (t < 6)%nat -> (i < T)%nat -> let r := (t * T + i)%nat in
      written (or_blank (recv r) (blank (dims t) (q_units (send t)) (rext t) (junk r 0%nat))) (outs r) (part_of (TilePart l) i (dims t) (rext t) (domain_of (send t))).
Proof.
  intros H. destruct (scatter_tiles_tog dims rext send sends recv junk H) as (outs & TG & W). exists outs. split; auto.
  apply (on_tiles (fun r i => scatter V Tm (TilePart l) (Z.of_nat i) (junk r) (sends r) (recv r))). exact TG.
Qed.

Lemma gather_tiles_tog dims rext (sends : nat -> quantity V) (recv : nat -> option (quantity V)) junk :
  (forall t, (t < 6)%nat -> fits l (dims t) (rext t) /\ (forall i, (i < T)%nat -> rank_sized (rext t) (sends (t * T + i)%nat)) /\
     match recv (t * T)%nat with Some q => global_sized (TilePart l) (dims t) (rext t) q | None => q_dims (sends (t * T)%nat) = dims t end) ->
  exists outs, (forall t, (t < 6)%nat -> together T (fun i => gather V Tm (TilePart l) (Z.of_nat i) (junk (t * T + i)%nat) (sends (t * T + i)%nat) (recv (t * T + i)%nat))
      (fun i => Ok (if Nat.eqb ((t * T + i) mod T) 0 then Some (outs ((t * T + i) / T)%nat) else None))) /\
    forall t, (t < 6)%nat -> let base := or_blank (recv (t * T)%nat) (blank (dims t) (q_units (sends (t * T)%nat)) (tile_size l (dims t) (rext t)) (junk (t * T)%nat 0%nat)) in
      exists a, written base (outs t) a /\ gathered (TilePart l) (dims t) (rext t) (fun i => domain_of (sends (t * T + i)%nat)) (domain_of base) a.
Proof.
  intros H.
  destruct (finite_choice (sends 0%nat) (fun t o => together T (fun i => gather V Tm (TilePart l) (Z.of_nat i) (junk (t * T + i)%nat) (sends (t * T + i)%nat) (recv (t * T + i)%nat)) (fun i => Ok (match i with O => Some o | _ => None end)) /\
    let base := or_blank (recv (t * T)%nat) (blank (dims t) (q_units (sends (t * T)%nat)) (tile_size l (dims t) (rext t)) (junk (t * T)%nat 0%nat)) in
      exists a, written base o a /\ gathered (TilePart l) (dims t) (rext t) (fun i => domain_of (sends (t * T + i)%nat)) (domain_of base) a) 6) as (f & F).
  { intros t Ht. destruct (H t Ht) as (Fi & HS & HR).
    destruct (@gather_tog V Tm (TilePart l) (dims t) (rext t) Fi (fun i => sends (t * T + i)%nat) (fun i => recv (t * T + i)%nat) (fun i => junk (t * T + i)%nat)) as (o & TG & W); auto.
    { now rewrite Nat.add_0_r. } exists o. split; [exact TG|]. cbv beta zeta in W. now rewrite !Nat.add_0_r in W. }
  exists f. split.
  - intros t Ht. destruct (F t Ht) as (TG & _). eapply together_out; [|exact TG]. intros i Hi. cbv beta. destruct (place_unique l t i Hi) as (-> & ->). destruct i; reflexivity.
  - intros t Ht. apply F, Ht.
Qed.
Theorem gather_tiles dims rext (sends : nat -> quantity V) (recv : nat -> option (quantity V)) junk :
  (forall t, (t < 6)%nat -> fits l (dims t) (rext t) /\ (forall i, (i < T)%nat -> rank_sized (rext t) (sends (t * T + i)%nat)) /\
     match recv (t * T)%nat with Some q => global_sized (TilePart l) (dims t) (rext t) q | None => q_dims (sends (t * T)%nat) = dims t end) ->
  exists outs, cluster_ends size (fun r => TileComm.on_tile l r (all_ranks size) (fun i => gather V Tm (TilePart l) (Z.of_nat i) (junk r) (sends r) (recv r)))
      (fun r => Ok (if Nat.eqb (r mod T) 0 then Some (outs (r / T)%nat) else None)) /\
    forall t, (t < 6)%nat -> let base := or_blank (recv (t * T)%nat) (blank (dims t) (q_units (sends (t * T)%nat)) (tile_size l (dims t) (rext t)) (junk (t * T)%nat 0%nat)) in
      exists a, written base (outs t) a /\ gathered (TilePart l) (dims t) (rext t) (fun i => domain_of (sends (t * T + i)%nat)) (domain_of base) a.
Proof.
  intros H. destruct (gather_tiles_tog dims rext sends recv junk H) as (outs & TG & W). exists outs. split; auto.
  apply (on_tiles (fun r i => gather V Tm (TilePart l) (Z.of_nat i) (junk r) (sends r) (recv r)) (fun r => Ok (if Nat.eqb (r mod T) 0 then Some (outs (r / T)%nat) else None))). exact TG.
Qed.
End Tiles.

Section Run.
Context {V T : Type}.
Notation St := (option (quantity V)).

(** a collective operation in a mixed program: on all ranks, or on the ranks of each tile *)
Definition in_step (tiles : bool) (l : layout_t) {A} (ps : bool -> nat -> nat -> proc (obj T) V A) (out : nat -> res A) : Prop :=
  if tiles then forall t, (t < 6)%nat -> together (per_tile l) (fun i => ps true (t * per_tile l + i)%nat i) (fun i => out (t * per_tile l + i)%nat)
  else together (Mixed.size l) (fun r => ps false r r) out.
Definition part_for (tiles : bool) (l : layout_t) : partitioner := if tiles then TilePart l else CubePart l.

Section Stages.
Variables (l : layout_t) (dims : list string) (rext : list Z).
Hypothesis Hy : 1 <= fst l.
Hypothesis Hx : 1 <= snd l.
Hypothesis Fi : Distribute.fits l dims rext.
Notation size := (Mixed.size l).

Lemma received (tiles : bool) (A : arr V) (sends : nat -> option (quantity V)) (local : nat -> quantity V) junk :
  (forall r, (r < size)%nat -> is_first tiles l r = true -> exists q, sends r = Some q /\ extent_for tiles l dims rext q /\ same (domain_of q) (share tiles l r A)) ->
  (forall r, (r < size)%nat -> rank_sized rext (local r)) ->
  exists outs, in_step tiles l (fun b r i => scatter V T (part_for b l) (Z.of_nat i) (junk r) (sends r) (Some (local r))) (fun r => Ok (outs r)) /\
    forall r, (r < size)%nat -> written (local r) (outs r) (part_of (CubePart l) r dims rext A).
Proof.
  intros HS HL. pose proof (size_eq l Hy Hx) as SZ. pose proof (T_pos l Hy Hx) as TP. destruct tiles; cbn [in_step part_for is_first extent_for share] in *.
  - destruct (finite_choice (local 0%nat) (fun t q => sends (t * per_tile l)%nat = Some q /\ global_sized (TilePart l) dims rext q /\ same (domain_of q) (slab t A)) 6) as (send & SE).
    { intros t Ht. destruct (HS (t * per_tile l)%nat) as (q & E & G & SM); [nia|apply Nat.eqb_eq; now rewrite Nat.mod_mul by lia|]. exists q. split; auto. split; auto. now rewrite Nat.div_mul in SM by lia. }
    destruct (@scatter_tiles_tog l V T (fun _ => dims) (fun _ => rext) send sends (fun r => Some (local r)) junk) as (outs & TG & W).
    { intros t Ht. destruct (SE t Ht) as (E & G & _). split; auto. split; auto. split; auto. intros i Hi. apply HL. nia. }
    exists outs. split; [exact TG|]. intros r Hr. destruct (place_of l Hy Hx r) as (ER & LR). pose proof (tile_of l Hy Hx r Hr) as LT. specialize (W _ _ LT LR). cbn zeta in W. rewrite <- ER in W.
    destruct (SE _ LT) as (_ & _ & S1 & S2). eapply written_same; [exact W|]. split; [reflexivity|]. cbn [part_of shp at_]. intros pt Hpt. rewrite (place_cube' l Hy Hx r).
    rewrite S2; [reflexivity|]. rewrite S1. destruct (SE _ LT) as (_ & (_ & _ & GE) & _). cbn [domain_of shp] in S1. rewrite <- S1, GE.
    apply (place_in (TilePart l) dims rext); auto.
  - destruct (HS 0%nat) as (q & E & G & SM); [nia|reflexivity|].
    destruct (@scatter_tog V T (CubePart l) dims rext Fi sends (fun r => Some (local r)) q junk E G HL) as (outs & TG & W).
    exists outs. split; [exact TG|]. intros r Hr. eapply written_same; [exact (W r Hr)|]. split; [reflexivity|]. cbn [part_of shp at_]. intros pt Hpt. destruct SM as (S1 & S2). apply S2. 
    destruct G as (_ & _ & GE). cbn [domain_of shp]. rewrite GE. apply (place_in (CubePart l) dims rext); auto.
Qed.

Lemma collected (tiles : bool) (A : arr V) (sents : nat -> quantity V) (recv : nat -> option (quantity V)) junk : at_most_one AxX dims -> at_most_one AxY dims ->
  shp A = 6 :: tile_size l dims rext ->
  (forall r, (r < size)%nat -> rank_sized rext (sents r) /\ q_dims (sents r) = dims /\ same (domain_of (sents r)) (part_of (CubePart l) r dims rext A)) ->
  (forall r, (r < size)%nat -> is_first tiles l r = true -> given (extent_for tiles l dims rext) (recv r)) ->
  exists outs, in_step tiles l (fun b r i => gather V T (part_for b l) (Z.of_nat i) (junk r) (sents r) (recv r)) (fun r => Ok (if is_first tiles l r then Some (outs r) else None)) /\
    forall r, (r < size)%nat -> is_first tiles l r = true -> same (domain_of (outs r)) (share tiles l r A).
Proof.
  intros OX OY SA HS HR. pose proof (size_eq l Hy Hx) as SZ. pose proof (T_pos l Hy Hx) as TP. destruct tiles; cbn [in_step part_for is_first extent_for share] in *.
  - destruct (finite_choice (sents 0%nat) (fun t q => together (per_tile l) (fun i => gather V T (TilePart l) (Z.of_nat i) (junk (t * per_tile l + i)%nat) (sents (t * per_tile l + i)%nat) (recv (t * per_tile l + i)%nat))
      (fun i => Ok (match i with O => Some q | _ => None end)) /\ same (domain_of q) (slab t A)) 6) as (f & F).
    { intros t Ht. destruct (@gather_full_tog V T (TilePart l) dims rext Fi (fun i => sents (t * per_tile l + i)%nat) (fun i => recv (t * per_tile l + i)%nat) (fun i => junk (t * per_tile l + i)%nat)) as (out & TG & GE & GV); auto.
      - intros i Hi. apply HS. change (i < per_tile l)%nat in Hi. nia.
      - rewrite Nat.add_0_r. specialize (HR (t * per_tile l)%nat). destruct (recv (t * per_tile l)%nat); cbn [given] in HR; [apply HR; [nia|apply Nat.eqb_eq; now rewrite Nat.mod_mul by lia]|apply HS; nia].
      - exists out. split; [exact TG|]. split; [cbn [domain_of slab shp]; now rewrite GE, SA|]. intros g Hg. destruct (GV g Hg) as (i & pt & Hi & Hp & E & Vg & _). change (i < per_tile l)%nat in Hi.
        rewrite Vg. destruct (HS (t * per_tile l + i)%nat) as (_ & _ & S1 & S2); [nia|]. rewrite S2 by (rewrite S1; exact Hp). cbn [part_of slab at_]. rewrite place_cube by auto. now rewrite E. }
    exists (fun r => f (r / per_tile l)%nat). split.
    + intros t Ht. destruct (F t Ht) as (TG & _). eapply together_out; [|exact TG]. intros i Hi. cbv beta. destruct (place_unique l t i Hi) as (-> & ->). destruct i; reflexivity.
    + intros r Hr E. apply (F (r / per_tile l)%nat). now apply tile_of.
  - destruct (@gather_full_tog V T (CubePart l) dims rext Fi sents recv junk) as (out & TG & GE & GV); auto.
    + intros r Hr. now apply HS.
    + specialize (HR 0%nat). destruct (recv 0%nat); cbn [given] in HR; [apply HR; [nia|reflexivity]|apply HS; nia].
    + exists (fun _ => out). split; [eapply together_out; [|exact TG]; intros [|r] Hr; reflexivity|]. intros r Hr _. split; [cbn [domain_of shp]; now rewrite GE, SA|].
      intros g Hg. destruct (GV g Hg) as (i & pt & Hi & Hp & E & Vg & _). rewrite Vg. destruct (HS i Hi) as (_ & _ & S1 & S2). rewrite S2 by (rewrite S1; exact Hp). cbn [part_of at_]. now rewrite E.
Qed.
End Stages.
End Run.

Theorem runs V T (neg : V -> V) (d : V) M h len ix iy ext dims (gs : list (rule V)) : cell_dims len ix iy dims -> Forall (looks_around h (level len ix iy ext)) gs ->
  forall A : arr V, shp A = 6 :: box len ix iy M ext ->
  exists result : arr V, shp result = shp A /\ forall tiles tiles' n N (sends : nat -> option (quantity V)) (local : nat -> quantity V) recv junk junk' fs,
    let l := (n, n) in let rext := box len ix iy N ext in
    1 <= n -> n * N = M -> 1 <= h <= N -> Distribute.fits l dims rext ->
    (forall r, (r < Mixed.size l)%nat -> is_first tiles l r = true -> exists q, sends r = Some q /\ extent_for tiles l dims rext q /\ same (domain_of q) (share tiles l r A)) ->
    (forall r, (r < Mixed.size l)%nat -> q_dims (local r) = dims /\ Halo.fits N h len ix iy 0 0 ext (q_meta (local r))) ->
    (forall r, (r < Mixed.size l)%nat -> is_first tiles' l r = true -> given (extent_for tiles' l dims rext) (recv r)) ->
    Forall2 (applies n N ix iy (fun r => mkH 0 (q_meta (local r))) 1) gs fs ->
    exists m o outs,
      cluster_ends (Mixed.size l)
        (mixed_program (obj T) V (option (quantity V)) neg l (distributed_run tiles tiles' l h fs sends local recv junk junk') (fun r => [q_data (local r)]) (fun _ => None))
        (fun r => Ok (m r, o r)) /\
      forall r, (r < Mixed.size l)%nat -> o r = (if is_first tiles' l r then Some (outs r) else None) /\ (is_first tiles' l r = true -> same (domain_of (outs r)) (share tiles' l r result)).
Proof.
  intros (Ixy & Ix & Iy & Ld & Ax & Sx & Sy) G A SA.
  destruct (computed V neg d M h len ix iy ext dims Ixy Ix Iy Ld Ax Sx Sy gs A G) as (result & SR & CO). exists result. split; [congruence|].
  intros tiles tiles' n N sends local recv junk junk' fs l rext Hn HM Hh FT HS LO RV AP.
  assert (RK' : Halo.ranks n = Mixed.size l) by reflexivity.
  destruct (@received V T l dims rext Hn Hn FT tiles A sends local junk HS) as (outs & TG & W).
  { intros r Hr. destruct (LO r Hr) as (_ & F). split; [exact (fits_formed N h len ix iy ext _ F)|exact (extent_eq N h len ix iy ext _ F)]. }
  specialize (CO n N local outs fs Hn HM Hh LO AP W).
  set (calls := distributed_run tiles tiles' l h fs sends local recv junk junk').
  assert (SOK : Forall (call_ok V n 1) (stepping (fun r => mkH 0 (q_meta (local r))) h fs 0)).
  { apply (stepping_ok V n N len ix iy (fun r => mkH 0 (q_meta (local r))) h 1 0 ext Hn ltac:(lia) Hh) with (gs := gs); auto. intros r Hr. now apply LO. intros r. cbn. lia. }
  assert (UP : updates (obj T) V (option (quantity V)) calls = stepping (fun r => mkH 0 (q_meta (local r))) h fs 0).
  { unfold calls, distributed_run, receive, collect. destruct tiles, tiles'; cbn [updates]; rewrite updates_map; cbn [updates]; apply app_nil_r. }
  assert (WL : forall r, with_data (local r) [q_data (local r)] = local r) by (intros r; destruct (local r); reflexivity).
  destruct (mixed_correct (obj T) V (option (quantity V)) neg l d n 1 Hn Hn calls (fun r => [q_data (local r)]) (fun _ => None)
    (fun m o => exists res, forall r, (r < Mixed.size l)%nat -> o r = (if is_first tiles' l r then Some (res r) else None) /\ (is_first tiles' l r = true -> same (domain_of (res r)) (share tiles' l r result))))
    as (m & o & (res & O) & C).
  - split; [now right|]. rewrite UP. split; [exact SOK|]. apply stepping_waits. easy.
  - intros r Hr. reflexivity.
  - unfold calls, distributed_run.
    assert (REST : achieves (obj T) V (option (quantity V)) neg l d n 1 (map MUpdate (stepping (fun r => mkH 0 (q_meta (local r))) h fs 0) ++ [collect tiles' l local recv junk'])%list [] (fun r => [q_data (outs r)]) (fun _ => None)
      (fun m o => exists res, forall r, (r < Mixed.size l)%nat -> o r = (if is_first tiles' l r then Some (res r) else None) /\ (is_first tiles' l r = true -> same (domain_of (res r)) (share tiles' l r result)))).
    { apply achieves_updates. intros started' m' ME. destruct (CO [] m' ME) as (SH & RS). specialize (RS (fun r => with_data (local r) (m' r))).
      assert (EM : forall r, (r < Mixed.size l)%nat -> q_meta (with_data (local r) (m' r)) = q_meta (local r) /\ nth_error (m' r) 0 = Some (q_data (with_data (local r) (m' r)))).
      { intros r Hr. destruct (SH r Hr) as (a & E & S). assert (D : nth 0 (m' r) (q_data (local r)) = a) by (destruct (m' r); [discriminate|]; now injection E).
        split; [|unfold with_data; cbn [q_data]; congruence]. unfold q_meta, with_data. cbn [q_dims q_origin q_extent q_data]. now rewrite D, S. }
      specialize (RS EM).
      destruct (@collected V T l dims rext Hn Hn FT tiles' result (fun r => with_data (local r) (m' r)) recv junk') as (res & TG' & SM); auto.
      { left. eapply axis_x with (ix := ix) (iy := iy); eauto. }
      { left. eapply axis_y with (ix := ix) (iy := iy); eauto. }
      { rewrite SR. symmetry. exact (global_extent M len ix iy ext dims Ixy Ix Iy Ld Ax Sx Sy n N HM). }
      { intros r Hr. destruct (LO r Hr) as (DD & F). destruct (EM r Hr) as (EM' & _). split; [|split; [exact DD|now apply RS]]. split; [rewrite EM'; exact (fits_formed N h len ix iy ext _ F)|].
        exact (extent_eq N h len ix iy ext _ F). }
      assert (LN : forall r, (r < Mixed.size l)%nat -> length (m' r) = 1%nat) by (intros r Hr; apply (meaning_lengths V neg d n 1 _ SOK [] (fun r => [q_data (outs r)]) m'); auto).
      set (o' := fun r => if is_first tiles' l r then Some (res r) else None) in *. destruct tiles'; cbn [achieves collect in_step part_for] in *; exists m', o'; (split; [|split; [exact LN|exists res; intros r Hr; split; [reflexivity|now apply SM]]]).
      - intros t Ht. specialize (TG' t Ht). exact (together_bind _ _ (fun i => o' (t * per_tile l + i)%nat) (fun i o => PRet (m' (t * per_tile l + i)%nat, o)) _ TG' (tg_end (per_tile l) _ (fun i => Ok _) (fun r Hr => eq_refl))).
      - exact (together_bind _ _ o' (fun r o => PRet (m' r, o)) _ TG' (tg_end (Mixed.size l) _ (fun i => Ok _) (fun r Hr => eq_refl))). }
    destruct tiles; cbn [achieves receive in_step part_for] in *; exists (fun r => [q_data (outs r)]), (fun _ => None); (split; [|split; [reflexivity|exact REST]]).
    + intros t Ht. specialize (TG t Ht). eapply together_ext; [|exact (together_bind _ _ (fun i => outs (t * per_tile l + i)%nat) (fun i q => PRet ([q_data q], None)) _ TG (tg_end (per_tile l) _ (fun i => Ok _) (fun r Hr => eq_refl)))].
      intros i Hi. cbn [fst snd]. now rewrite WL.
    + eapply together_ext; [|exact (together_bind _ _ outs (fun i q => PRet ([q_data q], None)) _ TG (tg_end (Mixed.size l) _ (fun i => Ok _) (fun r Hr => eq_refl)))].
      intros i Hi. cbn [fst snd]. now rewrite WL.
  - exists m, o, res. auto.
Qed.
