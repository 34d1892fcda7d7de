From Verif.Base Require Import Base Lemmas.
From Verif.Model Require Import Consts Numpy Quantity Partitioner Network Communicator Sizer ScatterGather Setup.
From Verif.Spec Require Import Grid Cube Layouts Views Sizing Halo Lockstep Sync Client Setup.
From Verif.Spec Require Together Distribute.
From Verif.Proofs Require Import SizerProofs.
From Verif.Proofs Require StateProofs.
From Coq Require Import ZifyBool.

Lemma f2_nth {A B} (P : A -> B -> Prop) l l' a b i : Forall2 P l l' -> (i < length l)%nat -> P (nth i l a) (nth i l' b).
Proof. intros F. now apply (proj1 (Forall2_nth P l l' a b) F). Qed.

Section Setup.
Variables n N nz : Z.
Hypothesis Hn : layout_ok n.
Hypothesis HN : 1 <= N.
Hypothesis Hnz : 0 <= nz.
Hypothesis Hsize : (n * N) + 1 + 2 * n <= 2 ^ 51.

Lemma n_pos : 1 <= n.
Proof using Hn. destruct Hn. lia. Qed.

Lemma tile_fits : tile_ok (n, n) [Y_DIM; X_DIM] [n * N; n * N].
Proof using Hn HN Hsize.
  assert (P := n_pos). split; [split; exact Hn|].
  assert (X : forall d, In d [Y_DIM; X_DIM] -> stag d = 0 /\ along d (n, n) 1 = n) by (intros d [<-|[<-|[]]]; auto).
  assert (Y : 0 <= n * N) by nia.
  split; repeat apply Forall2_cons; try apply Forall2_nil.
  1,2: match goal with |- context [stag ?d] => destruct (X d) as (-> & ->); [cbn; auto|] end; split; lia.
  1,2: match goal with |- context [stag ?d] => destruct (X d) as (-> & ->); [cbn; auto|] end; rewrite Z.sub_0_r; split; [lia|]; rewrite Z.mul_comm, Z.mod_mul; lia.
Qed.
Theorem one_namelist : cubed_sphere_partitioner_from_namelist (cubed_namelist n N nz) = Ok (CubePart (n, n)) /\
  forall part r, part = None \/ part = Some (n, n) -> 0 <= r < n * n -> from_namelist (cubed_namelist n N nz) part r = Ok (mkSizer N N nz 3 []).
Proof using Hn HN Hsize.
  split; [reflexivity|]. intros part r P Hr. assert (X := n_pos).
  assert (E := namelist_sizes (n, n) (n * N + 1) (n * N + 1) nz part r). cbv zeta in E.
  replace (match part with Some p => p | None => (n, n) end) with (n, n) in E by (destruct P as [->| ->]; reflexivity).
  replace (n * N + 1 - 1) with (n * N) in E by lia. specialize (E tile_fits Hr). cbn [fst snd] in E. rewrite Z.mul_comm, Z.div_mul in E by lia.
  unfold cubed_namelist. rewrite Z.mul_comm. exact E.
Qed.

Let s := mkSizer N N nz 3 [].
Lemma sensible_s : sensible s.
Proof using HN Hnz. repeat split; cbn; try lia. discriminate. Qed.
Section Q.
Context {V : Type}.
Variables (dims : list string) (ix iy : nat).
Hypothesis Hdims : horizontal dims ix iy.

Lemma size_points i : (i < length dims)%nat -> points s (nth i dims EmptyString) = Some (size_of N nz (nth i dims EmptyString)).
Proof using Hdims.
  intros Hi. destruct Hdims as (_ & _ & _ & H). specialize (H i Hi). cbv zeta in H. unfold points, size_of. destruct (Nat.eqb i ix); [rewrite H; reflexivity|].
  destruct (Nat.eqb i iy); [rewrite H; reflexivity|]. destruct H as [<-|[<-|[]]]; cbn; f_equal; lia.
Qed.
Lemma known_s : known s dims.
Proof using Hdims.
  apply Forall_forall. intros d I. destruct (In_nth _ _ EmptyString I) as (i & Hi & <-). rewrite size_points by auto. discriminate.
Qed.
Lemma axes_nth : forall o e sh, axes_ok o e sh -> length o = length sh /\ length e = length sh /\
  forall i, (i < length sh)%nat -> 0 <= xat o i /\ 0 <= xat e i /\ xat o i + xat e i <= xat sh i.
Proof using.
  induction 1 as [|o e sz os es ss A B C D (L1 & L2 & IH)]; [repeat split; cbn in *; lia|]. cbn [length]. split; [lia|]. split; [lia|].
  intros [|i] Hi; cbn in *; [auto|apply IH; lia].
Qed.
Lemma allocated_fits (q : quantity V) : allocated_by (cubed_namelist n N nz) n dims q ->
  q_extent q = map (size_of N nz) dims /\ q_dims q = dims /\ Views.well_formed (q_meta q) /\ forall h, h <= 3 ->
  Halo.fits N h (length dims) ix iy (stag (nth iy dims EmptyString)) (stag (nth ix dims EmptyString)) (fun i => nz + stag (nth i dims EmptyString)) (q_meta q).
Proof using Hn HN Hnz Hsize Hdims.
  intros (part & tr & s' & ct & u & P & T & E & A). rewrite (proj2 one_namelist part tr P T) in E. injection E as <-.
  destruct (allocated s ct dims u sensible_s known_s) as (q' & A' & D & _ & _ & WF & EX & OR & RM). fold s in A. rewrite A in A'. injection A' as <-.
  assert (L : length (q_extent q) = length dims) by (symmetry; eapply Forall2_length; exact EX).
  assert (LO : length (q_origin q) = length dims) by (symmetry; eapply Forall2_length; exact OR).
  assert (EXT : q_extent q = map (size_of N nz) dims).
  { apply nth_ext with (d := 0) (d' := size_of N nz EmptyString); [now rewrite map_length|]. intros i Hi. rewrite L in Hi. rewrite map_nth.
    apply (f2_nth _ _ _ EmptyString 0 i) in EX; [|auto]. cbv beta in EX. rewrite (size_points i Hi) in EX. congruence. }
  split; [exact EXT|]. split; [exact D|]. split; [exact WF|]. intros h Hh. destruct Hdims as (Hx & Hy & Hxy & H).
  assert (WF' := WF). destruct WF' as (LD & AX). cbn [q_meta m_dims m_shape m_origin m_extent] in LD, AX. destruct (axes_nth _ _ _ AX) as (L1 & L2 & B). rewrite D in LD. rewrite <- LD in *.
  assert (AXI : forall i, (i < length dims)%nat -> axis_of (nth i dims EmptyString) = if Nat.eqb i ix then AxX else if Nat.eqb i iy then AxY else AxOther).
  { intros i Hi. specialize (H i Hi). cbv zeta in H. destruct (Nat.eqb i ix); auto. destruct (Nat.eqb i iy); auto. destruct H as [<-|[<-|[]]]; reflexivity. }
  assert (RR : forall i, i = ix \/ i = iy -> (i < length dims)%nat /\ axis_of (nth i dims EmptyString) <> AxOther).
  { intros i [->| ->]; (split; [assumption|]); rewrite AXI by auto; rewrite ?Nat.eqb_refl; [discriminate|]. destruct (Nat.eqb iy ix); discriminate. }
  constructor; cbn [q_meta m_dims m_shape m_origin m_extent]; rewrite ?D; auto.
  - intros i Hi. unfold xat. rewrite EXT. rewrite nth_indep with (d' := size_of N nz EmptyString) by (now rewrite map_length). rewrite map_nth. unfold size_of. rewrite (AXI i Hi).
    destruct (Nat.eqb_spec i ix) as [E|E]; [now rewrite E|]. destruct (Nat.eqb_spec i iy) as [E'|E']; [now rewrite E'|reflexivity].
  - intros i Hi. destruct (RR i Hi) as (Hl & Ha). specialize (RM i Hl Ha). cbn [s s_halo] in RM. unfold xat. split; [|lia].
    apply (f2_nth _ _ _ EmptyString 0 i) in OR; [|auto]. cbv beta in OR. rewrite OR. destruct (axis_of (nth i dims EmptyString)); cbn; try congruence; lia.
Qed.
End Q.

Lemma fits_ext N' h len ix iy sy sx ext ext' m : (forall i, i <> ix -> i <> iy -> ext i = ext' i) -> Halo.fits N' h len ix iy sy sx ext m -> Halo.fits N' h len ix iy sy sx ext' m.
Proof using.
  intros E []. constructor; auto. intros i Hi. rewrite fit_ext by auto. destruct (Nat.eqb_spec i ix); auto. destruct (Nat.eqb_spec i iy); auto.
Qed.
Definition handles {V} (id : nat) (q : nat -> quantity V) (r : nat) : handle := mkH id (q_meta (q r)).

Theorem setup_halo V dims ix iy (q : nat -> quantity V) : horizontal dims ix iy -> stag (nth iy dims EmptyString) = stag (nth ix dims EmptyString) ->
  (forall r, (r < ranks n)%nat -> allocated_by (cubed_namelist n N nz) n dims (q r)) ->
  forall h id, 1 <= h <= 3 -> h <= N -> halo_ok n N (length dims) ix iy (handles id q) h.
Proof using Hn HN Hnz Hsize.
  intros H S A h id Hh HhN. split; [apply n_pos|]. split; [exact HN|]. split; [lia|]. eexists _, _. intros r Hr.
  destruct (allocated_fits dims ix iy H (q r) (A r Hr)) as (_ & _ & _ & F). cbn [handles h_meta]. specialize (F h ltac:(lia)). rewrite S in F. exact F.
Qed.
Theorem setup_vector V dx dy ix iy (x y : nat -> quantity V) : horizontal dx ix iy -> horizontal dy ix iy -> length dx = length dy ->
  stag (nth iy dx EmptyString) = stag (nth ix dy EmptyString) -> stag (nth ix dx EmptyString) = stag (nth iy dy EmptyString) ->
  (forall i, i <> ix -> i <> iy -> nth i dx EmptyString = nth i dy EmptyString) ->
  (forall r, (r < ranks n)%nat -> allocated_by (cubed_namelist n N nz) n dx (x r) /\ allocated_by (cubed_namelist n N nz) n dy (y r)) ->
  forall h i j, 1 <= h <= 3 -> h <= N -> i <> j -> vector_ok n N (length dx) ix iy (handles i x) (handles j y) h.
Proof using Hn HN Hnz Hsize.
  intros H H' L S S' O A h i j Hh HhN Hij. split; [apply n_pos|]. split; [exact HN|]. split; [lia|]. split; [intros r _; exact Hij|]. eexists _, _, _. intros r Hr. destruct (A r Hr) as (A1 & A2).
  destruct (allocated_fits dx ix iy H (x r) A1) as (_ & _ & _ & F). destruct (allocated_fits dy ix iy H' (y r) A2) as (_ & _ & _ & F').
  cbn [handles h_meta]. specialize (F h ltac:(lia)). specialize (F' h ltac:(lia)). split; [exact F|]. rewrite L, S, S'.
  eapply fits_ext; [|exact F']. intros k Hk Hk'. cbv beta. now rewrite O.
Qed.
Theorem setup_sync V dx dy ix iy (x y : nat -> quantity V) : horizontal dx ix iy -> horizontal dy ix iy -> length dx = length dy ->
  ((ix = 0 /\ iy = 1) \/ (ix = 1 /\ iy = 0))%nat ->
  nth iy dx EmptyString = "y_interface"%string -> nth ix dx EmptyString = "x"%string -> nth iy dy EmptyString = "y"%string -> nth ix dy EmptyString = "x_interface"%string ->
  (forall i, i <> ix -> i <> iy -> nth i dx EmptyString = nth i dy EmptyString) ->
  (forall r, (r < ranks n)%nat -> allocated_by (cubed_namelist n N nz) n dx (x r) /\ allocated_by (cubed_namelist n N nz) n dy (y r)) ->
  sync_ok n N (length dx) ix iy (fun r => q_meta (x r)) (fun r => q_meta (y r)).
Proof using Hn HN Hnz Hsize.
  intros H H' L P X1 X2 Y1 Y2 O A. split; [apply n_pos|]. split; [exact HN|]. split; [exact P|]. eexists. intros r Hr. destruct (A r Hr) as (A1 & A2).
  destruct (allocated_fits dx ix iy H (x r) A1) as (_ & _ & _ & F). destruct (allocated_fits dy ix iy H' (y r) A2) as (_ & _ & _ & F').
  specialize (F 0 ltac:(lia)). specialize (F' 0 ltac:(lia)). rewrite X1, X2 in F. rewrite Y1, Y2 in F'. split; [exact F|]. rewrite L.
  eapply fits_ext; [|exact F']. intros k Hk Hk'. cbv beta. now rewrite O.
Qed.

(** scatter of a quantity of whole tiles *)
Lemma setup_sizes dims ix iy : horizontal dims ix iy -> nz <= 2 ^ 50 -> Distribute.fits (n, n) dims (map (size_of N nz) dims) /\
  Distribute.tile_size (n, n) dims (map (size_of N nz) dims) = map (size_of (n * N) nz) dims.
Proof using Hn HN Hnz Hsize.
  intros (Hx & Hy & Hxy & H) Hz. assert (P := n_pos).
  assert (X : forall d, In d dims -> (axis_of d <> AxOther /\ along d (n, n) 1 = n /\ size_of N nz d = N + stag d /\ size_of (n * N) nz d = n * N + stag d) \/
    (along d (n, n) 1 = 1 /\ size_of N nz d = nz + stag d /\ size_of (n * N) nz d = nz + stag d)).
  { intros d I. unfold along, size_of. destruct (axis_of d); [left|left|right]; repeat split; discriminate. }
  split.
  - split; [split; exact Hn|]. split; [intros E; rewrite E in Hx; cbn in Hx; lia|]. clear Hx Hy H. induction dims as [|d l IH]; cbn [map]; constructor; [|apply IH; auto with datatypes].
    assert (B := stag_range d). destruct (X d (or_introl eq_refl)) as [(_ & -> & -> & _)|(-> & -> & _)]; split; lia.
  - clear Hx Hy H. induction dims as [|d l IH]; [reflexivity|]. unfold Distribute.tile_size in *. cbn [map]. cbn -[size_of stag along Z.mul]. f_equal; [|apply IH; auto with datatypes].
    destruct (X d (or_introl eq_refl)) as [(_ & -> & -> & ->)|(-> & -> & ->)]; lia.
Qed.
Theorem setup_scatter V T dims ix iy (send : quantity V) (sends : nat -> option (quantity V)) (q : nat -> quantity V) junk : horizontal dims ix iy -> nz <= 2 ^ 50 ->
  sends 0%nat = Some send -> Views.well_formed (q_meta send) -> q_dims send = "tile"%string :: dims -> q_extent send = 6 :: map (size_of (n * N) nz) dims ->
  (forall r, (r < ranks n)%nat -> allocated_by (cubed_namelist n N nz) n dims (q r)) ->
  exists outs, Together.always_ends (ranks n) (fun r => scatter V T (CubePart (n, n)) (Z.of_nat r) (junk r) (sends r) (Some (q r))) (fun r => Ok (outs r)) /\
    forall r, (r < ranks n)%nat -> written (q r) (outs r) (Distribute.part_of (CubePart (n, n)) r dims (map (size_of N nz) dims) (domain_of send)).
Proof using Hn HN Hnz Hsize.
  intros H Hz S0 WF D E A. destruct (setup_sizes dims ix iy H Hz) as (F & TS).
  destruct (StateProofs.scatter_result (T := T) (CubePart (n, n)) dims (map (size_of N nz) dims) F sends (fun r => Some (q r)) send junk S0) as (outs & R & W).
  - split; [exact WF|]. split; [exact D|]. cbn. rewrite TS. exact E.
  - intros r Hr. destruct (allocated_fits dims ix iy H (q r) (A r Hr)) as (X1 & _ & X2 & _). split; auto.
  - exists outs. split; [exact R|]. intros r Hr. exact (W r Hr).
Qed.
End Setup.
