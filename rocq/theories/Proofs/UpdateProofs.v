(** The calls halo_update, vector_halo_update and synchronize_vector_interfaces made by all ranks. *)
From Verif.Base Require Import Base Lemmas.
From Verif.Model Require Import Consts Numpy Quantity Partitioner Rotate Network Communicator.
From Verif.Spec Require Import Grid Cube Halo Lockstep Sync Client Updates.
From Verif.Proofs Require Import NetworkProofs Phases ClientProofs.
From Coq Require Import ZifyBool.

Section Updates.
Variable V : Type.
Variable neg : V -> V.
Variable d : V.
Variable n : Z.
Variable k : nat.

(** start and wait, as a program *)
Lemma issued_client (start : eff V (request V)) r c calls :
  client_ops V neg n calls r = fst (fst (ebind V start (fun rq => client V neg n r [CWait V 0] [rq]) c)) -> c = new_comm ->
  issued (ebind V start (wait_request V)) = client_ops V neg n calls r.
Proof.
  intros -> ->. unfold issued, ebind. destruct (start new_comm) as [[l c'] [rq|e]]; auto.
  cbn [client nth_error]. unfold wait_request, ebind, eret. cbn [fst]. now rewrite app_nil_r.
Qed.

Lemma start_state_ext L W j (p p' : nat -> list (op L W)) m : (forall r, (r < j)%nat -> p r = p' r) -> start_state j p m = start_state j p' m.
Proof. intros H. unfold start_state. f_equal. now apply tab_ext. Qed.

Lemma one_call (c : call V) (program : nat -> eff V unit) m :
  call_ok V n k c -> starts V c = true -> arrays n k m ->
  (forall r, (r < ranks n)%nat -> issued (program r) = client_ops V neg n [c; CWait V 0] r) ->
  exists m', all_ranks_end n program m m' /\ arrays n k m' /\ effect V neg d n c m m m'.
Proof.
  intros OK S A E. destruct (client_correct V neg d n k [c; CWait V 0] m) as (m' & M & C).
  - repeat constructor; auto.
  - destruct c; try discriminate; simpl; auto.
  - auto.
  - assert (exists m1, effect V neg d n c m m m1 /\ forall r, (r < ranks n)%nat -> m' r = m1 r) as (m1 & EF & Q).
    { destruct c; try discriminate; destruct M as (c' & sent & m1 & N & EF & Q); cbn in N; injection N as <- <-; eauto. }
    exists m1. assert (T : tab (ranks n) m' = tab (ranks n) m1) by (apply tab_ext; auto). split; [|split; auto].
    + unfold all_ranks_end. rewrite (start_state_ext _ _ _ _ _ m E), <- T. exact C.
    + intros r Hr. rewrite <- (A r Hr). destruct c; try discriminate; destruct EF as (OC & _); apply OC; auto.
Qed.

Theorem halo_update_effect N len ix iy q h m : halo_ok n N len ix iy q h -> ids_below k q -> arrays n k m ->
  exists m', all_ranks_end n (fun r => halo_update V neg (n, n) (Z.of_nat r) (q r) h) m m' /\ arrays n k m' /\
    effect V neg d n (CHalo V q h) m m m'.
Proof.
  intros OK ID A. apply one_call; auto.
  - split; auto. exists N, len, ix, iy. auto.
  - intros r Hr. eapply issued_client; reflexivity.
Qed.

Theorem vector_halo_update_effect N len ix iy x y h m : vector_ok n N len ix iy x y h -> ids_below k x -> ids_below k y -> arrays n k m ->
  exists m', all_ranks_end n (fun r => vector_halo_update V neg (n, n) (Z.of_nat r) (x r) (y r) h) m m' /\ arrays n k m' /\
    effect V neg d n (CVector V x y h) m m m'.
Proof.
  intros OK IDx IDy A. apply one_call; auto.
  - split; auto. split; auto. exists N, len, ix, iy. auto.
  - intros r Hr. eapply issued_client; reflexivity.
Qed.

Theorem synchronize_effect N len ix iy x y m : sync_ok n N len ix iy (fun r => h_meta (x r)) (fun r => h_meta (y r)) ->
  (forall r, (r < ranks n)%nat -> h_id (x r) <> h_id (y r)) -> ids_below k x -> ids_below k y -> arrays n k m ->
  exists m', all_ranks_end n (fun r => synchronize_vector_interfaces V neg (n, n) (Z.of_nat r) (x r) (y r)) m m' /\ arrays n k m' /\
    effect V neg d n (CSync V x y) m m m'.
Proof.
  intros OK XY IDx IDy A. apply one_call; auto.
  - split; auto. split; auto. split; auto. exists N, len, ix, iy. auto.
  - intros r Hr. eapply issued_client; reflexivity.
Qed.
End Updates.

(** fields *)
Lemma column_eq m m' ix iy p p' : length (m_dims m) = length (m_dims m') -> same_column m m' ix iy p p' -> column m ix iy p = column m' ix iy p'.
Proof.
  intros E S. unfold column. rewrite <- E. apply map_ext_in. intros i I. apply in_seq in I.
  destruct (Nat.eqb_spec i ix); auto. destruct (Nat.eqb_spec i iy); auto. cbn [orb]. apply S; auto; lia.
Qed.

Section Fields.
Variable V : Type.
Variable neg : V -> V.
Variables n N h : Z.
Variables ix iy : nat.

Lemma scalar_field mt sent before after (F : option vec -> list Z -> V) len :
  (forall r, (r < ranks n)%nat -> length (m_dims (mt r)) = len) ->
  scalar_filled n N h ix iy mt sent before after ->
  holds n N ix iy mt (fun r => in_domain (mt r)) F sent -> holds n N ix iy mt (fun r => to_fill n N h ix iy (mt r) r) F after.
Proof.
  intros L S H r p Hr T. destruct (S r p Hr) as (A & _). destruct (A T) as (r' & p' & Hr' & D & SC & PL & E).
  rewrite E, H by auto. rewrite PL. f_equal. symmetry. apply column_eq; auto. rewrite !L; auto.
Qed.

Lemma vector_field mt sent before after (F : option vec -> list Z -> vec -> V) len : odd_field neg F ->
  (forall c r, (r < ranks n)%nat -> length (m_dims (mt c r)) = len) ->
  vector_filled neg n N h ix iy mt sent before after ->
  holds_vector n N ix iy mt (fun c r => in_domain (mt c r)) F sent ->
  holds_vector n N ix iy mt (fun c r => to_fill n N h ix iy (mt c r) r) F after.
Proof.
  intros O L S H c r p Hr T. destruct (S c r p Hr) as (A & _). destruct (A T) as (c' & r' & p' & Hr' & D & SC & PL & E).
  assert (CE : column (mt c' r') ix iy p' = column (mt c r) ix iy p) by (symmetry; apply column_eq; auto; rewrite !L; auto).
  destruct E as [(DE & E)|(DE & E)]; rewrite E, H by auto; rewrite PL, CE, DE; auto.
  rewrite <- O. f_equal. unfold vscale. destruct (dir_of _ _ _ _ _ _ _ _) as [[? ?] ?]. apply f_equal2; [apply f_equal2|]; lia.
Qed.

Lemma sync_field mt sent before after (F : option vec -> list Z -> vec -> V) len : odd_field neg F ->
  (forall c r, (r < ranks n)%nat -> length (m_dims (mt c r)) = len) ->
  synchronized neg n N ix iy mt sent before after ->
  holds_vector n N ix iy mt (fun c r => out_edge ix iy c (mt c r)) F sent ->
  holds_vector n N ix iy mt (fun c r => in_edge N ix iy c (mt c r)) F after.
Proof.
  intros O L S H c r p Hr T. destruct (S c r p Hr) as (A & _). destruct (A T) as (c' & r' & p' & Hr' & D & SC & PL & E).
  assert (CE : column (mt c' r') ix iy p' = column (mt c r) ix iy p) by (symmetry; apply column_eq; auto; rewrite !L; auto).
  destruct E as [(DE & E)|(DE & E)]; rewrite E, H by auto; rewrite PL, CE, DE; auto.
  rewrite <- O. f_equal. unfold vscale. destruct (dir_of _ _ _ _ _ _ _ _) as [[? ?] ?]. apply f_equal2; [apply f_equal2|]; lia.
Qed.
End Fields.

(** points which are never written *)
Lemma not_to_fill n N h ix iy len s1 s2 ext m r p : fits N h len ix iy s1 s2 ext m ->
  in_domain m p \/ (exists i, (i = ix \/ i = iy) /\ (rel m p i < - h \/ xat (m_extent m) i + h <= rel m p i)) \/
    place_of n N ix iy m r p = None \/ ~ in_column m ix iy p ->
  1 <= h -> 1 <= N -> 0 <= s1 <= 1 -> 0 <= s2 <= 1 -> ~ to_fill n N h ix iy m r p.
Proof.
  intros F Q Hh HN S1 S2 ((b & IC & IH) & P).
  pose proof (fit_ext F ix (fit_ix F)) as Ex. pose proof (fit_ext F iy (fit_iy F)) as Ey.
  pose proof (fit_xy F) as XY. rewrite Nat.eqb_refl in Ex, Ey. replace (Nat.eqb iy ix) with false in Ey by (symmetry; now apply Nat.eqb_neq; auto).
  assert (G : - h <= rel m p iy < xat (m_extent m) iy + h /\ - h <= rel m p ix < xat (m_extent m) ix + h /\
     ~ (0 <= rel m p iy < xat (m_extent m) iy /\ 0 <= rel m p ix < xat (m_extent m) ix)).
  { destruct IH as (A & B). destruct b; cbn in A, B; unfold side_range in A, B; cbn in A, B; lia. }
  destruct Q as [(L & D)|[(i & [-> | ->] & D)|[D|D]]]; try lia; auto.
  pose proof (D iy). pose proof (D ix). pose proof (fit_dims F). pose proof (fit_ix F). pose proof (fit_iy F). lia.
Qed.

Lemma stag_range s : 0 <= stag s <= 1.
Proof. unfold stag. repeat match goal with |- context [if ?b then _ else _] => destruct b end; lia. Qed.

(** ** the theorems of Props/Updates.v *)
Section Theorems.
Variable V : Type.
Variable neg : V -> V.
Variable d : V.

Lemma fits_left_alone n N h len ix iy s1 s2 ext m r p : 1 <= h -> 1 <= N ->
  fits N h len ix iy s1 s2 ext m -> left_alone n N h ix iy m r p -> ~ to_fill n N h ix iy m r p.
Proof.
  intros Hh HN F Q. eapply not_to_fill; eauto; try lia.
  - rewrite <- (fit_sy F). apply stag_range.
  - rewrite <- (fit_sx F). apply stag_range.
Qed.

Theorem scalar_update n N len ix iy q h k m : halo_ok n N len ix iy q h -> ids_below k q -> arrays n k m ->
  let at_q := fun m => content V m (fun r => h_id (q r)) d in
  let mt := fun r => h_meta (q r) in
  exists m', all_ranks_end n (fun r => halo_update V neg (n, n) (Z.of_nat r) (q r) h) m m' /\ arrays n k m' /\
    (forall r p, (r < ranks n)%nat -> to_fill n N h ix iy (mt r) r p ->
       exists r' p', (r' < ranks n)%nat /\ in_domain (mt r') p' /\ same_column (mt r) (mt r') ix iy p p' /\
         place_of n N ix iy (mt r') r' p' = place_of n N ix iy (mt r) r p /\ at_q m' r p = at_q m r' p') /\
    (forall F, holds n N ix iy mt (fun r => in_domain (mt r)) F (at_q m) ->
       holds n N ix iy mt (fun r => to_fill n N h ix iy (mt r) r) F (at_q m')) /\
    (forall r p, (r < ranks n)%nat -> left_alone n N h ix iy (mt r) r p -> at_q m' r p = at_q m r p) /\
    only_changed V n [q] m m'.
Proof.
  intros OK ID A at_q mt. destruct (halo_update_effect V neg d n k N len ix iy q h m OK ID A) as (m' & E & A' & OC & EF).
  pose proof (EF N len ix iy OK) as FI. cbv zeta in FI. exists m'. repeat (split; [assumption|]).
  destruct OK as (Hn & HN & Hh & s & ext & FF).
  split; [|split; [|split]]; auto.
  - intros r p Hr T. destruct (FI r p Hr) as (X & _). exact (X T).
  - intros F H. eapply scalar_field with (len := len); eauto. intros r Hr. apply (fit_dims (FF r Hr)).
  - intros r p Hr LA. destruct (FI r p Hr) as (_ & X). apply X. eapply fits_left_alone; eauto; lia.
Qed.

Theorem vector_update n N len ix iy x y h k m : vector_ok n N len ix iy x y h -> ids_below k x -> ids_below k y -> arrays n k m ->
  let hd := fun (c : bool) r => if c then y r else x r in
  let at_c := fun m (c : bool) => content V m (fun r => h_id (hd c r)) d in
  let mt := fun c r => h_meta (hd c r) in
  exists m', all_ranks_end n (fun r => vector_halo_update V neg (n, n) (Z.of_nat r) (x r) (y r) h) m m' /\ arrays n k m' /\
    (forall c r p, (r < ranks n)%nat -> to_fill n N h ix iy (mt c r) r p ->
       exists c' r' p', (r' < ranks n)%nat /\ in_domain (mt c' r') p' /\ same_column (mt c r) (mt c' r') ix iy p p' /\
         place_of n N ix iy (mt c' r') r' p' = place_of n N ix iy (mt c r) r p /\
         ((dir_of n N ix iy c' (mt c' r') r' p' = dir_of n N ix iy c (mt c r) r p /\ at_c m' c r p = at_c m c' r' p') \/
          (dir_of n N ix iy c' (mt c' r') r' p' = vscale (-1) (dir_of n N ix iy c (mt c r) r p) /\ at_c m' c r p = neg (at_c m c' r' p')))) /\
    (forall F, odd_field neg F -> holds_vector n N ix iy mt (fun c r => in_domain (mt c r)) F (at_c m) ->
       holds_vector n N ix iy mt (fun c r => to_fill n N h ix iy (mt c r) r) F (at_c m')) /\
    (forall c r p, (r < ranks n)%nat -> left_alone n N h ix iy (mt c r) r p -> at_c m' c r p = at_c m c r p) /\
    only_changed V n [x; y] m m'.
Proof.
  intros OK IDx IDy A hd at_c mt. destruct (vector_halo_update_effect V neg d n k N len ix iy x y h m OK IDx IDy A) as (m' & E & A' & OC & EF).
  pose proof (EF N len ix iy OK) as FI. cbv zeta in FI. exists m'. repeat (split; [assumption|]).
  destruct OK as (Hn & HN & Hh & XY & sy & sx & ext & FF).
  split; [|split; [|split]]; auto.
  - intros c r p Hr T. destruct (FI c r p Hr) as (X & _). exact (X T).
  - intros F O H. eapply vector_field with (len := len); eauto. intros c r Hr. destruct (FF r Hr) as (F1 & F2). destruct c; [apply (fit_dims F2)|apply (fit_dims F1)].
  - intros c r p Hr LA. destruct (FI c r p Hr) as (_ & X). apply X. destruct (FF r Hr) as (F1 & F2).
    destruct c; eapply fits_left_alone; eauto; lia.
Qed.

Theorem synchronize n N len ix iy x y k m : sync_ok n N len ix iy (fun r => h_meta (x r)) (fun r => h_meta (y r)) ->
  (forall r, (r < ranks n)%nat -> h_id (x r) <> h_id (y r)) -> ids_below k x -> ids_below k y -> arrays n k m ->
  let hd := fun (c : bool) r => if c then y r else x r in
  let at_c := fun m (c : bool) => content V m (fun r => h_id (hd c r)) d in
  let mt := fun c r => h_meta (hd c r) in
  exists m', all_ranks_end n (fun r => synchronize_vector_interfaces V neg (n, n) (Z.of_nat r) (x r) (y r)) m m' /\ arrays n k m' /\
    (forall c r p, (r < ranks n)%nat -> in_edge N ix iy c (mt c r) p ->
     exists c' r' p', (r' < ranks n)%nat /\ out_edge ix iy c' (mt c' r') p' /\ same_column (mt c r) (mt c' r') ix iy p p' /\
       place_of n N ix iy (mt c' r') r' p' = place_of n N ix iy (mt c r) r p /\
       ((dir_of n N ix iy c' (mt c' r') r' p' = dir_of n N ix iy c (mt c r) r p /\ at_c m' c r p = at_c m c' r' p') \/
        (dir_of n N ix iy c' (mt c' r') r' p' = vscale (-1) (dir_of n N ix iy c (mt c r) r p) /\ at_c m' c r p = neg (at_c m c' r' p')))) /\
    (forall F, odd_field neg F -> holds_vector n N ix iy mt (fun c r => out_edge ix iy c (mt c r)) F (at_c m) ->
       holds_vector n N ix iy mt (fun c r => in_edge N ix iy c (mt c r)) F (at_c m')) /\
    (forall c r p, (r < ranks n)%nat -> ~ in_edge N ix iy c (mt c r) p -> at_c m' c r p = at_c m c r p) /\
    only_changed V n [x; y] m m'.
Proof.
  intros OK XY IDx IDy A hd at_c mt. destruct (synchronize_effect V neg d n k N len ix iy x y m OK XY IDx IDy A) as (m' & E & A' & OC & EF).
  pose proof (EF N len ix iy OK) as FI. cbv zeta in FI. exists m'. repeat (split; [assumption|]).
  destruct OK as (Hn & HN & AX & ext & FF).
  split; [|split; [|split]]; auto.
  - intros c r p Hr T. destruct (FI c r p Hr) as (X & _). exact (X T).
  - intros F O H. eapply sync_field with (len := len); eauto. intros c r Hr. destruct (FF r Hr) as (F1 & F2). destruct c; [apply (fit_dims F2)|apply (fit_dims F1)].
  - intros c r p Hr LA. destruct (FI c r p Hr) as (_ & X). apply X. exact LA.
Qed.
End Theorems.

Section More.
Variable V : Type.
Variable neg : V -> V.

Lemma scalar_frame (d : V) n N len ix iy q h k m : halo_ok n N len ix iy q h -> ids_below k q -> arrays n k m ->
  let at_q := fun m => content V m (fun r => h_id (q r)) d in
  exists m', all_ranks_end n (fun r => halo_update V neg (n, n) (Z.of_nat r) (q r) h) m m' /\
    (forall r p, (r < ranks n)%nat -> left_alone n N h ix iy (h_meta (q r)) r p -> at_q m' r p = at_q m r p) /\
    only_changed V n [q] m m'.
Proof. intros A B C. destruct (scalar_update V neg d n N len ix iy q h k m A B C) as (m' & E & _ & _ & _ & F & O). exists m'. auto. Qed.

Lemma vector_frame (d : V) n N len ix iy x y h k m : vector_ok n N len ix iy x y h -> ids_below k x -> ids_below k y -> arrays n k m ->
  let hd := fun (c : bool) r => if c then y r else x r in
  let at_c := fun m (c : bool) => content V m (fun r => h_id (hd c r)) d in
  exists m', all_ranks_end n (fun r => vector_halo_update V neg (n, n) (Z.of_nat r) (x r) (y r) h) m m' /\
    (forall c r p, (r < ranks n)%nat -> left_alone n N h ix iy (h_meta (hd c r)) r p -> at_c m' c r p = at_c m c r p) /\
    only_changed V n [x; y] m m'.
Proof. intros A B C D. destruct (vector_update V neg d n N len ix iy x y h k m A B C D) as (m' & E & _ & _ & _ & F & O). exists m'. auto. Qed.

(** some value exists, as some array does *)
Lemma some_value n k q (m : nat -> mem V) : 1 <= n -> ids_below k q -> arrays n k m -> exists d : V, True.
Proof.
  intros Hn ID A. specialize (ID 0%nat). destruct (m 0%nat) as [|a l] eqn:E.
  - rewrite <- (A 0%nat), E in ID by (unfold ranks; nia). cbn in ID. lia.
  - exists (at_ a []). exact I.
Qed.

Lemma end_total {A} n (call : nat -> eff V A) m m' : all_ranks_end n call m m' -> exists total m', forall bf sched s1,
    run bf sched (start_state (ranks n) (fun r => issued (call r)) m) = Some s1 ->
    (length sched <= total)%nat /\ ((forall r, step bf r s1 = None) -> finished s1 /\ n_mem s1 = tab (ranks n) m').
Proof. intros (total & H). exists total, m'. exact H. Qed.

Lemma scalar_no_deadlock n N len ix iy q h k m : halo_ok n N len ix iy q h -> ids_below k q -> arrays n k m ->
  exists total m', forall bf sched s1,
    run bf sched (start_state (ranks n) (fun r => issued (halo_update V neg (n, n) (Z.of_nat r) (q r) h)) m) = Some s1 ->
    (length sched <= total)%nat /\ ((forall r, step bf r s1 = None) -> finished s1 /\ n_mem s1 = tab (ranks n) m').
Proof.
  intros A B C. destruct (some_value n k q m (proj1 A) B C) as (d & _).
  destruct (scalar_update V neg d n N len ix iy q h k m A B C) as (m' & E & _). eapply end_total; eauto.
Qed.

Lemma vector_no_deadlock n N len ix iy x y h k m : vector_ok n N len ix iy x y h -> ids_below k x -> ids_below k y -> arrays n k m ->
  exists total m', forall bf sched s1,
    run bf sched (start_state (ranks n) (fun r => issued (vector_halo_update V neg (n, n) (Z.of_nat r) (x r) (y r) h)) m) = Some s1 ->
    (length sched <= total)%nat /\ ((forall r, step bf r s1 = None) -> finished s1 /\ n_mem s1 = tab (ranks n) m').
Proof.
  intros A B C D. destruct (some_value n k x m (proj1 A) B D) as (d & _).
  destruct (vector_update V neg d n N len ix iy x y h k m A B C D) as (m' & E & _). eapply end_total; eauto.
Qed.
End More.
