From Verif.Base Require Import Base Lemmas.
From Verif.Model Require Import Capture.
From Verif.Spec Require Import Descriptors.

Lemma nth_put l fd f i : nth i (put l fd f) None = if Nat.eqb i fd then f else nth i l None.
Proof.
  unfold put. destruct (Nat.ltb_spec fd (length l)).
  - destruct (Nat.eqb_spec i fd) as [->|N]; [now apply nth_upd_eq|now apply nth_upd_neq].
  - destruct (Nat.lt_ge_cases i (length l)).
    + rewrite app_nth1 by auto. destruct (Nat.eqb_spec i fd); [lia|reflexivity].
    + rewrite app_nth2 by auto. destruct (Nat.lt_ge_cases i fd).
      * rewrite app_nth1 by (rewrite repeat_length; lia). rewrite nth_repeat. destruct (Nat.eqb_spec i fd); [lia|]. now rewrite nth_overflow.
      * rewrite app_nth2 by (rewrite repeat_length; lia). rewrite repeat_length.
        destruct (Nat.eqb_spec i fd) as [->|]. { replace (fd - length l - (fd - length l))%nat with 0%nat by lia. reflexivity. }
        destruct (i - length l - (fd - length l))%nat as [|k] eqn:E; [lia|]. cbn. rewrite (nth_overflow l) by auto. now destruct k.
Qed.
Lemma lowest_free l : nth (lowest l) l None = None.
Proof. induction l as [|[x|] l IH]; cbn; auto. Qed.
Lemma file_put s fd f fs i : file_of (mkOs (put (fds s) fd f) fs) i = if Nat.eqb i fd then f else file_of s i.
Proof. unfold file_of. cbn. apply nth_put. Qed.

(** the number of open descriptors *)
Definition opens (l : list (option nat)) : nat := length (filter (fun f => match f with Some _ => true | None => false end) l).
Definition bit (f : option nat) : nat := match f with Some _ => 1 | None => 0 end.
Lemma opens_app l l' : opens (l ++ l') = (opens l + opens l')%nat.
Proof. unfold opens. now rewrite filter_app, app_length. Qed.
Lemma opens_repeat n : opens (repeat None n) = O.
Proof. induction n; cbn; auto. Qed.
Lemma opens_put l fd f : (opens (put l fd f) + bit (nth fd l None) = opens l + bit f)%nat.
Proof.
  unfold put. destruct (Nat.ltb_spec fd (length l)).
  - revert fd H. induction l as [|x l IH]; intros [|fd] H; cbn in H; try lia.
    + cbn [upd nth]. unfold opens. cbn. destruct x, f; cbn; lia.
    + cbn [upd nth]. assert (fd < length l)%nat as H' by lia. specialize (IH fd H'). unfold opens in *. cbn. destruct x; cbn; lia.
  - rewrite !opens_app, opens_repeat, (nth_overflow l) by auto. unfold opens at 2. destruct f; cbn; lia.
Qed.
Lemma opens_nth l : forall l', (forall i, nth i l None = nth i l' None) -> opens l = opens l'.
Proof.
  induction l as [|x l IH]; intros l' H.
  - cbn. induction l' as [|y l' IH']; auto. assert (y = None) as -> by (symmetry; exact (H O)). unfold opens in *. cbn. apply IH'. intros i. specialize (H (S i)). cbn in H. rewrite <- H. now destruct i.
  - destruct l' as [|y l'].
    + assert (x = None) as -> by exact (H O). unfold opens in *. cbn. change 0%nat with (opens []). apply IH. intros i. specialize (H (S i)). cbn in *. rewrite H. now destruct i.
    + assert (x = y) as -> by exact (H O). assert (opens l = opens l') as E by (apply IH; intros i; exact (H (S i))). unfold opens in *. cbn. destruct y; cbn; congruence.
Qed.

Section CaptureProofs.
Variable A : Type.

(** the descriptors inside the body *)
Definition inside (fd : nat) (s : os) : os :=
  let orig := lowest (fds s) in
  let s1 := mkOs (put (fds s) orig (file_of s fd)) (files s) in
  let out := lowest (fds s1) in
  mkOs (put (put (fds s1) out (Some (length (files s)))) fd (Some (length (files s)))) (files s ++ [[]]).

Lemma capture_inside fd (body : os -> os * res A) s : is_open s fd -> exists orig out, orig <> fd /\ out <> fd /\ out <> orig /\ ~ is_open s orig /\ ~ is_open s out /\
  (forall i, file_of (inside fd s) i = if Nat.eqb i fd then Some (length (files s)) else if Nat.eqb i out then Some (length (files s)) else if Nat.eqb i orig then file_of s fd else file_of s i) /\
  capture fd body s = match body (inside fd s) with
    | (s4, Err e) => (close s4 out, Err e)
    | (s4, Ok a) => match dup2 s4 orig fd with
                    | Err e => (close s4 out, Err e)
                    | Ok s5 => (close s5 out, Ok (a, match file_of s5 out with Some f => nth f (files s5) [] | None => [] end))
                    end
    end.
Proof.
  intros O. unfold is_open in O. destruct (file_of s fd) as [f|] eqn:E; [|congruence].
  set (orig := lowest (fds s)). set (s1 := mkOs (put (fds s) orig (Some f)) (files s)). set (out := lowest (fds s1)).
  assert (Fo : file_of s orig = None) by apply lowest_free.
  assert (Fu : file_of s1 out = None) by apply lowest_free.
  assert (G1 : forall i, file_of s1 i = if Nat.eqb i orig then Some f else file_of s i) by (intros i; apply file_put).
  assert (N1 : orig <> fd) by congruence.
  assert (N2 : out <> orig) by (intros X; rewrite X, G1, Nat.eqb_refl in Fu; discriminate).
  assert (Fu' : file_of s out = None) by (rewrite G1 in Fu; destruct (Nat.eqb_spec out orig); [congruence|auto]).
  assert (N3 : out <> fd) by congruence.
  exists orig, out. split; [exact N1|]. split; [exact N3|]. split; [exact N2|]. split; [unfold is_open; congruence|]. split; [unfold is_open; congruence|]. split.
  - intros i. unfold inside. rewrite E. fold orig. fold s1. fold out.
    change (put (put (fds s1) out (Some (length (files s)))) fd (Some (length (files s)))) with (put (fds (mkOs (put (fds s1) out (Some (length (files s)))) (files s ++ [[]]))) fd (Some (length (files s)))).
    rewrite !file_put, G1. reflexivity.
  - unfold capture, dup. rewrite E. fold orig. fold s1. unfold open_temp. fold out. unfold dup2 at 1. rewrite file_put, Nat.eqb_refl. cbn [fds files].
    unfold inside. rewrite E. fold orig. fold s1. fold out. cbn [files]. reflexivity.
Qed.

Theorem capture_returns fd (body : os -> os * res A) s s4 a : is_open s fd -> keeps_descriptors body -> body (inside fd s) = (s4, Ok a) ->
  exists s', capture fd body s = (s', Ok (a, nth (length (files s)) (files s4) [])) /\ files s' = files s4 /\
    (exists orig, ~ is_open s orig /\ file_of s' orig = file_of s fd /\ forall i, i <> orig -> file_of s' i = file_of s i) /\
    open_count s' = S (open_count s).
Proof.
  intros O K B. destruct (capture_inside fd body s O) as (orig & out & N1 & N2 & N3 & C1 & C2 & G & ->). rewrite B.
  assert (K4 : forall i, file_of s4 i = file_of (inside fd s) i) by (intros i; specialize (K (inside fd s) i); now rewrite B in K).
  assert (Eo : file_of s4 orig = file_of s fd). { rewrite K4, G. destruct (Nat.eqb_spec orig fd); [congruence|]. destruct (Nat.eqb_spec orig out); [congruence|]. now rewrite Nat.eqb_refl. }
  assert (Eu : file_of s4 out = Some (length (files s))). { rewrite K4, G. destruct (Nat.eqb_spec out fd); [congruence|]. now rewrite Nat.eqb_refl. }
  unfold dup2. rewrite Eo. unfold is_open in O. destruct (file_of s fd) as [f|] eqn:E; [|congruence].
  set (s5 := mkOs (put (fds s4) fd (Some f)) (files s4)).
  assert (G5 : forall i, file_of s5 i = if Nat.eqb i fd then Some f else file_of s4 i) by (intros i; apply file_put).
  assert (Eu5 : file_of s5 out = Some (length (files s))) by (rewrite G5; destruct (Nat.eqb_spec out fd); [congruence|auto]). rewrite Eu5.
  exists (close s5 out). split; [reflexivity|]. split; [reflexivity|].
  assert (G6 : forall i, file_of (close s5 out) i = if Nat.eqb i orig then Some f else file_of s i).
  { intros i. unfold close. rewrite file_put, G5, K4, G. unfold is_open in C1, C2.
    destruct (Nat.eqb_spec i out) as [->|]; [destruct (Nat.eqb_spec out orig); [congruence|]; destruct (file_of s out); [|reflexivity]; exfalso; apply C2; discriminate|].
    destruct (Nat.eqb_spec i fd) as [->|]; [destruct (Nat.eqb_spec fd orig); congruence|]. destruct (Nat.eqb_spec i orig); auto. }
  split. { exists orig. split; auto. split; [rewrite G6, Nat.eqb_refl; auto|]. intros i Hi. rewrite G6. destruct (Nat.eqb_spec i orig); [congruence|auto]. }
  unfold open_count. fold (opens (fds (close s5 out))). fold (opens (fds s)).
  rewrite (opens_nth (fds (close s5 out)) (put (fds s) orig (Some f))). 2: { intros i. fold (file_of (close s5 out) i). rewrite G6, nth_put. reflexivity. }
  pose proof (opens_put (fds s) orig (Some f)) as P. fold (file_of s orig) in P. unfold is_open in C1. destruct (file_of s orig); [exfalso; apply C1; discriminate|]. cbn in P. lia.
Qed.

Theorem capture_raises fd (body : os -> os * res A) s s4 e : is_open s fd -> keeps_descriptors body -> body (inside fd s) = (s4, Err e) ->
  exists s', capture fd body s = (s', Err e) /\ files s' = files s4 /\ file_of s' fd = Some (length (files s)) /\
    exists orig, ~ is_open s orig /\ file_of s' orig = file_of s fd /\ forall i, i <> orig -> i <> fd -> file_of s' i = file_of s i.
Proof.
  intros O K B. destruct (capture_inside fd body s O) as (orig & out & N1 & N2 & N3 & C1 & C2 & G & ->). rewrite B.
  assert (K4 : forall i, file_of s4 i = file_of (inside fd s) i) by (intros i; specialize (K (inside fd s) i); now rewrite B in K).
  exists (close s4 out). split; [reflexivity|]. split; [reflexivity|].
  assert (G6 : forall i, file_of (close s4 out) i = if Nat.eqb i fd then Some (length (files s)) else if Nat.eqb i orig then file_of s fd else file_of s i).
  { intros i. unfold close. rewrite file_put, K4, G. destruct (Nat.eqb_spec i out) as [->|]; auto.
    destruct (Nat.eqb_spec out fd); [congruence|]. destruct (Nat.eqb_spec out orig); [congruence|]. unfold is_open in C2. destruct (file_of s out); [exfalso; apply C2; discriminate|reflexivity]. }
  split; [now rewrite G6, Nat.eqb_refl|]. exists orig. split; auto. rewrite G6, Nat.eqb_refl. split; [destruct (Nat.eqb_spec orig fd); [congruence|auto]|].
  intros i H1 H2. rewrite G6. destruct (Nat.eqb_spec i fd); [congruence|]. destruct (Nat.eqb_spec i orig); [congruence|auto].
Qed.

Lemma write_fds s fd d : fds (write s fd d) = fds s.
Proof. unfold write. now destruct (file_of s fd). Qed.
Lemma writing_keeps fd pieces (r : res A) : keeps_descriptors (writing fd pieces r).
Proof.
  intros s i. unfold writing. cbn [fst]. revert s. induction pieces as [|d pieces IH]; intros s; cbn [fold_left]; auto. rewrite IH. unfold file_of. now rewrite write_fds.
Qed.
Lemma writing_file fd pieces : forall s f, file_of s fd = Some f -> (f < length (files s))%nat ->
  let s' := fold_left (fun s d => write s fd d) pieces s in
  nth f (files s') [] = nth f (files s) [] ++ concat pieces /\ (forall g, g <> f -> nth g (files s') [] = nth g (files s) []) /\ length (files s') = length (files s).
Proof.
  induction pieces as [|d pieces IH]; intros s f H L; cbn [fold_left concat]; [now rewrite app_nil_r|].
  assert (E : write s fd d = mkOs (fds s) (upd (files s) f (nth f (files s) [] ++ d))) by (unfold write; now rewrite H).
  destruct (IH (write s fd d) f) as (A1 & A2 & A3). { unfold file_of. now rewrite write_fds. } { rewrite E. cbn. now rewrite length_upd. }
  split; [|split].
  - rewrite A1, E. cbn [files]. rewrite nth_upd_eq by auto. now rewrite <- app_assoc.
  - intros g N. rewrite A2, E by auto. cbn [files]. now apply nth_upd_neq.
  - rewrite A3, E. cbn [files]. apply length_upd.
Qed.

(** C49 *)
Theorem capture_output fd pieces s (a : A) : is_open s fd ->
  exists s', capture fd (writing fd pieces (Ok a)) s = (s', Ok (a, concat pieces)) /\
    (forall i, is_open s i -> file_of s' i = file_of s i) /\
    (forall f, (f < length (files s))%nat -> nth f (files s') [] = nth f (files s) []) /\
    open_count s' = S (open_count s).
Proof.
  intros O. set (s4 := fst (writing fd pieces (Ok a) (inside fd s))).
  assert (B : writing fd pieces (Ok a) (inside fd s) = (s4, Ok a)) by reflexivity.
  destruct (capture_returns fd _ s s4 a O (writing_keeps fd pieces (Ok a)) B) as (s' & E & F & (orig & C & _ & G) & N).
  destruct (capture_inside fd (writing fd pieces (Ok a)) s O) as (orig1 & out1 & _ & _ & _ & _ & _ & I & _).
  assert (Fi : file_of (inside fd s) fd = Some (length (files s))) by (rewrite I, Nat.eqb_refl; reflexivity).
  assert (Fl : files (inside fd s) = files s ++ [[]]) by reflexivity.
  destruct (writing_file fd pieces (inside fd s) (length (files s)) Fi) as (A1 & A2 & _). { rewrite Fl, app_length. cbn. lia. }
  assert (D : nth (length (files s)) (files s4) [] = concat pieces). { unfold s4, writing. cbn [fst]. rewrite A1, Fl, app_nth2, Nat.sub_diag by auto. reflexivity. }
  exists s'. rewrite <- D. split; auto. split. { intros i Oi. apply G. intros ->. contradiction. } split; auto.
  intros f Hf. rewrite F. unfold s4, writing. cbn [fst]. rewrite A2 by lia. rewrite Fl, app_nth1 by auto. reflexivity.
Qed.

(** each use leaves one more descriptor open *)
Theorem capture_leaks fd (bodies : list (os -> os * res A)) : forall s, is_open s fd -> Forall keeps_descriptors bodies -> Forall (fun b => forall s, exists s' a, b s = (s', Ok a)) bodies ->
  open_count (uses fd bodies s) = (length bodies + open_count s)%nat /\ file_of (uses fd bodies s) fd = file_of s fd.
Proof.
  induction bodies as [|b bodies IH]; intros s O K R; cbn [uses length]; auto. inversion K as [|? ? K1 K2]; inversion R as [|? ? R1 R2]; subst.
  destruct (R1 (inside fd s)) as (s4 & a & B). destruct (capture_returns fd b s s4 a O K1 B) as (s' & E & _ & (orig & C & _ & G) & N). rewrite E. cbn [fst].
  assert (Fd : file_of s' fd = file_of s fd) by (apply G; intros ->; contradiction).
  destruct (IH s') as (X & Y); auto. { unfold is_open in *. now rewrite Fd. } rewrite X, N, Y. split; [lia|auto].
Qed.

Theorem capture_exception fd (body : os -> os * res A) s e : is_open s fd -> keeps_descriptors body -> (forall s, snd (body s) = Err e) ->
  exists s', capture fd body s = (s', Err e) /\ file_of s' fd = Some (length (files s)) /\
    exists orig, ~ is_open s orig /\ file_of s' orig = file_of s fd /\ forall i, i <> orig -> i <> fd -> file_of s' i = file_of s i.
Proof.
  intros O K R. specialize (R (inside fd s)). destruct (body (inside fd s)) as [s4 r] eqn:B. cbn in R. subst r.
  destruct (capture_raises fd body s s4 e O K B) as (s' & E & _ & F & X). exists s'. auto.
Qed.
Theorem capture_closed fd (body : os -> os * res A) s : ~ is_open s fd -> capture fd body s = (s, Err OSError).
Proof. intros N. unfold capture, dup. unfold is_open in N. destruct (file_of s fd); [exfalso; apply N; discriminate|reflexivity]. Qed.

(** a body which closes the descriptors it found open beside those of the program, the saved stream among them *)
Theorem capture_closed_inside fd (body : os -> os * res A) s a : is_open s fd ->
  (forall s1, snd (body s1) = Ok a /\ file_of (fst (body s1)) fd = file_of s1 fd /\ forall i, ~ is_open s i -> file_of (fst (body s1)) i = None) ->
  exists s', capture fd body s = (s', Err OSError) /\ file_of s' fd = Some (length (files s)).
Proof.
  intros O H. destruct (capture_inside fd body s O) as (orig & out & N1 & N2 & N3 & C1 & C2 & G & ->).
  destruct (H (inside fd s)) as (R & F & C). destruct (body (inside fd s)) as [s4 r]. cbn [fst snd] in R, F, C. subst r.
  unfold dup2. rewrite (C orig C1). eexists. split; [reflexivity|]. unfold close. rewrite file_put. destruct (Nat.eqb_spec fd out); [congruence|].
  now rewrite F, G, Nat.eqb_refl.
Qed.
End CaptureProofs.
