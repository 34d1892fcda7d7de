(** Where ranks go when a tile is flipped, transposed or rotated (C71). *)
From Verif.Base Require Import Base Lemmas.
From Verif.Model Require Import Consts Partitioner.
From Verif.Proofs Require Import Neighbors.
From Coq Require Import ZifyBool.

Lemma forallb_single {A} (f : A -> bool) l x : (forall y, In y l <-> y = x) -> forallb f l = f x.
Proof.
  intros I. destruct (f x) eqn:E.
  - apply forallb_forall. intros y Hy. apply I in Hy. now subst.
  - destruct (forallb f l) eqn:F; auto. rewrite forallb_forall in F. rewrite F in E by now apply I. discriminate.
Qed.

Lemma first_match_outside layout h w m rank r0 c0 : 0 <= r0 < h -> 0 <= c0 < w -> ~ (r0 < fst layout /\ c0 < snd layout) ->
  (forall r c, 0 <= r < h -> 0 <= c < w -> (m r c = rank <-> r = r0 /\ c = c0)) ->
  first_match layout h w m rank = Err IndexError.
Proof.
  intros Hr Hc O U. unfold first_match. rewrite (forallb_single _ _ (r0, c0)).
  - cbn [fst snd]. destruct ((r0 <? fst layout) && (c0 <? snd layout)) eqn:E; auto. exfalso. apply O. lia.
  - intros [r c]. rewrite filter_In, in_cells. cbn [fst snd]. split.
    + intros [[A B] C]. apply Z.eqb_eq in C. apply U in C; auto. destruct C; congruence.
    + intros [= -> ->]. split; [auto|]. apply Z.eqb_eq. apply U; auto.
Qed.

Lemma first_match_none layout h w m rank : (forall r c, 0 <= r < h -> 0 <= c < w -> m r c <> rank) ->
  first_match layout h w m rank = Err IndexError.
Proof.
  intros N. unfold first_match.
  assert (E : filter (fun rc => m (fst rc) (snd rc) =? rank) (cells h w) = []).
  { set (l := filter _ _). assert (I : forall x, ~ In x l).
    { intros [r c]. unfold l. rewrite filter_In, in_cells. cbn [fst snd]. intros [[A B] C]. apply Z.eqb_eq in C. now apply (N r c). }
    destruct l as [|x l]; auto. exfalso. apply (I x). now left. }
  now rewrite E.
Qed.

Lemma place_unique w J I J' I' : 0 <= I < w -> 0 <= I' < w -> J * w + I = J' * w + I' -> J = J' /\ I = I'.
Proof. intros. assert (J = J') by nia. subst. lia. Qed.

Section Layout.
Variables h w J I : Z.
Hypothesis HJ : 0 <= J < h.
Hypothesis HI : 0 <= I < w.

Lemma flips : fliplr_subtile_rank (J * w + I) (h, w) = Ok (J * w + (w - 1 - I)) /\ flipud_subtile_rank (J * w + I) (h, w) = Ok ((h - 1 - J) * w + I).
Proof.
  unfold fliplr_subtile_rank, flipud_subtile_rank. cbn [fst snd]. split.
  - apply first_match_unique; cbn [fst snd]; try lia. intros r c Hr Hc. unfold rank_array. cbn [snd]. split.
    + intros E. apply place_unique in E; lia.
    + intros [-> ->]. f_equal. lia.
  - apply first_match_unique; cbn [fst snd]; try lia. intros r c Hr Hc. unfold rank_array. cbn [snd]. split.
    + intros E. apply place_unique in E; lia.
    + intros [-> ->]. f_equal. f_equal. lia.
Qed.

Lemma turns :
  transpose_subtile_rank (J * w + I) (h, w) = (if (I <? h) && (J <? w) then Ok (I * w + J) else Err IndexError) /\
  rotate_subtile_rank (J * w + I) (h, w) 1 = (if (w - 1 - I <? h) && (J <? w) then Ok ((w - 1 - I) * w + J) else Err IndexError).
Proof.
  unfold transpose_subtile_rank, rotate_subtile_rank. change (1 =? 0) with false. change (1 =? 1) with true. cbn [fst snd]. split.
  - assert (U : forall r c, 0 <= r < w -> 0 <= c < h -> (rank_array (h, w) c r = J * w + I <-> r = I /\ c = J)).
    { intros r c Hr Hc. unfold rank_array. cbn [snd]. split; [|intros [-> ->]; lia]. intros E. apply place_unique in E; lia. }
    destruct ((I <? h) && (J <? w)) eqn:E.
    + rewrite (first_match_unique _ _ _ _ _ I J); cbn [fst snd]; try lia; auto.
    + apply first_match_outside with I J; cbn [fst snd]; try lia; auto.
  - assert (U : forall r c, 0 <= r < w -> 0 <= c < h -> (rank_array (h, w) c (w - 1 - r) = J * w + I <-> r = w - 1 - I /\ c = J)).
    { intros r c Hr Hc. unfold rank_array. cbn [snd]. split; [|intros [-> ->]; lia]. intros E. apply place_unique in E; lia. }
    destruct ((w - 1 - I <? h) && (J <? w)) eqn:E.
    + rewrite (first_match_unique _ _ _ _ _ (w - 1 - I) J); cbn [fst snd]; try lia; auto.
    + apply first_match_outside with (w - 1 - I) J; cbn [fst snd]; try lia; auto.
Qed.
End Layout.

Lemma outside h w rank : ~ 0 <= rank < h * w ->
  fliplr_subtile_rank rank (h, w) = Err IndexError /\ flipud_subtile_rank rank (h, w) = Err IndexError /\
  transpose_subtile_rank rank (h, w) = Err IndexError /\ rotate_subtile_rank rank (h, w) 1 = Err IndexError.
Proof.
  intros O. unfold fliplr_subtile_rank, flipud_subtile_rank, transpose_subtile_rank, rotate_subtile_rank.
  change (1 =? 0) with false. change (1 =? 1) with true. cbn [fst snd].
  repeat split; apply first_match_none; intros r c Hr Hc; unfold rank_array; cbn [snd]; intros E; apply O; nia.
Qed.

Lemma other_turns rank layout n : rotate_subtile_rank rank layout 0 = Ok rank /\ (n <> 0 -> n <> 1 -> rotate_subtile_rank rank layout n = Err NotImplementedError).
Proof.
  split; [reflexivity|]. intros A B. unfold rotate_subtile_rank. now rewrite (proj2 (Z.eqb_neq _ _) A), (proj2 (Z.eqb_neq _ _) B).
Qed.

Lemma place_of n rank : 1 <= n -> 0 <= rank < n * n -> exists J I, 0 <= J < n /\ 0 <= I < n /\ rank = J * n + I.
Proof.
  intros P R. exists (rank / n), (rank mod n). pose proof (Z.mod_pos_bound rank n ltac:(lia)). pose proof (Z.div_mod rank n ltac:(lia)).
  split; [|split; [auto|lia]]. split; [apply Z.div_pos; lia|]. apply Z.div_lt_upper_bound; lia.
Qed.

Section Square.
Variable n : Z.
Hypothesis Hn : 1 <= n.
Lemma rotate_sq J I : 0 <= J < n -> 0 <= I < n -> rotate_subtile_rank (J * n + I) (n, n) 1 = Ok ((n - 1 - I) * n + J).
Proof. intros A B. rewrite (proj2 (turns n n J I A B)). destruct (_ && _) eqn:E; auto. lia. Qed.
Lemma transpose_sq J I : 0 <= J < n -> 0 <= I < n -> transpose_subtile_rank (J * n + I) (n, n) = Ok (I * n + J).
Proof. intros A B. rewrite (proj1 (turns n n J I A B)). destruct (_ && _) eqn:E; auto. lia. Qed.

Lemma four_turns rank : 0 <= rank < n * n -> exists r1 r2 r3, rotate_subtile_rank rank (n, n) 1 = Ok r1 /\ rotate_subtile_rank r1 (n, n) 1 = Ok r2 /\
  rotate_subtile_rank r2 (n, n) 1 = Ok r3 /\ rotate_subtile_rank r3 (n, n) 1 = Ok rank.
Proof.
  intros R. destruct (place_of n rank Hn R) as (J & I & HJ & HI & ->).
  exists ((n - 1 - I) * n + J), ((n - 1 - J) * n + (n - 1 - I)), (I * n + (n - 1 - J)).
  split; [now apply rotate_sq|]. split; [apply rotate_sq; lia|]. split; rewrite rotate_sq by lia; do 2 f_equal; lia.
Qed.

Lemma reflections rank : 0 <= rank < n * n -> exists l u t r, fliplr_subtile_rank rank (n, n) = Ok l /\ fliplr_subtile_rank l (n, n) = Ok rank /\
  flipud_subtile_rank rank (n, n) = Ok u /\ flipud_subtile_rank u (n, n) = Ok rank /\
  transpose_subtile_rank rank (n, n) = Ok t /\ transpose_subtile_rank t (n, n) = Ok rank /\
  rotate_subtile_rank rank (n, n) 1 = Ok r /\ flipud_subtile_rank t (n, n) = Ok r /\ transpose_subtile_rank l (n, n) = Ok r.
Proof.
  intros R. destruct (place_of n rank Hn R) as (J & I & HJ & HI & ->).
  exists (J * n + (n - 1 - I)), ((n - 1 - J) * n + I), (I * n + J), ((n - 1 - I) * n + J).
  split; [now apply flips|]. split; [rewrite (proj1 (flips n n J (n - 1 - I) HJ ltac:(lia))); do 2 f_equal; lia|].
  split; [now apply flips|]. split; [rewrite (proj2 (flips n n (n - 1 - J) I ltac:(lia) HI)); do 3 f_equal; lia|].
  split; [now apply transpose_sq|]. split; [now apply transpose_sq|]. split; [now apply rotate_sq|]. split; [now apply flips|].
  apply transpose_sq; lia.
Qed.

(** the neighbour on the right goes below, that above to the right *)
Lemma clockwise J I : 0 <= J < n -> 0 <= I < n -> exists r, rotate_subtile_rank (J * n + I) (n, n) 1 = Ok r /\
  (I + 1 < n -> rotate_subtile_rank (J * n + I + 1) (n, n) 1 = Ok (r - n)) /\
  (J + 1 < n -> rotate_subtile_rank (J * n + I + n) (n, n) 1 = Ok (r + 1)).
Proof.
  intros HJ HI. exists ((n - 1 - I) * n + J). split; [now apply rotate_sq|]. split; intros B.
  - replace (J * n + I + 1) with (J * n + (I + 1)) by ring. rewrite rotate_sq by lia. f_equal. ring.
  - replace (J * n + I + n) with ((J + 1) * n + I) by ring. rewrite rotate_sq by lia. f_equal. ring.
Qed.
End Square.

Lemma only_square h w : 1 <= h -> 1 <= w -> h <> w -> exists r r', 0 <= r < h * w /\ 0 <= r' < h * w /\
  rotate_subtile_rank r (h, w) 1 = Err IndexError /\ transpose_subtile_rank r' (h, w) = Err IndexError.
Proof.
  intros Hh Hw N. destruct (Z.lt_ge_cases h w) as [L|G].
  - exists (0 * w + 0), (0 * w + (w - 1)). split; [nia|]. split; [nia|].
    rewrite (proj2 (turns h w 0 0 ltac:(lia) ltac:(lia))), (proj1 (turns h w 0 (w - 1) ltac:(lia) ltac:(lia))).
    split; destruct (_ && _) eqn:E; auto; lia.
  - exists ((h - 1) * w + 0), ((h - 1) * w + 0). split; [nia|]. split; [nia|].
    destruct (turns h w (h - 1) 0 ltac:(lia) ltac:(lia)) as [-> ->].
    split; destruct (_ && _) eqn:E; auto; lia.
Qed.
