(** Neighbouring subtiles on the surface of the cube (C11; used by C12, C13, C18). *)
From Verif.Base Require Import Base Lemmas.
From Verif.Model Require Import Consts Partitioner.
From Verif.Spec Require Import Cube.
From Verif.Proofs Require Import Neighbors.
From Coq Require Import ZifyBool.

Lemma parity t : 0 <= t < 6 -> t = 0 \/ t = 1 \/ t = 2 \/ t = 3 \/ t = 4 \/ t = 5.
Proof. lia. Qed.

Ltac absplit := repeat match goal with
  | |- context [Z.abs ?u <=? ?m] =>
      first [ replace (Z.abs u <=? m) with true by (symmetry; apply Z.leb_le; lia)
            | replace (Z.abs u <=? m) with false by (symmetry; apply Z.leb_gt; lia) ]
  end.
Ltac sgns := repeat match goal with
  | |- context [Z.sgn ?u] =>
      first [ replace (Z.sgn u) with 1 by lia | replace (Z.sgn u) with (-1) by lia ]
  end;
  repeat match goal with
  | |- context [Z.abs ?u] => first [ replace (Z.abs u) with u by lia | replace (Z.abs u) with (-u) by lia ]
  end.

Lemma some_vec (a b c a' b' c' : Z) : a = a' -> b = b' -> c = c' -> Some (a, b, c) = Some (a', b', c').
Proof. congruence. Qed.
Lemma vec_pair (a b c a' b' c' d e f d' e' f' : Z) : a = a' -> b = b' -> c = c' -> d = d' -> e = e' -> f = f' ->
  ((a, b, c), (d, e, f)) = ((a', b', c'), (d', e', f')).
Proof. congruence. Qed.

Section Geo.
Variable n : Z.
Hypothesis Hn : 1 <= n.

Definition geo_concl (t J I t' J' I' k : Z) (N sy sx y x y' x' : Z) : Prop :=
  let M := n * N in
  let '(sy', sx') := swap_if k (sy, sx) in
  0 <= y' < N + sy' /\ 0 <= x' < N + sx' /\
  surf M t (offset n N sx I x) (offset n N sy J y) <> None /\
  surf M t' (offset n N sx' I' x') (offset n N sy' J' y')
   = surf M t (offset n N sx I x) (offset n N sy J y) /\
  (xdir M t' (offset n N sx' I' x') (offset n N sy' J' y'),
   ydir M t' (offset n N sx' I' x') (offset n N sy' J' y'))
  = unrot_dir k (xdir M t (offset n N sx I x) (offset n N sy J y))
                (ydir M t (offset n N sx I x) (offset n N sy J y)).

Lemma nbr_geom b t J I t' J' I' k N sy sx h y x :
  0 <= t < 6 -> 0 <= J < n -> 0 <= I < n ->
  nbr n b t J I = Some (t', J', I', k) ->
  1 <= N -> 0 <= sy <= 1 -> 0 <= sx <= 1 -> h <= N ->
  in_halo b (N + sy) (N + sx) h y x ->
  (k = 0 \/ k = 1 \/ k = 3) /\
  forall y' x',
  (y', x') = unrot k (N + sy) (N + sx) (y - fst (heading b) * N, x - snd (heading b) * N) ->
  geo_concl t J I (t' mod 6) J' I' k N sy sx y x y' x'.
Proof.
  intros Ht HJ HI E HN Hsy Hsx Hh Hin.
  assert (A1 : 0 <= I * N) by nia. assert (A2 : I * N <= n * N - N) by nia.
  assert (A3 : I = 0 \/ I * N >= N) by nia. assert (A4 : I = n - 1 \/ I * N <= n * N - 2 * N) by nia.
  assert (B1 : 0 <= J * N) by nia. assert (B2 : J * N <= n * N - N) by nia.
  assert (B3 : J = 0 \/ J * N >= N) by nia. assert (B4 : J = n - 1 \/ J * N <= n * N - 2 * N) by nia.
  assert (C1 : n = 1 \/ n * N >= 2 * N) by nia.
  unfold nbr, two, step in E.
  assert (EV : t = 0 \/ t = 1 \/ t = 2 \/ t = 3 \/ t = 4 \/ t = 5) by lia.
  unfold in_halo, heading, side_range in Hin.
  destruct b; cbn [fst snd] in Hin; simpl in Hin.
  all: destruct EV as [->|[->|[->|[->|[->| ->]]]]].
  all: repeat first
    [ progress cbn [andb negb] in E
    | match goal with E : context [is_even ?c] |- _ =>
        let v := eval compute in (is_even c) in change (is_even c) with v in E end
    | match goal with E : context [?a =? ?b] |- _ => destruct (Z.eqb_spec a b) end ];
    try discriminate E; try lia.
  all: match type of E with Some (_, _, _, ?K) = _ => let v := eval compute in K in change K with v in E end.
  all: injection E as <- <- <- <-; cbn [fst snd heading]; (split; [lia|]); intros y' x';
    unfold unrot, geo_concl, swap_if; cbn [Z.eqb fst snd]; intros E2;
    pose proof (f_equal fst E2) as Ey; pose proof (f_equal snd E2) as Ex; cbn [fst snd] in Ey, Ex; subst y' x'; clear E2.
  all: unfold unrot_dir; cbn [Z.eqb Pos.eqb];
    match goal with |- context [surf _ (?c mod 6)] =>
      let v := eval compute in (c mod 6) in change (c mod 6) with v end.
  all: unfold surf, xdir, ydir, offset.
  all: (split; [lia|]); (split; [lia|]).
  all: absplit; cbn [andb].
  all: sgns.
  all: unfold xaxis, yaxis, normal; cbn [Z.eqb Pos.eqb vscale vadd].
  all: split; [discriminate|]; split; [apply some_vec; lia|apply vec_pair; lia].
Qed.
End Geo.

(** cell centres of different (rank, cell) pairs are at different places *)
Lemma place_split n r : 1 <= n -> 0 <= r < 6 * (n * n) ->
  exists t J i, place n r = (t, J, i) /\ 0 <= t < 6 /\ 0 <= J < n /\ 0 <= i < n /\ r = (t * n + J) * n + i.
Proof.
  intros Hn Hr. destruct (rank_split n Hn r Hr) as (t & J & i & Ht & HJ & Hi & ->).
  exists t, J, i. split; [|auto]. unfold place. rewrite rank_div, rank_mod by auto.
  f_equal; [f_equal|].
  - symmetry. apply Z.div_unique_pos with i; lia.
  - unfold rank_of. symmetry. apply Z.mod_unique_pos with (t * n + J); lia.
Qed.

Lemma centre_positions_distinct n N r y x r' y' x' : 1 <= n -> 1 <= N ->
  0 <= r < 6 * (n * n) -> 0 <= r' < 6 * (n * n) ->
  0 <= y < N -> 0 <= x < N -> 0 <= y' < N -> 0 <= x' < N ->
  position n N 0 0 r y x = position n N 0 0 r' y' x' -> r = r' /\ y = y' /\ x = x'.
Proof.
  intros Hn HN Hr Hr' Hy Hx Hy' Hx'. unfold position.
  destruct (place_split n r Hn Hr) as (t & J & i & -> & Ht & HJ & Hi & ->).
  destruct (place_split n r' Hn Hr') as (t' & J' & i' & -> & Ht' & HJ' & Hi' & ->).
  assert (A1 : 0 <= i * N <= n * N - N) by nia. assert (A2 : 0 <= J * N <= n * N - N) by nia.
  assert (B1 : 0 <= i' * N <= n * N - N) by nia. assert (B2 : 0 <= J' * N <= n * N - N) by nia.
  unfold surf, offset. absplit. cbn [andb]. intros E.
  assert (K : t = t' /\ J * N + y = J' * N + y' /\ i * N + x = i' * N + x').
  { clear Hr Hr'. apply parity in Ht, Ht'.
    destruct Ht as [->|[->|[->|[->|[->| ->]]]]]; destruct Ht' as [->|[->|[->|[->|[->| ->]]]]];
    unfold xaxis, yaxis, normal in E; cbn [Z.eqb Pos.eqb vscale vadd] in E;
    match type of E with Some (?a, ?b, ?c) = Some (?a', ?b', ?c') =>
      assert (a = a') by congruence; assert (b = b') by congruence; assert (c = c') by congruence end; clear E; lia. }
  destruct K as (-> & KJ & Ki).
  assert (J = J') by nia. assert (i = i') by nia. subst. split; [auto|]. lia.
Qed.
