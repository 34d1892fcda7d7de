(** Boundaries are reciprocal, exist except at tile corners, and lead to different ranks (C06-C09). *)
From Verif.Base Require Import Base Lemmas.
From Verif.Model Require Import Consts Partitioner.
From Verif.Spec Require Import Cube.
From Verif.Proofs Require Import Neighbors.
From Coq Require Import ZifyBool.

Definition of_heading (d : Z * Z) : btype :=
  let '(y, x) := d in
  if y =? 0 then (if x <? 0 then WEST else EAST)
  else if 0 <? y then (if x =? 0 then NORTH else if x <? 0 then NORTHWEST else NORTHEAST)
  else (if x =? 0 then SOUTH else if x <? 0 then SOUTHWEST else SOUTHEAST).

Definition opp (d : Z * Z) : Z * Z := (- fst d, - snd d).
Definition back (b : btype) (k : Z) : btype := of_heading (turn (Z.to_nat k) (opp (heading b))).

Ltac crush_in E := repeat first
    [ progress cbn [andb negb] in E
    | match goal with H : context [is_even ?c] |- _ => constr_eq H E;
        let v := eval compute in (is_even c) in change (is_even c) with v in E end
    | match goal with H : context [?a =? ?b] |- _ => constr_eq H E; 
       first [ rewrite (proj2 (Z.eqb_eq a b)) in E by lia | rewrite (proj2 (Z.eqb_neq a b)) in E by lia
             | destruct (Z.eqb_spec a b)] end ].
Ltac crush_goal := repeat first
    [ progress cbn [andb negb]
    | match goal with |- context [is_even ?c] => 
        let v := eval compute in (is_even c) in change (is_even c) with v end
    | match goal with |- context [?a =? ?b] => 
       first [ rewrite (proj2 (Z.eqb_eq a b)) by lia | rewrite (proj2 (Z.eqb_neq a b)) by lia ] end ].

Section S.
Variable n : Z.
Hypothesis Hn : 1 <= n.

Lemma nbr_valid b t J I t' J' I' k : 0 <= J < n -> 0 <= I < n -> nbr n b t J I = Some (t', J', I', k) ->
  0 <= J' < n /\ 0 <= I' < n.
Proof.
  intros HJ HI E. unfold nbr in E.
  assert (S : forall e, Some (step n e t J I) = Some (t', J', I', k) -> 0 <= J' < n /\ 0 <= I' < n).
  { intros e Es. pose proof (step_valid n Hn e t J I HJ HI) as V. injection Es as Es. now rewrite Es in V. }
  assert (T : forall e1 e2, Some (two n e1 e2 t J I) = Some (t', J', I', k) -> 0 <= J' < n /\ 0 <= I' < n).
  { intros e1 e2 Es. pose proof (two_valid n Hn e1 e2 t J I HJ HI) as V. injection Es as Es. now rewrite Es in V. }
  destruct b; try (now apply S in E); destruct (_ && _); try discriminate; now apply T in E.
Qed.

Lemma nbr_back b t J I t' J' I' k : 0 <= t < 6 -> 0 <= J < n -> 0 <= I < n ->
  nbr n b t J I = Some (t', J', I', k) ->
  exists t2 k', nbr n (back b k) (t' mod 6) J' I' = Some (t2, J, I, k') /\ t2 mod 6 = t /\ (k + k') mod 4 = 0 /\
   (k = 0 /\ k' = 0 \/ k = 1 /\ k' = 3 \/ k = 3 /\ k' = 1) /\ (t' mod 6, J', I') <> (t, J, I) /\ heading (back b k) = turn (Z.to_nat k) (opp (heading b)).
Proof.
  intros Ht HJ HI E. pose proof (nbr_valid _ _ _ _ _ _ _ _ HJ HI E) as [HJ' HI'].
  unfold nbr, two, step in E.
  assert (EV : t = 0 \/ t = 1 \/ t = 2 \/ t = 3 \/ t = 4 \/ t = 5) by lia.
  destruct b.
  all: destruct EV as [->|[->|[->|[->|[->| ->]]]]].
  all: crush_in E; try discriminate E; try lia.
  all: match type of E with Some (_, _, _, ?K) = _ => let v := eval compute in K in change K with v in E end.
  all: injection E as <- <- <- <-;
    match goal with |- context [back ?b ?k] => 
      let v := eval compute in (back b k) in change (back b k) with v end;
    match goal with |- context [?c mod 6] =>
      let v := eval compute in (c mod 6) in change (c mod 6) with v end;
    unfold nbr, two, step.
  all: crush_goal.
  all: eexists _, _; (split; [repeat f_equal; lia|]); 
    (split; [reflexivity|]); (split; [reflexivity|]); (split; [lia|]); (split; [intros [=]; lia|reflexivity]).
Qed.

Lemma nbr_distinct b1 b2 t J I t1 J1 I1 k1 t2 J2 I2 k2 : 0 <= t < 6 -> 0 <= J < n -> 0 <= I < n ->
  nbr n b1 t J I = Some (t1, J1, I1, k1) -> nbr n b2 t J I = Some (t2, J2, I2, k2) ->
  t1 mod 6 = t2 mod 6 -> J1 = J2 -> I1 = I2 -> b1 = b2.
Proof.
  intros Ht HJ HI E1 E2 Et EJ EI.
  unfold nbr, two, step in E1, E2.
  assert (EV : t = 0 \/ t = 1 \/ t = 2 \/ t = 3 \/ t = 4 \/ t = 5) by lia.
  destruct b1, b2; try reflexivity; exfalso.
  all: destruct EV as [->|[->|[->|[->|[->| ->]]]]].
  all: crush_in E1; try discriminate E1; try lia; injection E1 as <- <- <- _;
       crush_in E2; try discriminate E2; try lia; injection E2 as <- <- <- _;
       first [discriminate Et | lia].
Qed.

Lemma nbr_none b t J I : 
  nbr n b t J I = None <->
  (fst (heading b) <> 0 /\ snd (heading b) <> 0 /\
   J = (if 0 <? fst (heading b) then n - 1 else 0) /\ I = (if 0 <? snd (heading b) then n - 1 else 0)).
Proof.
  unfold nbr; destruct b; cbn [heading fst snd]; simpl;
   try (split; [discriminate|intros (?&?&?); congruence]);
  match goal with |- context [if ?c then None else _] => destruct c eqn:E end;
  (split; [try discriminate; intros _; lia|try reflexivity; intros; lia]).
Qed.
End S.
