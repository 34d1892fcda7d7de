(** Shared edges of neighbouring subtiles (C18). *)
From Verif.Base Require Import Base Lemmas.
From Verif.Model Require Import Consts Partitioner.
From Verif.Spec Require Import Cube.
From Verif.Proofs Require Import Neighbors Geometry Boundaries.
From Coq Require Import ZifyBool.
Ltac Zify.zify_post_hook ::= idtac.

Section Edge.
Variable n : Z.
Hypothesis Hn : 1 <= n.

Ltac edge_solve E :=
  repeat first
    [ progress cbn [andb negb] in E
    | match goal with E : context [is_even ?c] |- _ =>
        let v := eval compute in (is_even c) in change (is_even c) with v in E end
    | match goal with E : context [?a =? ?b] |- _ => destruct (Z.eqb_spec a b) end ];
    try discriminate E; try lia.

Lemma north_edge t J I t' J' I' k N x :
  0 <= t < 6 -> 0 <= J < n -> 0 <= I < n -> nbr n NORTH t J I = Some (t', J', I', k) -> 1 <= N -> 0 <= x < N ->
  (k = 0 /\
   surf (n * N) (t' mod 6) (offset n N 0 I' x) (offset n N 1 J' 0) = surf (n * N) t (offset n N 0 I x) (offset n N 1 J N) /\
   xdir (n * N) (t' mod 6) (offset n N 0 I' x) (offset n N 1 J' 0) = xdir (n * N) t (offset n N 0 I x) (offset n N 1 J N)) \/
  (k = 3 /\
   surf (n * N) (t' mod 6) (offset n N 1 I' 0) (offset n N 0 J' (N - 1 - x)) = surf (n * N) t (offset n N 0 I x) (offset n N 1 J N) /\
   ydir (n * N) (t' mod 6) (offset n N 1 I' 0) (offset n N 0 J' (N - 1 - x)) = vscale (-1) (xdir (n * N) t (offset n N 0 I x) (offset n N 1 J N))).
Proof.
  intros Ht HJ HI E HN Hx.
  assert (A1 : 0 <= I * N) by nia. assert (A2 : I * N <= n * N - N) by nia.
  assert (A3 : I = 0 \/ I * N >= N) by nia. assert (A4 : I = n - 1 \/ I * N <= n * N - 2 * N) by nia.
  assert (B1 : 0 <= J * N) by nia. assert (B2 : J * N <= n * N - N) by nia.
  assert (B3 : J = 0 \/ J * N >= N) by nia. assert (B4 : J = n - 1 \/ J * N <= n * N - 2 * N) by nia.
  assert (C1 : n = 1 \/ n * N >= 2 * N) by nia.
  unfold nbr, step in E.
  assert (EV : t = 0 \/ t = 1 \/ t = 2 \/ t = 3 \/ t = 4 \/ t = 5) by lia.
  destruct EV as [->|[->|[->|[->|[->| ->]]]]]; edge_solve E.
  all: injection E as <- <- <- <-;
    match goal with |- context [surf _ (?c mod 6)] => let v := eval compute in (c mod 6) in change (c mod 6) with v end.
  all: first [left; split; [reflexivity|] | right; split; [reflexivity|]]; unfold surf, xdir, ydir, offset; absplit; cbn [andb]; sgns;
    unfold xaxis, yaxis, normal; cbn [Z.eqb Pos.eqb vscale vadd]; (split; [apply some_vec; lia|try reflexivity]).
Qed.

Lemma east_edge t J I t' J' I' k N y :
  0 <= t < 6 -> 0 <= J < n -> 0 <= I < n -> nbr n EAST t J I = Some (t', J', I', k) -> 1 <= N -> 0 <= y < N ->
  (k = 0 /\
   surf (n * N) (t' mod 6) (offset n N 1 I' 0) (offset n N 0 J' y) = surf (n * N) t (offset n N 1 I N) (offset n N 0 J y) /\
   ydir (n * N) (t' mod 6) (offset n N 1 I' 0) (offset n N 0 J' y) = ydir (n * N) t (offset n N 1 I N) (offset n N 0 J y)) \/
  (k = 1 /\
   surf (n * N) (t' mod 6) (offset n N 0 I' (N - 1 - y)) (offset n N 1 J' 0) = surf (n * N) t (offset n N 1 I N) (offset n N 0 J y) /\
   xdir (n * N) (t' mod 6) (offset n N 0 I' (N - 1 - y)) (offset n N 1 J' 0) = vscale (-1) (ydir (n * N) t (offset n N 1 I N) (offset n N 0 J y))).
Proof.
  intros Ht HJ HI E HN Hx.
  assert (A1 : 0 <= I * N) by nia. assert (A2 : I * N <= n * N - N) by nia.
  assert (A3 : I = 0 \/ I * N >= N) by nia. assert (A4 : I = n - 1 \/ I * N <= n * N - 2 * N) by nia.
  assert (B1 : 0 <= J * N) by nia. assert (B2 : J * N <= n * N - N) by nia.
  assert (B3 : J = 0 \/ J * N >= N) by nia. assert (B4 : J = n - 1 \/ J * N <= n * N - 2 * N) by nia.
  assert (C1 : n = 1 \/ n * N >= 2 * N) by nia.
  unfold nbr, step in E.
  assert (EV : t = 0 \/ t = 1 \/ t = 2 \/ t = 3 \/ t = 4 \/ t = 5) by lia.
  destruct EV as [->|[->|[->|[->|[->| ->]]]]]; edge_solve E.
  all: injection E as <- <- <- <-;
    match goal with |- context [surf _ (?c mod 6)] => let v := eval compute in (c mod 6) in change (c mod 6) with v end.
  all: first [left; split; [reflexivity|] | right; split; [reflexivity|]]; unfold surf, xdir, ydir, offset; absplit; cbn [andb]; sgns;
    unfold xaxis, yaxis, normal; cbn [Z.eqb Pos.eqb vscale vadd]; (split; [apply some_vec; lia|try reflexivity]).
Qed.

(** along coordinate and fixed coordinate as a point (y, x): c = false, fixed y; c = true, fixed x *)
Definition edge_y (c : bool) (f a : Z) : Z := if c then a else f.
Definition edge_x (c : bool) (f a : Z) : Z := if c then f else a.
Definition edge_sy (c : bool) : Z := if c then 0 else 1.
Definition edge_sx (c : bool) : Z := if c then 1 else 0.
Definition edge_dir (N : Z) (c : bool) (r f a : Z) : vec :=
  if c then y_direction n N (edge_sy c) (edge_sx c) r (edge_y c f a) (edge_x c f a)
  else x_direction n N (edge_sy c) (edge_sx c) r (edge_y c f a) (edge_x c f a).
Definition edge_pos (N : Z) (c : bool) (r f a : Z) : option vec :=
  position n N (edge_sy c) (edge_sx c) r (edge_y c f a) (edge_x c f a).

Lemma edge_geometry (c : bool) r B N a : 0 <= r < 6 * (n * n) ->
  cs_boundary (n, n) (if c then EAST else NORTH) r = Ok (Some B) -> 1 <= N -> 0 <= a < N ->
  b_rot B = 0 /\ edge_pos N c (b_to B) 0 a = edge_pos N c r N a /\ edge_dir N c (b_to B) 0 a = edge_dir N c r N a \/
  b_rot B = (if c then 1 else 3) /\ edge_pos N (negb c) (b_to B) 0 (N - 1 - a) = edge_pos N c r N a /\
    edge_dir N (negb c) (b_to B) 0 (N - 1 - a) = vscale (-1) (edge_dir N c r N a).
Proof.
  intros Hr E HN Ha. destruct (rank_split n Hn r Hr) as (t & J & I & Ht & HJ & HI & ->).
  apply boundary_inv in E; auto. destruct E as (t' & J' & I' & k & E & V & W & ->). cbn [b_rot b_to].
  unfold edge_pos, edge_dir, position, x_direction, y_direction.
  destruct c; cbn [edge_sx edge_sy edge_y edge_x negb]; rewrite !place_rank_of by auto.
  - exact (east_edge _ _ _ _ _ _ _ _ _ Ht HJ HI E HN Ha).
  - exact (north_edge _ _ _ _ _ _ _ _ _ Ht HJ HI E HN Ha).
Qed.
End Edge.
