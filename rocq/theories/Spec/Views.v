(** What quantities and their views should mean. *)
From Verif.Base Require Import Base.
From Verif.Model Require Import Consts Numpy Quantity.
From Verif.Spec Require Import Grid.

(** origin, extent and shape of a compute domain inside its array *)
Inductive axes_ok : list Z -> list Z -> list Z -> Prop :=
| ax_nil : axes_ok [] [] []
| ax_cons o e s origin extent shape : 0 <= o -> 0 <= e -> o + e <= s -> axes_ok origin extent shape ->
    axes_ok (o :: origin) (e :: extent) (s :: shape).
Definition well_formed (m : meta) : Prop := length (m_dims m) = length (m_shape m) /\ axes_ok (m_origin m) (m_extent m) (m_shape m).

(** the index [p] of the compute domain as an index of the whole array *)
Definition shifted (origin p : list Z) : list Z := map2 Z.add origin p.

(** the compute domain as an array of its own *)
Definition domain_of {V} (q : quantity V) : arr V := mkA (q_extent q) (fun p => at_ (q_data q) (shifted (q_origin q) p)).

(** same shape and same values *)
Definition same {V} (a b : arr V) : Prop := shp a = shp b /\ forall p, in_shape (shp a) p -> at_ a p = at_ b p.

(** [q'] is [q] with compute domain [a] and nothing else changed *)
Definition written {V} (q q' : quantity V) (a : arr V) : Prop :=
  same (domain_of q') a /\ q_meta q' = q_meta q /\ q_units q' = q_units q /\
  forall i, in_shape (shp (q_data q)) i -> (forall p, in_shape (q_extent q) p -> i <> shifted (q_origin q) p) -> at_ (q_data q') i = at_ (q_data q) i.

(** both raise the same exception or both return, related by [R] *)
Definition agree {A B} (R : A -> B -> Prop) (x : res A) (y : res B) : Prop :=
  match x, y with
  | Ok a, Ok b => R a b
  | Err e, Err e' => e = e'
  | _, _ => False
  end.

(** Index entries which can be expected to mean the same on a view as on the compute domain: an axis has origin
    [o] and extent [x].  Negative bounds must reach back further than the origin. *)
Definition bound_ok (o x b : Z) : Prop := 0 <= b <= x \/ (- x <= b /\ b < - o).
Definition entry_ok (o x : Z) (e : ientry) : Prop :=
  match e with
  | IInt i => 0 <= i < x
  | ISlice start stop step =>
      (forall a, start = Some a -> bound_ok o x a) /\ (forall b, stop = Some b -> bound_ok o x b) /\
      (forall s, step = Some s -> s < 0 -> start <> None /\ stop <> None /\ start <> Some x)
  | INone => False
  end.
Fixpoint index_ok (origin extent : list Z) (es : list ientry) : Prop :=
  match es, origin, extent with
  | [], _, _ => True
  | e :: es', o :: origin', x :: extent' => entry_ok o x e /\ index_ok origin' extent' es'
  | _, _, _ => False
  end.

(** ** selections with absolute coordinates: one index or a range per axis *)
Inductive pick := Point (i : Z) | Span (first last : Z).
Definition pick_ok (s : Z) (k : pick) : Prop :=
  match k with Point i => 0 <= i < s | Span a b => 0 <= a <= b /\ b <= s end.
(** shape of the selection, and where in the array its element [p] is *)
Fixpoint pick_shape (ks : list pick) : list Z :=
  match ks with [] => [] | Point _ :: ks' => pick_shape ks' | Span a b :: ks' => (b - a) :: pick_shape ks' end.
Fixpoint pick_place (ks : list pick) (p : list Z) : list Z :=
  match ks with
  | [] => []
  | Point i :: ks' => i :: pick_place ks' p
  | Span a _ :: ks' => (a + hd 0 p) :: pick_place ks' (tl p)
  end.
Definition shows (v : view) (ks : list pick) : Prop :=
  vshp v = pick_shape ks /\ forall p, in_shape (vshp v) p -> vmap v p = pick_place ks p.

(** offsets from a corner, or from start and end of the compute domain, along one axis *)
Inductive offset := OAt (i : Z) | OFrom (a b : Z) | OAll.
Definition offset_entry (f : offset) : ientry :=
  match f with OAt i => IInt i | OFrom a b => ISL a b | OAll => IALL end.
(** is the corner at the far end of a dimension? *)
Definition far_end (b : btype) (dim : string) : bool :=
  match b, axis_of dim with
  | NORTHWEST, AxY | NORTHEAST, AxY | NORTHEAST, AxX | SOUTHEAST, AxX => true
  | _, _ => false
  end.
Definition is_corner (b : btype) : Prop := b = NORTHWEST \/ b = NORTHEAST \/ b = SOUTHWEST \/ b = SOUTHEAST.
(** where offsets of starts (and integers) and of stops are measured from *)
Definition start_of (k : vkind) (dim : string) (o e : Z) : Z :=
  match k with VCorner b => if far_end b dim then o + e else o | VInterior => o end.
Definition stop_of (k : vkind) (dim : string) (o e : Z) : Z :=
  match k with VCorner b => if far_end b dim then o + e else o | VInterior => o + e end.
Definition picked (k : vkind) (dim : string) (o e : Z) (f : offset) : pick :=
  match f with
  | OAt i => Point (start_of k dim o e + i)
  | OFrom a b => Span (start_of k dim o e + a) (stop_of k dim o e + b)
  | OAll => Span o (o + e)
  end.
Fixpoint all_picked (k : vkind) (dims : list string) (origin extent : list Z) (fs : list offset) : list pick :=
  match dims, origin, extent with
  | d :: dims', o :: origin', e :: extent' =>
      picked k d o e (match fs with [] => OAll | f :: _ => f end) :: all_picked k dims' origin' extent' (tl fs)
  | _, _, _ => []
  end.

(** value of an array at named coordinates *)
Definition at_names {V} (a : arr V) (dims : list string) (coord : string -> Z) : V := at_ a (map coord dims).

(** a corner view or view.interior *)
Definition kind_ok (k : vkind) : Prop := match k with VCorner b => is_corner b | VInterior => True end.

(** which dimension a target of transpose means *)
Definition means (dims : list string) (t : tdim) (d : string) : Prop :=
  In d dims /\ match t with TName d' => d' = d | TAny l => exists l1 l2, l = (l1 ++ d :: l2)%list /\ Forall (fun d' => ~ In d' dims) (l1 ++ l2) end.

Definition lengths_ok {V} (q : quantity V) : Prop :=
  length (q_dims q) = length (shp (q_data q)) /\ length (q_origin q) = length (shp (q_data q)) /\ length (q_extent q) = length (shp (q_data q)).
(** the origin if none is given *)
Definition default_origin (dims : list string) (o : option (list Z)) : list Z := match o with Some o => o | None => map (fun _ => 0) dims end.
(** the rest of the compute domain *)
Definition rest_picks (origin extent : list Z) : list pick := map2 (fun o e => Span o (o + e)) origin extent.
(** the selection meant by sel with keyword arguments [kw] *)
Definition sel_picks (k : vkind) (m : meta) (kw : dict offset) : list pick :=
  all_picked k (m_dims m) (m_origin m) (m_extent m) (map (fun d => match dget d kw with Some f => f | None => OAll end) (m_dims m)).
Definition sel_entries (kw : dict offset) : dict ientry := map (fun df => (fst df, offset_entry (snd df))) kw.

(** ** rotation *)
From Verif.Model Require Import Rotate.
(** exactly dimension [ix] is along x and [iy] along y *)
Definition axes_at (ix iy : nat) (dims : list string) : Prop :=
  (ix < length dims)%nat /\ (iy < length dims)%nat /\ ix <> iy /\
  forall i, (i < length dims)%nat -> axis_of (nth i dims EmptyString) = if Nat.eqb i ix then AxX else if Nat.eqb i iy then AxY else AxOther.
(** views showing the same elements *)
Definition same_view (v w : view) : Prop := vshp v = vshp w /\ forall p, in_shape (vshp v) p -> vmap v p = vmap w p.
(** [w] is [v] turned by one clockwise quarter: its row y is the column x = (last) - y of [v] *)
Definition quarter_turn (ix iy : nat) (v w : view) : Prop :=
  length (vshp w) = length (vshp v) /\
  (forall i, nth i (vshp w) 0 = nth (if Nat.eqb i ix then iy else if Nat.eqb i iy then ix else i) (vshp v) 0) /\
  forall p, in_shape (vshp w) p -> exists j, vmap w p = vmap v j /\ in_shape (vshp v) j /\
    nth ix j 0 = nth ix (vshp v) 0 - 1 - nth iy p 0 /\ nth iy j 0 = nth ix p 0 /\
    (forall i, i <> ix -> i <> iy -> nth i j 0 = nth i p 0).
(** a component returned by rotate_vector_data: contents given those of the two arguments *)
Definition component {V} (neg : V -> V) (x y : idx -> V) (c : bool * view * bool) (p : idx) : V :=
  let '(from_y, v, negated) := c in
  let value := (if from_y : bool then y else x) (vmap v p) in
  if negated : bool then neg value else value.
(** data along one horizontal dimension: what the dimension is called after [k] quarter turns *)
Definition turned_dim (k : Z) (d : string) : string :=
  if k mod 2 =? 0 then d else
  if String.eqb d X_DIM then Y_DIM else if String.eqb d Y_DIM then X_DIM else
  if String.eqb d X_INTERFACE_DIM then Y_INTERFACE_DIM else if String.eqb d Y_INTERFACE_DIM then X_INTERFACE_DIM else d.

(** ** regions exchanged at a boundary *)
From Verif.Spec Require Import Cube Halo.
(** where side [b] lies along a dimension: -1 at its start, 1 at its end, 0 along it *)
Definition side_along (b : btype) (d : string) : Z := match axis_of d with AxX => snd (heading b) | AxY => fst (heading b) | AxOther => 0 end.
(** the [h] points beyond ([interior] = false) or before the side, not counting the points on an interface *)
Definition region_pick (b : btype) (interior : bool) (h : Z) (d : string) (o e : Z) : pick :=
  if side_along b d =? 0 then Span o (o + e)
  else if side_along b d =? -1 then (if interior then Span (o + stag d) (o + stag d + h) else Span (o - h) o)
  else (if interior then Span (o + e - stag d - h) (o + e - stag d) else Span (o + e) (o + e + h)).
Fixpoint region_picks (b : btype) (interior : bool) (h : Z) (dims : list string) (origin extent : list Z) : list pick :=
  match dims, origin, extent with
  | d :: dims', o :: origin', e :: extent' => region_pick b interior h d o e :: region_picks b interior h dims' origin' extent'
  | _, _, _ => []
  end.
(** the view shows each of the points of [P] once and nothing else *)
Definition covers (v : view) (P : idx -> Prop) : Prop :=
  (forall p, in_shape (vshp v) p -> P (vmap v p)) /\ (forall i, P i -> exists p, in_shape (vshp v) p /\ vmap v p = i) /\
  (forall p p', in_shape (vshp v) p -> in_shape (vshp v) p' -> vmap v p = vmap v p' -> p = p').

(** ** Boundary.rotate: what turning the pair (y, x) pointwise by [k] clockwise quarter turns gives *)
Definition turned_vector {V} (neg : V -> V) (k : Z) (y x : idx -> V) : (idx -> V) * (idx -> V) :=
  if k mod 4 =? 0 then (y, x) else if k mod 4 =? 1 then (fun i => neg (x i), y)
  else if k mod 4 =? 2 then (fun i => neg (y i), fun i => neg (x i)) else (x, fun i => neg (y i)).
