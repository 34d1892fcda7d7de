(** Computing in steps on the cubed sphere. A rule gives the next value at a point from values around it. It can be applied to
    a field on the whole sphere, or by ranks to their own arrays after a halo update. *)
From Verif.Base Require Import Base.
From Verif.Model Require Import Consts Numpy Quantity Partitioner Network Communicator.
From Verif.Spec Require Import Grid Cube Halo Lockstep Sync Client Updates.

(** the place of row [j] and column [i] of tile [t], on tiles of [M] by [M] cells; [s] is 1 for interfaces *)
Definition at_tile (M s t j i : Z) : option vec := surf M t (2 * i + 1 - s - M) (2 * j + 1 - s - M).
Definition on_tile (M s t j i : Z) : Prop := 0 <= t < 6 /\ 0 <= j < M + s /\ 0 <= i < M + s.

(** positions in the other dimensions *)
Definition level (len ix iy : nat) (ext : nat -> Z) (c : list Z) : Prop :=
  length c = len /\ forall i, (i < len)%nat -> if Nat.eqb i ix || Nat.eqb i iy then xat c i = 0 else 0 <= xat c i < ext i.

(** at most [h] steps along one of the horizontal axes *)
Definition cross (h dy dx : Z) : Prop := (dy = 0 /\ Z.abs dx <= h) \/ (dx = 0 /\ Z.abs dy <= h).

(** index of a tile's array at row [j], column [i] and level [c] *)
Definition tile_index (len ix iy : nat) (j i : Z) (c : list Z) : list Z :=
  map (fun k => if Nat.eqb k ix then i else if Nat.eqb k iy then j else xat c k) (seq 0 len).

Section Steps.
Context {V : Type}.

(** next value at a tile, row, column and level, given the values (dy, dx) steps away at all levels *)
Definition rule := Z -> Z -> Z -> (Z -> Z -> list Z -> V) -> list Z -> V.
(** the rule looks at a cross around the point only *)
Definition looks_around (h : Z) (lev : list Z -> Prop) (g : rule) : Prop :=
  forall t j i w w' c, (forall dy dx c', cross h dy dx -> lev c' -> w dy dx c' = w' dy dx c') -> g t j i w c = g t j i w' c.

(** the sphere as a whole *)
Definition field := option vec -> list Z -> V.
Definition next (M s : Z) (lev : list Z -> Prop) (g : rule) (F F' : field) : Prop :=
  forall t j i c, on_tile M s t j i -> lev c -> F' (at_tile M s t j i) c = g t j i (fun dy dx c' => F (at_tile M s t (j + dy) (i + dx)) c') c.
Fixpoint evolves (M s : Z) (lev : list Z -> Prop) (gs : list rule) (F F' : field) : Prop :=
  match gs with
  | [] => F' = F
  | g :: gs' => exists F1, next M s lev g F F1 /\ evolves M s lev gs' F1 F'
  end.

(** array element at row [y] and column [x] relative to the compute domain, at level [c] *)
Definition element (m : meta) (ix iy : nat) (y x : Z) (c : list Z) : list Z :=
  map (fun i => xat (m_origin m) i + if Nat.eqb i ix then x else if Nat.eqb i iy then y else xat c i) (seq 0 (length (m_dims m))).

(** a computation of the ranks which applies the rule in the compute domain *)
Definition applies (n N : Z) (ix iy : nat) (q : nat -> handle) (k : nat) (g : rule) (f : nat -> mem V -> mem V) : Prop :=
  (forall r m, (r < ranks n)%nat -> length m = k -> length (f r m) = k) /\
  forall r m a, (r < ranks n)%nat -> nth_error m (h_id (q r)) = Some a -> exists a', nth_error (f r m) (h_id (q r)) = Some a' /\ shp a' = shp a /\
    forall p, in_domain (h_meta (q r)) p ->
      let '(t, J, K) := place n (Z.of_nat r) in
      let y := rel (h_meta (q r)) p iy in
      let x := rel (h_meta (q r)) p ix in
      at_ a' p = g t (J * N + y) (K * N + x) (fun dy dx c => at_ a (element (h_meta (q r)) ix iy (y + dy) (x + dx) c)) (column (h_meta (q r)) ix iy p).

(** the compute domains hold [A], given by tile, row, column and level *)
Definition tiled (n N : Z) (ix iy : nat) (q : nat -> handle) (d : V) (m : nat -> mem V) (A : Z -> Z -> Z -> list Z -> V) : Prop :=
  forall r p, (r < ranks n)%nat -> in_domain (h_meta (q r)) p ->
    let '(t, J, K) := place n (Z.of_nat r) in
    content V m (fun r => h_id (q r)) d r p = A t (J * N + rel (h_meta (q r)) p iy) (K * N + rel (h_meta (q r)) p ix) (column (h_meta (q r)) ix iy p).

(** the arrays have the given shapes *)
Definition shaped (n : Z) (q : nat -> handle) (sh : nat -> list Z) (m : nat -> mem V) : Prop :=
  forall r, (r < ranks n)%nat -> exists a, nth_error (m r) (h_id (q r)) = Some a /\ shp a = sh r.

(** halo update and computation, once for each of [fs]; [i] requests were made before *)
Fixpoint stepping (q : nat -> handle) (h : Z) (fs : list (nat -> mem V -> mem V)) (i : nat) : list (call V) :=
  match fs with
  | [] => []
  | f :: fs' => CHalo V q h :: CWait V i :: CLocal V f :: stepping q h fs' (S i)
  end.
End Steps.
Arguments rule : clear implicits. Arguments field : clear implicits.
