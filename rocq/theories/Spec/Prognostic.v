(** Computing in steps with several scalar and vector quantities on the cubed sphere: the state of a model. A rule gives the next
    values at a point from the values of all quantities around it; in each step the halos of all quantities are updated first, and after
    the computation the interfaces of some vectors are synchronized. *)
From Verif.Base Require Import Base.
From Verif.Model Require Import Consts Numpy Quantity Partitioner Network Communicator.
From Verif.Spec Require Import Grid Cube Halo Lockstep Sync Client Updates Steps.

(** number and order of dimensions, staggering in y and x of the scalar or x component (exchanged for the y component), extent
    of the other dimensions *)
Record form := mkForm { f_len : nat; f_ix : nat; f_iy : nat; f_sy : Z; f_sx : Z; f_ext : nat -> Z }.
(** a scalar or the two components of a vector, as ranks have them *)
Inductive variable := Scalar (q : nat -> handle) | Vector (x y : nat -> handle).
Definition handles (v : variable) (c : bool) : nat -> handle := match v with Scalar q => q | Vector x y => if c then y else x end.
(** components: [false] for scalars and x, [true] for y *)
Definition is_component (v : variable) (c : bool) : Prop := match v with Scalar _ => c = false | Vector _ _ => True end.
Definition stag_y (f : form) (c : bool) : Z := if c then f_sx f else f_sy f.
Definition stag_x (f : form) (c : bool) : Z := if c then f_sy f else f_sx f.

Definition state := list (variable * form).

(** component [c] of variable [i] *)
Definition component (st : state) (i : nat) (c : bool) (v : variable) (f : form) : Prop := nth_error st i = Some (v, f) /\ is_component v c.

(** what does not depend on the ranks: which variables are vectors, and their forms *)
Definition is_vector (v : variable) : bool := match v with Scalar _ => false | Vector _ _ => true end.
Definition kinds (st : state) : list (bool * form) := map (fun vf => (is_vector (fst vf), snd vf)) st.
Definition part (ks : list (bool * form)) (i : nat) (c : bool) (f : form) : Prop := exists vector, nth_error ks i = Some (vector, f) /\ (c = true -> vector = true).

(** arrays with halos of at least [h] points, each of its own *)
Definition variable_ok (n N h : Z) (v : variable) (f : form) : Prop :=
  match v with Scalar _ => f_sy f = f_sx f | Vector _ _ => True end /\
  forall c r, is_component v c -> (r < ranks n)%nat -> fits N h (f_len f) (f_ix f) (f_iy f) (stag_y f c) (stag_x f c) (f_ext f) (h_meta (handles v c r)).
Definition state_ok (n N h : Z) (k : nat) (st : state) : Prop :=
  (forall i v f, nth_error st i = Some (v, f) -> variable_ok n N h v f /\ forall c, is_component v c -> ids_below k (handles v c)) /\
  forall i c v f i' c' v' f' r, component st i c v f -> component st i' c' v' f' -> (r < ranks n)%nat -> h_id (handles v c r) = h_id (handles v' c' r) -> i = i' /\ c = c'.

(** where row [j] and column [i] of tile [t] are, and the direction of an axis there, for given staggering *)
Definition spot (M sy sx t j i : Z) : option vec := surf M t (2 * i + 1 - sx - M) (2 * j + 1 - sy - M).
Definition bearing (M sy sx : Z) (c : bool) (t j i : Z) : vec := (if c then ydir else xdir) M t (2 * i + 1 - sx - M) (2 * j + 1 - sy - M).

Section Prognostic.
Context {V : Type}.
Variable neg : V -> V.

(** next value of a component of a variable at tile, row, column and level, given the values of all components (dy, dx) steps away *)
Definition mrule := nat -> bool -> Z -> Z -> Z -> (nat -> bool -> Z -> Z -> list Z -> V) -> list Z -> V.

(** steps in index along an axis from staggering [s] to [s'] which never leave the array, and those which stay within halos of [h] points *)
Definition inner (s s' d : Z) : Prop := 0 <= d <= s' - s.
Definition outer (h s s' d : Z) : Prop := - h <= d <= h + s' - s.
Definition reach (h sy sx sy' sx' dy dx : Z) : Prop := inner sy sy' dy /\ outer h sx sx' dx \/ inner sx sx' dx /\ outer h sy sy' dy.
Definition looks_near (h : Z) (ks : list (bool * form)) (g : mrule) : Prop :=
  forall i c f t j x w w' lev, part ks i c f -> level (f_len f) (f_ix f) (f_iy f) (f_ext f) lev ->
    (forall i' c' f' dy dx lev', part ks i' c' f' -> reach h (stag_y f c) (stag_x f c) (stag_y f' c') (stag_x f' c') dy dx ->
       level (f_len f') (f_ix f') (f_iy f') (f_ext f') lev' -> w i' c' dy dx lev' = w' i' c' dy dx lev') ->
    g i c t j x w lev = g i c t j x w' lev.

(** the sphere: for each variable a value at each place and level, for vectors in each direction *)
Definition sphere := nat -> option vec -> list Z -> vec -> V.
Definition proper (ks : list (bool * form)) (F : sphere) : Prop :=
  forall i vector f, nth_error ks i = Some (vector, f) ->
    if vector : bool then odd_field neg (F i) else forall pl lev d d', F i pl lev d = F i pl lev d'.
(** [w] are the values around row [j] and column [x] of tile [t] *)
Definition window (M : Z) (ks : list (bool * form)) (F : sphere) (t j x : Z) (w : nat -> bool -> Z -> Z -> list Z -> V) : Prop :=
  forall i c f dy dx lev, part ks i c f ->
    w i c dy dx lev = F i (spot M (stag_y f c) (stag_x f c) t (j + dy) (x + dx)) lev (bearing M (stag_y f c) (stag_x f c) c t (j + dy) (x + dx)).
(** all values of [F'] in tiles are those the rule gives from [F]; for vectors which will be synchronized ([syn]) only those which other
    ranks get: not on the north edge of a tile for x components, not on the east edge for y components *)
Definition follows (M : Z) (ks : list (bool * form)) (syn : nat -> bool) (g : mrule) (F F' : sphere) : Prop :=
  forall i c f t j x lev w, part ks i c f -> 0 <= t < 6 ->
    0 <= j < M + (if syn i then 0 else stag_y f c) -> 0 <= x < M + (if syn i then 0 else stag_x f c) -> level (f_len f) (f_ix f) (f_iy f) (f_ext f) lev ->
    window M ks F t j x w ->
    F' i (spot M (stag_y f c) (stag_x f c) t j x) lev (bearing M (stag_y f c) (stag_x f c) c t j x) = g i c t j x w lev.
Fixpoint develops (M : Z) (ks : list (bool * form)) (syn : nat -> bool) (gs : list mrule) (F F' : sphere) : Prop :=
  match gs with
  | [] => F' = F
  | g :: gs' => exists F1, proper ks F1 /\ follows M ks syn g F F1 /\ develops M ks syn gs' F1 F'
  end.
(** the rule leaves a variable as it is *)
Definition keeps (g : mrule) (i : nat) : Prop := forall c t j x w lev, g i c t j x w lev = w i c 0 0 lev.

(** a computation of the ranks which applies the rule in all compute domains *)
Definition computes (n N : Z) (k : nat) (st : state) (g : mrule) (f : nat -> mem V -> mem V) : Prop :=
  (forall r m, (r < ranks n)%nat -> length m = k -> length (f r m) = k) /\
  forall r m w, (r < ranks n)%nat -> length m = k ->
    forall i c v fm a, component st i c v fm -> nth_error m (h_id (handles v c r)) = Some a ->
    exists a', nth_error (f r m) (h_id (handles v c r)) = Some a' /\ shp a' = shp a /\
    forall p, in_domain (h_meta (handles v c r)) p ->
      let '(t, J, K) := place n (Z.of_nat r) in
      let y := rel (h_meta (handles v c r)) p (f_iy fm) in
      let x := rel (h_meta (handles v c r)) p (f_ix fm) in
      (forall i' c' v' fm' b dy dx lev', component st i' c' v' fm' -> nth_error m (h_id (handles v' c' r)) = Some b ->
         w i' c' dy dx lev' = at_ b (element (h_meta (handles v' c' r)) (f_ix fm') (f_iy fm') (y + dy) (x + dx) lev')) ->
      at_ a' p = g i c t (J * N + y) (K * N + x) w (column (h_meta (handles v c r)) (f_ix fm) (f_iy fm) p).

(** compute domains hold [F] *)
Definition state_held (n N : Z) (st : state) (d : V) (F : sphere) (m : nat -> mem V) : Prop :=
  forall i c v f r p, component st i c v f -> (r < ranks n)%nat -> in_domain (h_meta (handles v c r)) p ->
    content V m (fun r => h_id (handles v c r)) d r p =
      F i (place_of n N (f_ix f) (f_iy f) (h_meta (handles v c r)) r p) (column (h_meta (handles v c r)) (f_ix f) (f_iy f) p)
          (dir_of n N (f_ix f) (f_iy f) c (h_meta (handles v c r)) r p).

(** update the halos of all variables, all updates being under way together, compute, then synchronize; [b] requests were made before *)
Definition update_of (h : Z) (v : variable) : call V := match v with Scalar q => CHalo V q h | Vector x y => CVector V x y h end.
Definition sync_of (v : variable) : call V := CSync V (handles v false) (handles v true).
Fixpoint synced (syn : nat -> bool) (i : nat) (st : state) : state :=
  match st with
  | [] => []
  | vf :: st' => if syn i then vf :: synced syn (S i) st' else synced syn (S i) st'
  end.
Definition waits (b l : nat) : list (call V) := map (fun i => CWait V (b + i)) (seq 0 l).
Fixpoint model_steps (st : state) (syn : nat -> bool) (h : Z) (fs : list (nat -> mem V -> mem V)) (b : nat) : list (call V) :=
  match fs with
  | [] => []
  | f :: fs' =>
      let l := length st in
      let s := synced syn 0 st in
      (map (fun vf => update_of h (fst vf)) st ++ waits b l ++
       CLocal V f ::
       map (fun vf => sync_of (fst vf)) s ++ waits (b + l) (length s) ++
       model_steps st syn h fs' (b + l + length s))%list
  end.
End Prognostic.
Arguments mrule : clear implicits. Arguments sphere : clear implicits.

(** vectors that can be synchronized: x component on y interfaces and the reverse, horizontal dimensions first *)
Definition on_edges (f : form) : Prop := f_sy f = 1 /\ f_sx f = 0 /\ ((f_ix f = 0 /\ f_iy f = 1) \/ (f_ix f = 1 /\ f_iy f = 0))%nat.
Definition syn_ok (ks : list (bool * form)) (syn : nat -> bool) : Prop := forall i vector f, nth_error ks i = Some (vector, f) -> syn i = true -> vector = true /\ on_edges f.
