(** Programs that use a cubed-sphere communicator: all ranks execute the same list of calls, on
    arrays of their own. And what such a program should do. *)
From Verif.Base Require Import Base.
From Verif.Model Require Import Consts Numpy Quantity Partitioner Network Communicator.
From Verif.Spec Require Import Grid Cube Halo Lockstep Sync.

Section Client.
Variable V : Type.
Variable neg : V -> V.

(** arguments depend on the rank *)
Inductive call :=
| CHalo (q : nat -> handle) (h : Z)               (* start_halo_update(q, h) *)
| CVector (x y : nat -> handle) (h : Z)           (* start_vector_halo_update(x, y, h) *)
| CSync (x y : nat -> handle)                     (* start_synchronize_vector_interfaces(x, y) *)
| CWait (i : nat)                                 (* wait() on the i-th request obtained *)
| CLocal (f : nat -> mem V -> mem V).             (* computation on the rank's own arrays *)

Notation "'let!' x <- m ; k" := (ebind V m (fun x => k))
  (at level 200, x pattern, m at level 100, k at level 200, right associativity).

Fixpoint client (n : Z) (r : nat) (calls : list call) (reqs : list (request V)) : eff V unit :=
  match calls with
  | [] => eret V tt
  | CHalo q h :: calls' =>
      let! rq <- start_halo_update V neg (n, n) (Z.of_nat r) (q r) h; client n r calls' (reqs ++ [rq])
  | CVector x y h :: calls' =>
      let! rq <- start_vector_halo_update V neg (n, n) (Z.of_nat r) (x r) (y r) h; client n r calls' (reqs ++ [rq])
  | CSync x y :: calls' =>
      let! rq <- start_synchronize_vector_interfaces V neg (n, n) (Z.of_nat r) (x r) (y r); client n r calls' (reqs ++ [rq])
  | CWait i :: calls' =>
      match nth_error reqs i with
      | Some rq => let! _ <- wait_request V rq; client n r calls' reqs
      | None => elift V (Err IndexError)
      end
  | CLocal f :: calls' =>
      let! _ <- (fun c => ([OLocal (f r)], c, Ok tt)); client n r calls' reqs
  end.

(** operations a rank issues, starting with a new communicator *)
Definition client_ops (n : Z) (calls : list call) (r : nat) : list (pop V) :=
  fst (fst (client n r calls [] new_comm)).

(** ** what it should do *)

(** element of the array with number [id r] of rank [r] *)
Definition content (m : nat -> mem V) (id : nat -> nat) (d : V) (r : nat) (p : list Z) : V :=
  match nth_error (m r) (id r) with Some a => at_ a p | None => d end.

(** arguments for which an update is possible: arrays with x and y at the same position on all
    ranks, equally staggered for a scalar, with extents determined by the subtile size [N] *)
Definition ids_below (k : nat) (q : nat -> handle) : Prop := forall r, (h_id (q r) < k)%nat.
Definition halo_ok (n N : Z) (len ix iy : nat) (q : nat -> handle) (h : Z) : Prop :=
  1 <= n /\ 1 <= N /\ 1 <= h <= N /\
  exists s ext, forall r, (r < ranks n)%nat -> fits N h len ix iy s s ext (h_meta (q r)).
(** for a vector, staggering of y is that of x with the axes exchanged *)
Definition vector_ok (n N : Z) (len ix iy : nat) (x y : nat -> handle) (h : Z) : Prop :=
  1 <= n /\ 1 <= N /\ 1 <= h <= N /\
  (forall r, (r < ranks n)%nat -> h_id (x r) <> h_id (y r)) /\
  exists sy sx ext, forall r, (r < ranks n)%nat ->
    fits N h len ix iy sy sx ext (h_meta (x r)) /\ fits N h len ix iy sx sy ext (h_meta (y r)).

(** arrays other than those of the given handles are unchanged; all keep their shapes *)
Definition only_changed (n : Z) (hs : list (nat -> handle)) (before after : nat -> mem V) : Prop :=
  forall r, (r < ranks n)%nat -> length (after r) = length (before r) /\
    forall i a, nth_error (before r) i = Some a -> exists a', nth_error (after r) i = Some a' /\ shp a' = shp a /\
      ((forall h, In h hs -> h_id (h r) <> i) -> forall p, at_ a' p = at_ a p).

(** effect of completing an update: memories when it was started, before and after the wait *)
Definition effect (d : V) (n : Z) (c : call) (sent before after : nat -> mem V) : Prop :=
  match c with
  | CHalo q h =>
      only_changed n [q] before after /\
      forall N len ix iy, halo_ok n N len ix iy q h ->
        let id := fun r => h_id (q r) in
        scalar_filled n N h ix iy (fun r => h_meta (q r)) (content sent id d) (content before id d) (content after id d)
  | CVector x y h =>
      only_changed n [x; y] before after /\
      forall N len ix iy, vector_ok n N len ix iy x y h ->
        let hd := fun (c : bool) r => if c then y r else x r in
        let id := fun (c : bool) r => h_id (hd c r) in
        vector_filled neg n N h ix iy (fun c r => h_meta (hd c r))
          (fun c => content sent (id c) d) (fun c => content before (id c) d) (fun c => content after (id c) d)
  | CSync x y =>
      only_changed n [x; y] before after /\
      forall N len ix iy, sync_ok n N len ix iy (fun r => h_meta (x r)) (fun r => h_meta (y r)) ->
        let hd := fun (c : bool) r => if c then y r else x r in
        let id := fun (c : bool) r => h_id (hd c r) in
        synchronized neg n N ix iy (fun c r => h_meta (hd c r))
          (fun c => content sent (id c) d) (fun c => content before (id c) d) (fun c => content after (id c) d)
  | _ => True
  end.

(** the program as a whole: starting an update records the memories, waiting has its effect *)
Fixpoint meaning (d : V) (n : Z) (calls : list call) (started : list (call * (nat -> mem V)))
    (m m' : nat -> mem V) : Prop :=
  match calls with
  | [] => forall r, (r < ranks n)%nat -> m' r = m r
  | CWait i :: calls' =>
      exists c sent m1, nth_error started i = Some (c, sent) /\ effect d n c sent m m1 /\ meaning d n calls' started m1 m'
  | CLocal f :: calls' => meaning d n calls' started (fun r => f r (m r)) m'
  | c :: calls' => meaning d n calls' (started ++ [(c, m)]) m m'
  end.

(** Programs considered: arguments of updates are such that they are possible ([k] arrays per
    rank), local computations keep the arrays, each request is waited on at most once, after it was obtained. *)
Definition call_ok (n : Z) (k : nat) (c : call) : Prop :=
  match c with
  | CHalo q h => ids_below k q /\ exists N len ix iy, halo_ok n N len ix iy q h
  | CVector x y h => ids_below k x /\ ids_below k y /\ exists N len ix iy, vector_ok n N len ix iy x y h
  | CSync x y => ids_below k x /\ ids_below k y /\ (forall r, (r < ranks n)%nat -> h_id (x r) <> h_id (y r)) /\
      exists N len ix iy, sync_ok n N len ix iy (fun r => h_meta (x r)) (fun r => h_meta (y r))
  | CWait _ => True
  | CLocal f => forall r m, (r < ranks n)%nat -> length m = k -> length (f r m) = k
  end.
Definition starts (c : call) : bool := match c with CWait _ => false | CLocal _ => false | _ => true end.
Fixpoint waits_ok (calls : list call) (nstarted : nat) (done : list nat) : Prop :=
  match calls with
  | [] => True
  | CWait i :: calls' => ~ In i done /\ (i < nstarted)%nat /\ waits_ok calls' nstarted (i :: done)
  | c :: calls' => waits_ok calls' (if starts c then S nstarted else nstarted) done
  end.

End Client.
