(** fv3gfs/util/communicator.py: halo updates and interface synchronisation

    A rank's memory is a list of arrays; a quantity is a handle: position of its array and metadata.
    A call yields the operations it hands to MPI, the new state of the communicator object and a
    result or exception; operations issued before an exception remain issued.

    Simplifications: the timer is enabled and only used by the communicator, and the clocks around the
    receives in wait() are left out (CommTimer.v has both); logging is left out; arrays are numpy arrays. *)
From Verif.Base Require Import Base.
From Verif.Model Require Import Consts Partitioner Numpy Quantity Rotate Network.

Definition mem (V : Type) := list (arr V).

Record handle := mkH { h_id : nat; h_meta : meta }.

(** state of a CubedSphereCommunicator: _last_halo_tag, _boundaries, number of sends issued (requests
    are numbered), running clocks of the timer *)
Record comm := mkC {
  c_tag : Z;
  c_bounds : option (list boundary);
  c_nsent : nat;
  c_running : list string
}.

(** communicator.py 306-318 *)
Definition new_comm : comm := mkC 0 None 0 [].

Section Comm.
Variable V : Type.
Variable neg : V -> V.     (* numpy unary minus *)

Definition pop := op (mem V) V.
Definition eff (A : Type) := comm -> list pop * comm * res A.

Definition eret {A} (a : A) : eff A := fun c => ([], c, Ok a).
Definition elift {A} (m : res A) : eff A := fun c => ([], c, m).
Definition ebind {A B} (m : eff A) (f : A -> eff B) : eff B := fun c =>
  match m c with
  | (l, c', Ok a) => let '(l', c'', r) := f a c' in ((l ++ l')%list, c'', r)
  | (l, c', Err e) => (l, c', Err e)
  end.
Declare Scope eff_scope.
Delimit Scope eff_scope with eff.
Notation "'let!' x <- m ; k" := (ebind m (fun x => k))
  (at level 200, x pattern, m at level 100, k at level 200, right associativity) : eff_scope.
Open Scope eff_scope.

Fixpoint emapM {A B} (f : A -> eff B) (l : list A) : eff (list B) :=
  match l with
  | [] => eret []
  | a :: l' => let! b <- f a; let! r <- emapM f l'; eret (b :: r)
  end.

(** _timing.py 16-22 and 58-60: the clock is stopped only if the body does not raise *)
Definition clock {A} (name : string) (body : eff A) : eff A := fun c =>
  if sin name (c_running c) then ([], c, Err ValueError)
  else
    match body (mkC (c_tag c) (c_bounds c) (c_nsent c) (name :: c_running c)) with
    | (l, c', Ok a) => (l, mkC (c_tag c') (c_bounds c') (c_nsent c') (remove string_dec name (c_running c')), Ok a)
    | (l, c', Err e) => (l, c', Err e)
    end.

(** communicator.py 320-322 *)
Definition get_halo_tag : eff Z := fun c =>
  ([], mkC (c_tag c + 1) (c_bounds c) (c_nsent c) (c_running c), Ok (c_tag c + 1)).

(** communicator.py 324-333: the dictionary is created before it is filled and kept if a lookup raises *)
Fixpoint fill_boundaries (layout : layout_t) (rank : Z) (types : list btype) (acc : list boundary)
    : list boundary * res unit :=
  match types with
  | [] => (acc, Ok tt)
  | t :: types' =>
      match cs_boundary layout t rank with
      | Err e => (acc, Err e)
      | Ok None => fill_boundaries layout rank types' acc
      | Ok (Some b) => fill_boundaries layout rank types' (acc ++ [b])
      end
  end.
Definition boundaries (layout : layout_t) (rank : Z) : eff (list boundary) := fun c =>
  match c_bounds c with
  | Some l => ([], c, Ok l)
  | None =>
      let '(l, r) := fill_boundaries layout rank BOUNDARY_TYPES [] in
      let c' := mkC (c_tag c) (Some l) (c_nsent c) (c_running c) in
      match r with Ok _ => ([], c', Ok l) | Err e => ([], c', Err e) end
  end.
(** self.boundaries[boundary_type] *)
Definition boundary_of_type (t : btype) (l : list boundary) : res boundary :=
  match find (fun b => btype_eqb (b_type b) t) l with Some b => Ok b | None => Err KeyError end.

(** elements of a view of an array in C order, negated if asked *)
Definition read_payload (id : nat) (v : view) (negated : bool) (m : mem V) : list V :=
  match nth_error m id with
  | Some a => map (fun p => if negated then neg (at_ a (vmap v p)) else at_ a (vmap v p)) (all_idx (vshp v))
  | None => []
  end.

(** buffer.py 70-95, utils.py 60-72: a received message fills a view of an array. Messages of another length
    than the view are refused (MPI refuses longer messages; after a shorter one part of the
    view would hold whatever the buffer held). *)
Definition store_payload (id : nat) (v : view) (body : list V) (m : mem V) : option (mem V) :=
  match nth_error m id with
  | Some a =>
      let targets := map (vmap v) (all_idx (vshp v)) in
      if Nat.eqb (length body) (length targets)
      then Some (upd m id (a_write (combine targets body) a)) else None
  | None => None
  end.

(** communicator.py 637-646: posts the send, returns the request's number *)
Definition post_send (dst tag : Z) (payload : mem V -> list V) : eff nat := fun c =>
  ([OSend dst tag payload], mkC (c_tag c) (c_bounds c) (S (c_nsent c)) (c_running c), Ok (c_nsent c)).
Definition isend (payload : mem V -> list V) (dst tag : Z) : eff nat :=
  let! _ <- clock "pack"%string (eret tt);
  clock "Isend"%string (post_send dst tag payload).

(** communicator.py 45-56: a HaloUpdateRequest; receives are posted by wait() only (657-666) *)
Record request := mkReq { rq_sends : list nat; rq_recvs : list pop }.

(** communicator.py 405-420 *)
Definition isend_halo (q : handle) (n_points tag : Z) (b : boundary) : eff nat :=
  let! data <- clock "pack"%string
     (let! v <- elift (send_view b (h_meta q) n_points);
      elift (rotate_scalar_data v (m_dims (h_meta q)) (- b_rot b)));
  isend (read_payload (h_id q) data false) (b_to b) tag.
Definition isend_halos (layout : layout_t) (rank : Z) (q : handle) (n_points tag : Z) : eff (list nat) :=
  let! bs <- boundaries layout rank;
  emapM (isend_halo q n_points tag) bs.

(** communicator.py 422-437 *)
Definition irecv_halo (q : handle) (n_points tag : Z) (b : boundary) : eff pop :=
  let! dest_view <- clock "unpack"%string (elift (recv_view b (h_meta q) n_points));
  eret (ORecv (b_to b) tag (store_payload (h_id q) dest_view)).
Definition irecv_halos (layout : layout_t) (rank : Z) (q : handle) (n_points tag : Z) : eff (list pop) :=
  let! bs <- boundaries layout rank;
  emapM (irecv_halo q n_points tag) bs.

(** communicator.py 388-403 *)
Definition start_halo_update (layout : layout_t) (rank : Z) (q : handle) (n_points : Z) : eff request :=
  if n_points =? 0 then elift (Err ValueError) else
  let! tag <- get_halo_tag;
  let! send_requests <- isend_halos layout rank q n_points tag;
  let! recv_requests <- irecv_halos layout rank q n_points tag;
  eret (mkReq send_requests recv_requests).

(** communicator.py 52-56 *)
Definition wait_request (rq : request) : eff unit := fun c =>
  ((rq_recvs rq ++ map OWait (rq_sends rq))%list, c, Ok tt).

(** communicator.py 378-386 *)
Definition halo_update (layout : layout_t) (rank : Z) (q : handle) (n_points : Z) : eff unit :=
  let! req <- start_halo_update layout rank q n_points;
  wait_request req.

(** communicator.py 537-567 *)
Definition isend_vector_halo (x y : handle) (n_points tag1 tag2 : Z) (b : boundary) : eff (list nat) :=
  let! (xd, yd) <- clock "pack"%string
     (let! xv <- elift (send_view b (h_meta x) n_points);
      let! yv <- elift (send_view b (h_meta y) n_points);
      elift (rotate_vector_data xv yv (- b_rot b) (m_dims (h_meta x))));
  let payload := fun (d : bool * view * bool) =>
    let '(from_y, v, negated) := d in read_payload (h_id (if from_y : bool then y else x)) v negated in
  let! r1 <- isend (payload xd) (b_to b) tag1;
  let! r2 <- isend (payload yd) (b_to b) tag2;
  eret [r1; r2].

(** communicator.py 512-535 *)
Definition start_vector_halo_update (layout : layout_t) (rank : Z) (x y : handle) (n_points : Z) : eff request :=
  if n_points =? 0 then elift (Err ValueError) else
  let! tag1 <- get_halo_tag;
  let! tag2 <- get_halo_tag;
  let! bs <- boundaries layout rank;
  let! send_requests <- emapM (isend_vector_halo x y n_points tag1 tag2) bs;
  let! recv1 <- irecv_halos layout rank x n_points tag1;
  let! recv2 <- irecv_halos layout rank y n_points tag2;
  eret (mkReq (concat send_requests) (recv1 ++ recv2)).

(** communicator.py 446-459 *)
Definition vector_halo_update (layout : layout_t) (rank : Z) (x y : handle) (n_points : Z) : eff unit :=
  let! req <- start_vector_halo_update layout rank x y n_points;
  wait_request req.

(** communicator.py 678-690 *)
Definition on_c_grid (x y : meta) : bool :=
  if negb (sin X_DIM (m_dims x)) || negb (sin Y_INTERFACE_DIM (m_dims x)) then false
  else if negb (sin Y_DIM (m_dims y)) || negb (sin X_INTERFACE_DIM (m_dims y)) then false
  else true.

Definition extent_of (m : meta) (d : string) : Z := nth (dindex d (m_dims m)) (m_extent m) 0.

(** communicator.py 569-610 *)
Definition edge_selection (m : meta) (k : vkind) (fixed : string) (at_i : Z) (along : string) : res view :=
  corner_sel m k [(fixed, IInt at_i); (along, ISL 0 (extent_of m along))].
Definition isend_vector_shared_boundary (layout : layout_t) (rank : Z) (x y : handle) (tag : Z) : eff (list nat) :=
  let! bs <- boundaries layout rank;
  let! south <- elift (boundary_of_type SOUTH bs);
  let! west <- elift (boundary_of_type WEST bs);
  let! south_data <- elift (edge_selection (h_meta x) (VCorner SOUTHWEST) Y_INTERFACE_DIM 0 X_DIM);
  let! south_data <- elift (rotate_scalar_data south_data [X_DIM] (- b_rot south));
  let south_neg := (b_rot south =? 3) || (b_rot south =? 2) in
  let! west_data <- elift (edge_selection (h_meta y) (VCorner SOUTHWEST) X_INTERFACE_DIM 0 Y_DIM);
  let! west_data <- elift (rotate_scalar_data west_data [Y_DIM] (- b_rot west));
  let west_neg := (b_rot west =? 1) || (b_rot west =? 2) in
  let! r1 <- isend (read_payload (h_id x) south_data south_neg) (b_to south) tag;
  let! r2 <- isend (read_payload (h_id y) west_data west_neg) (b_to west) tag;
  eret [r1; r2].

(** communicator.py 612-635 *)
Definition irecv_vector_shared_boundary (layout : layout_t) (rank : Z) (x y : handle) (tag : Z) : eff (list pop) :=
  let! bs <- boundaries layout rank;
  let! north <- elift (boundary_of_type NORTH bs);
  let! east <- elift (boundary_of_type EAST bs);
  let! north_data <- elift (edge_selection (h_meta x) (VCorner NORTHWEST) Y_INTERFACE_DIM (-1) X_DIM);
  let! east_data <- elift (edge_selection (h_meta y) (VCorner SOUTHEAST) X_INTERFACE_DIM (-1) Y_DIM);
  eret [ORecv (b_to north) tag (store_payload (h_id x) north_data);
        ORecv (b_to east) tag (store_payload (h_id y) east_data)].

(** communicator.py 461-491 *)
Definition start_synchronize_vector_interfaces (layout : layout_t) (rank : Z) (x y : handle) : eff request :=
  if negb (on_c_grid (h_meta x) (h_meta y)) then elift (Err ValueError) else
  let! tag <- get_halo_tag;
  let! send_requests <- isend_vector_shared_boundary layout rank x y tag;
  let! recv_requests <- irecv_vector_shared_boundary layout rank x y tag;
  eret (mkReq send_requests recv_requests).

(** communicator.py 493-510 *)
Definition synchronize_vector_interfaces (layout : layout_t) (rank : Z) (x y : handle) : eff unit :=
  let! req <- start_synchronize_vector_interfaces layout rank x y;
  wait_request req.

End Comm.
