(** fv3gfs/util/communicator.py again, with the timer of the communicator: halo updates and interface synchronisation as in
    Communicator.v, but every clock is started and stopped on the Timer of Timer.v, which is the communicator's public
    attribute [timer], and the clocks around the receives in wait() are included.
    Simplifications: as in Communicator.v. The n-th clock reading is [clk n]. Whether the array that a receive fills is C contiguous
    is an arbitrary function of the quantity, the number of points and the boundary. *)
From Verif.Base Require Import Base.
From Verif.Model Require Import Consts Partitioner Numpy Quantity Rotate Network Communicator Timer.

Section CommTimer.
Variable V : Type.
Variable neg : V -> V.
Variable R : Type.
Variable sub add : R -> R -> R.
Variable clk : nat -> R.
Variable contig : handle -> Z -> btype -> bool.

(** the communicator (its list of running clocks is not used), its timer, number of clock readings taken *)
Record cts := mkCT { ct_comm : comm; ct_timer : timer R; ct_reads : nat }.
(** communicator.py 306-318 *)
Definition new_cts : cts := mkCT new_comm new_timer 0.

Definition teff (A : Type) := cts -> list (pop V) * cts * res A.
Definition tret {A} (a : A) : teff A := fun s => ([], s, Ok a).
Definition tlift {A} (m : res A) : teff A := fun s => ([], s, m).
Definition tbind {A B} (m : teff A) (f : A -> teff B) : teff B := fun s =>
  match m s with
  | (l, s', Ok a) => let '(l', s'', r) := f a s' in ((l ++ l')%list, s'', r)
  | (l, s', Err e) => (l, s', Err e)
  end.
Notation "'let!' x <- m ; k" := (tbind m (fun x => k))
  (at level 200, x pattern, m at level 100, k at level 200, right associativity).
Fixpoint tmapM {A B} (f : A -> teff B) (l : list A) : teff (list B) :=
  match l with
  | [] => tret []
  | a :: l' => let! b <- f a; let! r <- tmapM f l'; tret (b :: r)
  end.
(** a call which does not use the timer *)
Definition untimed {A} (m : eff V A) : teff A := fun s =>
  let '(l, c, r) := m (ct_comm s) in (l, mkCT c (ct_timer s) (ct_reads s), r).
(** a call on the timer *)
Definition on_timer (call : R -> tcall R) : teff unit := fun s =>
  let '(t, r) := tstep R sub add (call (clk (ct_reads s))) (ct_timer s) in
  ([], mkCT (ct_comm s) t (S (ct_reads s)), match r with Ok _ => Ok tt | Err e => Err e end).
(** _timing.py 38-60 *)
Definition tclock {A} (name : string) (body : teff A) : teff A :=
  let! _ <- on_timer (Start name);
  let! a <- body;
  let! _ <- on_timer (Stop name);
  tret a.

(** communicator.py 637-646 *)
Definition t_isend (payload : mem V -> list V) (dst tag : Z) : teff nat :=
  let! _ <- tclock "pack"%string (tret tt);
  tclock "Isend"%string (untimed (post_send V dst tag payload)).

(** communicator.py 657-666 with buffer.py 84-95 *)
Definition t_recv (p : pop V * bool) : teff unit :=
  let recv := tclock "Recv"%string (fun s => ([fst p], s, Ok tt)) in
  if snd p then recv
  else
    let! _ <- on_timer (Start "unpack"%string);
    let! _ <- on_timer (Stop "unpack"%string);
    let! _ <- recv;
    tclock "unpack"%string (tret tt).

(** a HaloUpdateRequest: numbers of the sends, receives with the contiguity of their targets *)
Record trequest := mkTReq { tr_sends : list nat; tr_recvs : list (pop V * bool) }.

(** communicator.py 405-420 *)
Definition t_isend_halo (q : handle) (n_points tag : Z) (b : boundary) : teff nat :=
  let! data <- tclock "pack"%string
     (let! v <- tlift (send_view b (h_meta q) n_points);
      tlift (rotate_scalar_data v (m_dims (h_meta q)) (- b_rot b)));
  t_isend (read_payload V neg (h_id q) data false) (b_to b) tag.
Definition t_isend_halos (layout : layout_t) (rank : Z) (q : handle) (n_points tag : Z) : teff (list nat) :=
  let! bs <- untimed (boundaries V layout rank);
  tmapM (t_isend_halo q n_points tag) bs.

(** communicator.py 422-437 *)
Definition t_irecv_halo (q : handle) (n_points tag : Z) (b : boundary) : teff (pop V * bool) :=
  let! dest_view <- tclock "unpack"%string (tlift (recv_view b (h_meta q) n_points));
  tret (ORecv (b_to b) tag (store_payload V (h_id q) dest_view), contig q n_points (b_type b)).
Definition t_irecv_halos (layout : layout_t) (rank : Z) (q : handle) (n_points tag : Z) : teff (list (pop V * bool)) :=
  let! bs <- untimed (boundaries V layout rank);
  tmapM (t_irecv_halo q n_points tag) bs.

(** communicator.py 388-403 *)
Definition t_start_halo_update (layout : layout_t) (rank : Z) (q : handle) (n_points : Z) : teff trequest :=
  if n_points =? 0 then tlift (Err ValueError) else
  let! tag <- untimed (get_halo_tag V);
  let! send_requests <- t_isend_halos layout rank q n_points tag;
  let! recv_requests <- t_irecv_halos layout rank q n_points tag;
  tret (mkTReq send_requests recv_requests).

(** communicator.py 52-56; the requests of sends are MPI's own *)
Definition t_wait (rq : trequest) : teff unit :=
  let! _ <- tmapM t_recv (tr_recvs rq);
  fun s => (map OWait (tr_sends rq), s, Ok tt).

(** communicator.py 537-567 *)
Definition t_isend_vector_halo (x y : handle) (n_points tag1 tag2 : Z) (b : boundary) : teff (list nat) :=
  let! (xd, yd) <- tclock "pack"%string
     (let! xv <- tlift (send_view b (h_meta x) n_points);
      let! yv <- tlift (send_view b (h_meta y) n_points);
      tlift (rotate_vector_data xv yv (- b_rot b) (m_dims (h_meta x))));
  let payload := fun (d : bool * view * bool) =>
    let '(from_y, v, negated) := d in read_payload V neg (h_id (if from_y : bool then y else x)) v negated in
  let! r1 <- t_isend (payload xd) (b_to b) tag1;
  let! r2 <- t_isend (payload yd) (b_to b) tag2;
  tret [r1; r2].

(** communicator.py 512-535 *)
Definition t_start_vector_halo_update (layout : layout_t) (rank : Z) (x y : handle) (n_points : Z) : teff trequest :=
  if n_points =? 0 then tlift (Err ValueError) else
  let! tag1 <- untimed (get_halo_tag V);
  let! tag2 <- untimed (get_halo_tag V);
  let! bs <- untimed (boundaries V layout rank);
  let! send_requests <- tmapM (t_isend_vector_halo x y n_points tag1 tag2) bs;
  let! recv1 <- t_irecv_halos layout rank x n_points tag1;
  let! recv2 <- t_irecv_halos layout rank y n_points tag2;
  tret (mkTReq (concat send_requests) (recv1 ++ recv2)).

(** communicator.py 569-610 *)
Definition t_isend_vector_shared_boundary (layout : layout_t) (rank : Z) (x y : handle) (tag : Z) : teff (list nat) :=
  let! bs <- untimed (boundaries V layout rank);
  let! south <- tlift (boundary_of_type SOUTH bs);
  let! west <- tlift (boundary_of_type WEST bs);
  let! south_data <- tlift (edge_selection (h_meta x) (VCorner SOUTHWEST) Y_INTERFACE_DIM 0 X_DIM);
  let! south_data <- tlift (rotate_scalar_data south_data [X_DIM] (- b_rot south));
  let south_neg := (b_rot south =? 3) || (b_rot south =? 2) in
  let! west_data <- tlift (edge_selection (h_meta y) (VCorner SOUTHWEST) X_INTERFACE_DIM 0 Y_DIM);
  let! west_data <- tlift (rotate_scalar_data west_data [Y_DIM] (- b_rot west));
  let west_neg := (b_rot west =? 1) || (b_rot west =? 2) in
  let! r1 <- t_isend (read_payload V neg (h_id x) south_data south_neg) (b_to south) tag;
  let! r2 <- t_isend (read_payload V neg (h_id y) west_data west_neg) (b_to west) tag;
  tret [r1; r2].

(** communicator.py 612-635: no clock runs *)
Definition t_irecv_vector_shared_boundary (layout : layout_t) (rank : Z) (x y : handle) (tag : Z) : teff (list (pop V * bool)) :=
  let! bs <- untimed (boundaries V layout rank);
  let! north <- tlift (boundary_of_type NORTH bs);
  let! east <- tlift (boundary_of_type EAST bs);
  let! north_data <- tlift (edge_selection (h_meta x) (VCorner NORTHWEST) Y_INTERFACE_DIM (-1) X_DIM);
  let! east_data <- tlift (edge_selection (h_meta y) (VCorner SOUTHEAST) X_INTERFACE_DIM (-1) Y_DIM);
  tret [(ORecv (b_to north) tag (store_payload V (h_id x) north_data), contig x 0 NORTH);
        (ORecv (b_to east) tag (store_payload V (h_id y) east_data), contig y 0 EAST)].

(** communicator.py 461-491 *)
Definition t_start_synchronize (layout : layout_t) (rank : Z) (x y : handle) : teff trequest :=
  if negb (on_c_grid (h_meta x) (h_meta y)) then tlift (Err ValueError) else
  let! tag <- untimed (get_halo_tag V);
  let! send_requests <- t_isend_vector_shared_boundary layout rank x y tag;
  let! recv_requests <- t_irecv_vector_shared_boundary layout rank x y tag;
  tret (mkTReq send_requests recv_requests).
End CommTimer.
Arguments ct_comm {R}. Arguments ct_timer {R}. Arguments ct_reads {R}. Arguments mkCT {R}. Arguments new_cts {R}.
Arguments tr_sends {V}. Arguments tr_recvs {V}. Arguments mkTReq {V}.
