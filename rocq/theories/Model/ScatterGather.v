(** fv3gfs/util/communicator.py: scatter, gather, scatter_state, gather_state

    Quantities are passed and returned by value; a quantity passed in is updated in place by the code, here its
    new value is returned (so the same array must not be passed under two names).  Memory obtained from
    numpy.empty or from the buffer cache has arbitrary contents, given by [junk].  send_buffer and
    recv_buffer (communicator.py 68-79, buffer.py 40-95) hand MPI a contiguous array with the same elements.
    dtypes, numpy modules and backends are left out, and so is the ValueError of numpy.empty when a length is
    negative (lengths here come from extents, and are negative only if an extent passed in was). *)
From Verif.Base Require Import Base.
From Verif.Model Require Import Consts Partitioner Numpy Quantity Collective.

(** TilePartitioner or CubedSpherePartitioner *)
Inductive partitioner := TilePart (layout : layout_t) | CubePart (layout : layout_t).

Definition p_total_ranks (p : partitioner) : Z :=
  match p with TilePart l => tile_total_ranks l | CubePart l => total_ranks l end.
Definition p_subtile_extent (p : partitioner) (dims : list string) (extent : list Z) : res (list Z) :=
  match p with TilePart l => tp_subtile_extent l dims extent | CubePart l => cs_subtile_extent l dims extent end.
Definition p_global_extent (p : partitioner) (dims : list string) (extent : list Z) : list Z :=
  match p with TilePart l => tp_global_extent l dims extent | CubePart l => cs_global_extent l dims extent end.
(** subtile_slice(..., overlap=True) as an index *)
Definition p_subtile_slice (p : partitioner) (rank : Z) (dims : list string) (extent : list Z) : res (list ientry) :=
  let slices := map (fun se : Z * Z => ISL (fst se) (snd se)) in
  match p with
  | TilePart l => rmap slices (tp_subtile_slice l rank dims extent true)
  | CubePart l => rmap (fun ts => IInt (fst ts) :: slices (snd ts)) (cs_subtile_slice l rank dims extent true)
  end.
(** dims of the received quantity: communicator.py 151-156, 369-376 and 136-144, 353-362 *)
Definition scatter_dims (p : partitioner) (dims : list string) : list string :=
  match p with TilePart _ => dims | CubePart _ => tl dims end.
Definition gather_dims (p : partitioner) (dims : list string) : list string :=
  match p with TilePart _ => dims | CubePart _ => TILE_DIM :: dims end.

Section SG.
Variables V T : Type.   (* array elements; times *)

(** quantity.py 22-37 *)
Record qmeta := mkQM { qm_dims : list string; qm_units : string; qm_extent : list Z }.
Definition metadata (q : quantity V) : qmeta := mkQM (q_dims q) (q_units q) (q_extent q).

(** objects broadcast: metadata, variable names, time or None *)
Inductive obj := OMeta (m : qmeta) | ONames (l : list string) | OTime (t : option T).
Definition ONone : obj := OTime None.

Definition program := proc obj V.

(** elements of quantity.view[:] in C order, and filling it *)
Definition view_all (q : quantity V) : res view := view_index (q_meta q) (PSingle IALL).
Definition view_elements (q : quantity V) (v : view) : list V := ravel (v_read (q_data q) v).
Definition fill_view (q : quantity V) (v : view) (body : list V) : quantity V :=
  q_with_data q (a_write (combine (map (vmap v) (all_idx (vshp v))) body) (q_data q)).

(** communicator.py 112-119: filling the send buffer *)
Definition pack (p : partitioner) (send : quantity V) (buf : arr V) : res (arr V) :=
  rfold (fun buf rank =>
    do sl <- p_subtile_slice p rank (q_dims send) (q_extent send);
    do a <- view_get send (PTuple sl);
    setitem buf [IInt rank; IALL] a) (zrange (p_total_ranks p)) buf.

(** communicator.py 102-130, after the metadata has been received *)
Definition scatter_rest (p : partitioner) (rank : Z) (junk : nat -> idx -> V) (send recv : option (quantity V)) (o : obj) : program (quantity V) :=
  match o with
  | OMeta md =>
      pbind (plift (p_subtile_extent p (qm_dims md) (qm_extent md))) (fun shape =>
      pbind (plift (match recv with
                    | Some q => Ok q
                    | None => new_quantity (DArray (mkA shape (junk 0%nat))) (scatter_dims p (qm_dims md)) (qm_units md) None None
                    end)) (fun recv =>
      let do_scatter (data : option (list V)) :=
        pbind (plift (view_all recv)) (fun v =>
        pdata (CScatter data (length (all_idx (vshp v)))) (fun body => PRet (fill_view recv v body))) in
      if rank =? ROOT_RANK then
        match send with
        | Some send =>
            pbind (plift (pack p send (mkA (p_total_ranks p :: shape) (junk 1%nat)))) (fun buf => do_scatter (Some (ravel buf)))
        | None => PErr AttributeError
        end
      else do_scatter None))
  | _ => PErr AttributeError
  end.
(** communicator.py 81-101 *)
Definition scatter (p : partitioner) (rank : Z) (junk : nat -> idx -> V) (send recv : option (quantity V)) : program (quantity V) :=
  if rank =? ROOT_RANK then
    match send with
    | Some q => pbcast (OMeta (metadata q)) (scatter_rest p rank junk send recv)
    | None => PErr TypeError
    end
  else pbcast ONone (scatter_rest p rank junk send recv).

(** communicator.py 191-198: distributing the receive buffer *)
Definition unpack (p : partitioner) (buf : arr V) (recv : quantity V) : res (quantity V) :=
  rfold (fun recv rank =>
    do sl <- p_subtile_slice p rank (q_dims recv) (q_extent recv);
    do a <- getitem buf [IInt rank; IALL];
    view_set recv (PTuple sl) a) (zrange (p_total_ranks p)) recv.

(** communicator.py 184-199, on the root with [body] received *)
Definition gather_rest (p : partitioner) (junk : nat -> idx -> V) (send : quantity V) (recv : option (quantity V)) (body : list V)
    : program (option (quantity V)) :=
  let shape := p_total_ranks p :: q_extent send in
  let buf := a_write (combine (all_idx shape) body) (mkA shape (junk 1%nat)) in
  pbind (plift (match recv with
                | Some q => Ok q
                | None =>
                    let global_extent := p_global_extent p (q_dims send) (q_extent send) in
                    let dims := gather_dims p (q_dims send) in
                    new_quantity (DArray (mkA global_extent (junk 0%nat))) dims (q_units send)
                      (Some (map (fun _ => 0) dims)) (Some global_extent)
                end)) (fun recv =>
  pbind (plift (unpack p buf recv)) (fun recv => PRet (Some recv))).
(** communicator.py 158-205 *)
Definition gather (p : partitioner) (rank : Z) (junk : nat -> idx -> V) (send : quantity V) (recv : option (quantity V))
    : program (option (quantity V)) :=
  pbind (plift (view_all send)) (fun v =>
  if rank =? ROOT_RANK then
    pdata (CGather (view_elements send v) (Some (length (all_idx (p_total_ranks p :: q_extent send))))) (gather_rest p junk send recv)
  else pdata (CGather (view_elements send v) None) (fun _ => PRet None)).

(** a state: quantities by name, and the time, if there is one.  (In python both are in one dictionary; states
    with an entry "time" that is None are left out.) *)
Record state := mkSt { st_vars : dict (quantity V); st_time : option T }.

(** communicator.py 207-235; on ranks other than the root recv_state is returned as it came *)
Fixpoint gather_vars (p : partitioner) (rank : Z) (junk : string -> nat -> idx -> V) (send : dict (quantity V)) (recv : dict (quantity V))
    : program (dict (quantity V)) :=
  match send with
  | [] => PRet recv
  | (name, q) :: send' =>
      pbind (gather p rank (junk name) q (dget name recv)) (fun r =>
      gather_vars p rank junk send' (match r with Some r => dset name r recv | None => recv end))
  end.
Definition gather_state (p : partitioner) (rank : Z) (junk : string -> nat -> idx -> V) (send : state) (recv : option state)
    : program (option state) :=
  let recv := if rank =? ROOT_RANK then Some (match recv with Some s => s | None => mkSt [] None end) else recv in
  pbind (gather_vars p rank junk (st_vars send) (match recv with Some s => st_vars s | None => [] end)) (fun vars =>
  PRet (match recv with
        | None => None
        | Some s =>
            Some (mkSt vars (if rank =? ROOT_RANK then match st_time send with Some t => Some t | None => st_time s end else st_time s))
        end)).

(** communicator.py 256-259 and 270-277: the loop over the names; [quantities] only on the root *)
Fixpoint scatter_vars (p : partitioner) (rank : Z) (junk : string -> nat -> idx -> V) (send : dict (quantity V)) (names : list string)
    (recv : dict (quantity V)) : program (dict (quantity V)) :=
  match names with
  | [] => PRet recv
  | name :: names' =>
      pbind (scatter p rank (junk name) (if rank =? ROOT_RANK then dget name send else None) (dget name recv)) (fun q =>
      scatter_vars p rank junk send names' (dset name q recv))
  end.
(** communicator.py 237-283 *)
Definition scatter_state (p : partitioner) (rank : Z) (junk : string -> nat -> idx -> V) (send recv : option state) : program state :=
  let recv := match recv with Some s => s | None => mkSt [] None end in
  let continue (names : list string) (time : option T) (vars : dict (quantity V)) :=
    pbind (scatter_vars p rank junk vars names (st_vars recv)) (fun vars =>
    pbcast (OTime time) (fun o => match o with OTime t => PRet (mkSt vars t) | _ => PErr TypeError end)) in
  if rank =? ROOT_RANK then
    match send with
    | None => PErr TypeError
    | Some s => pbcast (ONames (dkeys (st_vars s))) (fun o =>
        match o with ONames l => continue l (st_time s) (st_vars s) | _ => PErr TypeError end)
    end
  else pbcast ONone (fun o => match o with ONames l => continue l None [] | _ => PErr TypeError end).
End SG.
Arguments qm_dims _ : assert. Arguments OMeta {T}. Arguments ONames {T}. Arguments OTime {T}.
Arguments mkSt {V T}. Arguments st_vars {V T}. Arguments st_time {V T}.
