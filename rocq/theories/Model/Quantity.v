(** fv3gfs/util/quantity.py and fv3gfs/util/_boundary_utils.py

    Simplifications: gt4py storages and cupy arrays are left out (gt4py is None); dtype and attrs
    (always empty besides units) are not represented, the deprecated property [values] is in Values.v; origins,
    extents and index entries are integers. *)
From Verif.Base Require Import Base.
From Verif.Model Require Import Consts Numpy.

(** quantity.py 22-37, 252-327: data and metadata of a constructed Quantity *)
Record quantity (V : Type) := mkQ {
  q_data : arr V;
  q_dims : list string;
  q_units : string;
  q_origin : list Z;
  q_extent : list Z
}.
Arguments mkQ {V}.
Arguments q_data {V}. Arguments q_dims {V}. Arguments q_units {V}.
Arguments q_origin {V}. Arguments q_extent {V}.

(** everything but the contents: what determines the meaning of an index *)
Record meta := mkMeta {
  m_dims : list string;
  m_origin : list Z;
  m_extent : list Z;
  m_shape : list Z
}.
Definition q_meta {V} (q : quantity V) : meta :=
  mkMeta (q_dims q) (q_origin q) (q_extent q) (shp (q_data q)).

(** the [data] argument: an ndarray, or a python number or list, whose numpy.asarray is given *)
Inductive pydata (V : Type) := DArray (a : arr V) | DPlain (a : arr V).
Arguments DArray {V}. Arguments DPlain {V}.

(** quantity.py 234-244 *)
Definition validate_lengths (shape : list Z) (dims : list string) (origin extent : list Z) : res unit :=
  let n := length shape in
  if negb (Nat.eqb (length dims) n) then Err ValueError
  else if negb (Nat.eqb (length origin) n) then Err ValueError
  else if negb (Nat.eqb (length extent) n) then Err ValueError
  else Ok tt.

(** quantity.py 252-327. A number or list has no [shape] (line 281), and for them [self._data] is never
    set (lines 285-286) but read in line 320. *)
Definition new_quantity {V} (data : pydata V) (dims : list string) (units : string)
    (origin extent : option (list Z)) : res (quantity V) :=
  let origin := match origin with Some o => o | None => map (fun _ => 0) dims end in
  do extent <- match extent, data with
               | Some e, _ => Ok e
               | None, DArray a => Ok (map2 Z.sub (shp a) origin)
               | None, DPlain _ => Err AttributeError
               end;
  match data with
  | DArray a =>
      do _ <- validate_lengths (shp a) dims origin extent;
      Ok (mkQ a dims units origin extent)
  | DPlain a =>
      do _ <- validate_lengths (shp a) dims origin extent;
      Err AttributeError
  end.

(** the index argument of a subscript: a tuple, or a single entry.  Lists are treated as tuples by the code
    except in subscripts of the view of a zero-dimensional quantity, which take any list (quantity.py
    166-171); index arguments that are lists are left out. *)
Inductive pyindex := PTuple (l : list ientry) | PSingle (e : ientry).

(** quantity.py 548-549 *)
Definition fill_index (index : list ientry) (n : nat) : list ientry :=
  (index ++ repeat IALL (n - length index))%list.

(** quantity.py 558-565 *)
Definition shift_index (v : option Z) (shift extent : Z) : option Z :=
  match v with
  | None => None
  | Some v => let new_value := v + shift in
              Some (if new_value <? 0 then extent + new_value else new_value)
  end.

(** _boundary_utils.py 16-21 *)
Definition bound_default_slice (start stop step : option Z) (dstart dstop : Z) : ientry :=
  ISlice (Some (match start with Some s => s | None => dstart end))
         (Some (match stop with Some s => s | None => dstop end)) step.

(** quantity.py 188-197 (body of the loop) with 552-555 *)
Definition shift_entry (e : ientry) (origin extent : Z) : ientry :=
  match e with
  | ISlice start stop step =>
      bound_default_slice (shift_index start origin extent) (shift_index stop origin extent) step
        origin (origin + extent)
  | INone => INone
  | IInt i => IInt (i + origin)
  end.

(** zip stops at the shortest *)
Fixpoint shift_entries (es : list ientry) (origin extent : list Z) : list ientry :=
  match es, origin, extent with
  | e :: es', o :: origin', x :: extent' => shift_entry e o x :: shift_entries es' origin' extent'
  | _, _, _ => []
  end.

Definition index_list (i : pyindex) : list ientry :=
  match i with PTuple l => l | PSingle e => [e] end.

(** quantity.py 178-198; the message of the IndexError reads the missing attribute [self.dims] *)
Definition get_compute_index (m : meta) (i : pyindex) : res (list ientry) :=
  let index := index_list i in
  if Nat.ltb (length (m_dims m)) (length index) then Err AttributeError
  else Ok (shift_entries (fill_index index (length (m_shape m))) (m_origin m) (m_extent m)).

Definition is_full_slice (e : ientry) : bool :=
  match e with ISlice None None None => true | _ => false end.

(** quantity.py 166-171 (and 67-72) *)
Definition zero_dim_index (i : pyindex) : res unit :=
  match i with
  | PTuple (_ :: _) => Err IndexError
  | PSingle (ISlice a b c) => if is_full_slice (ISlice a b c) then Ok tt else Err IndexError
  | _ => Ok tt
  end.

(** quantity.py 164-173: quantity.view[index], as a view into the data array *)
Definition view_index (m : meta) (i : pyindex) : res view :=
  match m_origin m with
  | [] => do _ <- zero_dim_index i; Ok (v_whole (m_shape m))
  | _ => do es <- get_compute_index m i; v_index (v_whole (m_shape m)) es
  end.
Definition view_get {V} (q : quantity V) (i : pyindex) : res (arr V) :=
  rmap (v_read (q_data q)) (view_index (q_meta q) i).

(** quantity.py 175-176: quantity.view[index] = value *)
Definition q_with_data {V} (q : quantity V) (a : arr V) : quantity V :=
  mkQ a (q_dims q) (q_units q) (q_origin q) (q_extent q).
Definition view_set {V} (q : quantity V) (i : pyindex) (value : arr V) : res (quantity V) :=
  do es <- get_compute_index (q_meta q) i;
  do a <- setitem (q_data q) es value;
  Ok (q_with_data q a).

(** which of the corner views, or view.interior (quantity.py 138-152) *)
Inductive vkind := VCorner (b : btype) | VInterior.

(** _boundary_utils.py 97-126. All dims which are not listed give None. *)
Definition at_start_mapping (b : btype) : dict bool :=
  let west := [(X_DIM, true); (X_INTERFACE_DIM, true)] in
  let east := [(X_DIM, false); (X_INTERFACE_DIM, false)] in
  let south := [(Y_DIM, true); (Y_INTERFACE_DIM, true)] in
  let north := [(Y_DIM, false); (Y_INTERFACE_DIM, false)] in
  match b with
  | WEST => west | EAST => east | SOUTH => south | NORTH => north
  | NORTHWEST => north ++ west | NORTHEAST => north ++ east
  | SOUTHWEST => south ++ west | SOUTHEAST => south ++ east
  end.
Definition boundary_at_start_of_dim (b : btype) (dim : string) : option bool :=
  dget dim (at_start_mapping b).

(** _boundary_utils.py 43-53 *)
Definition get_offset (k : vkind) (dim : string) (origin extent : Z) : Z * Z :=
  match k with
  | VInterior => (origin, origin + extent)
  | VCorner b =>
      match boundary_at_start_of_dim b dim with
      | None => (origin, origin)
      | Some true => (origin, origin)
      | Some false => (origin + extent, origin + extent)
      end
  end.

(** _boundary_utils.py 24-40; None + int is a TypeError *)
Definition shift_boundary_slice (dim : string) (origin extent : Z) (k : vkind) (e : ientry) : res ientry :=
  let '(start_offset, stop_offset) := get_offset k dim origin extent in
  match e with
  | ISlice start stop step =>
      let start := match start with Some s => Some (s + start_offset) | None => None end in
      let stop := match stop with Some s => Some (s + stop_offset) | None => None end in
      Ok (bound_default_slice start stop step origin (origin + extent))
  | IInt i => Ok (IInt (i + start_offset))
  | INone => Err TypeError
  end.

(** _boundary_utils.py 7-13 *)
Fixpoint shift_boundary_slice_tuple (dims : list string) (origin extent : list Z) (k : vkind)
    (es : list ientry) : res (list ientry) :=
  match dims, es, origin, extent with
  | d :: dims', e :: es', o :: origin', x :: extent' =>
      do e' <- shift_boundary_slice d o x k e;
      do r <- shift_boundary_slice_tuple dims' origin' extent' k es';
      Ok (e' :: r)
  | _, _, _, _ => Ok []
  end.

(** quantity.py 79-93 *)
Definition get_array_index (m : meta) (k : vkind) (i : pyindex) : res (list ientry) :=
  let index := index_list i in
  if Nat.ltb (length (m_dims m)) (length index) then Err IndexError
  else shift_boundary_slice_tuple (m_dims m) (m_origin m) (m_extent m) k
         (index ++ repeat IALL (length (m_dims m) - length index)).

(** quantity.py 65-74 and 76-77: e.g. quantity.view.northwest[index] *)
Definition corner_index (m : meta) (k : vkind) (i : pyindex) : res view :=
  match m_origin m with
  | [] => do _ <- zero_dim_index i; Ok (v_whole (m_shape m))
  | _ => do es <- get_array_index m k i; v_index (v_whole (m_shape m)) es
  end.
Definition corner_get {V} (q : quantity V) (k : vkind) (i : pyindex) : res (arr V) :=
  rmap (v_read (q_data q)) (corner_index (q_meta q) k i).
Definition corner_set {V} (q : quantity V) (k : vkind) (i : pyindex) (value : arr V) : res (quantity V) :=
  do es <- get_array_index (q_meta q) k i;
  do a <- setitem (q_data q) es value;
  Ok (q_with_data q a).

(** quantity.py 106 and 377: index tuple of sel( **kwargs ) *)
Definition sel_index (dims : list string) (kwargs : dict ientry) : pyindex :=
  PTuple (map (fun d => match dget d kwargs with Some e => e | None => IALL end) dims).
Definition corner_sel (m : meta) (k : vkind) (kwargs : dict ientry) : res view :=
  corner_index m k (sel_index (m_dims m) kwargs).
Definition view_sel (m : meta) (kwargs : dict ientry) : res view :=
  view_index m (sel_index (m_dims m) kwargs).

(** _boundary_utils.py 59-93 (body of the loop) *)
Definition boundary_slice_1d (dim : string) (origin extent shape : Z) (b : btype) (n_halo : Z)
    (interior : bool) : res (Z * Z) :=
  let n_overlap := if sin dim INTERFACE_DIMS then 1 else 0 in
  let n_points := n_halo in
  let at_start := boundary_at_start_of_dim b dim in
  let '(start, stop) :=
    if negb (sin dim HORIZONTAL_DIMS) then (origin, origin + extent)
    else match at_start with
         | None => (origin, origin + extent)
         | Some true =>
             let edge_index := origin in
             if interior then let edge_index := edge_index + n_overlap in (edge_index, edge_index + n_points)
             else (edge_index - n_points, edge_index)
         | Some false =>
             let edge_index := origin + extent in
             if interior then let edge_index := edge_index - n_overlap in (edge_index - n_points, edge_index)
             else (edge_index, edge_index + n_points)
         end in
  if start <? 0 then Err OutOfBoundsError
  else if shape <? stop then Err OutOfBoundsError
  else Ok (start, stop).

(** _boundary_utils.py 56-94. The lru_cache stores tuples of slices of hashable arguments, both
    immutable, so it does not change results. *)
Fixpoint get_boundary_slice (dims : list string) (origin extent shape : list Z) (b : btype)
    (n_halo : Z) (interior : bool) : res (list (Z * Z)) :=
  match dims, origin, extent, shape with
  | d :: dims', o :: origin', x :: extent', s :: shape' =>
      do se <- boundary_slice_1d d o x s b n_halo interior;
      do r <- get_boundary_slice dims' origin' extent' shape' b n_halo interior;
      Ok (se :: r)
  | _, _, _, _ => Ok []
  end.

(** quantity.py 522-545; a target is a name or an iterable of names *)
Inductive tdim := TName (d : string) | TAny (l : list string).

Definition collapse_dim (dims : list string) (t : tdim) : res string :=
  match t with
  | TName d => if sin d dims then Ok d else Err ValueError
  | TAny l => match filter (fun d => sin d dims) l with
              | [d] => Ok d
              | _ => Err ValueError
              end
  end.
Definition collapse_dims (targets : list tdim) (dims : list string) : res (list string) :=
  rmapM (collapse_dim dims) targets.

(** tuple.index: first position *)
Fixpoint dindex (d : string) (dims : list string) : nat :=
  match dims with
  | [] => O
  | d' :: dims' => if String.eqb d d' then O else S (dindex d dims')
  end.

(** numpy.transpose raises ValueError unless the order is a permutation of the axes *)
Definition is_perm (order : list nat) (n : nat) : bool :=
  Nat.eqb (length order) n && forallb (fun i => existsb (Nat.eqb i) order) (seq 0 n).

(** quantity.py 477-519. The new quantity shares memory with the old one: its data is a view. *)
Definition transpose_order (dims : list string) (targets : list tdim) : res (list nat) :=
  do t <- collapse_dims targets dims; Ok (map (fun d => dindex d dims) t).
Definition q_transpose {V} (q : quantity V) (targets : list tdim) : res (quantity V) :=
  do order <- transpose_order (q_dims q) targets;
  if is_perm order (length (shp (q_data q))) then
    new_quantity (DArray (v_read (q_data q) (v_transpose (v_whole (shp (q_data q))) order)))
      (map (fun i => nth i (q_dims q) EmptyString) order) (q_units q)
      (Some (map (fun i => nth i (q_origin q) 0) order))
      (Some (map (fun i => nth i (q_extent q) 0) order))
  else Err ValueError.
