(** partitioner.py with object identity: SimpleBoundary objects live in a heap, the two
    [functools.lru_cache(maxsize=None)] tables hold references, [boundary()] hands out copies and
    callers may overwrite the fields of objects they were given. *)
From Verif.Base Require Import Base.
From Verif.Model Require Import Consts Partitioner.

(** heap of SimpleBoundary objects; references are positions *)
Record cstate := mkCS {
  heap : list boundary;
  tcache : list ((btype * Z) * nat);            (* TilePartitioner._cached_boundary *)
  ccache : list ((btype * Z) * option nat) }.   (* CubedSpherePartitioner._cached_boundary *)

(** exceptions leave the state reached so far *)
Definition CM (A : Type) : Type := cstate -> cstate * res A.
Definition ret {A} (a : A) : CM A := fun s => (s, Ok a).
Definition lift {A} (r : res A) : CM A := fun s => (s, r).
Definition mbind {A B} (m : CM A) (f : A -> CM B) : CM B := fun s =>
  match m s with (s', Ok a) => f a s' | (s', Err e) => (s', Err e) end.
Notation "'mdo' x <- m ; k" := (mbind m (fun x => k)) (at level 200, x pattern, m at level 100, k at level 200).

Definition dummy_boundary : boundary := mkB WEST 0 0 0.

(** SimpleBoundary(...) *)
Definition new_obj (b : boundary) : CM nat := fun s =>
  (mkCS (heap s ++ [b]) (tcache s) (ccache s), Ok (length (heap s))).
(** reading the fields of an object *)
Definition deref (l : nat) : CM boundary := fun s => (s, Ok (nth l (heap s) dummy_boundary)).
(** overwriting an object's fields *)
Definition put (l : nat) (b : boundary) : CM unit := fun s =>
  (mkCS (upd (heap s) l b) (tcache s) (ccache s), Ok tt).
(** [boundary.to_rank = f(boundary.to_rank)] *)
Definition modify_to (l : nat) (f : Z -> Z) : CM unit :=
  mdo b <- deref l; put l (set_to b (f (b_to b))).
(** [copy.copy] *)
Definition copy_obj (l : nat) : CM nat := mdo b <- deref l; new_obj b.

Definition key_eqb (a b : btype * Z) : bool := btype_eqb (fst a) (fst b) && (snd a =? snd b).
Fixpoint cfind {V} (k : btype * Z) (c : list ((btype * Z) * V)) : option V :=
  match c with
  | [] => None
  | (k', v) :: c => if key_eqb k k' then Some v else cfind k c
  end.

Section Layout.
Variable layout : layout_t.

(** partitioner.py 208-222 (TilePartitioner._cached_boundary; the intermediate edge objects of a
    corner are garbage and not allocated in the model) *)
Definition tile_cached (bt : btype) (rank : Z) : CM nat := fun s =>
  match cfind (bt, rank) (tcache s) with
  | Some l => (s, Ok l)
  | None =>
      match new_obj (tp_boundary layout bt rank) s with
      | (s', Ok l) => (mkCS (heap s') (((bt, rank), l) :: tcache s') (ccache s'), Ok l)
      | (s', Err e) => (s', Err e)
      end
  end.

(** partitioner.py 192-206 *)
Definition tile_boundary_obj (bt : btype) (rank : Z) : CM nat :=
  mdo l <- tile_cached bt rank; copy_obj l.

(** partitioner.py 386-408 *)
Definition left_edge_obj (rank : Z) : CM nat :=
  mdo _ <- lift (ensure_square_layout layout);
  if tp_on_left layout rank then
    mdo ti <- lift (tile_index layout rank);
    if is_even ti then
      let to_root_rank := tile_root_rank layout (rank - 2 * tile_total_ranks layout) in
      let tile_rank := rank mod tile_total_ranks layout in
      mdo to_tile_rank <- lift (flip_rot layout tile_rank);
      new_obj (mkB WEST rank (to_root_rank + to_tile_rank) 1)
    else
      mdo b <- tile_boundary_obj WEST rank;
      mdo _ <- modify_to b (fun r => r - tile_total_ranks layout);
      ret b
  else tile_boundary_obj WEST rank.

(** partitioner.py 410-430 *)
Definition right_edge_obj (rank : Z) : CM nat :=
  mdo _ <- lift (ensure_square_layout layout);
  if tp_on_right layout rank then
    mdo ti <- lift (tile_index layout rank);
    if negb (is_even ti) then
      let to_root_rank := tile_root_rank layout (rank + 2 * tile_total_ranks layout) in
      let tile_rank := rank mod tile_total_ranks layout in
      mdo to_tile_rank <- lift (flip_rot layout tile_rank);
      new_obj (mkB EAST rank (to_root_rank + to_tile_rank) 1)
    else
      mdo b <- tile_boundary_obj EAST rank;
      mdo _ <- modify_to b (fun r => r + tile_total_ranks layout);
      ret b
  else tile_boundary_obj EAST rank.

(** partitioner.py 432-452 *)
Definition top_edge_obj (rank : Z) : CM nat :=
  mdo _ <- lift (ensure_square_layout layout);
  if tp_on_top layout rank then
    mdo ti <- lift (tile_index layout rank);
    if is_even ti then
      let to_root_rank := (ti + 2) * tile_total_ranks layout in
      let tile_rank := rank mod tile_total_ranks layout in
      mdo to_tile_rank <- lift (flip_rot layout tile_rank);
      new_obj (mkB NORTH rank (to_root_rank + to_tile_rank) 3)
    else
      mdo b <- tile_boundary_obj NORTH rank;
      mdo _ <- modify_to b (fun r => r + tile_total_ranks layout);
      ret b
  else tile_boundary_obj NORTH rank.

(** partitioner.py 454-470 *)
Definition bottom_edge_obj (rank : Z) : CM nat :=
  mdo _ <- lift (ensure_square_layout layout);
  mdo odd_bottom <- lift (if tp_on_bottom layout rank
                          then do ti <- tile_index layout rank; Ok (negb (is_even ti)) else Ok false);
  if odd_bottom : bool then
    mdo ti <- lift (tile_index layout rank);
    let to_root_rank := (ti - 2) * tile_total_ranks layout in
    let tile_rank := rank mod tile_total_ranks layout in
    mdo to_tile_rank <- lift (flip_rot layout tile_rank);
    new_obj (mkB SOUTH rank (to_root_rank + to_tile_rank) 3)
  else
    mdo b <- tile_boundary_obj SOUTH rank;
    if tp_on_bottom layout rank then
      mdo _ <- modify_to b (fun r => r - tile_total_ranks layout); ret b
    else ret b.

(** partitioner.py 538-553 *)
Definition get_corner_obj (bt : btype) (rank : Z) (edge_func_1 edge_func_2 : Z -> CM nat) : CM (option nat) :=
  mdo e1 <- edge_func_1 rank;
  mdo edge_1 <- deref e1;
  mdo e2 <- edge_func_2 (b_to edge_1);
  mdo edge_2 <- deref e2;
  mdo edge_1 <- deref e1;
  mdo l <- new_obj (mkB bt rank (b_to edge_2) (b_rot edge_1 + b_rot edge_2));
  ret (Some l).

(** partitioner.py 472-536 *)
Definition top_left_corner_obj (rank : Z) : CM (option nat) :=
  if tp_on_top layout rank && tp_on_left layout rank then ret None
  else
    mdo ti <- lift (tile_index layout rank);
    let second_edge := if is_even ti && tp_on_left layout rank then left_edge_obj else top_edge_obj in
    get_corner_obj NORTHWEST rank left_edge_obj second_edge.
Definition top_right_corner_obj (rank : Z) : CM (option nat) :=
  if tp_on_top layout rank && tp_on_right layout rank then ret None
  else
    mdo ti <- lift (tile_index layout rank);
    let second_edge := if is_even ti && tp_on_top layout rank then bottom_edge_obj else right_edge_obj in
    get_corner_obj NORTHEAST rank top_edge_obj second_edge.
Definition bottom_left_corner_obj (rank : Z) : CM (option nat) :=
  if tp_on_bottom layout rank && tp_on_left layout rank then ret None
  else
    mdo ti <- lift (tile_index layout rank);
    let second_edge := if negb (is_even ti) && tp_on_bottom layout rank then top_edge_obj else left_edge_obj in
    get_corner_obj SOUTHWEST rank bottom_edge_obj second_edge.
Definition bottom_right_corner_obj (rank : Z) : CM (option nat) :=
  if tp_on_bottom layout rank && tp_on_right layout rank then ret None
  else
    mdo ti <- lift (tile_index layout rank);
    let second_edge := if negb (is_even ti) && tp_on_bottom layout rank then bottom_edge_obj else right_edge_obj in
    get_corner_obj SOUTHEAST rank bottom_edge_obj second_edge.

(** partitioner.py 368-384 *)
Definition cube_cached (bt : btype) (rank : Z) : CM (option nat) := fun s =>
  match cfind (bt, rank) (ccache s) with
  | Some l => (s, Ok l)
  | None =>
      match (mdo b <- match bt with
                      | WEST => mdo l <- left_edge_obj rank; ret (Some l)
                      | EAST => mdo l <- right_edge_obj rank; ret (Some l)
                      | NORTH => mdo l <- top_edge_obj rank; ret (Some l)
                      | SOUTH => mdo l <- bottom_edge_obj rank; ret (Some l)
                      | NORTHWEST => top_left_corner_obj rank
                      | NORTHEAST => top_right_corner_obj rank
                      | SOUTHWEST => bottom_left_corner_obj rank
                      | SOUTHEAST => bottom_right_corner_obj rank
                      end;
             match b with
             | Some l => mdo _ <- modify_to l (fun r => r mod total_ranks layout); ret (Some l)
             | None => ret None
             end) s with
      | (s', Ok l) => (mkCS (heap s') (tcache s') (((bt, rank), l) :: ccache s'), Ok l)
      | (s', Err e) => (s', Err e)
      end
  end.

(** partitioner.py 353-366; copy.copy(None) is None *)
Definition cube_boundary_obj (bt : btype) (rank : Z) : CM (option nat) :=
  mdo l <- cube_cached bt rank;
  match l with
  | Some l => mdo l' <- copy_obj l; ret (Some l')
  | None => ret None
  end.

(** What a caller can do: look up boundaries and overwrite any object it was given (by its index in
    the list of references received so far). *)
Inductive call :=
| LookupTile (bt : btype) (rank : Z)
| LookupCube (bt : btype) (rank : Z)
| Overwrite (i : nat) (b : boundary).

(** client view: the partitioner state and the references handed out *)
Definition client_step (c : call) (s : cstate * list nat) : cstate * list nat :=
  let '(st, refs) := s in
  match c with
  | LookupTile bt rank =>
      match tile_boundary_obj bt rank st with
      | (st', Ok l) => (st', refs ++ [l])
      | (st', Err _) => (st', refs)
      end
  | LookupCube bt rank =>
      match cube_boundary_obj bt rank st with
      | (st', Ok (Some l)) => (st', refs ++ [l])
      | (st', _) => (st', refs)
      end
  | Overwrite i b =>
      match nth_error refs i with
      | Some l => (fst (put l b st), refs)
      | None => (st, refs)
      end
  end.

Definition client_run (cs : list call) : cstate * list nat :=
  fold_left (fun s c => client_step c s) cs (mkCS [] [] [], []).

(** The values a lookup shows to the caller. *)
Definition lookup_cube (cs : list call) (bt : btype) (rank : Z) : res (option boundary) :=
  match cube_boundary_obj bt rank (fst (client_run cs)) with
  | (st', Ok (Some l)) => Ok (Some (nth l (heap st') dummy_boundary))
  | (_, Ok None) => Ok None
  | (_, Err e) => Err e
  end.
Definition lookup_tile (cs : list call) (bt : btype) (rank : Z) : res boundary :=
  match tile_boundary_obj bt rank (fst (client_run cs)) with
  | (st', Ok l) => Ok (nth l (heap st') dummy_boundary)
  | (_, Err e) => Err e
  end.
End Layout.
