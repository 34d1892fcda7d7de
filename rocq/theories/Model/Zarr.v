(** Model of fv3gfs/util/zarr_monitor.py, and of the parts of zarr (version 2) it uses, on a store shared by all ranks.
    Simplifications: elements of all arrays have one type; attributes of a quantity other than its units are empty; the group
    has been opened (ZarrOpen.v); a chunk is always read before it is written, also when it is overwritten as a whole, which
    makes no difference; a chunk never written reads as arbitrary data (fill_value=None); creating, resizing, changing
    attributes, reading a chunk, writing a chunk and loading an array's metadata are atomic; conversion of cupy arrays is
    left out. *)
From Verif.Base Require Import Base.
From Verif.Model Require Import Consts Partitioner Numpy Quantity ScatterGather Shared.

(** ** the store *)
(** attributes: _ARRAY_DIMENSIONS, units, calendar *)
Record zattrs := mkZA { za_dims : list string; za_units : option string; za_calendar : option string }.
Record zmeta := mkZM { z_shape : list Z; z_chunks : list Z; z_attrs : zattrs }.

Fixpoint strings_eqb (l l' : list string) : bool :=
  match l, l' with [], [] => true | s :: l, s' :: l' => String.eqb s s' && strings_eqb l l' | _, _ => false end.
Definition option_eqb (o o' : option string) : bool :=
  match o, o' with None, None => true | Some s, Some s' => String.eqb s s' | _, _ => false end.
Definition attrs_eqb (a b : zattrs) : bool :=
  strings_eqb (za_dims a) (za_dims b) && option_eqb (za_units a) (za_units b) && option_eqb (za_calendar a) (za_calendar b).

Section Zarr.
Variables V Time : Type.
(** what reading uninitialised memory gives *)
Variable junk : list Z -> V.
(** calendar and text of a time; seconds between a time and the one the units refer to *)
Variables calendar_of text_of : Time -> string.
Variable encode : Time -> Time -> V.

(** contents of a chunk by position inside it *)
Definition chunk := list Z -> V.
Record zstore := mkStore { s_meta : string -> option zmeta; s_cells : string -> list Z -> option chunk }.
Definition empty_store : zstore := mkStore (fun _ => None) (fun _ _ => None).

Inductive zop :=
| OCreate (name : string) (m : zmeta)
| OAttrs (name : string) (a : zattrs)
| OResize (name : string) (shape : list Z)
| OLoad (name : string)
| ORead (name : string) (c : list Z)
| OWrite (name : string) (c : list Z) (data : chunk).
Inductive zans := AUnit | ARaised (e : exc) | ALoaded (m : option zmeta) | AChunk (d : option chunk).

Definition set_meta (name : string) (m : zmeta) (f : string -> option zmeta) : string -> option zmeta :=
  fun n => if String.eqb n name then Some m else f n.
Definition set_cell (name : string) (c : list Z) (d : chunk) (f : string -> list Z -> option chunk) : string -> list Z -> option chunk :=
  fun n c' => if String.eqb n name && idx_eqb c' c then Some d else f n c'.
(** is a chunk inside an array of the given shape? *)
Definition chunk_inside (shape chunks c : list Z) : bool :=
  forallb (fun x => x) (map2 Z.ltb (map2 Z.mul c chunks) shape).

Definition zexec (o : zop) (s : zstore) : zans * zstore :=
  match o with
  | OCreate name m =>
      match s_meta s name with
      | Some _ => (ARaised ValueError, s)   (* ContainsArrayError *)
      | None => (AUnit, mkStore (set_meta name m (s_meta s)) (s_cells s))
      end
  | OAttrs name a =>
      match s_meta s name with
      | Some m => (AUnit, mkStore (set_meta name (mkZM (z_shape m) (z_chunks m) a) (s_meta s)) (s_cells s))
      | None => (ARaised KeyError, s)
      end
  | OResize name shape =>   (* chunks outside the new shape are deleted *)
      match s_meta s name with
      | Some m =>
          if Nat.eqb (length shape) (length (z_shape m)) then
            (AUnit, mkStore (set_meta name (mkZM shape (z_chunks m) (z_attrs m)) (s_meta s))
                            (fun n c => if String.eqb n name && negb (chunk_inside shape (z_chunks m) c) then None else s_cells s n c))
          else (ARaised ValueError, s)
      | None => (ARaised KeyError, s)
      end
  | OLoad name => (ALoaded (s_meta s name), s)
  | ORead name c => (AChunk (s_cells s name c), s)
  | OWrite name c d => (AUnit, mkStore (s_meta s) (set_cell name c d (s_cells s)))
  end.

Definition zproc := sproc zop zans.

(** ** writing a region: zarr's __setitem__ *)
(** chunks along one axis which [start, start + len) touches: the first and their number *)
Definition chunk_first (n start : Z) : Z := start / n.
Definition chunk_count (n start len : Z) : Z := if len <=? 0 then 0 else (start + len - 1) / n - start / n + 1.
Definition region_chunks (chunks : list Z) (region : list (Z * Z)) : list (list Z) :=
  map (map2 Z.add (map2 (fun n r => chunk_first n (fst r)) chunks region))
      (all_idx (map2 (fun n r => chunk_count n (fst r) (snd r)) chunks region)).
Definition in_region (region : list (Z * Z)) (g : list Z) : bool :=
  forallb (fun x => x) (map2 (fun r x => (fst r <=? x) && (x <? fst r + snd r)) region g).
(** new contents of chunk [c]; [ints] leading axes are indexed by integers and do not appear in the value *)
Definition merged (ints : nat) (chunks : list Z) (region : list (Z * Z)) (value : arr V) (c : list Z) (old : option chunk) : chunk :=
  fun p => let g := map2 Z.add (map2 Z.mul c chunks) p in
           if in_region region g then at_ value (skipn ints (map2 (fun x r => x - fst r) g region))
           else match old with Some d => d p | None => junk p end.
Fixpoint write_chunks (name : string) (ints : nat) (chunks : list Z) (region : list (Z * Z)) (value : arr V) (cs : list (list Z)) : zproc unit :=
  match cs with
  | [] => SRet tt
  | c :: cs' => SDo (ORead name c) (fun a =>
                SDo (OWrite name c (merged ints chunks region value c (match a with AChunk d => d | _ => None end))) (fun _ =>
                write_chunks name ints chunks region value cs'))
  end.
(** start and length of slices of an array with the given shape *)
Fixpoint norm_slices (shape : list Z) (box : list (Z * Z)) : res (list (Z * Z)) :=
  match shape, box with
  | n :: shape, b :: box =>
      do (a, len, _) <- slice_norm n (Some (fst b)) (Some (snd b)) None;
      do rest <- norm_slices shape box;
      Ok ((a, len) :: rest)
  | [], [] => Ok []
  | _, _ => Err IndexError
  end.
(** array[ints + slices] = value: integers out of bounds raise IndexError, a value of another shape ValueError *)
Definition zarr_set (name : string) (m : zmeta) (ints : list Z) (box : list (Z * Z)) (value : arr V) : res (zproc unit) :=
  if forallb (fun x => x) (map2 (fun i n => (0 <=? i) && (i <? n)) ints (z_shape m)) then
    do slices <- norm_slices (skipn (length ints) (z_shape m)) box;
    if idx_eqb (shp value) (map snd slices) then
      let region := (map (fun i => (i, 1)) ints ++ slices)%list in
      Ok (write_chunks name (length ints) (z_chunks m) region value (region_chunks (z_chunks m) region))
    else Err ValueError
  else Err IndexError.

(** ** writers *)
(** i_time, array (None before the first append), time the units refer to *)
Record writer := mkW { w_time : Z; w_array : option zmeta; w_since : option Time }.
Definition new_writer : writer := mkW 0 None None.

Section Rank.
Variable layout : layout_t.
Variable rank : Z.

(** zarr_monitor.py 211-224 *)
Definition array_chunks (tile_array_shape : list Z) (array_dims : list string) : list Z :=
  map2 (fun ed n_ranks => let '(extent, dim) := ed in if sin dim INTERFACE_DIMS then (extent - 1) / n_ranks else extent / n_ranks)
    (combine tile_array_shape array_dims) (list_by_dims array_dims layout 1).

(** zarr_monitor.py 154-155: the array broadcast is a reference to the store; its metadata is loaded on arrival *)
Definition sync_array {A} (name : string) (array : option zmeta) (k : option zmeta -> zproc A) : zproc A :=
  SSync false (if rank =? ROOT_RANK then k array
               else SDo (OLoad name) (fun a => k (match a with ALoaded m => m | _ => None end))).

(** zarr_monitor.py 134-138, 140-152 *)
Definition init_zarr (name : string) (w : writer) (shape chunks : list Z) (attrs : zattrs) : zproc (writer * res unit) :=
  let finish w := sync_array name (w_array w) (fun array => SRet (mkW (w_time w) array (w_since w), Ok tt)) in
  if rank =? ROOT_RANK then
    let m := mkZM shape chunks (mkZA [] None None) in
    SDo (OCreate name m) (fun a =>
      match a with
      | ARaised e => SRet (w, Err e)
      | _ => SDo (OAttrs name attrs) (fun _ => finish (mkW (w_time w) (Some (mkZM shape chunks attrs)) (w_since w)))
      end)
  else finish w.

(** zarr_monitor.py 197-201 *)
Definition get_attrs (q : quantity V) : zattrs := mkZA ("time"%string :: "tile"%string :: q_dims q) (Some (q_units q)) None.

(** zarr_monitor.py 162-169, on the root; the shape is changed before attributes are compared *)
Definition resize (name : string) (w : writer) (m : zmeta) (new_shape : list Z) (compatible : bool) (k : writer -> zproc (writer * res unit)) : zproc (writer * res unit) :=
  if (nth 0 (z_shape m) 0 <=? w_time w) && (rank =? ROOT_RANK) then
    SDo (OResize name new_shape) (fun a =>
      match a with
      | ARaised e => SRet (w, Err e)
      | _ => let w := mkW (w_time w) (Some (mkZM new_shape (z_chunks m) (z_attrs m))) (w_since w) in
             if compatible then k w else SRet (w, Err ValueError)
      end)
  else k w.

(** zarr_monitor.py 157-195, 227-232 *)
Definition append (name : string) (w : writer) (q : quantity V) : zproc (writer * res unit) :=
  let tile_shape := tp_global_extent layout (q_dims q) (q_extent q) in
  sbind (match w_array w with
         | None => init_zarr name w (1 :: 6 :: tile_shape) (1 :: 1 :: array_chunks tile_shape (q_dims q)) (get_attrs q)
         | Some _ => SRet (w, Ok tt)
         end) (fun wr =>
  match wr with
  | (w, Err e) => SRet (w, Err e)
  | (w, Ok _) =>
      match w_array w with
      | None => SRet (w, Err AttributeError)
      | Some m =>
          resize name w m (w_time w + 1 :: 6 :: tile_shape) (attrs_eqb (z_attrs m) (get_attrs q)) (fun w =>
          sync_array name (w_array w) (fun array =>
          let w := mkW (w_time w) array (w_since w) in
          match array with
          | None => SRet (w, Err AttributeError)
          | Some m =>
              match (do tile <- tile_index layout rank;
                     do box <- subtile_slice (q_dims q) (skipn 2 (z_shape m)) layout (tile_subtile_index layout rank) false;
                     do whole <- view_get q (PSingle IALL);
                     do v <- v_index (v_whole (shp whole)) (map (fun b => ISL 0 (snd b - fst b)) box);
                     zarr_set name m [w_time w; tile] box (v_read whole v)) with
              | Err e => SRet (w, Err e)
              | Ok p => sbind p (fun _ => SRet (mkW (w_time w + 1) (w_array w) (w_since w), Ok tt))
              end
          end))
      end
  end).

(** zarr_monitor.py 235-293; encoding attributes are set on every rank, the calendar is compared on the root only *)
Definition TIME_CHUNK_SIZE : Z := 1024.
Definition append_time (name : string) (w : writer) (t : Time) : zproc (writer * res unit) :=
  sbind (match w_array w with
         | None =>
             sbind (init_zarr name w [1] [TIME_CHUNK_SIZE] (mkZA ["time"%string] None None)) (fun wr =>
             match wr with
             | (w, Err e) => SRet (w, Err e)
             | (w, Ok _) =>
                 let w := mkW (w_time w) (w_array w) (Some t) in
                 match w_array w with
                 | None => SRet (w, Err AttributeError)
                 | Some m =>
                     if rank =? ROOT_RANK then
                       let attrs := mkZA (za_dims (z_attrs m)) (Some ("seconds since " ++ text_of t)%string) (Some (calendar_of t)) in
                       SDo (OAttrs name attrs) (fun _ => SRet (mkW (w_time w) (Some (mkZM (z_shape m) (z_chunks m) attrs)) (w_since w), Ok tt))
                     else SRet (w, Ok tt)
                 end
             end)
         | Some _ => SRet (w, Ok tt)
         end) (fun wr =>
  match wr with
  | (w, Err e) => SRet (w, Err e)
  | (w, Ok _) =>
      match w_array w, w_since w with
      | Some m, Some since =>
          resize name w m [w_time w + 1] true (fun w =>
          sync_array name (w_array w) (fun array =>
          let w := mkW (w_time w) array (w_since w) in
          match array with
          | None => SRet (w, Err AttributeError)
          | Some m =>
              let finish := SSync true (SRet (mkW (w_time w + 1) (w_array w) (w_since w), Ok tt)) in
              if rank =? ROOT_RANK then
                if String.eqb (calendar_of t) (calendar_of since) then
                  match zarr_set name m [w_time w] [] (mkA [] (fun _ => encode since t)) with
                  | Err e => SRet (w, Err e)
                  | Ok p => sbind p (fun _ => finish)
                  end
                else SRet (w, Err ValueError)
              else finish
          end))
      | _, _ => SRet (w, Err AttributeError)
      end
  end).

(** ** the monitor *)
Definition monitor := option (dict writer).
Inductive value := VQuantity (q : quantity V) | VTime (t : Time).
Definition items (st : state V Time) : dict value :=
  (map (fun nq => (fst nq, VQuantity (snd nq))) (st_vars st) ++ match st_time st with Some t => [("time"%string, VTime t)] | None => [] end)%list.

(** sorted(state.items()) *)
Fixpoint insert {A} (x : string * A) (l : dict A) : dict A :=
  match l with
  | [] => [x]
  | y :: l' => match String.compare (fst x) (fst y) with Gt => y :: insert x l' | _ => x :: l end
  end.
Fixpoint sorted {A} (l : dict A) : dict A := match l with [] => [] | x :: l' => insert x (sorted l') end.

(** zarr_monitor.py 70-80; the writers of a set of names *)
Definition init_writers (names : list string) : dict writer :=
  (map (fun n => (n, new_writer)) (filter (fun n => negb (String.eqb n "time")) names) ++ [("time"%string, new_writer)])%list.
(** zarr_monitor.py 82-95 *)
Definition check_writers (writers : dict writer) (names : list string) : bool :=
  forallb (fun n => dmem n writers) names && forallb (fun n => sin n names) (dkeys writers).

(** zarr_monitor.py 113-114 *)
Fixpoint append_all (writers : dict writer) (l : dict value) : zproc (dict writer * res unit) :=
  match l with
  | [] => SRet (writers, Ok tt)
  | (name, v) :: l' =>
      match dget name writers with
      | None => SRet (writers, Err KeyError)
      | Some w =>
          sbind (match v with VQuantity q => append name w q | VTime t => append_time name w t end) (fun wr =>
          let '(w, r) := wr in
          let writers := dset name w writers in
          match r with Err e => SRet (writers, Err e) | Ok _ => append_all writers l' end)
      end
  end.

(** zarr_monitor.py 97-114 *)
Definition store (m : monitor) (st : state V Time) : zproc (monitor * res unit) :=
  let names := dkeys (items st) in
  match m with
  | Some writers =>
      if check_writers writers names then sbind (append_all writers (sorted (items st))) (fun wr => SRet (Some (fst wr), snd wr))
      else SRet (m, Err ValueError)
  | None => sbind (append_all (init_writers names) (sorted (items st))) (fun wr => SRet (Some (fst wr), snd wr))
  end.

(** states stored one after the other until one is refused *)
Fixpoint store_all (m : monitor) (l : list (state V Time)) : zproc (monitor * res unit) :=
  match l with
  | [] => SRet (m, Ok tt)
  | st :: l' => sbind (store m st) (fun mr => match mr with (m, Err e) => SRet (m, Err e) | (m, Ok _) => store_all m l' end)
  end.
(** states stored one after the other, going on after errors *)
Fixpoint store_each (m : monitor) (l : list (state V Time)) : zproc (monitor * list (res unit)) :=
  match l with
  | [] => SRet (m, [])
  | st :: l' => sbind (store m st) (fun mr => sbind (store_each (fst mr) l') (fun ml => SRet (fst ml, snd mr :: snd ml)))
  end.
End Rank.
End Zarr.
Arguments mkStore {V}. Arguments s_meta {V}. Arguments s_cells {V}. Arguments empty_store {V}. Arguments zexec {V}.
Arguments mkW {Time}. Arguments w_time {Time}. Arguments w_array {Time}. Arguments w_since {Time}.
Arguments OCreate {V}. Arguments OAttrs {V}. Arguments OResize {V}. Arguments OLoad {V}. Arguments ORead {V}. Arguments OWrite {V}.
Arguments AUnit {V}. Arguments ARaised {V}. Arguments ALoaded {V}. Arguments AChunk {V}.
