(** Which memory quantities use (fv3gfs/util/quantity.py 252-327, 393-417, 477-519) with numpy arrays and with gt4py storages, and
    allocation of storages (fv3gfs/util/initialization/allocator.py).

    An array object is a block of memory and what it shows of it.  A gt4py storage has a backend, a default origin and an array
    (numpy.asarray of a CPUStorage or of its data, gpu_view of a GPUStorage: all of the same memory, so they are not told apart).
    gt4py.storage.storage.empty makes a storage in a new block, or raises: [refuses] gives the exception for a backend, default
    origin and shape, about which nothing is assumed.  Storages which are neither CPUStorage nor GPUStorage are left out.  dtypes
    are not represented. *)
From Verif.Base Require Import Base.
From Verif.Model Require Import Consts Partitioner Numpy Quantity Sizer.

Record ref := mkRef { r_block : nat; r_view : view }.
Record storage := mkSto { s_backend : string; s_default_origin : list Z; s_ref : ref }.
(** quantity.py 252-327: [self._data], [self._storage], [self._metadata] *)
Record gquantity := mkGQ {
  g_ref : ref;
  g_storage : option storage;
  g_backend : option string;
  g_dims : list string;
  g_units : string;
  g_origin : list Z;
  g_extent : list Z
}.

Section Storage.
Variable V : Type.
Variable refuses : string -> list Z -> list Z -> option exc.
(** contents of new memory *)
Variable junk : nat -> idx -> V.

Definition memory := list (arr V).
Definition r_shape (r : ref) : list Z := vshp (r_view r).
(** what an array object shows *)
Definition show (m : memory) (r : ref) : option (arr V) := option_map (fun a => v_read a (r_view r)) (nth_error m (r_block r)).
(** [array[es] = src]; [es] is empty for array[...] *)
Definition write (m : memory) (r : ref) (es : list ientry) (src : arr V) : memory * res unit :=
  match nth_error m (r_block r) with
  | None => (m, Err IndexError)   (* there is no such object *)
  | Some a => match (do v <- v_index (r_view r) es; a_assign a v src) with
              | Ok a => (upd m (r_block r) a, Ok tt)
              | Err e => (m, Err e)
              end
  end.
(** a new array with its own memory *)
Definition new_array (m : memory) (a : arr V) : memory * ref := ((m ++ [a])%list, mkRef (length m) (v_whole (shp a))).

(** quantity.py 393-417: the storage gets a copy of the data *)
Definition initialize_storage (m : memory) (data : ref) (origin : list Z) (backend : string) : memory * res storage :=
  match refuses backend origin (r_shape data) with
  | Some e => (m, Err e)
  | None =>
      let '(m1, r) := new_array m (mkA (r_shape data) (junk (length m))) in
      match show m1 data with
      | None => (m, Err IndexError)   (* there is no such object *)
      | Some a => match write m1 r [] a with
                  | (m2, Ok _) => (m2, Ok (mkSto backend origin r))
                  | (_, Err e) => (m, Err e)
                  end
      end
  end.

(** quantity.py 252-327, for arrays and storages; memory which nothing refers to after an exception is freed *)
Inductive source := FromArray (r : ref) | FromStorage (s : storage).
Definition construct (m : memory) (data : source) (dims : list string) (units : string) (origin extent : option (list Z)) (backend : option string)
    : memory * res gquantity :=
  let shape := match data with FromArray r => r_shape r | FromStorage s => r_shape (s_ref s) end in
  let origin := match origin with Some o => o | None => map (fun _ => 0) dims end in
  let extent := match extent with Some e => e | None => map2 Z.sub shape origin end in
  let finish m' r sto backend :=
    match validate_lengths shape dims origin extent with
    | Ok _ => (m', Ok (mkGQ r sto backend dims units origin extent))
    | Err e => (m, Err e)
    end in
  match data, backend with
  | FromStorage _, Some _ => (m, Err TypeError)
  | FromStorage s, None => finish m (s_ref s) (Some s) (Some (s_backend s))
  | FromArray r, Some b =>
      match initialize_storage m r origin b with
      | (m', Ok s) => finish m' (s_ref s) (Some s) (Some b)
      | (_, Err e) => (m, Err e)
      end
  | FromArray r, None => finish m r None None
  end.

(** quantity.py 477-519; numpy.transpose gives a view *)
Definition g_transpose (m : memory) (q : gquantity) (targets : list tdim) : memory * res gquantity :=
  match transpose_order (g_dims q) targets with
  | Err e => (m, Err e)
  | Ok order =>
      if is_perm order (length (r_shape (g_ref q))) then
        construct m (FromArray (mkRef (r_block (g_ref q)) (v_transpose (r_view (g_ref q)) order)))
          (map (fun i => nth i (g_dims q) EmptyString) order) (g_units q)
          (Some (map (fun i => nth i (g_origin q) 0) order)) (Some (map (fun i => nth i (g_extent q) 0) order)) (g_backend q)
      else (m, Err ValueError)
  end.

(** quantity.py 380-391 *)
Definition get_storage (q : gquantity) : res storage := match g_storage q with Some s => Ok s | None => Err TypeError end.

(** the quantity as in [Quantity.v], with the contents its data has at present *)
Definition as_quantity (m : memory) (q : gquantity) : option (quantity V) :=
  option_map (fun a => mkQ a (g_dims q) (g_units q) (g_origin q) (g_extent q)) (show m (g_ref q)).

(** arrays made by the user, quantities *)
Record world := mkSW { w_mem : memory; w_arrays : list ref; w_quantities : list gquantity }.
Definition empty_world : world := mkSW [] [] [].
(** an array of the user, quantity.data, quantity.storage *)
Inductive object := OArray (n : nat) | OData (i : nat) | OStorage (i : nat).
Inductive use :=
| UNew (a : arr V)                               (* a new array of the user *)
| UMake (o : object) (dims : list string) (units : string) (origin extent : option (list Z)) (backend : option string)
| UTranspose (i : nat) (targets : list tdim)
| UWrite (o : object) (src : arr V)              (* object[...] = src *)
| UView (i : nat) (index : pyindex) (src : arr V).  (* quantity.view[index] = src, quantity.py 175-176 *)

Definition find_object (w : world) (o : object) : res source :=
  match o with
  | OArray n => match nth_error (w_arrays w) n with Some r => Ok (FromArray r) | None => Err IndexError end
  | OData i => match nth_error (w_quantities w) i with Some q => Ok (FromArray (g_ref q)) | None => Err IndexError end
  | OStorage i => match nth_error (w_quantities w) i with Some q => rmap FromStorage (get_storage q) | None => Err IndexError end
  end.
Definition keep (w : world) (mq : memory * res gquantity) : world * res unit :=
  match mq with
  | (m, Ok q) => (mkSW m (w_arrays w) (w_quantities w ++ [q]), Ok tt)
  | (m, Err e) => (mkSW m (w_arrays w) (w_quantities w), Err e)
  end.
Definition perform (u : use) (w : world) : world * res unit :=
  match u with
  | UNew a => let '(m, r) := new_array (w_mem w) a in (mkSW m (w_arrays w ++ [r]) (w_quantities w), Ok tt)
  | UMake o dims units origin extent backend =>
      match find_object w o with
      | Ok data => keep w (construct (w_mem w) data dims units origin extent backend)
      | Err e => (w, Err e)
      end
  | UTranspose i targets =>
      match nth_error (w_quantities w) i with
      | Some q => keep w (g_transpose (w_mem w) q targets)
      | None => (w, Err IndexError)
      end
  | UWrite o src =>
      match find_object w o with
      | Ok data => let r := match data with FromArray r => r | FromStorage s => s_ref s end in
                   let '(m, e) := write (w_mem w) r [] src in (mkSW m (w_arrays w) (w_quantities w), e)
      | Err e => (w, Err e)
      end
  | UView i index src =>
      match nth_error (w_quantities w) i with
      | Some q =>
          match get_compute_index (mkMeta (g_dims q) (g_origin q) (g_extent q) (r_shape (g_ref q))) index with
          | Ok es => let '(m, e) := write (w_mem w) (g_ref q) es src in (mkSW m (w_arrays w) (w_quantities w), e)
          | Err e => (w, Err e)
          end
      | None => (w, Err IndexError)
      end
  end.
(** exceptions are caught; the second result tells which uses succeeded *)
Fixpoint perform_all (us : list use) (w : world) : world * list bool :=
  match us with
  | [] => (w, [])
  | u :: us' => let '(w, r) := perform u w in
                let '(w, l) := perform_all us' w in
                (w, (match r with Ok _ => true | Err _ => false end) :: l)
  end.

(** allocator.py 11-31, 58-68 with a factory made by from_backend: the call with the keyword default_origin gives this argument twice,
    which raises TypeError, so the second call is made, with a default origin of zeros *)
Definition storage_allocate (s : sizer) (backend : string) (contents : idx -> V) (m : memory) (dims : list string) (units : string)
    : memory * res gquantity :=
  let origin := get_origin s dims in
  match get_extent s dims, get_shape s dims with
  | Ok extent, Ok shape =>
      let default_origin := map (fun _ => 0) shape in
      match refuses backend default_origin shape with
      | Some e => (m, Err e)
      | None =>
          let '(m1, r) := new_array m (mkA shape contents) in
          match construct m1 (FromStorage (mkSto backend default_origin r)) dims units (Some origin) (Some extent) None with
          | (m2, Ok q) => (m2, Ok q)
          | (_, Err e) => (m, Err e)
          end
      end
  | Err e, _ | _, Err e => (m, Err e)
  end.
End Storage.
Arguments UNew {V}. Arguments UMake {V}. Arguments UTranspose {V}. Arguments UWrite {V}. Arguments UView {V}.
Arguments mkSW {V}. Arguments w_mem {V}. Arguments w_arrays {V}. Arguments w_quantities {V}. Arguments empty_world {V}.
Arguments show {V}. Arguments write {V}. Arguments new_array {V}. Arguments initialize_storage {V}. Arguments construct {V}. Arguments g_transpose {V}.
Arguments as_quantity {V}. Arguments find_object {V}. Arguments keep {V}. Arguments perform {V}. Arguments perform_all {V}. Arguments storage_allocate {V}.
