(** Model of fv3gfs/util/buffer.py: the cache of buffers and the contexts array_buffer, send_buffer, recv_buffer as a state
    machine, whose operations are entering a context, leaving it normally or by an exception, filling the array a
    context handed out, and modifying one's own arrays.
    Simplifications: the timer argument is left out (NullTimer by default; see CommTimer.v); allocators and dtypes are numbers;
    arrays of the user are views of numbered blocks of memory, buffers are numbered in order of allocation. *)
From Verif.Base Require Import Base.
From Verif.Model Require Import Numpy.

Section Buffer.
Variable V : Type.

(** buffer.py:27: key = (allocator, shape, dtype) *)
Definition key := (nat * list Z * nat)%type.
Fixpoint shape_eqb (s t : list Z) : bool :=
  match s, t with [], [] => true | a :: s', b :: t' => (a =? b) && shape_eqb s' t' | _, _ => false end.
Definition key_eqb (k k' : key) : bool :=
  let '(a, s, t) := k in let '(a', s', t') := k' in Nat.eqb a a' && shape_eqb s s' && Nat.eqb t t'.

(** an array of the user: part [u_view] of memory block [u_mem]; [u_contig] is is_c_contiguous (utils.py:43-48) *)
Record uarr := mkU { u_mem : nat; u_view : view; u_dtype : nat; u_contig : bool }.

(** what a context handed out, and the array to copy into on exit *)
Inductive held := HBuf (k : key) (b : nat) | HArr (u : uarr).
Record ctx := mkC { c_held : held; c_target : option uarr }.

(** memory of the user and of the buffers, allocator, shape and dtype each buffer was created with, number of buffers allocated, BUFFER_CACHE, contexts by number (None when finished) *)
Record world := mkW { w_user : nat -> arr V; w_buf : nat -> arr V; w_made : nat -> key; w_next : nat; w_cache : list (key * list nat); w_live : list (option ctx) }.
Definition empty_world (user : nat -> arr V) : world := mkW user (fun _ => mkA [] (fun _ => at_ (user 0%nat) [])) (fun _ => (0%nat, [], 0%nat)) 0 [] [].

Fixpoint cget (k : key) (c : list (key * list nat)) : option (list nat) :=
  match c with [] => None | (k', l) :: c' => if key_eqb k k' then Some l else cget k c' end.
Fixpoint cset (k : key) (l : list nat) (c : list (key * list nat)) : list (key * list nat) :=
  match c with [] => [(k, l)] | (k', l') :: c' => if key_eqb k k' then (k', l) :: c' else (k', l') :: cset k l c' end.

Definition mset (m : nat -> arr V) (b : nat) (a : arr V) : nat -> arr V := fun x => if Nat.eqb x b then a else m x.

(** buffer.py:27-35: entering array_buffer; list.pop() takes the last entry; [junk] is what the allocator leaves in the array *)
Definition take_buffer (k : key) (junk : idx -> V) (w : world) : world * nat :=
  match cget k (w_cache w) with
  | Some (b0 :: bs) =>
      let l := b0 :: bs in
      (mkW (w_user w) (w_buf w) (w_made w) (w_next w) (cset k (removelast l) (w_cache w)) (w_live w), last l O)
  | found =>
      let cache := match found with None => cset k [] (w_cache w) | _ => w_cache w end in
      (mkW (w_user w) (mset (w_buf w) (w_next w) (mkA (snd (fst k)) junk)) (fun x => if Nat.eqb x (w_next w) then k else w_made w x) (S (w_next w)) cache (w_live w), w_next w)
  end.
(** buffer.py:37: leaving it normally *)
Definition give_back (k : key) (b : nat) (w : world) : world :=
  let l := match cget k (w_cache w) with Some l => l | None => [] end in
  mkW (w_user w) (w_buf w) (w_made w) (w_next w) (cset k (l ++ [b]) (w_cache w)) (w_live w).

(** utils.py:58-72, assign_array for numpy arrays: to_array[:] = from_array, to_array being part [v] of [a] *)
Definition assign_array (a : arr V) (v : view) (src : arr V) : res (arr V) :=
  match vshp v with [] => Err IndexError | _ => a_assign a v src end.

Definition u_read (w : world) (u : uarr) : arr V := v_read (w_user w (u_mem u)) (u_view u).
Definition contents (w : world) (h : held) : arr V := match h with HBuf _ b => w_buf w b | HArr u => u_read w u end.
Definition open_ctx (c : ctx) (w : world) : world := mkW (w_user w) (w_buf w) (w_made w) (w_next w) (w_cache w) (w_live w ++ [Some c]).
Definition close_ctx (id : nat) (w : world) : world := mkW (w_user w) (w_buf w) (w_made w) (w_next w) (w_cache w) (upd (w_live w) id None).
Definition set_user (m : nat) (a : arr V) (w : world) : world := mkW (mset (w_user w) m a) (w_buf w) (w_made w) (w_next w) (w_cache w) (w_live w).
Definition set_buf (b : nat) (a : arr V) (w : world) : world := mkW (w_user w) (mset (w_buf w) b a) (w_made w) (w_next w) (w_cache w) (w_live w).
Definition ctx_of (w : world) (id : nat) : option ctx := nth id (w_live w) None.

Inductive bop :=
| OBuffer (k : key) (junk : idx -> V)
| OSend (alloc : nat) (u : uarr) (junk : idx -> V)
| ORecv (alloc : nat) (u : uarr) (junk : idx -> V)
| OLeave (id : nat)
| OThrow (id : nat)
| OFill (id : nat) (f : idx -> V)
| OModify (m : nat) (f : idx -> V).

Definition bstep (o : bop) (w : world) : world * res unit :=
  match o with
  | OBuffer k junk => let '(w1, b) := take_buffer k junk w in (open_ctx (mkC (HBuf k b) None) w1, Ok tt)
  | OSend alloc u junk => (* buffer.py:54-67 *)
      if u_contig u then (open_ctx (mkC (HArr u) None) w, Ok tt)
      else let k := (alloc, vshp (u_view u), u_dtype u) in
           let '(w1, b) := take_buffer k junk w in
           match assign_array (w_buf w1 b) (v_whole (shp (w_buf w1 b))) (u_read w1 u) with
           | Ok a => (open_ctx (mkC (HBuf k b) None) (set_buf b a w1), Ok tt)
           | Err e => (w1, Err e)
           end
  | ORecv alloc u junk => (* buffer.py:84-92 *)
      if u_contig u then (open_ctx (mkC (HArr u) None) w, Ok tt)
      else let k := (alloc, vshp (u_view u), u_dtype u) in
           let '(w1, b) := take_buffer k junk w in (open_ctx (mkC (HBuf k b) (Some u)) w1, Ok tt)
  | OLeave id =>
      match ctx_of w id with
      | Some (mkC (HBuf k b) None) => (close_ctx id (give_back k b w), Ok tt)
      | Some (mkC (HBuf k b) (Some u)) => (* buffer.py:93-95 *)
          match assign_array (w_user w (u_mem u)) (u_view u) (w_buf w b) with
          | Ok a => (close_ctx id (give_back k b (set_user (u_mem u) a w)), Ok tt)
          | Err e => (close_ctx id w, Err e)
          end
      | Some (mkC (HArr _) _) => (close_ctx id w, Ok tt)
      | None => (w, Ok tt)
      end
  | OThrow id => (close_ctx id w, Ok tt) (* the generators do not catch: the buffer is dropped, nothing is copied *)
  | OFill id f =>
      match ctx_of w id with
      | Some (mkC (HBuf _ b) _) => (set_buf b (mkA (shp (w_buf w b)) f) w, Ok tt)
      | Some (mkC (HArr u) _) =>
          (set_user (u_mem u) (a_write (map (fun p => (vmap (u_view u) p, f p)) (all_idx (vshp (u_view u)))) (w_user w (u_mem u))) w, Ok tt)
      | None => (w, Ok tt)
      end
  | OModify m f => (set_user m (mkA (shp (w_user w m)) f) w, Ok tt)
  end.

Fixpoint brun (os : list bop) (w : world) : world :=
  match os with [] => w | o :: os' => brun os' (fst (bstep o w)) end.
End Buffer.
Arguments mkW {V}. Arguments w_user {V}. Arguments w_buf {V}. Arguments w_made {V}. Arguments w_next {V}. Arguments w_cache {V}. Arguments w_live {V}.
Arguments OBuffer {V}. Arguments OSend {V}. Arguments ORecv {V}. Arguments OLeave {V}. Arguments OThrow {V}. Arguments OFill {V}. Arguments OModify {V}.
Arguments ctx_of {V}. Arguments contents {V}. Arguments u_read {V}. Arguments brun {V}. Arguments bstep {V}. Arguments empty_world {V}.
