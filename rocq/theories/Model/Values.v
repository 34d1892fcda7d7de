(** Model of the property values of a quantity (fv3gfs/util/quantity.py 450-458) and of numpy's flag "writeable".
    Simplifications: the quantity's data is an ndarray which is writeable at first and owned by it (numpy.asarray returns such an
    array itself); all array objects look into the memory of the quantity. *)
From Verif.Base Require Import Base.
From Verif.Model Require Import Consts Numpy Quantity.

Section Values.
Variable V : Type.

(** an array object: what it shows of the memory, and its flag *)
Record nd := mkND { nd_view : view; nd_writeable : bool }.
(** the quantity (its data is the memory) and all array objects made so far; object 0 is the quantity's data *)
Record world := mkWorld { w_q : quantity V; w_objs : list nd }.
Definition world_of (q : quantity V) : world := mkWorld q [mkND (v_whole (shp (q_data q))) true].
Definition own : nat := 0.
Definition writeable (w : world) (o : nat) : bool := match nth_error (w_objs w) o with Some d => nd_writeable d | None => false end.

Definition new_object (d : nd) (w : world) : world * nat := (mkWorld (w_q w) (w_objs w ++ [d]), length (w_objs w)).

(** quantity.py 164-173: without dimensions the data itself, otherwise a new view of it, which inherits the flag *)
Definition get_view (i : pyindex) (w : world) : res (world * nat) :=
  do v <- view_index (q_meta (w_q w)) i;
  match q_origin (w_q w) with
  | [] => Ok (w, own)
  | _ => Ok (new_object (mkND v (writeable w own)) w)
  end.
Definition set_readonly (o : nat) (w : world) : world :=
  match nth_error (w_objs w) o with Some d => mkWorld (w_q w) (upd (w_objs w) o (mkND (nd_view d) false)) | None => w end.
(** quantity.py 450-458 *)
Definition get_values (w : world) : res (world * nat) :=
  do (w, o) <- get_view (PSingle IALL) w; Ok (set_readonly o w, o).
(** quantity.py 175-176; numpy refuses to assign to an array which is not writeable *)
Definition set_view (i : pyindex) (src : arr V) (w : world) : res world :=
  do es <- get_compute_index (q_meta (w_q w)) i;
  if writeable w own then do a <- setitem (q_data (w_q w)) es src; Ok (mkWorld (q_with_data (w_q w) a) (w_objs w)) else Err ValueError.
(** object[...] = src *)
Definition set_object (o : nat) (src : arr V) (w : world) : res world :=
  match nth_error (w_objs w) o with
  | None => Err IndexError   (* there is no such object *)
  | Some d => if nd_writeable d then do a <- a_assign (q_data (w_q w)) (nd_view d) src; Ok (mkWorld (q_with_data (w_q w) a) (w_objs w)) else Err ValueError
  end.
(** what an object shows at present *)
Definition contents (o : nat) (w : world) : option (arr V) := option_map (fun d => v_read (q_data (w_q w)) (nd_view d)) (nth_error (w_objs w) o).

Inductive use := UValues | UView (i : pyindex) | USet (i : pyindex) (src : arr V) | UAssign (o : nat) (src : arr V).
(** exceptions are caught and change nothing *)
Definition perform (u : use) (w : world) : world :=
  match u with
  | UValues => match get_values w with Ok (w, _) => w | Err _ => w end
  | UView i => match get_view i w with Ok (w, _) => w | Err _ => w end
  | USet i src => match set_view i src w with Ok w => w | Err _ => w end
  | UAssign o src => match set_object o src w with Ok w => w | Err _ => w end
  end.
Definition perform_all (us : list use) (w : world) : world := fold_left (fun w u => perform u w) us w.
End Values.
Arguments mkWorld {V}. Arguments w_q {V}. Arguments w_objs {V}. Arguments world_of {V}. Arguments writeable {V}. Arguments get_view {V}. Arguments get_values {V}.
Arguments set_view {V}. Arguments set_object {V}. Arguments contents {V}. Arguments UValues {V}. Arguments UView {V}. Arguments USet {V}. Arguments UAssign {V}.
Arguments perform {V}. Arguments perform_all {V}. Arguments new_object {V}. Arguments set_readonly {V}.
