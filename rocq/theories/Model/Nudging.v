(** Model of fv3gfs/util/nudging.py.
    Numbers of arrays [V] and of seconds [T] with the operations used are arbitrary. Simplifications: arrays are float64 and
    quantities of a state do not share memory; values of a state are quantities. *)
From Verif.Base Require Import Base.
From Verif.Model Require Import Consts Numpy Quantity.

Section Nudging.
Context {V T : Type}.
Variables (sub add : V -> V -> V) (div mul : V -> T -> V).

(** shape to which numpy broadcasts two operands, last axes first *)
Fixpoint bshape_rev (s t : list Z) : option (list Z) :=
  match s, t with
  | [], _ => Some t
  | _, [] => Some s
  | a :: s', b :: t' =>
      match bshape_rev s' t' with
      | None => None
      | Some r => if a =? b then Some (a :: r) else if a =? 1 then Some (b :: r) else if b =? 1 then Some (a :: r) else None
      end
  end.
Definition bshape (s t : list Z) : option (list Z) := option_map (@rev Z) (bshape_rev (rev s) (rev t)).
(** an elementwise operation on two arrays *)
Definition np_binary (f : V -> V -> V) (a b : arr V) : res (arr V) :=
  match bshape (shp a) (shp b) with
  | None => Err ValueError
  | Some r =>
      match bcast r (shp a), bcast r (shp b) with
      | Some fa, Some fb => Ok (mkA r (fun p => f (at_ a (fa p)) (at_ b (fb p))))
      | _, _ => Err ValueError
      end
  end.
Definition np_map (f : V -> V) (a : arr V) : arr V := mkA (shp a) (fun p => f (at_ a p)).
(** an operation on zero-dimensional arrays gives a float, which is no ndarray *)
Definition operation_result (a : arr V) : pydata V := match shp a with [] => DPlain a | _ => DArray a end.
(** view += x in place; the result must have the shape of the view *)
Definition np_iadd (a : arr V) (v : view) (x : arr V) : res (arr V) :=
  match bcast (vshp v) (shp x) with
  | None => Err ValueError
  | Some f => Ok (a_write (map (fun p => (vmap v p, add (at_ a (vmap v p)) (at_ x (f p)))) (all_idx (vshp v))) a)
  end.

Definition lookup {A} (name : string) (d : dict A) : res A := match dget name d with Some a => Ok a | None => Err KeyError end.

(** nudging.py 67-72 *)
Definition tendency_of (quantity reference : quantity V) (timescale : T) : res (Quantity.quantity V) :=
  do r <- view_get reference (PSingle IALL);
  do s <- view_get quantity (PSingle IALL);
  do d <- np_binary sub r s;
  new_quantity (operation_result (np_map (fun x => div x timescale) d)) (q_dims quantity) (q_units quantity ++ " s^-1") None None.

(** nudging.py 46-73 *)
Definition get_nudging_tendencies (state reference_state : dict (quantity V)) (timescales : dict T) : res (dict (quantity V)) :=
  rfold (fun return_dict nt =>
    do quantity <- lookup (fst nt) state;
    do reference <- lookup (fst nt) reference_state;
    do t <- tendency_of quantity reference (snd nt);
    Ok (dset (fst nt) t return_dict)) timescales [].

(** nudging.py 43: the quantity after the statement, and whether it raised.
    [q.view[:] += x] reads the view, adds in place, and assigns the view to itself. *)
Definition add_tendency (q tendency : quantity V) (timestep : T) : quantity V * res unit :=
  match (do v <- view_index (q_meta q) (PSingle IALL);
         do t <- view_get tendency (PSingle IALL);
         np_iadd (q_data q) v (np_map (fun x => mul x timestep) t)) with
  | Err e => (q, Err e)
  | Ok a =>
      let q := q_with_data q a in
      match (do tmp <- view_get q (PSingle IALL); view_set q (PSingle IALL) tmp) with
      | Err e => (q, Err e)
      | Ok q => (q, Ok tt)
      end
  end.

(** nudging.py 36-43: the state afterwards, also if it raised *)
Fixpoint apply_tendencies (state tendencies : dict (quantity V)) (timestep : T) : dict (quantity V) * res unit :=
  match tendencies with
  | [] => (state, Ok tt)
  | (name, tendency) :: tendencies' =>
      match dget name state with
      | None => (state, Err ValueError)
      | Some q =>
          match add_tendency q tendency timestep with
          | (q', Err e) => (dset name q' state, Err e)
          | (q', Ok _) => apply_tendencies (dset name q' state) tendencies' timestep
          end
      end
  end.

(** nudging.py 6-33 *)
Definition apply_nudging (state reference_state : dict (quantity V)) (timescales : dict T) (timestep : T)
    : dict (quantity V) * res (dict (quantity V)) :=
  match get_nudging_tendencies state reference_state timescales with
  | Err e => (state, Err e)
  | Ok tendencies =>
      match apply_tendencies state tendencies timestep with
      | (state', Err e) => (state', Err e)
      | (state', Ok _) => (state', Ok tendencies)
      end
  end.
End Nudging.
