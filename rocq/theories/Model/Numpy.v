(** The part of numpy which the package uses.

    An array is a shape and a total function from index lists to values; only indices inside the
    shape mean anything.  A view is a shape and a map from its indices to indices of the array it
    looks into, so chains of basic indexing, flips, transpositions and rotations are compositions of
    maps.  dtypes, strides and memory order are not modelled (contiguity is treated as unknown where
    the code depends on it). *)
From Verif.Base Require Import Base.

Definition idx := list Z.

Record arr (V : Type) := mkA { shp : list Z; at_ : idx -> V }.
Arguments mkA {V} shp at_.
Arguments shp {V} a.
Arguments at_ {V} a _.

Record view := mkV { vshp : list Z; vmap : idx -> idx }.

Fixpoint idx_eqb (p q : idx) : bool :=
  match p, q with
  | [], [] => true
  | a :: p', b :: q' => (a =? b) && idx_eqb p' q'
  | _, _ => false
  end.

(** all indices of a shape in C order *)
Fixpoint all_idx (s : list Z) : list idx :=
  match s with
  | [] => [[]]
  | n :: s' => flat_map (fun i => map (cons i) (all_idx s')) (zrange n)
  end.

(** element assignment *)
Definition a_set {V} (a : arr V) (i : idx) (v : V) : arr V :=
  mkA (shp a) (fun j => if idx_eqb j i then v else at_ a j).

(** a sequence of element assignments *)
Definition a_write {V} (l : list (idx * V)) (a : arr V) : arr V :=
  fold_left (fun a iv => a_set a (fst iv) (snd iv)) l a.

(** the array seen as a view of itself, reading an array through a view, contents in C order *)
Definition v_whole (s : list Z) : view := mkV s (fun p => p).
Definition v_read {V} (a : arr V) (v : view) : arr V := mkA (vshp v) (fun p => at_ a (vmap v p)).
Definition ravel {V} (a : arr V) : list V := map (at_ a) (all_idx (shp a)).

(** Basic indexing. Indices: integers, slices (start, stop, step; None if omitted), None/newaxis.
    Ellipsis and advanced indexing are not used by the package. *)
Inductive ientry :=
| IInt (i : Z)
| ISlice (start stop step : option Z)
| INone.

Definition ISL (a b : Z) : ientry := ISlice (Some a) (Some b) None.
Definition IALL : ientry := ISlice None None None.

(** CPython Objects/sliceobject.c PySlice_Unpack, PySlice_AdjustIndices: first index, number of
    indices and step for an axis of length [n]. *)
Definition clamp (n step b : Z) : Z :=
  if b <? 0 then (if b + n <? 0 then (if step <? 0 then -1 else 0) else b + n)
  else if n <=? b then (if step <? 0 then n - 1 else n) else b.

Definition slice_norm (n : Z) (start stop step : option Z) : res (Z * Z * Z) :=
  let st := match step with Some s => s | None => 1 end in
  if st =? 0 then Err ValueError else
  let a := match start with Some a => clamp n st a | None => if st <? 0 then n - 1 else 0 end in
  let b := match stop with Some b => clamp n st b | None => if st <? 0 then -1 else n end in
  let len := if st <? 0 then (if b <? a then (a - b - 1) / (- st) + 1 else 0)
             else (if a <? b then (b - a - 1) / st + 1 else 0) in
  Ok (a, len, st).

(** shape of the result and position in the indexed array of each index of the result *)
Fixpoint index_apply (es : list ientry) (s : list Z) : res (list Z * (idx -> idx)) :=
  match es with
  | [] => Ok (s, fun p => p)
  | INone :: es' =>
      do (s', f) <- index_apply es' s;
      Ok (1 :: s', fun p => f (tl p))
  | IInt i :: es' =>
      match s with
      | [] => Err IndexError
      | n :: s0 =>
          if (- n <=? i) && (i <? n) then
            do (s', f) <- index_apply es' s0;
            Ok (s', fun p => (if i <? 0 then i + n else i) :: f p)
          else Err IndexError
      end
  | ISlice start stop step :: es' =>
      match s with
      | [] => Err IndexError
      | n :: s0 =>
          do (a, len, st) <- slice_norm n start stop step;
          do (s', f) <- index_apply es' s0;
          Ok (len :: s', fun p => (a + hd 0 p * st) :: f (tl p))
      end
  end.

Definition v_index (v : view) (es : list ientry) : res view :=
  do (s, f) <- index_apply es (vshp v);
  Ok (mkV s (fun p => vmap v (f p))).

(** numpy.flip(m, axis), numpy.transpose(m, order), numpy.rot90(m, k=1, axes=(a, b)) for distinct
    axes in range: rot90 is transpose(flip(m, b)) exchanging a and b; k=-1 is rot90 with the axes
    exchanged (numpy/lib/function_base.py). *)
Definition i_flip (n : Z) (axis : nat) (p : idx) : idx := upd p axis (n - 1 - nth axis p 0).
Definition i_swap (a b : nat) (p : idx) : idx := upd (upd p a (nth b p 0)) b (nth a p 0).

Definition v_flip (v : view) (axis : nat) : view :=
  mkV (vshp v) (fun p => vmap v (i_flip (nth axis (vshp v) 0) axis p)).
Definition v_swap (v : view) (a b : nat) : view :=
  mkV (i_swap a b (vshp v)) (fun p => vmap v (i_swap a b p)).
Definition v_rot90 (v : view) (a b : nat) : view := v_swap (v_flip v b) a b.

(** transpose: axis i of the result is axis [order[i]] of the argument *)
Definition i_untranspose (order : list nat) (p : idx) : idx :=
  fold_left (fun q ij => upd q (fst ij) (snd ij)) (combine order p) (map (fun _ => 0) order).
Definition v_transpose (v : view) (order : list nat) : view :=
  mkV (map (fun i => nth i (vshp v) 0) order) (fun p => vmap v (i_untranspose order p)).

(** Broadcasting of an array of shape [s] in an assignment to shape [t]: which element of the source goes to
    each index of the target; None if numpy raises ValueError. Extra leading axes of length one
    are dropped. *)
Definition bcast1 (b i : Z) : Z := if b =? 1 then 0 else i.
Fixpoint map2 {A B C} (f : A -> B -> C) (l : list A) (l' : list B) : list C :=
  match l, l' with
  | a :: l, b :: l' => f a b :: map2 f l l'
  | _, _ => []
  end.
Definition bcast (t s : list Z) : option (idx -> idx) :=
  let ls := length s in let lt := length t in
  let extra := firstn (ls - lt) s in
  let s' := skipn (ls - lt) s in
  let t' := skipn (lt - ls) t in
  if forallb (Z.eqb 1) extra && forallb (fun st => (fst st =? snd st) || (fst st =? 1)) (combine s' t')
  then Some (fun p => (map (fun _ => 0) extra ++ map2 bcast1 s' (skipn (lt - ls) p))%list)
  else None.

(** assignment of the contents of [src] through a view of [a], as in a[...] = src *)
Definition a_assign {V} (a : arr V) (v : view) (src : arr V) : res (arr V) :=
  match bcast (vshp v) (shp src) with
  | None => Err ValueError
  | Some f => Ok (a_write (map (fun p => (vmap v p, at_ src (f p))) (all_idx (vshp v))) a)
  end.

(** a[index] and a[index] = src *)
Definition getitem {V} (a : arr V) (es : list ientry) : res (arr V) :=
  do v <- v_index (v_whole (shp a)) es; Ok (v_read a v).
Definition setitem {V} (a : arr V) (es : list ientry) (src : arr V) : res (arr V) :=
  do v <- v_index (v_whole (shp a)) es; a_assign a v src.
