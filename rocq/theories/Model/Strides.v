(** Arrays in memory: numpy's strides, its contiguity flags, and what MPI reads and writes.

    Addresses are integers; an element occupies [item] bytes and is known by its first. The memory is a map from addresses to elements,
    so elements which overlap partly are not represented. *)
From Verif.Base Require Import Base.
From Verif.Model Require Import Consts Numpy.

(** numpy.ndarray: __array_interface__['data'], shape, strides in bytes *)
Record strided := mkS { s_offset : Z; s_shape : list Z; s_strides : list Z }.

Fixpoint dot (strides p : list Z) : Z :=
  match strides, p with s :: strides', i :: p' => i * s + dot strides' p' | _, _ => 0 end.
(** where element [p] is *)
Definition address (a : strided) (p : idx) : Z := s_offset a + dot (s_strides a) p.

Definition size (shape : list Z) : Z := fold_right Z.mul 1 shape.

(** numpy/core/src/multiarray/flagsobject.c _UpdateContiguousFlags, first loop, from the last axis to the first: is every stride of an axis which is
    not of length one the number of bytes of what is behind it? The flag so far and the number of bytes so far. *)
Fixpoint c_scan (item : Z) (shape strides : list Z) : bool * Z :=
  match shape, strides with
  | d :: shape', s :: strides' =>
      let '(ok, sd) := c_scan item shape' strides' in
      if d =? 1 then (ok, sd) else (ok && (s =? sd), sd * d)
  | _, _ => (true, item)
  end.
(** flags["C_CONTIGUOUS"]; arrays without elements are contiguous in both ways *)
Definition c_flag (item : Z) (a : strided) : bool :=
  if existsb (Z.eqb 0) (s_shape a) then true else fst (c_scan item (s_shape a) (s_strides a)).
(** flags["F_CONTIGUOUS"]: the second loop does the same from the first axis to the last *)
Definition f_flag (item : Z) (a : strided) : bool :=
  if existsb (Z.eqb 0) (s_shape a) then true else fst (c_scan item (rev (s_shape a)) (rev (s_strides a))).

(** utils.py 39-44, 47-52 and 55-57; gt4py storages are arrays here *)
Definition is_contiguous (item : Z) (a : strided) : bool := c_flag item a || f_flag item a.
Definition is_c_contiguous (item : Z) (a : strided) : bool := c_flag item a.
Definition ensure_contiguous (item : Z) (a : strided) : res unit := if is_contiguous item a then Ok tt else Err ValueError.

(** basic indexing (numpy/core/src/multiarray/mapping.c get_view_from_index): step in memory to the first element, shape, strides.
    A slice without elements starts at the first element. *)
Fixpoint index_strided (es : list ientry) (s strides : list Z) : res (Z * list Z * list Z) :=
  match es with
  | [] => Ok (0, s, strides)
  | INone :: es' =>
      do (o, s', st') <- index_strided es' s strides;
      Ok (o, 1 :: s', 0 :: st')
  | IInt i :: es' =>
      match s, strides with
      | n :: s0, t :: t0 =>
          if (- n <=? i) && (i <? n) then
            do (o, s', st') <- index_strided es' s0 t0;
            Ok (o + (if i <? 0 then i + n else i) * t, s', st')
          else Err IndexError
      | _, _ => Err IndexError
      end
  | ISlice start stop step :: es' =>
      match s, strides with
      | n :: s0, t :: t0 =>
          do (a, len, st) <- slice_norm n start stop step;
          do (o, s', st') <- index_strided es' s0 t0;
          Ok (o + (if len =? 0 then 0 else a) * t, len :: s', (if len =? 0 then 1 else st) * t :: st')
      | _, _ => Err IndexError
      end
  end.

(** the ways in which the package makes views: indexing, numpy.flip, exchanging two axes (numpy.rot90 is a flip and an exchange) and numpy.transpose
    (quantity.py 506-515), which refuses what is not a permutation of the axes *)
Inductive vop := OIndex (es : list ientry) | OFlip (axis : nat) | OSwap (a b : nat) | OTranspose (order : list nat).
Definition axes_ok (order : list nat) (n : nat) : bool := Nat.eqb (length order) n && forallb (fun i => existsb (Nat.eqb i) order) (seq 0 n).
Definition view_op (o : vop) (v : view) : res view :=
  match o with
  | OIndex es => v_index v es
  | OFlip axis => if Nat.ltb axis (length (vshp v)) then Ok (v_flip v axis) else Err ValueError
  | OSwap a b => if Nat.ltb a (length (vshp v)) && Nat.ltb b (length (vshp v)) then Ok (v_swap v a b) else Err ValueError
  | OTranspose order => if axes_ok order (length (vshp v)) then Ok (v_transpose v order) else Err ValueError
  end.
(** the same on arrays in memory *)
Definition strided_op (o : vop) (a : strided) : res strided :=
  match o with
  | OIndex es => do (o, s, st) <- index_strided es (s_shape a) (s_strides a); Ok (mkS (s_offset a + o) s st)
  | OFlip axis =>
      if Nat.ltb axis (length (s_shape a)) then
        let n := nth axis (s_shape a) 0 in let t := nth axis (s_strides a) 0 in
        Ok (mkS (s_offset a + (n - 1) * t) (s_shape a) (upd (s_strides a) axis (- t)))
      else Err ValueError
  | OSwap i j =>
      if Nat.ltb i (length (s_shape a)) && Nat.ltb j (length (s_shape a))
      then Ok (mkS (s_offset a) (i_swap i j (s_shape a)) (i_swap i j (s_strides a))) else Err ValueError
  | OTranspose order =>
      if axes_ok order (length (s_shape a))
      then Ok (mkS (s_offset a) (map (fun i => nth i (s_shape a) 0) order) (map (fun i => nth i (s_strides a) 0) order)) else Err ValueError
  end.

(** MPI (through mpi4py) reads and writes as many elements as the array has, one behind the other from its first *)
Definition block (item : Z) (a : strided) : list Z := map (fun k => s_offset a + k * item) (zrange (size (s_shape a))).

Section Transfer.
Variable V : Type.
Definition memory := Z -> V.
Definition store (l : list (Z * V)) (m : memory) : memory :=
  fold_left (fun m av => fun x => if x =? fst av then snd av else m x) l m.
Definition elements (a : strided) : list Z := map (address a) (all_idx (s_shape a)).

(** strides of a new array *)
Fixpoint c_strides (item : Z) (shape : list Z) : list Z :=
  match shape with [] => [] | _ :: shape' => item * size shape' :: c_strides item shape' end.
Definition new_array (item offset : Z) (shape : list Z) : strided := mkS offset shape (c_strides item shape).

(** utils.py 60-72 (assign_array) between arrays of one shape *)
Definition assign (to_array from_array : strided) (m : memory) : memory :=
  store (combine (elements to_array) (map m (elements from_array))) m.

(** communicator.py 637-646 (numpy.ascontiguousarray) and buffer.py 56-67 (send_buffer): the array itself if it is C contiguous, otherwise a copy in
    a new or recycled array at [free]. What MPI sends. *)
Definition sent (item free : Z) (a : strided) (m : memory) : list V :=
  if is_c_contiguous item a then map m (block item a)
  else let b := new_array item free (s_shape a) in map (assign b a m) (block item b).

(** buffer.py 87-95 (recv_buffer): MPI writes to the array itself if it is C contiguous, otherwise to another array which is then assigned *)
Definition received (item free : Z) (a : strided) (body : list V) (m : memory) : memory :=
  if is_c_contiguous item a then store (combine (block item a) body) m
  else let b := new_array item free (s_shape a) in assign a b (store (combine (block item b) body) m).

(** communicator.py 69-79, with the arrays of 106-121 and 172-185: MPI_Scatter and MPI_Gather (through mpi4py) between [n] ranks: rank [r]'s part of the root's array is the [r]-th of [n] equal parts of its block *)
Definition chunk (item : Z) (n : nat) (a : strided) (r : nat) : list Z :=
  let count := size (s_shape a) / Z.of_nat n in
  map (fun k => s_offset a + (Z.of_nat r * count + k) * item) (zrange count).
Definition scattered (item : Z) (n : nat) (a : strided) (m : memory) (r : nat) : list V := map m (chunk item n a r).
Definition gathered (item : Z) (n : nat) (a : strided) (bodies : list (list V)) (m : memory) : memory :=
  fold_left (fun m rb => store (combine (chunk item n a (fst rb)) (snd rb)) m) (combine (seq 0 n) bodies) m.
End Transfer.
