(** Types of array elements (C89). An element is a value with its type. Messages carry elements as they are: an element which arrives in an
    array of another type stands for bytes which are read as something else than what they were sent as (MPI leaves such a program
    undefined). *)
From Verif.Base Require Import Base.
From Verif.Model Require Import Consts Numpy Quantity Partitioner Network Communicator.
From Verif.Spec Require Import Grid Cube Halo Lockstep Sync Client.

Section Types.
Variables Ty W : Type.
Definition element := (Ty * W)%type.

(** numpy's unary minus does not change the type *)
Definition keeps_type (neg : element -> element) : Prop := forall e, fst (neg e) = fst e.
Definition of_type (t : Ty) (a : arr element) : Prop := forall p, fst (at_ a p) = t.
(** arrays of a rank, [ty i] being the type of the i-th; arrays of all ranks *)
Definition mem_typed (ty : nat -> Ty) (m : mem element) : Prop := forall i a, nth_error m i = Some a -> of_type (ty i) a.
Definition typed (ty : nat -> nat -> Ty) (n : Z) (m : nat -> mem element) : Prop := forall r, (r < ranks n)%nat -> mem_typed (ty r) (m r).

(** the arrays of all ranks in an update have one type; both components of a vector, too *)
Definition same_type (ty : nat -> nat -> Ty) (n : Z) (hs : list (nat -> handle)) : Prop :=
  exists t, forall h r, In h hs -> (r < ranks n)%nat -> ty r (h_id (h r)) = t.
Definition call_typed (ty : nat -> nat -> Ty) (n : Z) (c : call element) : Prop :=
  match c with
  | CHalo _ q _ => same_type ty n [q]
  | CVector _ x y _ | CSync _ x y => same_type ty n [x; y]
  | CWait _ _ => True
  | CLocal _ f => forall r m, (r < ranks n)%nat -> mem_typed (ty r) m -> mem_typed (ty r) (f r m)
  end.

(** an element of the array of [q], inside the shape which the metadata of the quantity tells, has another type than the array *)
Definition mistyped (ty : nat -> nat -> Ty) (n : Z) (q : nat -> handle) (m : nat -> mem element) : Prop :=
  exists r a p, (r < ranks n)%nat /\ nth_error (m r) (h_id (q r)) = Some a /\ in_shape (m_shape (h_meta (q r))) p /\
    fst (at_ a p) <> ty r (h_id (q r)).
End Types.
