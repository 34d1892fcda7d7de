(** What strides and messages should mean (C99). *)
From Verif.Base Require Import Base.
From Verif.Model Require Import Consts Numpy Strides.
From Verif.Spec Require Import Grid.

(** an array as numpy makes them *)
Definition proper (a : strided) : Prop := length (s_strides a) = length (s_shape a) /\ Forall (Z.le 0) (s_shape a).

(** array [a] in memory is view [v] of array [base] in memory *)
Definition shows (base : strided) (v : view) (a : strided) : Prop :=
  proper a /\ s_shape a = vshp v /\ forall p, in_shape (vshp v) p -> address a p = address base (vmap v p).

(** a chain of views *)
Fixpoint chain {A} (f : vop -> A -> res A) (l : list vop) (x : A) : res A :=
  match l with [] => Ok x | o :: l' => do y <- f o x; chain f l' y end.
