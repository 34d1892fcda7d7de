(** When halo updates are possible. *)
From Verif.Base Require Import Base.
From Verif.Model Require Import Consts Quantity.
From Verif.Spec Require Import Halo.

(** at least [h] points of halo on all four sides *)
Definition room (h : Z) (ix iy : nat) (m : meta) : Prop :=
  forall i, i = ix \/ i = iy -> h <= xat (m_origin m) i /\ xat (m_origin m) i + xat (m_extent m) i + h <= xat (m_shape m) i.

(** ** sequences of calls on one communicator, exceptions being caught *)
From Verif.Model Require Import Partitioner Network Communicator.
Section Attempts.
Variable V : Type.
Variable neg : V -> V.

Inductive attempt := AHalo (q : handle) (h : Z) | AVector (x y : handle) (h : Z).
Definition start_attempt (layout : layout_t) (rank : Z) (a : attempt) : eff V (request V) :=
  match a with
  | AHalo q h => start_halo_update V neg layout rank q h
  | AVector x y h => start_vector_halo_update V neg layout rank x y h
  end.
(** results of the calls, and everything they hand to MPI *)
Fixpoint attempts (layout : layout_t) (rank : Z) (l : list attempt) (c : comm) : list (res (request V)) * list (pop V) :=
  match l with
  | [] => ([], [])
  | a :: l' =>
      let '(ops, c', x) := start_attempt layout rank a c in
      let '(xs, ops') := attempts layout rank l' c' in
      (x :: xs, (ops ++ ops')%list)
  end.
Definition points (a : attempt) : Z := match a with AHalo _ h => h | AVector _ _ h => h end.
End Attempts.
Definition raised {A} (x : res A) : Prop := match x with Err _ => True | Ok _ => False end.
(** what a sequence of calls on a new communicator gives *)
Definition results V neg layout rank (l : list attempt) : list (res (request V)) := fst (attempts V neg layout rank l new_comm).
Definition returned {A} (x : res A) : Prop := match x with Ok _ => True | Err _ => False end.
(** a call for which an array has no room *)
Definition impossible (N : Z) (len ix iy : nat) (sy sx : Z) (ext : nat -> Z) (a : attempt) : Prop :=
  1 <= points a /\
  match a with
  | AHalo q h => fits N 0 len ix iy sy sx ext (h_meta q) /\ ~ room h ix iy (h_meta q)
  | AVector x y h => fits N 0 len ix iy sy sx ext (h_meta x) /\ fits N 0 len ix iy sx sy ext (h_meta y) /\
      ~ (room h ix iy (h_meta x) /\ room h ix iy (h_meta y))
  end.
