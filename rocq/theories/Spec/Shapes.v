(** Shapes of the arrays that are sent and received (C98). *)
From Verif.Base Require Import Base.
From Verif.Model Require Import Consts Quantity Partitioner.
From Verif.Spec Require Import Grid Cube Halo.

(** [B] is a boundary of rank [r] towards rank [r'], and [B'] the one of [r'] towards [r], on layout (n, n) *)
Record faces (n : Z) (r : nat) (B : boundary) (r' : nat) (B' : boundary) : Prop := {
  face_here : cs_boundary (n, n) (b_type B) (Z.of_nat r) = Ok (Some B);
  face_there : cs_boundary (n, n) (b_type B') (Z.of_nat r') = Ok (Some B');
  face_to : b_to B = Z.of_nat r';
  face_back : b_to B' = Z.of_nat r
}.

(** [s] is the shape of the part of an array next to side [b]: [h] points across the side, the extent of the compute
    domain along it and in all other dimensions *)
Definition strip (m : meta) (ix iy : nat) (h : Z) (b : btype) (s : list Z) : Prop :=
  length s = length (m_dims m) /\
  forall i, (i < length s)%nat ->
    xat s i = if Nat.eqb i ix then (if snd (heading b) =? 0 then xat (m_extent m) i else h)
              else if Nat.eqb i iy then (if fst (heading b) =? 0 then xat (m_extent m) i else h)
              else xat (m_extent m) i.
