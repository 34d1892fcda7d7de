(** What lending buffers should mean. *)
From Verif.Base Require Import Base.
From Verif.Model Require Import Numpy Buffer.
From Verif.Spec Require Import Grid.

(** arrays of the user: no two elements share memory, and arrays without dimensions are contiguous *)
Definition uarr_ok (u : uarr) : Prop :=
  (forall p q, in_shape (vshp (u_view u)) p -> in_shape (vshp (u_view u)) q -> vmap (u_view u) p = vmap (u_view u) q -> p = q) /\
  (u_contig u = false -> vshp (u_view u) <> []).
Definition op_ok {V} (o : bop V) : Prop := match o with OSend _ u _ | ORecv _ u _ => uarr_ok u | _ => True end.
(** the operation is about context [id] *)
Definition about {V} (id : nat) (o : bop V) : Prop :=
  match o with OLeave i | OThrow i | OFill i _ => i = id | _ => False end.
(** the block of memory [m] is not touched by the operation itself *)
Definition elsewhere {V} (m : nat) (o : bop V) : Prop := match o with OModify m' _ => m' <> m | _ => True end.
