(** Executions of ranks sharing a store, and what a store holds. *)
From Verif.Base Require Import Base.
From Verif.Model Require Import Consts Numpy Quantity ScatterGather Shared Zarr.
From Verif.Spec Require Import Grid Layouts Views Distribute.
From Coq Require Import Permutation.

Section Ends.
Context {St Op Ans A : Type}.
Variable exec : Op -> St -> Ans * St.

(** However the ranks are scheduled and whichever broadcasts synchronise: there is a bound on the number of steps, the execution
    is not stuck before all ranks have ended, and when they have, the store and what they returned are as described. *)
Definition ends_with (size : nat) (ps : nat -> sproc Op Ans A) (init : St) (Final : St -> (nat -> A) -> Prop) : Prop :=
  exists bound, forall delayed sched st ranks, srun exec delayed sched (init, sstart size ps) = Some (st, ranks) ->
    (length sched <= bound)%nat /\
    ((exists out, (forall r, (r < size)%nat -> exists c, nth_error ranks r = Some c /\ result_of c = Some (out r)) /\ Final st out) \/
     (exists r s', sstep exec delayed r (st, ranks) = Some s')).
End Ends.

(** whatever the store answers, the program can only return what satisfies [P] *)
Inductive returns {Op Ans A : Type} (P : A -> Prop) : sproc Op Ans A -> Prop :=
| returns_ret a : P a -> returns P (SRet a)
| returns_do o k : (forall a, returns P (k a)) -> returns P (SDo o k)
| returns_sync b p : returns P p -> returns P (SSync b p).

(** the keys of a state *)
Definition names_of {V T} (s : state V T) : list string :=
  (dkeys (st_vars s) ++ match st_time s with Some _ => ["time"%string] | None => [] end)%list.

(** the element of an array at a point, if its chunk has been written *)
Definition element {V} (s : zstore V) (name : string) (g : list Z) : option V :=
  match s_meta s name with
  | Some m => option_map (fun d => d (Numpy.map2 Z.modulo g (z_chunks m))) (s_cells s name (Numpy.map2 Z.div g (z_chunks m)))
  | None => None
  end.

(** what states stored together have in common: dimensions, units and a rank's extent of each variable *)
Record vspec := mkVS { vs_dims : list string; vs_units : string; vs_ext : list Z }.

Section Stored.
Context {V T : Type}.
(** a state with exactly the given variables, as described, and the given time *)
Definition described (names : list string) (var : string -> vspec) (time : T) (s : state V T) : Prop :=
  Permutation (dkeys (st_vars s)) names /\ st_time s = Some time /\
  forall n q, dget n (st_vars s) = Some q ->
    well_formed (q_meta q) /\ q_dims q = vs_dims (var n) /\ q_units q = vs_units (var n) /\ q_extent q = vs_ext (var n).

(** variables which are divided among the ranks along both axes, each rank having at least one cell *)
Definition divided (layout : Z * Z) (v : vspec) : Prop :=
  fits layout (vs_dims v) (vs_ext v) /\ horizontal (vs_dims v) /\ Forall2 (fun d e => 1 <= e - stag d) (vs_dims v) (vs_ext v).

(** the store holds the states [states r i] of rank [r] and store [i], for [N] stores: every point of the global array, of every
    store, has the value which the last of the ranks having the point stored *)
Definition holds (layout : Z * Z) (names : list string) (var : string -> vspec) (calendar_of text_of : T -> string) (encode : T -> T -> V)
    (states : nat -> nat -> state V T) (times : nat -> nat -> T) (N : nat) (st : zstore V) : Prop :=
  (forall n, In n names ->
     s_meta st n = Some (mkZM (Z.of_nat N :: 6 :: tile_size layout (vs_dims (var n)) (vs_ext (var n)))
                              (1 :: 1 :: Numpy.map2 (fun d e => e - stag d) (vs_dims (var n)) (vs_ext (var n)))
                              (mkZA ("time"%string :: "tile"%string :: vs_dims (var n)) (Some (vs_units (var n))) None)) /\
     forall i g, (i < N)%nat -> in_shape (6 :: tile_size layout (vs_dims (var n)) (vs_ext (var n))) g ->
       let at_g r pt := (r < ranks (CubePart layout))%nat /\ in_shape (vs_ext (var n)) pt /\
                        place (CubePart layout) r (vs_dims (var n)) (vs_ext (var n)) pt = g in
       exists r pt q, at_g r pt /\ (forall r' pt', at_g r' pt' -> (r' <= r)%nat) /\
         dget n (st_vars (states r i)) = Some q /\ element st n (Z.of_nat i :: g) = Some (at_ (domain_of q) pt)) /\
  s_meta st "time"%string = Some (mkZM [Z.of_nat N] [1024] (mkZA ["time"%string] (Some ("seconds since " ++ text_of (times 0%nat 0%nat))%string) (Some (calendar_of (times 0%nat 0%nat))))) /\
  forall i, (i < N)%nat -> element st "time"%string [Z.of_nat i] = Some (encode (times 0%nat 0%nat) (times 0%nat i)).
End Stored.
