(** C89: types of the elements of arrays in updates and scatter. *)
From Verif.Base Require Import Base.
From Verif.Model Require Import Consts Numpy Quantity Partitioner Network Communicator.
From Verif.Model Require ScatterGather.
From Verif.Spec Require Import Grid Cube Halo Lockstep Sync Client Updates Types.
From Verif.Spec Require Views Together Distribute.
From Verif.Proofs Require Import UpdateExamples TypeProofs.

(** In a program of updates whose arrays have one type in each update, on all ranks and for both components, and whose
    computations keep the types of arrays, every array keeps its type under every schedule. *)
Theorem C89_types_kept : forall Ty W (neg : element Ty W -> element Ty W), keeps_type Ty W neg -> forall (d : element Ty W) n k ty calls m,
  Forall (call_ok _ n k) calls -> waits_ok _ calls 0 [] -> arrays n k m ->
  Forall (call_typed Ty W ty n) calls -> typed Ty W ty n m ->
  exists m', typed Ty W ty n m' /\ always_completes (start_state (ranks n) (client_ops _ neg n calls) m) (tab (ranks n) m').
Proof. exact types_kept. Qed.
Print Assumptions C89_types_kept.

(** If the components of a vector have different types, a halo update puts elements of y's type into the array of x and
    elements of x's type into the array of y, whatever the layout, sizes, dimensions and schedule. *)
Theorem C89_mixed_vector : forall Ty W (neg : element Ty W -> element Ty W), keeps_type Ty W neg -> forall (d : element Ty W) n N len ix iy k ty x y t t',
  (forall r, (r < ranks n)%nat -> ty r (h_id (x r)) = t) -> (forall r, (r < ranks n)%nat -> ty r (h_id (y r)) = t') -> t <> t' ->
  (forall c : bool, ids_below k (fun r => if c then y r else x r)) -> forall h m,
  vector_ok n N len ix iy x y h -> arrays n k m -> typed Ty W ty n m -> (exists p, in_domain (h_meta (x 0%nat)) p) ->
  exists m', all_ranks_end n (fun r => vector_halo_update _ neg (n, n) (Z.of_nat r) (x r) (y r) h) m m' /\
    mistyped Ty W ty n x m' /\ mistyped Ty W ty n y m'.
Proof. exact mixed_vector. Qed.
Print Assumptions C89_mixed_vector.

Theorem C89_mixed_interfaces : forall Ty W (neg : element Ty W -> element Ty W), keeps_type Ty W neg -> forall (d : element Ty W) n N len ix iy k ty x y t t',
  (forall r, (r < ranks n)%nat -> ty r (h_id (x r)) = t) -> (forall r, (r < ranks n)%nat -> ty r (h_id (y r)) = t') -> t <> t' ->
  (forall c : bool, ids_below k (fun r => if c then y r else x r)) -> forall m,
  sync_ok n N len ix iy (fun r => h_meta (x r)) (fun r => h_meta (y r)) -> (forall r, (r < ranks n)%nat -> h_id (x r) <> h_id (y r)) ->
  arrays n k m -> typed Ty W ty n m -> (exists p, in_domain (h_meta (x 0%nat)) p) ->
  exists m', all_ranks_end n (fun r => synchronize_vector_interfaces _ neg (n, n) (Z.of_nat r) (x r) (y r)) m m' /\
    mistyped Ty W ty n x m' /\ mistyped Ty W ty n y m'.
Proof. exact mixed_interfaces. Qed.
Print Assumptions C89_mixed_interfaces.

(** scatter puts elements of the type of the sent quantity into the compute domain of every rank's result, also if the rank
    supplied a quantity of another type *)
Theorem C89_scatter : forall Ty W T p dims rext, Distribute.fits (Distribute.layout_of p) dims rext ->
  forall (sends recv : nat -> option (quantity (element Ty W))) send junk t, sends 0%nat = Some send -> Distribute.global_sized p dims rext send ->
  (forall r, (r < Distribute.ranks p)%nat -> Distribute.given (Distribute.rank_sized rext) (recv r)) -> of_type Ty W t (q_data send) ->
  exists outs, Together.always_ends (Distribute.ranks p) (fun r => ScatterGather.scatter _ T p (Z.of_nat r) (junk r) (sends r) (recv r)) (fun r => Ok (outs r)) /\
    forall r pt, (r < Distribute.ranks p)%nat -> in_shape rext pt -> fst (at_ (Views.domain_of (outs r)) pt) = t.
Proof. exact scatter_types. Qed.
Print Assumptions C89_scatter.

(** Six tiles of 2 by 2 cells, x of type f4 and y of type f8: on tile 0, the halos of x to the west (first column) and north
    (last row) hold elements of y of tiles 4 and 2; those of y hold elements of x. *)
Definition ex_type (r id : nat) : string := match id with O => "f4" | _ => "f8" end%string.
Definition ex_typed (r : nat) : mem (element string Z) :=
  map (fun '(i, a) => mkA (shp a) (fun p => (ex_type r i, at_ a p))) (combine (seq 0 2) (ex_mem2 r)).
Definition ex_neg (e : element string Z) : element string Z := (fst e, Z.opp (snd e)).
Example C89_example : keeps_type string Z ex_neg /\ typed string Z ex_type 1 ex_typed /\ arrays 1 2 ex_typed /\ vector_ok 1 2 3 1 0 ex_x ex_y 1 /\
  in_domain (h_meta (ex_x 0)) [1; 1; 0] /\
  (let s := drive (fun _ _ => false) 1000 (start_state (ranks 1) (fun r => issued (vector_halo_update _ ex_neg (1, 1) (Z.of_nat r) (ex_x r) (ex_y r) 1)) ex_typed) in
   all_done s = true /\
   map (fun i => fst (value_at ("", 0)%string s 0 0 i)) (all_idx [5; 4; 1]) =
    ["f4"; "f4"; "f4"; "f4";
     "f8"; "f4"; "f4"; "f4";
     "f8"; "f4"; "f4"; "f4";
     "f8"; "f4"; "f4"; "f4";
     "f4"; "f8"; "f8"; "f4"]%string /\
   map (fun i => fst (value_at ("", 0)%string s 0 1 i)) (all_idx [4; 5; 1]) =
    ["f8"; "f8"; "f8"; "f8"; "f8";
     "f4"; "f8"; "f8"; "f8"; "f8";
     "f4"; "f8"; "f8"; "f8"; "f8";
     "f8"; "f4"; "f4"; "f4"; "f8"]%string).
Proof.
  split; [intros e; reflexivity|]. split.
  { intros r _ i a E p. destruct i as [|[|i]]; [injection E as <-; reflexivity|injection E as <-; reflexivity|now destruct i]. }
  split; [intros r _; reflexivity|]. split; [exact ex_vector_ok|]. split.
  { split; [reflexivity|]. intros i Hi. change (i < 3)%nat in Hi. destruct (nat_lt3 i Hi) as [->|[->| ->]]; cbv; intuition congruence. }
  vm_compute. auto.
Qed.
(** x as a vector of one type: started, waited for, typed as before *)
Example C89_kept_example : let calls := [CVector _ ex_x ex_y 1; CLocal _ (fun _ m => m); CWait (element string Z) 0] in
  Forall (call_ok _ 1 2) calls /\ waits_ok _ calls 0 [] /\ Forall (call_typed string Z (fun _ _ => "f8"%string) 1) calls.
Proof.
  split; [|split].
  - constructor; [split; [intros r; cbn; lia|split; [intros r; cbn; lia|exists 2, 3%nat, 1%nat, 0%nat; exact ex_vector_ok]]|]. constructor; [cbn; auto|]. constructor; [exact I|constructor].
  - cbn. lia || (repeat split; try lia; auto).
  - constructor; [exists "f8"%string; auto|]. constructor; [cbn; auto|]. constructor; [exact I|constructor].
Qed.
