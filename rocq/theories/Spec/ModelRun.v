(** A whole model as one program: the state is scattered, the model advances in steps, the state is gathered. *)
From Verif.Base Require Import Base.
From Verif.Model Require Import Consts Numpy Quantity Partitioner Network Communicator Collective ScatterGather Cluster.
From Verif.Spec Require Import Grid Cube Halo Lockstep Sync Client Updates Steps Views Distribute Mixed Prognostic.

(** a name in the dictionaries: component [e_comp] of variable [e_var], with these dimensions on ranks *)
Record entry := mkEntry { e_name : string; e_var : nat; e_comp : bool; e_dims : list string }.

(** the names stand for the components of all variables, each for one *)
Definition catalogue (ks : list (bool * form)) (es : list entry) : Prop :=
  NoDup (map e_name es) /\ NoDup (map (fun e => (e_var e, e_comp e)) es) /\
  (forall e, In e es -> exists f, part ks (e_var e) (e_comp e) f) /\
  (forall i c f, part ks i c f -> exists e, In e es /\ e_var e = i /\ e_comp e = c).

(** extent of a component where there are [N] cells along x and y *)
Definition extent_on (f : form) (c : bool) (N : Z) : list Z :=
  map (fun i => if Nat.eqb i (f_ix f) then N + stag_x f c else if Nat.eqb i (f_iy f) then N + stag_y f c else f_ext f i) (seq 0 (f_len f)).

Section Run.
Context {V T : Type}.

(** the quantities ranks work on, listed as the names are; arrays are numbered in this order *)
Definition arranged (n : Z) (es : list entry) (st : state) (local : nat -> list (quantity V)) : Prop :=
  forall r, (r < Halo.ranks n)%nat -> length (local r) = length es /\
    forall j e v f, nth_error es j = Some e -> component st (e_var e) (e_comp e) v f ->
      exists q, nth_error (local r) j = Some q /\ handles v (e_comp e) r = mkH j (q_meta q) /\ q_dims q = e_dims e.

(** a quantity of the whole sphere for an entry *)
Definition of_sphere (M : Z) (f : form) (e : entry) (q : quantity V) : Prop :=
  well_formed (q_meta q) /\ q_dims q = "tile"%string :: e_dims e /\ q_extent q = 6 :: extent_on f (e_comp e) M.
(** quantities of the whole sphere which hold [F] *)
Definition on_sphere (M : Z) (ks : list (bool * form)) (es : list entry) (F : sphere V) (vars : dict (quantity V)) : Prop :=
  forall e f, In e es -> part ks (e_var e) (e_comp e) f ->
    let i := e_var e in let c := e_comp e in
    exists q, dget (e_name e) vars = Some q /\ of_sphere M f e q /\
      forall t j x lev, 0 <= t < 6 -> 0 <= j < M + stag_y f c -> 0 <= x < M + stag_x f c -> level (f_len f) (f_ix f) (f_iy f) (f_ext f) lev ->
        at_ (domain_of q) (t :: tile_index (f_len f) (f_ix f) (f_iy f) j x lev) = F i (spot M (stag_y f c) (stag_x f c) t j x) lev (bearing M (stag_y f c) (stag_x f c) c t j x).

(** quantities of the whole sphere in which points of two tiles that are one place have the same value, for vectors in the same direction *)
Definition agrees (neg : V -> V) (M : Z) (ks : list (bool * form)) (es : list entry) (vars : dict (quantity V)) : Prop :=
  (forall e f, In e es -> part ks (e_var e) (e_comp e) f -> exists q, dget (e_name e) vars = Some q /\ of_sphere M f e q) /\
  forall e e' vector f q q' t j x t' j' x' lev, In e es -> In e' es -> e_var e' = e_var e -> nth_error ks (e_var e) = Some (vector, f) ->
    dget (e_name e) vars = Some q -> dget (e_name e') vars = Some q' -> level (f_len f) (f_ix f) (f_iy f) (f_ext f) lev ->
    let c := e_comp e in let c' := e_comp e' in
    0 <= t < 6 -> 0 <= j < M + stag_y f c -> 0 <= x < M + stag_x f c -> 0 <= t' < 6 -> 0 <= j' < M + stag_y f c' -> 0 <= x' < M + stag_x f c' ->
    spot M (stag_y f c) (stag_x f c) t j x = spot M (stag_y f c') (stag_x f c') t' j' x' ->
    let a := at_ (domain_of q) (t :: tile_index (f_len f) (f_ix f) (f_iy f) j x lev) in
    let a' := at_ (domain_of q') (t' :: tile_index (f_len f) (f_ix f) (f_iy f) j' x' lev) in
    let b := bearing M (stag_y f c) (stag_x f c) c t j x in
    let b' := bearing M (stag_y f c') (stag_x f c') c' t' j' x' in
    if vector : bool then (b = b' -> a = a') /\ (b = vscale (-1) b' -> a = neg a') else a = a'.

(** a rank's dictionary, with data from its arrays, and the arrays after a dictionary was filled *)
Definition with_array (q : quantity V) (a : arr V) : quantity V := mkQ a (q_dims q) (q_units q) (q_origin q) (q_extent q).
Definition dictionary (es : list entry) (qs : list (quantity V)) (m : mem V) : dict (quantity V) := combine (map e_name es) (map2 with_array qs m).
Definition arrays_in (es : list entry) (vars : dict (quantity V)) (m : mem V) : mem V :=
  map2 (fun e a => match dget (e_name e) vars with Some q => q_data q | None => a end) es m.

(** scatter_state, steps with halo updates and synchronisation, gather_state; besides arrays, ranks keep the time which they received, and what
    gather_state returns *)
Definition held_back := (option T * option (ScatterGather.state V T))%type.
Definition model_run (l : layout_t) (st : state) (syn : nat -> bool) (h : Z) (fs : list (nat -> mem V -> mem V)) (es : list entry)
    (sends : nat -> option (ScatterGather.state V T)) (local : nat -> list (quantity V)) (recvs : nat -> option (ScatterGather.state V T))
    (junk junk' : nat -> string -> nat -> idx -> V) : list (mcall (obj T) V held_back) :=
  (MWorld (fun r s => pbind (scatter_state V T (CubePart l) (Z.of_nat r) (junk r) (sends r) (Some (mkSt (dictionary es (local r) (fst s)) None)))
     (fun got => PRet (arrays_in es (st_vars got) (fst s), (st_time got, None))))
   :: map MUpdate (model_steps st syn h fs 0)
   ++ [MWorld (fun r s => pbind (gather_state V T (CubePart l) (Z.of_nat r) (junk' r) (mkSt (dictionary es (local r) (fst s)) (fst (snd s))) (recvs r))
     (fun o => PRet (fst s, (fst (snd s), o))))])%list.
End Run.
Arguments held_back : clear implicits.
