(** C20-C24, C55-C57: scatter, gather and their versions for states. *)
From Verif.Base Require Import Base.
From Verif.Model Require Import Consts Numpy Quantity Collective ScatterGather.
From Verif.Spec Require Import Grid Layouts Views Together Distribute.
From Verif.Proofs Require Import Slices CollectiveProofs StateProofs.

(** Programs whose collective calls match round by round end, with the outcomes determined by the rounds,
    under every schedule, and whichever calls synchronise. *)
Theorem C15_collectives : forall Ob V A size (ps : nat -> proc Ob V A) out, together size ps out -> always_ends size ps out.
Proof. exact @together_always. Qed.
Print Assumptions C15_collectives.

(** C20: each rank ends with its part of the sent quantity: in the quantity supplied, or in a new one with
    the dimensions and units sent.  Only the root's argument counts. *)
Theorem C20_scatter : forall V T p dims rext, fits (layout_of p) dims rext ->
  forall (sends recv : nat -> option (quantity V)) send junk, sends 0%nat = Some send -> global_sized p dims rext send ->
  (forall r, (r < ranks p)%nat -> given (rank_sized rext) (recv r)) ->
  exists outs, always_ends (ranks p) (fun r => scatter V T p (Z.of_nat r) (junk r) (sends r) (recv r)) (fun r => Ok (outs r)) /\
    forall r, (r < ranks p)%nat -> written (or_blank (recv r) (blank dims (q_units send) rext (junk r 0%nat))) (outs r) (part_of p r dims rext (domain_of send)).
Proof. exact @scatter_result. Qed.
Print Assumptions C20_scatter.

(** C21: gather on the root holds, at every point, the value of the greatest rank having the point *)
Theorem C21_gather : forall V T p dims rext, fits (layout_of p) dims rext ->
  forall (sends : nat -> quantity V) (recv : nat -> option (quantity V)) junk, at_most_one AxX dims -> at_most_one AxY dims ->
  (forall r, (r < ranks p)%nat -> rank_sized rext (sends r)) ->
  match recv 0%nat with Some q => global_sized p dims rext q | None => q_dims (sends 0%nat) = dims end ->
  exists out, always_ends (ranks p) (fun r => gather V T p (Z.of_nat r) (junk r) (sends r) (recv r)) (fun r => Ok (match r with O => Some out | _ => None end)) /\
    q_extent out = global_size p dims rext /\
    forall g, in_shape (q_extent out) g -> exists r pt, (r < ranks p)%nat /\ in_shape rext pt /\ place p r dims rext pt = g /\
      at_ (domain_of out) g = at_ (domain_of (sends r)) pt /\
      forall r' pt', (r' < ranks p)%nat -> in_shape rext pt' -> place p r' dims rext pt' = g -> (r' <= r)%nat.
Proof. exact @gather_full. Qed.
Print Assumptions C21_gather.

(** ... for any dimensions: points no rank has keep the value they had *)
Theorem C21_gather_any_dims : forall V T p dims rext, fits (layout_of p) dims rext ->
  forall (sends : nat -> quantity V) (recv : nat -> option (quantity V)) junk, (forall r, (r < ranks p)%nat -> rank_sized rext (sends r)) ->
  match recv 0%nat with Some q => global_sized p dims rext q | None => q_dims (sends 0%nat) = dims end ->
  exists out a, always_ends (ranks p) (fun r => gather V T p (Z.of_nat r) (junk r) (sends r) (recv r)) (fun r => Ok (match r with O => Some out | _ => None end)) /\
    written (or_blank (recv 0%nat) (blank (global_dims p dims) (q_units (sends 0%nat)) (global_size p dims rext) (junk 0%nat 0%nat))) out a /\
    gathered p dims rext (fun r => domain_of (sends r)) (domain_of (or_blank (recv 0%nat) (blank (global_dims p dims) (q_units (sends 0%nat)) (global_size p dims rext) (junk 0%nat 0%nat)))) a.
Proof. exact @gather_outcome. Qed.
Print Assumptions C21_gather_any_dims.

Theorem C21_gather_inverts_scatter : forall V T p dims rext, fits (layout_of p) dims rext ->
  forall (sends recv : nat -> option (quantity V)) (recv' : nat -> option (quantity V)) send junk junk',
  at_most_one AxX dims -> at_most_one AxY dims -> sends 0%nat = Some send -> global_sized p dims rext send ->
  (forall r, (r < ranks p)%nat -> given (fun q => rank_sized rext q /\ q_dims q = dims) (recv r)) ->
  given (global_sized p dims rext) (recv' 0%nat) ->
  exists out, always_ends (ranks p) (fun r => pbind (scatter V T p (Z.of_nat r) (junk r) (sends r) (recv r)) (fun q => gather V T p (Z.of_nat r) (junk' r) q (recv' r)))
      (fun r => Ok (match r with O => Some out | _ => None end)) /\
    same (domain_of out) (domain_of send) /\ q_dims out = global_dims p dims.
Proof. exact @gather_scatter. Qed.
Print Assumptions C21_gather_inverts_scatter.

(** scattering what was gathered gives back each rank's data iff ranks agree on the points they share *)
Theorem C21_scatter_inverts_gather : forall V T p dims rext, fits (layout_of p) dims rext ->
  forall (qs : nat -> quantity V) (recv : nat -> option (quantity V)) (recv' : nat -> option (quantity V)) junk junk',
  (forall r, (r < ranks p)%nat -> rank_sized rext (qs r)) ->
  match recv' 0%nat with Some q => global_sized p dims rext q | None => q_dims (qs 0%nat) = dims end ->
  (forall r, (r < ranks p)%nat -> given (rank_sized rext) (recv r)) ->
  exists outs, always_ends (ranks p) (fun r => pbind (gather V T p (Z.of_nat r) (junk' r) (qs r) (recv' r)) (fun g => scatter V T p (Z.of_nat r) (junk r) g (recv r)))
      (fun r => Ok (outs r)) /\
    ((forall r, (r < ranks p)%nat -> same (domain_of (outs r)) (domain_of (qs r))) <-> consistent p dims rext (fun r => domain_of (qs r))).
Proof. exact @scatter_gather. Qed.
Print Assumptions C21_scatter_inverts_gather.

(** C22 *)
Theorem C22_scatter_frame : forall V T p dims rext, fits (layout_of p) dims rext ->
  forall (sends recv : nat -> option (quantity V)) send junk, sends 0%nat = Some send -> global_sized p dims rext send ->
  (forall r, (r < ranks p)%nat -> given (rank_sized rext) (recv r)) ->
  exists outs, always_ends (ranks p) (fun r => scatter V T p (Z.of_nat r) (junk r) (sends r) (recv r)) (fun r => Ok (outs r)) /\
    forall r q, (r < ranks p)%nat -> recv r = Some q -> q_meta (outs r) = q_meta q /\ q_units (outs r) = q_units q /\
      forall i, in_shape (shp (q_data q)) i -> (forall pt, in_shape (q_extent q) pt -> i <> shifted (q_origin q) pt) -> at_ (q_data (outs r)) i = at_ (q_data q) i.
Proof. exact @scatter_frame. Qed.
Print Assumptions C22_scatter_frame.

Theorem C22_gather_frame : forall V T p dims rext, fits (layout_of p) dims rext ->
  forall (sends : nat -> quantity V) (recv : nat -> option (quantity V)) q junk, (forall r, (r < ranks p)%nat -> rank_sized rext (sends r)) ->
  recv 0%nat = Some q -> global_sized p dims rext q ->
  exists out, always_ends (ranks p) (fun r => gather V T p (Z.of_nat r) (junk r) (sends r) (recv r)) (fun r => Ok (match r with O => Some out | _ => None end)) /\
    q_meta out = q_meta q /\ q_units out = q_units q /\
    forall i, in_shape (shp (q_data q)) i -> (forall pt, in_shape (q_extent q) pt -> i <> shifted (q_origin q) pt) -> at_ (q_data out) i = at_ (q_data q) i.
Proof. exact @gather_frame. Qed.
Print Assumptions C22_gather_frame.

(** A quantity on a 2 by 2 layout: 3 by 2 points per rank, staggered in y, 5 by 4 in all, in an array with a halo;
    the receiving ranks use arrays with halos of their own. *)
Definition ex_part : partitioner := TilePart (2, 2).
Definition ex_dims : list string := ["y_interface"; "x"]%string.
Definition ex_global : quantity Z := mkQ (mkA [7; 6] (fun i => nth 0 i 0 * 10 + nth 1 i 0)) ex_dims "K" [1; 1] [5; 4].
Definition ex_rank (r : nat) : quantity Z := mkQ (mkA [5; 4] (fun _ => - Z.of_nat r)) ex_dims "K" [1; 2] [3; 2].

Example C20_example : fits (2, 2) ex_dims [3; 2] /\ global_sized ex_part ex_dims [3; 2] ex_global /\ ranks ex_part = 4%nat /\
  (forall r, given (rank_sized [3; 2]) (Some (ex_rank r))) /\ at_most_one AxX ex_dims /\ at_most_one AxY ex_dims /\
  ravel (part_of ex_part 3 ex_dims [3; 2] (domain_of ex_global)) = [33; 34; 43; 44; 53; 54].
Proof.
  split; [|split; [|split; [|split; [|split; [|split]]]]].
  - split; [split; apply layout_ok_below_49; simpl; lia|]. split; [discriminate|]. repeat apply Forall2_cons; try apply Forall2_nil; vm_compute; split; congruence.
  - split; [|split; reflexivity]. split; [reflexivity|]. repeat constructor; simpl; lia.
  - reflexivity.
  - intros r. split; [|reflexivity]. split; [reflexivity|]. repeat constructor; simpl; lia.
  - left. exists ["y_interface"%string], [], "x"%string. repeat split; repeat constructor; discriminate.
  - left. exists [], ["x"%string], "y_interface"%string. repeat split; repeat constructor; discriminate.
  - reflexivity.
Qed.

(** ranks that disagree on the interface between them are inconsistent; parts of one quantity are not *)
Example C21_example : consistent ex_part ex_dims [3; 2] (fun r => part_of ex_part r ex_dims [3; 2] (domain_of ex_global)) /\
  ~ consistent ex_part ex_dims [3; 2] (fun r => domain_of (ex_rank r)).
Proof.
  split.
  - intros r r' pt pt' Hr Hr' P P' E. cbn [part_of at_]. now rewrite E.
  - intros C. specialize (C 0%nat 2%nat [2; 0] [0; 0]). discriminate C; try (unfold ranks; simpl; lia); try reflexivity; repeat constructor; lia.
Qed.

(** C23, C24: scatter_state gives each variable sent its own part and leaves other variables alone; the time is that of the
    root in all cases, so a time already there is lost when the root has none. *)
Theorem C23_scatter_state : forall V T p (D : string -> list string) (E : string -> list Z) (send : state V T) (sends recvs : nat -> option (state V T)) junk,
  sends 0%nat = Some send -> NoDup (dkeys (st_vars send)) -> (0 < ranks p)%nat ->
  let vars r := match recvs r with Some s => st_vars s | None => [] end in
  (forall name q, dget name (st_vars send) = Some q -> fits (layout_of p) (D name) (E name) /\ global_sized p (D name) (E name) q /\
     forall r, (r < ranks p)%nat -> given (rank_sized (E name)) (dget name (vars r))) ->
  exists outs, always_ends (ranks p) (fun r => scatter_state V T p (Z.of_nat r) (junk r) (sends r) (recvs r)) (fun r => Ok (outs r)) /\
    forall r, (r < ranks p)%nat -> st_time (outs r) = st_time send /\
      (forall name q, dget name (st_vars send) = Some q -> exists q', dget name (st_vars (outs r)) = Some q' /\
         written (or_blank (dget name (vars r)) (blank (D name) (q_units q) (E name) (junk r name 0%nat))) q' (part_of p r (D name) (E name) (domain_of q))) /\
      (forall name, dget name (st_vars send) = None -> dget name (st_vars (outs r)) = dget name (vars r)).
Proof. exact @scatter_state_result. Qed.
Print Assumptions C23_scatter_state.

(** C23: gather_state when all ranks list their variables in the same order; [Q name r] is rank r's quantity *)
Theorem C23_gather_state : forall V T p (D : string -> list string) (E : string -> list Z) junk (names : list string) (Q : string -> nat -> quantity V) (sends : nat -> state V T) (recvs : nat -> option (state V T)),
  let vars := match recvs 0%nat with Some s => st_vars s | None => [] end in
  NoDup names -> (0 < ranks p)%nat ->
  (forall r, (r < ranks p)%nat -> st_vars (sends r) = map (fun name => (name, Q name r)) names) ->
  (forall name, In name names -> fits (layout_of p) (D name) (E name) /\ (forall r, (r < ranks p)%nat -> rank_sized (E name) (Q name r)) /\
     match dget name vars with Some q => global_sized p (D name) (E name) q | None => q_dims (Q name 0%nat) = D name end) ->
  exists out, always_ends (ranks p) (fun r => gather_state V T p (Z.of_nat r) (junk r) (sends r) (recvs r)) (fun r => Ok (match r with O => Some out | _ => recvs r end)) /\
    st_time out = match st_time (sends 0%nat) with Some t => Some t | None => match recvs 0%nat with Some s => st_time s | None => None end end /\
    (forall name, In name names -> exists q' a, dget name (st_vars out) = Some q' /\
         written (or_blank (dget name vars) (blank (global_dims p (D name)) (q_units (Q name 0%nat)) (global_size p (D name) (E name)) (junk 0%nat name 0%nat))) q' a /\
         gathered p (D name) (E name) (fun r => domain_of (Q name r)) (domain_of (or_blank (dget name vars) (blank (global_dims p (D name)) (q_units (Q name 0%nat)) (global_size p (D name) (E name)) (junk 0%nat name 0%nat)))) a) /\
    (forall name, ~ In name names -> dget name (st_vars out) = dget name vars).
Proof. exact @gather_state_names. Qed.
Print Assumptions C23_gather_state.

(** C24 *)
Theorem C24_time_removed : forall V T p (D : string -> list string) (E : string -> list Z) (send : state V T) (sends recvs : nat -> option (state V T)) junk,
  sends 0%nat = Some send -> st_time send = None -> NoDup (dkeys (st_vars send)) -> (0 < ranks p)%nat ->
  let vars r := match recvs r with Some s => st_vars s | None => [] end in
  (forall name q, dget name (st_vars send) = Some q -> fits (layout_of p) (D name) (E name) /\ global_sized p (D name) (E name) q /\
     forall r, (r < ranks p)%nat -> given (rank_sized (E name)) (dget name (vars r))) ->
  exists outs, always_ends (ranks p) (fun r => scatter_state V T p (Z.of_nat r) (junk r) (sends r) (recvs r)) (fun r => Ok (outs r)) /\
    forall r, (r < ranks p)%nat -> st_time (outs r) = None /\
      forall name, dget name (st_vars send) = None -> dget name (st_vars (outs r)) = dget name (vars r).
Proof. exact @time_removed. Qed.
Print Assumptions C24_time_removed.

(** one variable sent without time, to ranks which have a time and another variable *)
Definition ex_state : state Z Z := mkSt [("a"%string, ex_global)] None.
Definition ex_recv (r : nat) : option (state Z Z) := Some (mkSt [("b"%string, ex_rank r)] (Some 7)).
Example C24_example : st_time ex_state = None /\ NoDup (dkeys (st_vars ex_state)) /\ (0 < ranks ex_part)%nat /\
  (forall name q, dget name (st_vars ex_state) = Some q -> fits (2, 2) ex_dims [3; 2] /\ global_sized ex_part ex_dims [3; 2] q /\
     forall r, (r < 4)%nat -> given (rank_sized [3; 2]) (dget name (match ex_recv r with Some s => st_vars s | None => [] end))) /\
  (forall r, match ex_recv r with Some s => st_time s = Some 7 | None => False end).
Proof.
  split; [reflexivity|]. split; [repeat constructor; simpl; tauto|]. split; [unfold ranks; simpl; lia|]. split; [|reflexivity].
  intros name q. cbn [ex_state st_vars dget]. destruct (String.eqb_spec name "a"); [|discriminate]. intros [= <-]. subst name.
  destruct C20_example as (A & B & _). split; [exact A|]. split; [exact B|]. intros r _. exact I.
Qed.

(** C55: in general gather_state pairs variables by their position in the dictionary of each rank, whatever their
    names are; [qs] lists the quantities in each position. *)
Theorem C55_by_position : forall V T p (D : string -> list string) (E : string -> list Z) junk (qs : list (nat -> quantity V)) (sends : nat -> state V T) (recvs : nat -> option (state V T)),
  let names := dkeys (st_vars (sends 0%nat)) in
  let vars := match recvs 0%nat with Some s => st_vars s | None => [] end in
  NoDup names -> (0 < ranks p)%nat ->
  (forall r, (r < ranks p)%nat -> map snd (st_vars (sends r)) = map (fun f => f r) qs) ->
  (forall name f, In (name, f) (combine names qs) -> fits (layout_of p) (D name) (E name) /\ (forall r, (r < ranks p)%nat -> rank_sized (E name) (f r)) /\
     match dget name vars with Some q => global_sized p (D name) (E name) q | None => q_dims (f 0%nat) = D name end) ->
  exists out, always_ends (ranks p) (fun r => gather_state V T p (Z.of_nat r) (junk r) (sends r) (recvs r)) (fun r => Ok (match r with O => Some out | _ => recvs r end)) /\
    st_time out = match st_time (sends 0%nat) with Some t => Some t | None => match recvs 0%nat with Some s => st_time s | None => None end end /\
    (forall name f, In (name, f) (combine names qs) -> exists q' a, dget name (st_vars out) = Some q' /\
         written (or_blank (dget name vars) (blank (global_dims p (D name)) (q_units (f 0%nat)) (global_size p (D name) (E name)) (junk 0%nat name 0%nat))) q' a /\
         gathered p (D name) (E name) (fun r => domain_of (f r)) (domain_of (or_blank (dget name vars) (blank (global_dims p (D name)) (q_units (f 0%nat)) (global_size p (D name) (E name)) (junk 0%nat name 0%nat)))) a) /\
    (forall name, ~ In name names -> dget name (st_vars out) = dget name vars).
Proof. exact @gather_state_result. Qed.
Print Assumptions C55_by_position.

(** two ranks side by side holding a = 1, b = 2 and, in the other order, b = 20, a = 10: the gathered a is [1, 20] *)
Definition ex_point (v : Z) : quantity Z := mkQ (mkA [1; 1] (fun _ => v)) ["y"; "x"]%string "K" [0; 0] [1; 1].
Definition ex_swapped (r : nat) : state Z Z :=
  match r with
  | O => mkSt [("a", ex_point 1); ("b", ex_point 2)]%string None
  | _ => mkSt [("b", ex_point 20); ("a", ex_point 10)]%string None
  end.
Theorem C55_order_refuted :
  option_map (map (fun c => match outcome_of c with
                            | Some (Ok (Some st)) => map (fun nq => (fst nq, ravel (domain_of (snd nq)))) (st_vars st)
                            | _ => []
                            end))
    (crun (fun _ _ => false) [0; 1; 0; 1; 0; 1; 0; 1]%nat
       (cstart 2 (fun r => gather_state Z Z (TilePart (1, 2)) (Z.of_nat r) (fun _ _ _ => 0) (ex_swapped r) None)))
  = Some [[("a", [1; 20]); ("b", [2; 10])]; []]%string.
Proof. vm_compute. reflexivity. Qed.
Print Assumptions C55_order_refuted.

(** C56: without a quantity or state on the root, the root raises TypeError and the others wait forever *)
Theorem C56_scatter_nothing : forall V T p size (sends recv : nat -> option (quantity V)) junk delayed sched s, (0 < size)%nat -> sends 0%nat = None ->
  crun delayed sched (cstart size (fun r => scatter V T p (Z.of_nat r) (junk r) (sends r) (recv r))) = Some s ->
  (exists c, nth_error s 0 = Some c /\ outcome_of c = Some (Err TypeError)) /\ forall r, (0 < r < size)%nat -> exists c, nth_error s r = Some c /\ outcome_of c = None.
Proof. exact @scatter_nothing. Qed.
Print Assumptions C56_scatter_nothing.

Theorem C56_scatter_state_nothing : forall V T p size (sends recv : nat -> option (state V T)) junk delayed sched s, (0 < size)%nat -> sends 0%nat = None ->
  crun delayed sched (cstart size (fun r => scatter_state V T p (Z.of_nat r) (junk r) (sends r) (recv r))) = Some s ->
  (exists c, nth_error s 0 = Some c /\ outcome_of c = Some (Err TypeError)) /\ forall r, (0 < r < size)%nat -> exists c, nth_error s r = Some c /\ outcome_of c = None.
Proof. exact @scatter_state_nothing. Qed.
Print Assumptions C56_scatter_state_nothing.

Example C56_example :
  option_map (@length _) (crun (fun _ _ => false) [1; 2; 3]%nat (cstart 4 (fun r => scatter Z Z ex_part (Z.of_nat r) (fun _ _ => 0) None (Some (ex_rank r))))) = Some 4%nat.
Proof. vm_compute. reflexivity. Qed.

(** C57: a receive quantity of any shape with the right number of points is accepted, and filled in C order *)
Theorem C57_reshaped : forall V T p dims rext, fits (layout_of p) dims rext ->
  forall (sends recv : nat -> option (quantity V)) send junk, sends 0%nat = Some send -> global_sized p dims rext send ->
  (forall r, given (same_count rext) (recv r)) ->
  exists outs, always_ends (ranks p) (fun r => scatter V T p (Z.of_nat r) (junk r) (sends r) (recv r)) (fun r => Ok (outs r)) /\
    forall r, (r < ranks p)%nat -> ravel (domain_of (outs r)) = ravel (part_of p r dims rext (domain_of send)) /\
      q_meta (outs r) = q_meta (or_blank (recv r) (blank dims (q_units send) rext (junk r 0%nat))).
Proof. exact @scatter_reshape. Qed.
Print Assumptions C57_reshaped.

(** a 2 by 3 array, with the dimensions in the other order, receives 3 by 2 points *)
Definition ex_turned : quantity Z := mkQ (mkA [2; 3] (fun _ => 0)) ["x"; "y_interface"]%string "m" [0; 0] [2; 3].
Example C57_example : same_count [3; 2] ex_turned /\
  option_map (fun s => match nth_error s 3 with
                       | Some c => match outcome_of c with Some (Ok q) => map (at_ (q_data q)) [[0; 0]; [0; 1]; [1; 0]] | _ => [] end
                       | None => []
                       end)
    (crun (fun _ _ => false) [0; 1; 2; 3; 0; 1; 2; 3; 0; 1; 2; 3; 0; 1; 2; 3]%nat
       (cstart 4 (fun r => scatter Z Z ex_part (Z.of_nat r) (fun _ _ => 0) (Some ex_global) (Some ex_turned)))) = Some [33; 34; 44].
Proof.
  split; [split; [split; [reflexivity|repeat constructor; simpl; lia]|split; [discriminate|reflexivity]]|].
  vm_compute. reflexivity.
Qed.
