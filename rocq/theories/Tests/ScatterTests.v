(** tests/test_tile_scatter.py, tests/test_tile_scatter_gather.py and tests/test_cube_scatter_gather.py, evaluated in the model:
    every rank runs to its end in the order of the test. Random arrays are 0, 1, 2, ...; memory not yet written is -999.
    The second and third are evaluated for some combinations of halos and dimensions, since coqchk computes slowly; all of them (for the cube
    with layout (3, 3), some) were evaluated once (commit e542bc4). *)
From Verif.Base Require Import Base.
From Verif.Model Require Import Consts Numpy Quantity Partitioner Collective ScatterGather.
From Verif.Tests Require Import Tables.
Local Open Scope string_scope.
Local Open Scope Z_scope.

Fixpoint to_end {A} (fuel r : nat) (s : list (cstate (obj Z) Z A)) : list (cstate (obj Z) Z A) :=
  match fuel with
  | O => s
  | S f => match cstep (fun _ _ => false) r s with Some s' => to_end f r s' | None => s end
  end.
Definition results {A} (total : nat) (order : list nat) (p : nat -> proc (obj Z) Z A) : list (option (res A)) :=
  map outcome_of (fold_left (fun s r => to_end 100 r s) order (cstart total p)).
Definition junk (_ : nat) (_ : idx) : Z := -999.
Definition count (p : partitioner) : nat := Z.to_nat (p_total_ranks p).
Definition scattered (p : partitioner) (send : quantity Z) (recv : nat -> option (quantity Z)) : list (option (res (quantity Z))) :=
  results (count p) (seq 0 (count p)) (fun r => scatter Z Z p (Z.of_nat r) junk (if Nat.eqb r 0 then Some send else None) (recv r)).
Definition gathered (p : partitioner) (send : nat -> quantity Z) (recv : option (quantity Z)) : list (option (res (option (quantity Z)))) :=
  results (count p) (rev (seq 0 (count p))) (fun r => gather Z Z p (Z.of_nat r) junk (send r) (if Nat.eqb r 0 then recv else None)).

Definition strings_eqb (l l' : list string) : bool := Nat.eqb (length l) (length l') && forallb (fun ab => String.eqb (fst ab) (snd ab)) (combine l l').
(** assert_quantity_equals *)
Definition quantity_equals (a b : quantity Z) : bool :=
  strings_eqb (q_dims a) (q_dims b) && String.eqb (q_units a) (q_units b) && zs_eqb (q_extent a) (q_extent b) &&
  match view_get a (PSingle IALL), view_get b (PSingle IALL) with Ok v, Ok w => same_array v w | _, _ => false end.

(** * tests/test_tile_scatter.py *)
Definition layouts : list layout_t := [(1, 1); (1, 2); (2, 1); (2, 2); (3, 3)].
Definition each_rank (l : list (option (res (quantity Z)))) (test : Z -> quantity Z -> bool) : bool :=
  forallb (fun ro => match snd ro with Some (Ok q) => test (Z.of_nat (fst ro)) q | _ => false end) (combine (seq 0 (length l)) l).
Definition elements (q : quantity Z) : list Z := match view_get q (PSingle IALL) with Ok v => ravel v | Err _ => [] end.
(** 30-69 *)
Definition positions (layout : layout_t) (axis : nat) : quantity Z :=
  mkQ (mkA [fst layout + 1; snd layout + 1] (fun p => nth axis p 0)) ["y_interface"; "x_interface"] "dimensionless" [0; 0] [fst layout + 1; snd layout + 1].
Example test_interface_state_two_by_two_per_rank_scatter_tile :
  forallb (fun layout =>
    each_rank (scattered (TilePart layout) (positions layout 0) (fun _ => None)) (fun rank q =>
      let j := fst (tile_subtile_index layout rank) in zs_eqb (q_extent q) [2; 2] && zs_eqb (elements q) [j; j; j + 1; j + 1]) &&
    each_rank (scattered (TilePart layout) (positions layout 1) (fun _ => None)) (fun rank q =>
      let i := snd (tile_subtile_index layout rank) in zs_eqb (q_extent q) [2; 2] && zs_eqb (elements q) [i; i + 1; i; i + 1])) layouts = true.
Proof. vm_compute. reflexivity. Qed.
(** 72-118, and 121-180 with a halo *)
Definition centered (layout : layout_t) (n_halo : Z) (value : Z -> Z -> Z) : quantity Z :=
  mkQ (mkA [fst layout + 2 * n_halo; snd layout + 2 * n_halo]
         (fun p => let j := nth 0 p 0 - n_halo in let i := nth 1 p 0 - n_halo in
                   if (0 <=? j) && (j <? fst layout) && (0 <=? i) && (i <? snd layout) then value j i else -1))
    ["y"; "x"] "dimensionless" [n_halo; n_halo] [fst layout; snd layout].
Example test_centered_state_one_item_per_rank_scatter_tile :
  forallb (fun n_halo => forallb (fun layout =>
    let one q value := each_rank (scattered (TilePart layout) q (fun _ => None))
                         (fun rank q => zs_eqb (q_extent q) [1; 1] && zs_eqb (elements q) [value rank] && (at_ (q_data q) [0; 0] =? value rank)) in
    one (centered layout n_halo (fun j i => j * snd layout + i)) (fun rank => rank) &&
    one (centered layout n_halo (fun j i => j)) (fun rank => fst (tile_subtile_index layout rank)) &&
    one (centered layout n_halo (fun j i => i)) (fun rank => snd (tile_subtile_index layout rank))) layouts) [0; 1; 3] = true.
Proof. vm_compute. reflexivity. Qed.

(** * tests/test_tile_scatter_gather.py and tests/test_cube_scatter_gather.py *)

(** the fixtures: layout, n_rank_halo, n_tile_halo, dims *)
Definition square : list Z := [1; 3].
Definition all_dims : list (list string) := [["x"; "y"]; ["y"; "x"]; ["x_interface"; "y"]; ["x"; "y"; "z"]; ["z"; "y"; "x"]; ["y"; "z"; "x"]].
Definition dim_length (n : Z) (d : string) : Z :=
  if String.eqb d "tile" then 6 else if sin d HORIZONTAL_DIMS then 2 * n + (if sin d INTERFACE_DIMS then 1 else 0) else 3.
(** get_quantity *)
Definition quantity_with (dims : list string) (extent : list Z) (n_halo : Z) (value : idx -> Z) : quantity Z :=
  let halo d := if sin d HORIZONTAL_DIMS then n_halo else 0 in
  mkQ (mkA (map (fun de => snd de + 2 * halo (fst de)) (combine dims extent)) value) dims "m/s" (map halo dims) extent.
Definition whole (cube : bool) (n : Z) (dims : list string) (n_halo : Z) : quantity Z :=
  let dims := if cube then "tile" :: dims else dims in
  let q := quantity_with dims (map (dim_length n) dims) n_halo (fun _ => 0) in
  q_with_data q (COUNT (shp (q_data q))).
(** scattered_quantities *)
Definition part_of (p : partitioner) (q : quantity Z) (n_rank_halo : Z) (r : nat) : quantity Z :=
  match (do sl <- p_subtile_slice p (Z.of_nat r) (q_dims q) (q_extent q); view_get q (PTuple sl)) with
  | Ok a =>
      let e := quantity_with (scatter_dims p (q_dims q)) (shp a) n_rank_halo (fun _ => 0) in
      match view_set e (PSingle IALL) a with Ok e => e | Err _ => q end
  | Err _ => q
  end.
Definition cleared (value : Z) (q : quantity Z) : quantity Z := q_with_data q (mkA (shp (q_data q)) (fun _ => value)).

Definition cases (test : Z -> list string -> Z -> Z -> bool) : bool :=
  forallb (fun dims => test 1 dims 1 3) all_dims && test 1 ["x"; "y"] 0 0 && test 1 ["y"; "z"; "x"] 3 0 && test 3 ["x_interface"; "y"] 1 0.
Definition parts_equal (p : partitioner) (q : quantity Z) (rh : Z) (l : list (option (res (quantity Z)))) : bool :=
  each_rank l (fun rank r => quantity_equals r (part_of p q rh (Z.to_nat rank))).
Definition root_equals (q : quantity Z) (l : list (option (res (option (quantity Z))))) : bool :=
  match l with
  | Some (Ok (Some r)) :: l => quantity_equals r q && forallb (fun o => match o with Some (Ok None) => true | _ => false end) l
  | _ => false
  end.
Definition part_kind (cube : bool) (n : Z) : partitioner := if cube then CubePart (n, n) else TilePart (n, n).

Definition scatter_test (cube : bool) (n : Z) (dims : list string) (rh th : Z) : bool :=
  let p := part_kind cube n in let q := whole cube n dims th in
  parts_equal p q rh (scattered p q (fun _ => None)) && parts_equal p q rh (scattered p q (fun r => Some (cleared 0 (part_of p q rh r)))).
Definition gather_test (cube : bool) (n : Z) (dims : list string) (rh th : Z) : bool :=
  let p := part_kind cube n in let q := whole cube n dims th in
  root_equals q (gathered p (part_of p q rh) None) && root_equals q (gathered p (part_of p q rh) (Some (cleared (-1) q))).

(** tests/test_tile_scatter_gather.py 219-293 *)
Example test_tile_scatter : cases (scatter_test false) = true.
Proof. vm_compute. reflexivity. Qed.
Example test_tile_gather : cases (gather_test false) = true.
Proof. vm_compute. reflexivity. Qed.
(** tests/test_cube_scatter_gather.py 221-281 *)
Definition cases_1 (test : Z -> list string -> Z -> Z -> bool) : bool := forallb (fun dims => test 1 dims 1 1) all_dims && test 1 ["x"; "y"] 3 0.
Example test_cube_scatter : cases_1 (scatter_test true) = true.
Proof. vm_compute. reflexivity. Qed.
Example test_cube_gather : cases_1 (gather_test true) = true.
Proof. vm_compute. reflexivity. Qed.
Example test_cube_3 : scatter_test true 3 ["x_interface"; "y"] 1 0 && gather_test true 3 ["x_interface"; "y"] 1 0 = true.
Proof. vm_compute. reflexivity. Qed.

(** states: tests/test_tile_scatter_gather.py 186-216, 296-384 and tests/test_cube_scatter_gather.py 186-218, 284-321; times are numbers *)
Definition temperature (q : quantity Z) (time : option Z) : state Z Z := mkSt [("air_temperature", q)] time.
Definition junk' (_ : string) : nat -> idx -> Z := junk.
Definition state_equals (q : quantity Z) (time : option Z) (s : state Z Z) : bool :=
  match st_vars s with
  | [(name, r)] => String.eqb name "air_temperature" && quantity_equals r q
  | _ => false
  end && match st_time s, time with Some a, Some b => a =? b | None, None => true | _, _ => false end.
Definition scatter_state_test (cube : bool) (time : option Z) (n : Z) (dims : list string) (rh th : Z) : bool :=
  let p := part_kind cube n in let q := whole cube n dims th in
  let run recv := results (count p) (seq 0 (count p))
    (fun r => scatter_state Z Z p (Z.of_nat r) junk' (if Nat.eqb r 0 then Some (temperature q time) else None) (recv r)) in
  let good l := forallb (fun ro => match snd ro with Some (Ok s) => state_equals (part_of p q rh (fst ro)) time s | _ => false end) (combine (seq 0 (length l)) l) in
  good (run (fun _ => None)) &&
  good (run (fun r => Some (temperature (cleared 0 (part_of p q rh r)) (option_map (fun t => t - 3600) time)))).
Definition gather_state_test (cube : bool) (n : Z) (dims : list string) (rh th : Z) : bool :=
  let p := part_kind cube n in let q := whole cube n dims th in let time := Some 946684800 in
  let run recv := results (count p) (rev (seq 0 (count p)))
    (fun r => gather_state Z Z p (Z.of_nat r) junk' (temperature (part_of p q rh r) time) (if Nat.eqb r 0 then recv else None)) in
  let good l := match l with
    | Some (Ok (Some s)) :: l => state_equals q time s && forallb (fun o => match o with Some (Ok None) => true | _ => false end) l
    | _ => false
    end in
  good (run None) && good (run (Some (temperature (cleared (-1) q) time))).
Example test_tile_scatter_state : cases (scatter_state_test false (Some 946684800)) = true.
Proof. vm_compute. reflexivity. Qed.
Example test_tile_scatter_state_without_time : cases (scatter_state_test false None) = true.
Proof. vm_compute. reflexivity. Qed.
Example test_tile_gather_state : cases (gather_state_test false) = true.
Proof. vm_compute. reflexivity. Qed.
Example test_cube_scatter_state : cases_1 (scatter_state_test true (Some 946684800)) = true.
Proof. vm_compute. reflexivity. Qed.
Example test_cube_gather_state : cases_1 (gather_state_test true) = true.
Proof. vm_compute. reflexivity. Qed.
