(** tests/test_zarr_monitor.py, and test_fill_scalar_corners_copies_from_halo of tests/quantity/test_corners.py.
    The test calls the monitors of all ranks one after the other on DummyComm; here the ranks run interleaved. A date is a
    calendar with a number of seconds. Left out: opening with xarray. Layout (4, 4), which coqchk takes long to compute, was evaluated
    once (commit e542bc4). *)
From Verif.Base Require Import Base.
From Verif.Model Require Import Consts Partitioner Numpy Quantity Corners ScatterGather Shared Zarr.
From Verif.Spec Require Import Distribute Storage.
From Verif.Proofs Require Import ZarrExamples.
From Verif.Tests Require Import Tables.
Local Open Scope string_scope.
Local Open Scope Z_scope.

(** ** array_chunks *)
Example test_array_chunks : Forall (fun '(layout, shape, dims, target) => array_chunks layout shape dims = target)
  [((1, 1), [7; 6; 6], [Z_DIM; Y_DIM; X_DIM], [7; 6; 6]);
   ((1, 1), [6; 6], [Y_DIM; X_DIM], [6; 6]);
   ((1, 1), [6], [Y_DIM], [6]);
   ((1, 1), [7; 6; 6], [Z_DIM; Y_INTERFACE_DIM; X_INTERFACE_DIM], [7; 5; 5]);
   ((2, 2), [7; 6; 6], [Z_DIM; Y_DIM; X_DIM], [7; 3; 3]);
   ((2, 2), [6; 16; 6], [Y_DIM; Z_DIM; X_DIM], [3; 16; 3]);
   ((2, 2), [7; 7; 7], [Z_DIM; Y_INTERFACE_DIM; X_INTERFACE_DIM], [7; 3; 3])].
Proof. table. Qed.

(** ** stores *)
Definition date := (string * Z)%type.
Definition STORE (layout : Z * Z) (r : nat) (l : list (state Z date)) : zproc Z (monitor date * list (res unit)) :=
  store_each Z date (fun _ => -1) fst (fun _ => "2010-01-01 00:00:00") (fun a b => snd b - snd a) layout (Z.of_nat r) None l.
(** all ranks to the end *)
Fixpoint onwards {A} (fuel r : nat) (s : zstore Z * list (srank (zop Z) (zans Z) A)) :=
  match fuel with
  | O => s
  | S f => match sstep zexec (fun _ _ => false) r s with Some s' => onwards f r s' | None => s end
  end.
Definition ends (layout : Z * Z) (ranks : nat) (rounds : nat) (states : nat -> list (state Z date)) :=
  fold_left (fun s r => onwards 400 r s) (concat (repeat (seq 0 ranks) rounds)) (empty_store, sstart ranks (fun r => STORE layout r (states r))).
Definition alone_ends (states : list (state Z date)) := ends (1, 1) 1 2 (fun _ => states).
Definition outcomes {A} (s : zstore Z * list (srank (zop Z) (zans Z) (A * list (res unit)))) : list (option (list (res unit))) := map results (snd s).

(** test_monitor_file_store: the variables of a state, each with its dimensions, units and extent *)
Definition variables : list (list (string * (list string * string * list Z))) :=
  let two := ("var1", (["y"; "x"], "m", [4; 4])) in
  let three name units := (name, (["z"; "y"; "x"], units, [5; 4; 4])) in
  [[]; [two]; [three "var1" "m"]; [two; three "var2" "degK"]].
(** state [i]; the values are those of a function which tells all elements apart *)
Definition value (i : Z) (p : list Z) : Z := i * 1000 + offset [5; 4; 4] (match p with [y; x] => [0; y; x] | _ => p end).
Definition state_i (vars : list (string * (list string * string * list Z))) (calendar : string) (i : Z) : state Z date :=
  mkSt (map (fun '(name, (dims, units, ext)) => (name, blank dims units ext (value i))) vars) (Some (calendar, i * 3600)).
Definition validated (vars : list (string * (list string * string * list Z))) (calendar : string) (nt : nat) : bool :=
  let times := map Z.of_nat (seq 0 nt) in
  let s := alone_ends (map (state_i vars calendar) times) in
  match outcomes s with [Some l] => forallb (fun r => match r with Ok _ => true | _ => false end) l && Nat.eqb (length l) nt | _ => false end &&
  match s_meta (fst s) "time" with
  | Some m => zs_eqb (z_shape m) [Z.of_nat nt] && attrs_eqb (z_attrs m) (mkZA ["time"] (Some "seconds since 2010-01-01 00:00:00") (Some calendar))
  | None => false end &&
  forallb (fun i => match element (fst s) "time" [i] with Some v => v =? i * 3600 | None => false end) times &&
  forallb (fun '(name, (dims, units, ext)) =>
    match s_meta (fst s) name with
    | Some m => zs_eqb (z_shape m) (Z.of_nat nt :: 6 :: ext) && attrs_eqb (z_attrs m) (mkZA ("time" :: "tile" :: dims) (Some units) None)
    | None => false end &&
    forallb (fun i => forallb (fun p => match element (fst s) name (i :: 0 :: p) with Some v => v =? value i p | None => false end) (all_idx ext)) times) vars.
Example test_monitor_file_store :
  forallb (fun vars => forallb (fun calendar => forallb (validated vars calendar) [1; 3]%nat) ["julian"; "360_day"; "noleap"]) variables = true.
Proof. vm_compute. reflexivity. Qed.

(** test_monitor_file_store_multi_rank_state *)
Definition ones (dims : list string) (ext : list Z) (i : Z) : state Z date := mkSt [("var1", blank dims "m" ext (fun _ => 1))] (Some ("julian", i * 3600)).
Definition stored (layout : Z * Z) (nt : nat) (dims : list string) (ny_add nx_add : Z) : bool :=
  let total := Z.to_nat (6 * fst layout * snd layout) in
  let ext := [5; 4 / fst layout + ny_add; 4 / snd layout + nx_add] in
  let s := ends layout total (3 * nt + 2) (fun _ => map (fun i => ones dims ext (Z.of_nat i)) (seq 0 nt)) in
  let shape := [Z.of_nat nt; 6; 5; 4 + ny_add; 4 + nx_add] in
  Nat.eqb (length (outcomes s)) total &&
  forallb (fun o => match o with Some l => Nat.eqb (length l) nt && forallb (fun r => match r with Ok _ => true | _ => false end) l | None => false end) (outcomes s) &&
  match s_meta (fst s) "var1" with Some m => zs_eqb (z_shape m) shape | None => false end &&
  forallb (fun p => match element (fst s) "var1" p with Some v => v =? 1 | None => false end) (all_idx shape).
Example test_monitor_file_store_multi_rank_state :
  forallb (fun layout => forallb (fun nt =>
    stored layout nt ["z"; "y"; "x"] 0 0 && stored layout nt ["z"; "y_interface"; "x_interface"] 1 1 && stored layout nt ["z"; "y"; "x_interface"] 0 1)
    [1; 3]%nat) [(1, 1); (1, 2)] = true /\ stored (2, 2) 1 ["z"; "y"; "x_interface"] 0 1 = true.
Proof. vm_compute. split; reflexivity. Qed.

(** test_open_zarr_without_nans, test_values_preserved: no time *)
Definition square (f : list Z -> Z) : state Z date := mkSt [("var", blank ["y"; "x"] "m" [10; 10] f)] None.
Example test_values_preserved : let s := alone_ends [square (offset [10; 10])] in
  (outcomes s, option_map (fun m => (z_shape m, za_units (z_attrs m), za_dims (z_attrs m))) (s_meta (fst s) "var"),
   forallb (fun p => match element (fst s) "var" (0 :: 0 :: p) with Some v => v =? offset [10; 10] p | None => false end) (all_idx [10; 10])) =
  ([Some [Ok tt]], Some ([1; 6; 10; 10], Some "m", ["time"; "tile"; "y"; "x"]), true).
Proof. vm_compute. reflexivity. Qed.

Example test_monitor_file_store_inconsistent_calendars :
  map (fun vars => outcomes (alone_ends [state_i vars "noleap" 0; state_i vars "360_day" 24])) variables = repeat [Some [Ok tt; Err ValueError]] 4.
Proof. vm_compute. reflexivity. Qed.

(** ** tests/quantity/test_corners.py 75-107; -7 stands for nan *)
Definition low (n : Z) := ISlice (Some (- n)) (Some 0) None.
Definition high (n : Z) := ISlice (Some 0) (Some n) None.
Definition corners (n : Z) : list (btype * list ientry) :=
  [(SOUTHWEST, [low n; low n]); (SOUTHEAST, [high n; low n]); (NORTHWEST, [low n; high n]); (NORTHEAST, [high n; high n])].
Definition scalar (v : Z) : arr Z := mkA [] (fun _ => v).
Definition copies (shape origin extent : list Z) (n : Z) (direction : string) : res bool :=
  do q <- rfold (fun q bi => corner_set q (VCorner (fst bi)) (PTuple (snd bi)) (scalar (-7))) (corners n) (mkQ (mkA shape (fun _ => 0)) ["x"; "y"] "m" origin extent);
  do q <- view_set q (PSingle IALL) (scalar 2);
  let nans := existsb (Z.eqb (-7)) (ravel (q_data q)) in
  do q <- fill_scalar_corners q direction (1, 1) 0 n;
  do inner <- view_get q (PSingle IALL);
  do c <- rmapM (fun bi => corner_get q (VCorner (fst bi)) (PTuple (snd bi))) (corners n);
  Ok (nans && negb (existsb (Z.eqb (-7)) (ravel (q_data q))) && all_equal 2 inner && forallb (all_equal 0) c).
Example test_fill_scalar_corners_copies_from_halo :
  map (fun '(shape, origin, extent, n) => (copies shape origin extent n "x", copies shape origin extent n "y"))
    [([6; 6], [2; 2], [2; 2], 2); ([6; 6], [2; 2], [2; 2], 1); ([3; 3], [1; 1], [1; 1], 1); ([6; 6], [3; 2], [2; 2], 1)] =
  repeat (Ok true, Ok true) 4.
Proof. vm_compute. reflexivity. Qed.
