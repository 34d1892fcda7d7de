(** tests/test_dimension_sizer.py, tests/test_get_tile_number.py and tests/test_timer.py, evaluated in the model. *)
From Verif.Base Require Import Base.
From Verif.Model Require Import Consts Numpy Quantity Partitioner Sizer Timer.
From Verif.Tests Require Import Tables.
Local Open Scope string_scope.
Local Open Scope Z_scope.

(** * tests/test_dimension_sizer.py 6-43, 60-75, 91-157: nx_tile, ny_tile, nz, layout *)
Definition sizes : list (Z * Z * Z * Z) :=
  flat_map (fun x => flat_map (fun y => flat_map (fun z => map (fun l => (x, y, z, l)) [1; 3]) [60; 80]) [48; 96]) [48; 96].
Definition dim_cases (nx ny nz : Z) : list (list string * list Z * list Z * list Z) :=
  let h := N_HALO_DEFAULT in
  [(["x"], [h], [nx], [2 * h + nx + 1]); (["x_interface"], [h], [nx + 1], [2 * h + nx + 1]);
   (["y"], [h], [ny], [2 * h + ny + 1]); (["y_interface"], [h], [ny + 1], [2 * h + ny + 1]);
   (["z"], [0], [nz], [nz + 1]); (["z_interface"], [0], [nz + 1], [nz + 1]);
   (["x"; "y"], [h; h], [nx; ny], [2 * h + nx + 1; 2 * h + ny + 1]);
   (["z"; "y"; "x"], [0; h; h], [nz; ny; nx], [nz + 1; 2 * h + ny + 1; 2 * h + nx + 1])].
Definition strings_eqb (l l' : list string) : bool := Nat.eqb (length l) (length l') && forallb (fun ab => String.eqb (fst ab) (snd ab)) (combine l l').
Definition is (l : list Z) (r : res (list Z)) : bool := match r with Ok l' => zs_eqb l l' | Err _ => false end.
(** 160-211 *)
Definition sized (s : res sizer) (nx ny nz : Z) : bool :=
  match s with
  | Err _ => false
  | Ok s =>
      forallb (fun c => let '(dims, origin, extent, shape) := c in
        zs_eqb (get_origin s dims) origin && is extent (get_extent s dims) && is shape (get_shape s dims) &&
        match allocate s (fun _ => 0) dims "units_placeholder" with
        | Ok q => String.eqb (q_units q) "units_placeholder" && strings_eqb (q_dims q) dims && zs_eqb (q_origin q) origin &&
                  zs_eqb (q_extent q) extent && zs_eqb (shp (q_data q)) shape
        | Err _ => false
        end) (dim_cases nx ny nz)
  end.
Example test_subtile_dimension_sizer :
  forallb (fun c => let '(x, y, z, l) := c in
     sized (from_tile_params x y z N_HALO_DEFAULT [] (l, l) None 0) (x / l) (y / l) z &&
     sized (from_namelist (Some (mkNml (Some (l, l)) (Some (x + 1)) (Some (y + 1)) (Some z))) None 0) (x / l) (y / l) z) sizes = true.
Proof. vm_compute. reflexivity. Qed.
(** 180-201, with few points: all of the array is 0 or 1 *)
Example test_allocator_contents :
  forallb (fun v => match from_tile_params 4 4 3 1 [] (2, 2) None 0 with
     | Ok s => forallb (fun c => match allocate s (fun _ => v) (fst (fst (fst c))) "m" with Ok q => all_equal v (q_data q) | Err _ => false end) (dim_cases 2 2 3)
     | Err _ => false end) [0; 1] = true.
Proof. vm_compute. reflexivity. Qed.

(** * tests/test_get_tile_number.py *)
Example test_get_tile_number_six_ranks : map (fun r => get_tile_number r 6) [0; 1; 2; 3; 4; 5] = map Ok [1; 2; 3; 4; 5; 6].
Proof. vm_compute. reflexivity. Qed.
Example test_get_tile_number_twenty_four_ranks :
  map (fun r => get_tile_number (Z.of_nat r) 24) (seq 0 24) = map Ok (flat_map (fun t => repeat t 4) [1; 2; 3; 4; 5; 6]).
Proof. vm_compute. reflexivity. Qed.

(** * tests/test_timer.py; time passes as the readings say *)
Definition t (cs : list (tcall Z)) : timer Z := fst (trun Z Z.sub Z.add cs new_timer).
Definition last_of (cs : list (tcall Z)) (t : timer Z) : res (tvalue Z) := last (snd (trun Z Z.sub Z.add cs t)) (Err RuntimeError).
Definition clocked (name : string) (a b : Z) : list (tcall Z) := [Start name a; Stop name b].
(** 16-23 and 35-45 *)
Example test_start_stop : snd (trun Z Z.sub Z.add [Times; Hits] (t (clocked "label" 3 13))) = [Ok (VTimes [("label", 10)] false); Ok (VHits [("label", 1)] false)].
Proof. vm_compute. reflexivity. Qed.
Example test_clock : with_clock Z Z.sub Z.add "label" 3 (fun t => (t, Ok tt)) 13 new_timer = (t (clocked "label" 3 13), Ok tt).
Proof. vm_compute. reflexivity. Qed.
(** 26-32 *)
Example test_null_timer : snd (trun Z Z.sub Z.add [Enable; Enabled] null_timer) = [Err NotImplementedError; Ok (VBool false)].
Proof. vm_compute. reflexivity. Qed.
(** 48-62 *)
Example test_start_twice : last_of [Start "label" 0; Start "label" 1] new_timer = Err ValueError.
Proof. vm_compute. reflexivity. Qed.
Example test_clock_in_clock :
  snd (with_clock Z Z.sub Z.add "label" 0 (fun t => let '(t, r) := with_clock Z Z.sub Z.add "label" 1 (fun t => (t, Ok tt)) 2 t in (t, Ok r)) 3 new_timer)
  = Ok (Err ValueError).
Proof. vm_compute. reflexivity. Qed.
(** 65-91 *)
Example test_consecutive_start_stops :
  map (fun k => snd (trun Z Z.sub Z.add [Times; Hits] (t (flat_map (fun i => clocked "label" (20 * i) (20 * i + 10)) (firstn k [0; 1; 2; 3; 4; 5])))))
    [1; 2; 3; 4; 5; 6]%nat =
  map (fun k => [Ok (VTimes [("label", 10 * k)] false); Ok (VHits [("label", k)] false)]) [1; 2; 3; 4; 5; 6].
Proof. vm_compute. reflexivity. Qed.
(** 94-107 *)
Example test_enable_disable :
  Forall (fun c => last_of (fst c ++ [Enabled]) new_timer = Ok (VBool (snd c)))
   [([], true); ([Enable], true); ([Disable], false); ([Disable; Enable], true); ([Disable; Disable], false)].
Proof. table. Qed.
(** 110-129 *)
Example test_disabled_timer_does_not_add_key :
  snd (trun Z Z.sub Z.add [Times; Hits] (t (Disable :: clocked "label1" 0 10 ++ clocked "label2" 20 30))) = [Ok (VTimes [] false); Ok (VHits [] false)].
Proof. vm_compute. reflexivity. Qed.
Example test_disabled_timer_does_not_add_time :
  snd (trun Z Z.sub Z.add [Times; Hits] (t (clocked "label" 0 10 ++ [Disable] ++ clocked "label" 20 30)))
  = [Ok (VTimes [("label", 10)] false); Ok (VHits [("label", 1)] false)].
Proof. vm_compute. reflexivity. Qed.
(** 132-153 *)
Example test_timer_reset :
  Forall (fun cs => snd (trun Z Z.sub Z.add [Times; Hits] (t (cs ++ [Reset]))) = [Ok (VTimes [] false); Ok (VHits [] false)])
   [[]; clocked "label1" 0 10; clocked "label1" 0 10 ++ clocked "label2" 20 30]%list.
Proof. table. Qed.
