(** tests/test_halo_update.py, tests/test_halo_update_ranks.py and tests/test_sync_shared_boundary.py, evaluated in the model:
    one thread makes the starting call on every rank, then the waits, on the DummyComm of the model. NaN is None.
    test_halo_update.py is evaluated for some of its parameters, since coqchk computes slowly; all of them for layout (1, 1), and
    more of them for (3, 3), were evaluated once (commit e542bc4). *)
From Verif.Base Require Import Base.
From Verif.Model Require Import Consts Numpy Quantity Partitioner Rotate Network Communicator DummyComm DummyNet Timer CommTimer.
From Verif.Spec Require Import Halo Client CommTimes OneThread.
From Verif.Tests Require Import Tables.
Local Open Scope string_scope.
Local Open Scope Z_scope.

Definition number := option Z.
Definition minus : number -> number := option_map Z.opp.
Definition started_then_waited (n : Z) (c : call number) (m : nat -> mem number) : res (list (mem number)) :=
  rmap dw_mem (drun (one_thread number minus n [c; CWait number 0] (fun _ => seq 0 (Halo.ranks n))) (mkDW (map m (seq 0 (Halo.ranks n))) None)).
Definition same (q : handle) (r : nat) : handle := q.
Definition shown_all (m : list (mem number)) : list (list (list number)) := map (map ravel) m.

(** * tests/test_halo_update_ranks.py 117-150 *)
Definition rank_data (r : nat) : mem number := [mkA [3; 3] (fun p => if zs_eqb p [1; 1] then Some (Z.of_nat r) else None)].
Definition rank_handle : handle := mkH 0 (mkMeta ["y"; "x"] [1; 1] [1; 1] [3; 3]).
Example test_correct_rank_layout :
  rmap shown_all (started_then_waited 1 (CHalo number (same rank_handle) 1) rank_data) =
  Ok (map (fun rank => [map (option_map (fun v => v mod 6))
        (if rank mod 2 =? 0
         then [None; Some (rank - 1); None; Some (rank - 2); Some rank; Some (rank + 1); None; Some (rank + 2); None]
         else [None; Some (rank - 2); None; Some (rank - 1); Some rank; Some (rank + 2); None; Some (rank + 1); None])])
      [0; 1; 2; 3; 4; 5]).
Proof. vm_compute. reflexivity. Qed.

(** * tests/test_sync_shared_boundary.py *)
Definition on_y_interface : handle := mkH 0 (mkMeta ["y_interface"; "x"] [0; 0] [3; 2] [3; 2]).
Definition on_x_interface : handle := mkH 1 (mkMeta ["y"; "x_interface"] [0; 0] [2; 3] [2; 3]).
Definition sync_call : call number := CSync number (same on_y_interface) (same on_x_interface).
Definition rank_vector (r : nat) : mem number := [mkA [3; 2] (fun _ => Some (Z.of_nat r)); mkA [2; 3] (fun _ => Some (Z.of_nat r))].
(** 104-124 *)
Example test_correct_ranks_are_synchronized_with_no_halos :
  rmap (fun m => map (map (map (option_map Z.abs))) (shown_all m)) (started_then_waited 1 sync_call rank_vector) =
  Ok (map (fun rank => map (map (fun v => Some (v mod 6)))
        (if rank mod 2 =? 0
         then [[rank; rank; rank; rank; rank + 2; rank + 2]; [rank; rank; rank + 1; rank; rank; rank + 1]]
         else [[rank; rank; rank; rank; rank + 1; rank + 1]; [rank; rank; rank + 2; rank; rank; rank + 2]]))
      [0; 1; 2; 3; 4; 5]).
Proof. vm_compute. reflexivity. Qed.

Definition counting_vector (total : Z) (r : nat) : mem number :=
  [mkA [3; 2] (fun p => Some (offset [3; 2] p + 6 * Z.of_nat r)); mkA [2; 3] (fun p => Some (6 * total + offset [2; 3] p + 6 * Z.of_nat r))].
Definition rank_shown (r : nat) (m : res (list (mem number))) : res (list (list number)) := rmap (fun m => nth r (shown_all m) []) m.
(** 156-190 *)
Example test_specific_edges_synced_correctly_on_first_rank :
  let after := started_then_waited 1 sync_call (counting_vector 6) in
  rank_shown 0 after = Ok (map (map Some) [[0; 1; 2; 3; -3 - 36 - 12; -36 - 12]; [36; 37; 42; 39; 40; 45]]) /\
  rank_shown 1 after = Ok (map (map Some) [[6; 7; 8; 9; 12; 13]; [42; 43; -19; 45; 46; -18]]).
Proof. vm_compute. split; reflexivity. Qed.
(** 193-231 *)
Example test_interior_edges_synced_correctly_on_first_tile :
  let after := started_then_waited 3 sync_call (counting_vector 54) in
  rmap (fun m => nth 1 m []) (rank_shown 0 after) = Ok (map (fun v => Some (54 * 6 + v)) [0; 1; 6; 3; 4; 9]) /\
  rank_shown 4 after =
    Ok [map (fun v => Some (4 * 6 + v)) [0; 1; 2; 3; 18; 19]; map (fun v => Some ((54 + 4) * 6 + v)) [0; 1; 6; 3; 4; 9]].
Proof. vm_compute. split; reflexivity. Qed.

(** * tests/test_halo_update.py *)

(** the fixtures: 13-38, 44-49, 52-55, 107-164 *)
Definition all_dims : list (list string) :=
  [["y"; "x"]; ["z"; "y"; "x"]; ["x"; "y"; "z"]; ["x"; "z"; "y"]; ["y_interface"; "x_interface"]; ["z_interface"; "y_interface"; "x_interface"]].
Definition n_rank (n_points : Z) : Z := Z.max 3 (n_points * 2 - 1).
Definition halo_of (d : string) (n_points : Z) : Z := if sin d HORIZONTAL_DIMS then n_points else 0.
Definition length_of (d : string) (n n_points : Z) : Z :=
  (if sin d HORIZONTAL_DIMS then n * n_rank n_points else 2) + (if sin d INTERFACE_DIMS then 1 else 0).
Definition fixture (dims : list string) (n n_points n_buffer : Z) : meta :=
  mkMeta dims (map (fun d => halo_of d n_points + n_buffer) dims) (map (fun d => length_of d n n_points) dims)
    (map (fun d => 2 * halo_of d n_points + length_of d n n_points + n_buffer) dims).

Definition inside (m : meta) (p : list Z) : bool :=
  forallb (fun oei => let '(o, e, i) := oei in (o <=? i) && (i <? o + e)) (combine (combine (m_origin m) (m_extent m)) p).
(** 358-371: ones outside of the domain, zeros in it *)
Definition zeros (m : meta) : arr number := mkA (m_shape m) (fun p => if inside m p then Some 0 else Some 1).
(** 255-289: distance from the edge of the domain in the horizontal dimensions, NaN outside of it *)
Definition depth (m : meta) : arr number :=
  mkA (m_shape m) (fun p =>
    let h := filter (fun doei => sin (fst (fst (fst doei))) HORIZONTAL_DIMS) (combine (combine (combine (m_dims m) (m_origin m)) (m_extent m)) p) in
    let d := map (fun doei => let '(_, o, e, i) := doei in Z.min (i - o) (o + e - 1 - i)) h in
    let least := fold_right Z.min 1000 d in if least <? 0 then None else Some least).

(** 222-252 *)
Definition boundary_types (n : Z) (r : nat) : list btype :=
  if n =? 1 then EDGE_BOUNDARY_TYPES else
  match (r mod 9)%nat with
  | 0%nat => (EDGE_BOUNDARY_TYPES ++ [NORTHWEST; NORTHEAST; SOUTHEAST])%list
  | 2%nat => (EDGE_BOUNDARY_TYPES ++ [NORTHWEST; NORTHEAST; SOUTHWEST])%list
  | 6%nat => (EDGE_BOUNDARY_TYPES ++ [NORTHEAST; SOUTHWEST; SOUTHEAST])%list
  | 8%nat => (EDGE_BOUNDARY_TYPES ++ [NORTHWEST; SOUTHWEST; SOUTHEAST])%list
  | _ => BOUNDARY_TYPES
  end.

Definition is_zero (v : number) : bool := match v with Some 0 => true | _ => false end.
Definition at_most (k : Z) (v : number) : bool := match v with Some i => i <=? k | None => false end.
Definition all_in (a : arr number) (v : res view) (test : number -> bool) : bool :=
  match v with Ok v => forallb test (ravel (v_read a v)) | Err _ => false end.
Definition every (m : res (list (mem number))) (test : nat -> arr number -> bool) : bool :=
  match m with Ok l => forallb (fun rm => forallb (test (fst rm)) (snd rm)) (combine (seq 0 (length l)) l) | Err _ => false end.
Definition zero_in_halo (n n_points_update : Z) (m : meta) (r : nat) (a : arr number) : bool :=
  forallb (fun b => all_in a (boundary_view (mkB b 0 0 0) m n_points_update false) is_zero) (boundary_types n r).
(** 401-439 *)
Definition zeros_halo_update (n n_points n_points_update n_buffer : Z) (dims : list string) : bool :=
  let m := fixture dims n n_points n_buffer in
  every (started_then_waited n (CHalo number (same (mkH 0 m)) n_points_update) (fun _ => [zeros m])) (zero_in_halo n n_points_update m).
(** 442-489: the first argument is called y_quantity there *)
Definition zeros_vector_halo_update (n n_points n_points_update n_buffer : Z) (dims : list string) : bool :=
  let m := fixture dims n n_points n_buffer in
  every (started_then_waited n (CVector number (same (mkH 0 m)) (same (mkH 1 m)) n_points_update) (fun _ => [zeros m; zeros m]))
    (zero_in_halo n n_points_update m).
(** 319-355 *)
Definition depth_halo_update (n n_points n_points_update n_buffer : Z) (dims : list string) : bool :=
  let m := fixture dims n n_points n_buffer in
  every (started_then_waited n (CHalo number (same (mkH 0 m)) n_points_update) (fun _ => [depth m]))
    (fun _ a => forallb (fun de => let '(d, e) := de in
       negb (sin d HORIZONTAL_DIMS) ||
       forallb (fun k => all_in a (view_sel m [(d, IInt (- k))]) (at_most k) && all_in a (view_sel m [(d, IInt (e + k - 1))]) (at_most k))
         (filter (fun k => k <=? n_points_update) [1; 2; 3])) (combine dims (m_extent m))).

(** n_points, n_points_update: 0 < n_points_update <= n_points; n_buffer *)
Definition updates : list (Z * Z * Z) := [(1, 1, 0); (1, 1, 1)].
Definition checked (test : Z -> Z -> Z -> Z -> list string -> bool) (n : Z) (l : list (Z * Z * Z)) (dims : list (list string)) : bool :=
  forallb (fun d => forallb (fun u => let '(p, k, b) := u in test n p k b d) l) dims.

Definition flat : list (list string) := [["y"; "x"]; ["y_interface"; "x_interface"]].
Example test_zeros_halo_update_1 : checked zeros_halo_update 1 updates all_dims && checked zeros_halo_update 1 [(3, 2, 1); (3, 3, 0)] flat = true.
Proof. vm_compute. reflexivity. Qed.
Example test_zeros_vector_halo_update_1 : checked zeros_vector_halo_update 1 [(1, 1, 0)] all_dims = true.
Proof. vm_compute. reflexivity. Qed.
Example test_depth_halo_update_1 : checked depth_halo_update 1 updates all_dims && checked depth_halo_update 1 [(3, 2, 1); (3, 3, 0)] flat = true.
Proof. vm_compute. reflexivity. Qed.
Example test_halo_update_3 : zeros_halo_update 3 1 1 0 ["y"; "x"] && depth_halo_update 3 1 1 0 ["y_interface"; "x_interface"] = true.
Proof. vm_compute. reflexivity. Qed.

(** 374-398 *)
Definition too_many_points (n : Z) (dims : list string) : bool :=
  forallb (fun r => match snd (start_halo_update number minus (n, n) r (mkH 0 (fixture dims n 2 0)) 3 new_comm) with
                    | Err OutOfBoundsError => true | _ => false end) (map Z.of_nat (seq 0 (Halo.ranks n))).
Example test_too_many_points_requested : forallb (too_many_points 1) all_dims && forallb (too_many_points 3) all_dims = true.
Proof. vm_compute. reflexivity. Qed.

(** 292-316 and 492-528: times under the four names and no other, all of them positive; clock readings 0, 1, 2, ... *)
Definition timed (c : call number) (r : nat) : dict Z :=
  let '(_, s, _) := timed_client number minus Z Z.sub Z.add Z.of_nat (fun _ _ _ => false) (1, 1) r [HCall c; HCall (CWait number 0)] [] new_cts in
  match tstep Z Z.sub Z.add Times (ct_timer s) with (_, Ok (VTimes t false)) => t | _ => [] end.
Definition labels_timed (c : call number) : bool :=
  forallb (fun r => let t := timed c r in
     forallb (fun k => sin k (map fst t)) comm_names && forallb (fun kt => sin (fst kt) comm_names && (0 <? snd kt)) t) [0; 1; 2; 3; 4; 5]%nat.
Example test_halo_update_timer :
  let q := mkH 0 (fixture ["x"; "y"; "z"] 1 3 0) in let q' := mkH 1 (fixture ["x"; "y"; "z"] 1 3 0) in
  labels_timed (CHalo number (same q) 3) = true /\ labels_timed (CVector number (same q) (same q') 3) = true.
Proof. vm_compute. split; reflexivity. Qed.
