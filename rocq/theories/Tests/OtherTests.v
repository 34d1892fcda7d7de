(** tests/test_nudging.py, test_buffer.py, test__capture_stream.py and the parts of test_legacy_restart.py about single functions.
    Left out: is_contiguous of arrays in memory; numbers are rational instead of floating point (the tests compare for
    equality what is equal up to rounding only because of the values they use). *)
From Coq Require Import QArith.
From Verif.Base Require Import Base.
From Verif.Model Require Import Consts Numpy Quantity Nudging Buffer Capture ScatterGather Restart StateIO.
From Verif.Tests Require Import Tables.
Local Open Scope string_scope.

(** ** tests/test_nudging.py *)
Local Open Scope Q_scope.
Definition filled (q : Q) : quantity Q := mkQ (mkA [5%Z] (fun _ => q)) ["dim1"] "m" [0%Z] [5%Z].
Definition named (n : nat) (q : Q) : dict (quantity Q) := firstn n [("var1", filled q); ("var2", filled q)].
Definition NUDGE := @apply_nudging Q Q Qminus Qplus Qdiv Qmult.
Definition TENDENCIES := @get_nudging_tendencies Q Q Qminus Qdiv.
(** every element of every quantity is [q], with units [u] *)
Definition holds (n : nat) (q : Q) (u : string) (d : dict (quantity Q)) : bool :=
  Nat.eqb (length d) n &&
  forallb (fun name => match dget name d with
                       | Some x => forallb (Qeq_bool q) (ravel (q_data x)) && String.eqb (q_units x) u && zs_eqb (q_extent x) [5%Z]
                                   && match q_dims x with [d] => String.eqb d "dim1" | _ => false end
                       | None => false end) (firstn n ["var1"; "var2"]).
(** the parameters: number of variables, how the reference differs, multiple of the timestep, timestep *)
Inductive difference := EQUAL | PLUS_ONE | EXTRA.
Definition reference (n : nat) (d : difference) : dict (quantity Q) :=
  match d with EQUAL => named n 1 | PLUS_ONE => named n 2 | EXTRA => (named n 1 ++ [("extra_var", filled 1)])%list end.
Definition scales (n : nat) (s : Q) : dict Q := firstn n [("var1", s); ("var2", s)].
Definition expected (d : difference) (x : Q) : Q := match d with PLUS_ONE => x | _ => 0 end.
Definition parameters : list (nat * difference * Q * Q) :=
  flat_map (fun n => flat_map (fun d => flat_map (fun m => map (fun dt => (n, d, m, dt)) [1; 3600#1; 30#1]) [1#10; 1#2; 1])
                              [EQUAL; PLUS_ONE; EXTRA]) [0; 1; 2]%nat.
Example test_apply_nudging_equals :
  forallb (fun '(n, d, m, dt) =>
    match NUDGE (named n 1) (reference n d) (scales n (m * dt)) dt with
    | (state, Ok result) => holds n (expected d (1 / (m * dt))) "m s^-1" result && holds n (1 + expected d (1 / m)) "m" state
    | _ => false
    end) parameters = true.
Proof. vm_compute. reflexivity. Qed.
Example test_get_nudging_tendencies :
  forallb (fun '(n, d, m, dt) =>
    match TENDENCIES (named n 1) (reference n d) (scales n (m * dt)), TENDENCIES (named n 1) (reference n d) (scales n ((1#2) * (m * dt))) with
    | Ok result, Ok half => holds n (expected d (1 / (m * dt))) "m s^-1" result && holds n (2 * expected d (1 / (m * dt))) "m s^-1" half
    | _, _ => false
    end) parameters = true.
Proof. vm_compute. reflexivity. Qed.
Local Close Scope Q_scope.

(** ** tests/test_buffer.py: memory 0 has shape (3, 4, 5); the other array is its transpose (2, 0, 1) *)
Definition memory : nat -> arr Z := fun _ => COUNT [3; 4; 5].
Definition plain : uarr := mkU 0 (v_whole [3; 4; 5]) 0 true.
Definition transposed : uarr := mkU 0 (mkV [5; 3; 4] (fun p => match p with [k; i; j] => [i; j; k] | _ => p end)) 0 false.
Definition after (os : list (bop Z)) : world Z := brun os (empty_world memory).
(** what is handed out: the array itself or not, and the values in it *)
Definition handed (w : world Z) : option (bool * (list Z * list Z)) :=
  option_map (fun c => (match c_held c with HArr _ => true | HBuf _ _ => false end, shown (contents w (c_held c)))) (ctx_of w 0).
Example test_sendbuf_uses_buffer : forall junk,
  handed (after [OSend 0 transposed junk]) = Some (false, shown (u_read (after []) transposed)).
Proof. intros. vm_compute. reflexivity. Qed.
Example test_recvbuf_uses_buffer : forall junk,
  let during := after [ORecv 0 transposed junk; OFill 0 (fun _ => 0)] in
  let outside := after [ORecv 0 transposed junk; OFill 0 (fun _ => 0); OLeave 0] in
  (option_map fst (handed during), all_equal 0 (u_read during transposed), all_equal 0 (u_read outside transposed)) = (Some false, false, true).
Proof. intros. vm_compute. reflexivity. Qed.
Example test_no_buffer : forall junk,
  (option_map c_held (ctx_of (after [OSend 0 plain junk]) 0), option_map c_held (ctx_of (after [ORecv 0 plain junk]) 0)) =
  (Some (HArr plain), Some (HArr plain)).
Proof. intros. vm_compute. reflexivity. Qed.

(** ** tests/test__capture_stream.py *)
Example test_capture_stream : forall text s,
  snd (capture 1 (fun s => (write s 1 text, Ok tt)) (mkOs [Some 0; Some 1; Some 2]%nat [[]; s; []])) = Ok (tt, text).
Proof. intros. vm_compute. reflexivity. Qed.

(** ** tests/test_legacy_restart.py *)
Definition JULIAN := 2. Definition THIRTY_DAY := 1. Definition NOLEAP := 4.
Definition coupler (calendar : Z) : list (list token) :=
  [[TInt calendar; TOther; TOther]; [TInt 2016; TInt 8; TInt 1; TInt 0; TInt 0; TInt 0; TOther]; [TInt 2016; TInt 8; TInt 3; TInt 0; TInt 0; TInt 0; TOther]].
Example test_get_current_date_from_coupler_res :
  map (fun c => current_date_from_coupler_res (Z * list Z) (fun c d => Ok (c, d)) (coupler c)) [JULIAN; THIRTY_DAY; NOLEAP] =
  map (fun c => Ok (c, [2016; 8; 3; 0; 0; 0])) [JULIAN; THIRTY_DAY; NOLEAP].
Proof. vm_compute. reflexivity. Qed.

Definition da : data_array Z := mkDA (COUNT [2; 3]) ["x"; "y"] [("units", "m")].
Example test_apply_dims :
  map (fun new => let r := apply_dims Z da new in (da_data r, da_dims r, da_attrs r)) [[]; ["dim1"]; ["dim_2"; "dim_1"]] =
  map (fun d => (da_data da, d, da_attrs da)) [["x"; "y"]; ["x"; "dim1"]; ["dim_2"; "dim_1"]].
Proof. vm_compute. reflexivity. Qed.

(** equal as dictionaries *)
Definition same_dict (d d' : dict Z) : bool :=
  Nat.eqb (length d) (length d') && forallb (fun kv => match dget (fst kv) d with Some v => Z.eqb v (snd kv) | None => false end) d'.
Definition two := [("key1", 1); ("key2", 2)].
(** the elements of a set are visited in either order *)
Example test_map_keys :
  forallb (fun order : list string -> list string =>
    forallb (fun '(old, mapping, new) => same_dict (map_keys order old mapping) new)
      [([], [], []); (two, [], two); (two, [("key1", "key_1")], [("key_1", 1); ("key2", 2)]); (two, [("key3", "key_3")], two);
       (two, [("key1", "key_1"); ("key2", "key_2")], [("key_1", 1); ("key_2", 2)])]) [(fun l => l); @rev string] = true.
Proof. vm_compute. reflexivity. Qed.

Example test_get_rank_suffix :
  map (fun '(rank, total) => get_rank_suffix rank total) [(0, 6); (2, 6); (2, 24); (6, 24)] =
  map Ok [".tile1.nc"; ".tile3.nc"; ".tile1.nc.0002"; ".tile2.nc.0002"].
Proof. vm_compute. reflexivity. Qed.
Example test_get_rank_suffix_invalid_total_ranks : map (get_rank_suffix 0) [5; 7; 9; 23] = repeat (Err ValueError) 4.
Proof. vm_compute. reflexivity. Qed.

(** numbers without units are no dates, whatever xarray makes of dates *)
Definition READ (times_of : dict string -> arr Z -> option (arr Z)) (vars : dict (data_array Z)) : res (state Z Z) :=
  read_state Z Z times_of [("file", vars)] "file".
Example test_read_state_incorrectly_encoded_time : forall times_of,
  READ times_of [("time", mkDA (mkA [] (fun _ => 0)) [] [])] = Err ValueError.
Proof. intros. vm_compute. reflexivity. Qed.
Example test_read_state_non_scalar_time : forall times_of,
  READ times_of [("time", mkDA (ARR [2] [0; 1]) ["T"] [])] = Err ValueError.
Proof. intros. vm_compute. reflexivity. Qed.
