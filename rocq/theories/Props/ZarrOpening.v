(** C83: constructing ZarrMonitors and using them. *)
From Coq Require Import Permutation.
From Verif.Base Require Import Base.
From Verif.Model Require Import Consts Partitioner Numpy Quantity ScatterGather Shared Zarr ZarrOpen.
From Verif.Spec Require Import Grid Layouts Views Distribute Storage Opening.
From Verif.Proofs Require Import ZarrExamples ZarrOpenProofs.
Local Open Scope string_scope.

(** All ranks construct a monitor in mode "w", or in another mode in which the store is empty once opened, and store N states as in
    C41.  However the ranks are scheduled and whichever broadcasts synchronise, all come to an end, no store raises, and the store
    then holds the states. *)
Theorem C83_opened : forall V Time (junk : list Z -> V) (calendar_of text_of : Time -> string) (encode : Time -> Time -> V)
    layout names var (states : nat -> nat -> state V Time) times N m d0,
  starts_empty m d0 ->
  NoDup names -> ~ In "time" names -> layouts_ok layout -> (forall n, In n names -> divided layout (var n)) ->
  (forall r i, (r < ranks (CubePart layout))%nat -> (i < N)%nat -> described names var (times r i) (states r i)) ->
  (forall i, (i < N)%nat -> calendar_of (times 0%nat i) = calendar_of (times 0%nat 0%nat)) ->
  ends_with dexec (ranks (CubePart layout))
    (fun r => construct (Z.of_nat r) m (fun e => (None, Err e)) (store_all V Time junk calendar_of text_of encode layout (Z.of_nat r) None (map (states r) (seq 0 N)))) d0
    (fun d out => d_group d = true /\ (forall r, (r < ranks (CubePart layout))%nat -> snd (out r) = Ok tt) /\
       ((0 < N)%nat -> holds layout names var calendar_of text_of encode states times N (d_store d))).
Proof. exact @opened. Qed.
Print Assumptions C83_opened.

(** In mode "w" whatever was in the store is gone: at any time of any execution, the store is either as it was found or has no arrays
    and no chunks but those of variables in the states stored. *)
Theorem C83_wiped : forall V Time (junk : list Z -> V) (calendar_of text_of : Time -> string) (encode : Time -> Time -> V)
    layout names size (states : nat -> list (state V Time)) d0 delayed sched s,
  (0 < size)%nat -> (forall r, (r < size)%nat -> Forall (fun st => incl (names_of st) names) (states r)) ->
  srun dexec delayed sched (d0, sstart size (fun r => construct (Z.of_nat r) ModeW (fun e => (None, Err e))
    (store_all V Time junk calendar_of text_of encode layout (Z.of_nat r) None (states r)))) = Some s ->
  fst s = d0 \/ forall n, ~ In n names -> s_meta (d_store (fst s)) n = None /\ forall c, s_cells (d_store (fst s)) n c = None.
Proof. exact @wiped. Qed.
Print Assumptions C83_wiped.

(** A store cannot be written by one monitor after another.  If, in mode "a" or "r+", any name in the first state (the same for all ranks)
    already is an array, then in every execution every rank which gets to the end of its stores raises. *)
Theorem C83_existing : forall V Time (junk : list Z -> V) (calendar_of text_of : Time -> string) (encode : Time -> Time -> V)
    layout x m d0 size (first : nat -> state V Time) rest delayed sched s,
  (0 < size)%nat -> m = ModeA \/ m = ModeRPlus -> d_group d0 = true -> s_meta (d_store d0) x <> None -> In x (names_of (first 0%nat)) ->
  (forall r, (r < size)%nat -> NoDup (names_of (first r)) /\ ~ In "time" (dkeys (st_vars (first r))) /\ Permutation (names_of (first r)) (names_of (first 0%nat))) ->
  srun dexec delayed sched (d0, sstart size (fun r => construct (Z.of_nat r) m (fun e => (None, Err e))
    (store_all V Time junk calendar_of text_of encode layout (Z.of_nat r) None (first r :: rest r)))) = Some s ->
  forall r c a, nth_error (snd s) r = Some c -> result_of c = Some a -> exists e, snd a = Err e.
Proof. exact @existing. Qed.
Print Assumptions C83_existing.
(** If it is the first name in alphabetical order (as when the same variables are stored again), the root raises a ValueError and no other
    rank ever gets to the end. *)
Theorem C83_others_wait : forall V Time (junk : list Z -> V) (calendar_of text_of : Time -> string) (encode : Time -> Time -> V)
    layout x m d0 size (first : nat -> state V Time) rest delayed sched s,
  (0 < size)%nat -> m = ModeA \/ m = ModeRPlus -> d_group d0 = true -> s_meta (d_store d0) x <> None ->
  NoDup (names_of (first 0%nat)) -> In x (names_of (first 0%nat)) -> (forall n, In n (names_of (first 0%nat)) -> String.compare x n <> Gt) ->
  (forall r, (0 < r < size)%nat -> names_of (first r) <> []) ->
  srun dexec delayed sched (d0, sstart size (fun r => construct (Z.of_nat r) m (fun e => (None, Err e))
    (store_all V Time junk calendar_of text_of encode layout (Z.of_nat r) None (first r :: rest r)))) = Some s ->
  forall r c a, nth_error (snd s) r = Some c -> result_of c = Some a -> r = 0%nat /\ snd a = Err ValueError.
Proof. exact @existing_first. Qed.
Print Assumptions C83_others_wait.

(** In mode "r" the first store raises on the root, nothing is ever written, and no other rank gets to the end. *)
Theorem C83_read_only : forall V Time (junk : list Z -> V) (calendar_of text_of : Time -> string) (encode : Time -> Time -> V)
    layout size m d0 (first : nat -> state V Time) rest delayed sched s,
  (0 < size)%nat -> m = ModeR -> d_group d0 = true -> (forall r, (r < size)%nat -> names_of (first r) <> []) ->
  srun dexec delayed sched (d0, sstart size (fun r => construct (Z.of_nat r) m (fun e => (None, Err e))
    (store_all V Time junk calendar_of text_of encode layout (Z.of_nat r) None (first r :: rest r)))) = Some s ->
  fst s = d0 /\ forall r c a, nth_error (snd s) r = Some c -> result_of c = Some a -> r = 0%nat /\ snd a = Err OSError.
Proof. exact @untouched. Qed.
Print Assumptions C83_read_only.

(** When the group cannot be opened (mode "r" or "r+" without a group, "w-" with one), the root's constructor raises a ValueError, the
    store is unchanged, and the constructors of the other ranks never return, whatever they were to do afterwards. *)
Theorem C83_refused : forall V Time size m d0 (failed : exc -> monitor Time * res unit) (ps : nat -> zproc V (monitor Time * res unit)) delayed sched s,
  (0 < size)%nat -> refused m d0 ->
  srun dexec delayed sched (d0, sstart size (fun r => construct (Z.of_nat r) m failed (ps r))) = Some s ->
  fst s = d0 /\ forall r c a, nth_error (snd s) r = Some c -> result_of c = Some a -> r = 0%nat /\ a = failed ValueError.
Proof. exact @not_opened. Qed.
Print Assumptions C83_refused.

(** six ranks on a store with arrays a and c *)
Definition old : disk Z := mkDisk true (mkStore (fun n => if String.eqb n "a" || String.eqb n "c" then Some (mkZM [1; 6; 1; 1]%Z [1; 1; 1; 1]%Z (mkZA ["time"; "tile"; "y"; "x"] (Some "m") None)) else None) (fun n c => if String.eqb n "c" then Some (fun _ => 7%Z) else None)).
Definition six (m : mode) (r : nat) : dproc Z (monitor Z * list (res unit)) := construct (Z.of_nat r) m (fun e => (None, [Err e])) (ex_each (1, 1)%Z r [ex_pair "m" 0; ex_pair "m" 1]).
Definition summary (s : disk Z * list (srank (dop Z) (zans Z) (monitor Z * list (res unit)))) :=
  (map (fun c => option_map snd (result_of c)) (snd s), dstuck s, map (fun n => option_map z_shape (s_meta (d_store (fst s)) n)) ["a"; "b"; "c"; "time"],
   map (fun n => element (d_store (fst s)) n [0; 5; 0; 0]%Z) ["a"; "b"; "c"]).
Definition outcome (m : mode) (d : disk Z) := option_map summary (srun dexec (fun _ _ => false) (drounds 6 (seq 0 6) (d, sstart 6 (six m)) []) (d, sstart 6 (six m))).
Definition written := (repeat (Some [Ok tt; Ok tt]) 6, true, [Some [2; 6; 1; 1]; Some [2; 6; 1; 1]; None; Some [2]]%Z, [Some 0; Some 100; None]%Z).
Definition kept := ([Some [1; 6; 1; 1]; None; Some [1; 6; 1; 1]; None]%Z, [None; None; Some 7]%Z).
Example C83_example :
  outcome ModeW old = Some written /\ outcome ModeA (mkDisk false empty_store) = Some written /\ outcome ModeWMinus (mkDisk false empty_store) = Some written /\
  outcome ModeA old = Some (Some [Err ValueError; Err ValueError] :: repeat None 5, true, fst kept, snd kept) /\
  outcome ModeR old = Some (Some [Err OSError; Err OSError] :: repeat None 5, true, fst kept, snd kept) /\
  outcome ModeWMinus old = Some (Some [Err ValueError] :: repeat None 5, true, fst kept, snd kept).
Proof. repeat apply conj; vm_compute; reflexivity. Qed.
