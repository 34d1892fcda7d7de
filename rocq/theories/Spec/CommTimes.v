(** What the timer of a communicator should count (C85). *)
From Verif.Base Require Import Base.
From Verif.Model Require Import Consts Numpy Quantity Partitioner Network Communicator Timer CommTimer.
From Verif.Spec Require Import Grid Cube Halo Lockstep Sync Client Errors.

(** names the communicator uses *)
Definition comm_names : list string := ["pack"; "Isend"; "unpack"; "Recv"]%string.
Definition hits_of {R} (name : string) (t : timer R) : Z := match dget name (t_hits t) with Some h => h | None => 0 end.
Definition runs {R} (name : string) (t : timer R) : Prop := dget name (t_starts t) <> None.

Section Times.
Variable V : Type.
Variable neg : V -> V.
Variable R : Type.
Variable sub add : R -> R -> R.
Variable clk : nat -> R.
Variable contig : handle -> Z -> btype -> bool.

(** a program of one rank: calls on the communicator and, between them, on its timer, exceptions from the latter being caught *)
Inductive tcalls := HCall (c : call V) | HTimer (c : tcall R).
Definition start_call (layout : layout_t) (r : nat) (c : call V) : teff V R (trequest V) :=
  match c with
  | CHalo _ q h => t_start_halo_update V neg R sub add clk contig layout (Z.of_nat r) (q r) h
  | CVector _ x y h => t_start_vector_halo_update V neg R sub add clk contig layout (Z.of_nat r) (x r) (y r) h
  | CSync _ x y => t_start_synchronize V neg R sub add clk contig layout (Z.of_nat r) (x r) (y r)
  | _ => tlift V R (Err TypeError)
  end.
Fixpoint timed_client (layout : layout_t) (r : nat) (l : list tcalls) (reqs : list (trequest V)) : teff V R unit :=
  match l with
  | [] => tret V R tt
  | HTimer c :: l' => fun s => timed_client layout r l' reqs (mkCT (ct_comm s) (fst (tstep R sub add c (ct_timer s))) (ct_reads s))
  | HCall (CWait _ i) :: l' =>
      match nth_error reqs i with
      | Some rq => tbind V R (t_wait V R sub add clk rq) (fun _ => timed_client layout r l' reqs)
      | None => tlift V R (Err IndexError)
      end
  | HCall (CLocal _ f) :: l' => tbind V R (fun s => ([OLocal (f r)], s, Ok tt)) (fun _ => timed_client layout r l' reqs)
  | HCall c :: l' => tbind V R (start_call layout r c) (fun rq => timed_client layout r l' (reqs ++ [rq]))
  end.
Definition comm_calls (l : list tcalls) : list (call V) := flat_map (fun c => match c with HCall c => [c] | HTimer _ => [] end) l.
Definition timer_calls (l : list tcalls) : list (tcall R) := flat_map (fun c => match c with HCall _ => [] | HTimer c => [c] end) l.

(** calls on the timer which leave the communicator's names alone and neither reset nor disable it *)
Definition harmless (c : tcall R) : Prop :=
  match c with Start name _ | Stop name _ => ~ In name comm_names | Times | Hits | Enabled | Enable => True | Reset | Disable => False end.

(** directions in which rank [r] has a neighbour: all but the corners of tiles *)
Definition neighbours (n : Z) (r : nat) : list btype :=
  let '(_, j, i) := place n (Z.of_nat r) in
  filter (fun b => negb (negb (fst (heading b) =? 0) && negb (snd (heading b) =? 0) &&
                         (j =? (if 0 <? fst (heading b) then n - 1 else 0)) && (i =? (if 0 <? snd (heading b) then n - 1 else 0)))) BOUNDARY_TYPES.

(** intervals timed while starting an update, and while waiting for it *)
Definition when_started (n : Z) (r : nat) (c : call V) (name : string) : nat :=
  let D := length (neighbours n r) in
  match c with
  | CHalo _ _ _ => if String.eqb name "pack" then 2 * D else if String.eqb name "Isend" then D else if String.eqb name "unpack" then D else 0
  | CVector _ _ _ _ => if String.eqb name "pack" then 3 * D else if String.eqb name "Isend" then 2 * D else if String.eqb name "unpack" then 2 * D else 0
  | CSync _ _ _ => if String.eqb name "pack" then 2 else if String.eqb name "Isend" then 2 else 0
  | _ => 0
  end%nat.
Definition targets (n : Z) (r : nat) (c : call V) : list bool :=
  match c with
  | CHalo _ q h => map (contig (q r) h) (neighbours n r)
  | CVector _ x y h => map (contig (x r) h) (neighbours n r) ++ map (contig (y r) h) (neighbours n r)
  | CSync _ x y => [contig (x r) 0 NORTH; contig (y r) 0 EAST]
  | _ => []
  end.
Definition when_waited (n : Z) (r : nat) (c : call V) (name : string) : nat :=
  if String.eqb name "Recv" then length (targets n r c)
  else if String.eqb name "unpack" then (2 * length (filter negb (targets n r c)))%nat else O.
Fixpoint timed (n : Z) (r : nat) (l : list (call V)) (started : list (call V)) (name : string) : nat :=
  match l with
  | [] => O
  | CWait _ i :: l' => (match nth_error started i with Some c => when_waited n r c name | None => O end + timed n r l' started name)%nat
  | CLocal _ _ :: l' => timed n r l' started name
  | c :: l' => (when_started n r c name + timed n r l' (started ++ [c]) name)%nat
  end.

(** ** calls from any state *)
Definition start_plain (layout : layout_t) (r : nat) (c : call V) : eff V (request V) :=
  match c with
  | CHalo _ q h => start_halo_update V neg layout (Z.of_nat r) (q r) h
  | CVector _ x y h => start_vector_halo_update V neg layout (Z.of_nat r) (x r) (y r) h
  | CSync _ x y => start_synchronize_vector_interfaces V neg layout (Z.of_nat r) (x r) (y r)
  | _ => elift V (Err TypeError)
  end.
(** the same requests, apart from what is known about the targets *)
Definition same_request (rq : request V) (trq : trequest V) : Prop := tr_sends trq = rq_sends V rq /\ map fst (tr_recvs trq) = rq_recvs V rq.
Definition same_result (x : res (request V)) (x' : res (trequest V)) : Prop :=
  match x, x' with Ok rq, Ok trq => same_request rq trq | Err e, Err e' => e' = e | _, _ => False end.
(** the communicator without its clocks *)
Definition same_comm (c : comm) (s : cts R) : Prop :=
  c_tag (ct_comm s) = c_tag c /\ c_bounds (ct_comm s) = c_bounds c /\ c_nsent (ct_comm s) = c_nsent c.
(** [c_running] lists those of the communicator's clocks which run on an enabled timer *)
Definition same_clocks (c : comm) (t : timer R) : Prop :=
  t_on t = true /\ NoDup (dkeys (t_starts t)) /\ forall name, In name comm_names -> (In name (c_running c) <-> runs name t).

(** calls which may fail, one after the other; with [tidy] the caller stops the clocks left running by an exception *)
Definition t_attempt (layout : layout_t) (rank : Z) (a : attempt) : teff V R (trequest V) :=
  match a with
  | AHalo q h => t_start_halo_update V neg R sub add clk contig layout rank q h
  | AVector x y h => t_start_vector_halo_update V neg R sub add clk contig layout rank x y h
  end.
Definition stop_clocks (s : cts R) : cts R :=
  let '(_, s1, _) := on_timer V R sub add clk (Stop "pack"%string) s in
  let '(_, s2, _) := on_timer V R sub add clk (Stop "unpack"%string) s1 in s2.
Fixpoint t_attempts (tidy : bool) (layout : layout_t) (rank : Z) (l : list attempt) (s : cts R) : list (res (trequest V)) * cts R :=
  match l with
  | [] => ([], s)
  | a :: l' =>
      let '(_, s1, x) := t_attempt layout rank a s in
      let s2 := match x with Err _ => if tidy then stop_clocks s1 else s1 | Ok _ => s1 end in
      let '(xs, s3) := t_attempts tidy layout rank l' s2 in (x :: xs, s3)
  end.
End Times.
(** a call for which all arrays have room *)
Definition possible (N : Z) (len ix iy : nat) (sy sx : Z) (ext : nat -> Z) (a : attempt) : Prop :=
  1 <= points a /\
  match a with
  | AHalo q h => fits N 0 len ix iy sy sx ext (h_meta q) /\ room h ix iy (h_meta q)
  | AVector x y h => fits N 0 len ix iy sy sx ext (h_meta x) /\ fits N 0 len ix iy sx sy ext (h_meta y) /\
      room h ix iy (h_meta x) /\ room h ix iy (h_meta y)
  end.
Arguments HCall {V R}. Arguments HTimer {V R}. Arguments comm_calls {V R}. Arguments timer_calls {V R}. Arguments harmless {R}.
Definition can (a : attempt) : Prop := exists N len ix iy sy sx ext, 1 <= N /\ possible N len ix iy sy sx ext a.
Definition cannot (a : attempt) : Prop := exists N len ix iy sy sx ext, 1 <= N /\ impossible N len ix iy sy sx ext a.
