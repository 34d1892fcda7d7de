(** C85: the timer of a communicator. *)
From Verif.Base Require Import Base.
From Verif.Model Require Import Consts Numpy Quantity Partitioner Network Communicator Timer CommTimer.
From Verif.Spec Require Import Cube Halo Lockstep Sync Client Errors Unmatched CommTimes.
From Verif.Proofs Require Import UpdateExamples CommTimerProofs CommTimerErrors.

(** what the timer shows after a program which started and awaited updates, and used the timer for other names: the operations are
    those of the program without a timer *)
Theorem C85_counts : forall V (neg : V -> V) R sub add clk contig (d : V) n k r l,
  (r < ranks n)%nat -> Forall (call_ok V n k) (comm_calls l) -> waits_in V (comm_calls l) 0 -> Forall harmless (timer_calls l) ->
  exists s, timed_client V neg R sub add clk contig (n, n) r l [] new_cts = (client_ops V neg n (comm_calls l) r, s, Ok tt) /\
    (forall name, In name comm_names ->
       hits_of name (ct_timer s) = Z.of_nat (timed V contig n r (comm_calls l) [] name) /\ ~ runs name (ct_timer s)) /\
    let t := fst (trun R sub add (timer_calls l) new_timer) in
    forall name, ~ In name comm_names ->
      dget name (t_starts (ct_timer s)) = dget name (t_starts t) /\
      dget name (t_acc (ct_timer s)) = dget name (t_acc t) /\ dget name (t_hits (ct_timer s)) = dget name (t_hits t).
Proof. exact counts. Qed.
Print Assumptions C85_counts.

(** rank 0 of four per tile, in a corner: seven neighbours; targets in rows are contiguous *)
Definition ex_contig (q : handle) (h : Z) (b : btype) : bool := match b with NORTH | SOUTH => true | _ => false end.
Definition ex_clk (i : nat) : Z := Z.of_nat i.
Definition ex_timed : list (tcalls Z Z) :=
  [HTimer (Start "step"%string 100); HCall (CHalo Z ex_q 1); HCall (CSync Z ex_x ex_y); HTimer Times; HCall (CWait Z 1); HCall (CWait Z 0); HTimer (Stop "step"%string 160)].
Definition shown {A B} (x : A * cts Z * res B) : dict Z * option exc :=
  (t_hits (ct_timer (snd (fst x))), match snd x with Ok _ => None | Err e => Some e end).
Example C85_example :
  Forall (call_ok Z 2 2) (comm_calls ex_timed) /\ waits_in Z (comm_calls ex_timed) 0 /\ Forall harmless (timer_calls ex_timed) /\
  shown (timed_client Z Z.opp Z Z.sub Z.add ex_clk ex_contig (2, 2) 0 ex_timed [] new_cts) =
    ([("pack", 16); ("Isend", 9); ("unpack", 19); ("Recv", 9); ("step", 1)]%string, None) /\
  map (timed Z ex_contig 2 0 (comm_calls ex_timed) []) comm_names = [16; 9; 19; 9]%nat.
Proof.
  assert (call_ok Z 2 2 (CHalo Z ex_q 1)).
  { split; [intros r; cbn; lia|]. exists 2, 3%nat, 2%nat, 0%nat. repeat split; try lia. exists 0, (fun _ => 1). intros r _. exact ex_fits. }
  assert (call_ok Z 2 2 (CSync Z ex_x ex_y)).
  { split; [intros r; cbn; lia|]. split; [intros r; cbn; lia|]. split; [intros r _; discriminate|]. exists 2, 3%nat, 1%nat, 0%nat. repeat split; try lia; auto. exists (fun _ => 1). intros r _. split; [apply ex_fits_x|apply ex_fits_y]; lia. }
  split; [repeat (constructor; auto)|]. split; [cbn; lia|]. split.
  - repeat constructor; cbn; intuition discriminate.
  - split; vm_compute; reflexivity.
Qed.

(** with an enabled timer a call does what C12 - C18 and C54 say of it: exceptions too are those of the model without a timer *)
Theorem C85_enabled : forall V (neg : V -> V) R sub add clk contig layout r call c s,
  same_comm R c s -> same_clocks R c (ct_timer s) ->
  let '(ops, c', x) := start_plain V neg layout r call c in
  let '(ops', s', x') := start_call V neg R sub add clk contig layout r call s in
  ops' = ops /\ same_result V x x' /\ same_comm R c' s' /\ same_clocks R c' (ct_timer s').
Proof. exact enabled_agrees. Qed.
Print Assumptions C85_enabled.

(** with a timer which is not enabled, whatever its state, calls do what they do on a communicator without running clocks *)
Theorem C85_disabled : forall V (neg : V -> V) R sub add clk contig layout r call c s,
  t_on (ct_timer s) = false -> same_comm R c s -> c_running c = [] ->
  let '(ops, c', x) := start_plain V neg layout r call c in
  let '(ops', s', x') := start_call V neg R sub add clk contig layout r call s in
  ops' = ops /\ same_result V x x' /\ same_comm R c' s' /\ ct_timer s' = ct_timer s.
Proof. exact disabled_agrees. Qed.
Print Assumptions C85_disabled.
Theorem C85_disabled_wait : forall V R sub add clk (trq : trequest V) s, t_on (ct_timer s) = false ->
  exists s', t_wait V R sub add clk trq s = ((map fst (tr_recvs trq) ++ map OWait (tr_sends trq))%list, s', Ok tt) /\
    ct_comm s' = ct_comm s /\ ct_timer s' = ct_timer s.
Proof. exact disabled_wait. Qed.
Print Assumptions C85_disabled_wait.

(** a caller can go on after OutOfBoundsError if the timer is disabled, or by stopping the clocks "pack" and "unpack" after each exception;
    compare C54 *)
Theorem C85_go_on : forall V (neg : V -> V) R sub add clk contig n r (tidy : bool) (t : timer R) l,
  1 <= n -> (r < ranks n)%nat -> (if tidy then t = new_timer else t_on t = false) -> Forall (fun a => can a \/ cannot a) l ->
  Forall2 (fun a x => (can a -> returned x) /\ (cannot a -> x = Err OutOfBoundsError)) l
    (fst (t_attempts V neg R sub add clk contig tidy (n, n) (Z.of_nat r) l (mkCT new_comm t 0))).
Proof. exact go_on. Qed.
Print Assumptions C85_go_on.

Definition error_of {A} (x : res A) : option exc := match x with Ok _ => None | Err e => Some e end.
Definition ex_attempts : list attempt := [AHalo (ex_q 0) 2; AHalo (ex_q 0) 1; AVector (ex_x 0) (ex_y 0) 2; AVector (ex_x 0) (ex_y 0) 1].
Definition ex_disabled : timer Z := fst (tstep Z Z.sub Z.add Disable new_timer).
Definition ex_try (tidy : bool) (t : timer Z) : list (option exc) * list string :=
  let '(xs, s) := t_attempts Z Z.opp Z Z.sub Z.add ex_clk ex_contig tidy (1, 1) 0 ex_attempts (mkCT new_comm t 0) in
  (map error_of xs, dkeys (t_starts (ct_timer s))).
Example C85_go_on_example : Forall (fun a => can a \/ cannot a) ex_attempts /\
  ex_try true new_timer = ([Some OutOfBoundsError; None; Some OutOfBoundsError; None], []) /\
  ex_try false ex_disabled = ([Some OutOfBoundsError; None; Some OutOfBoundsError; None], []) /\
  ex_try false new_timer = ([Some OutOfBoundsError; Some ValueError; Some ValueError; Some ValueError], ["unpack"%string]).
Proof.
  split; [|vm_compute; auto]. unfold ex_attempts. apply Forall_cons; [|apply Forall_cons; [|apply Forall_cons; [|apply Forall_cons; [|apply Forall_nil]]]].
  - right. exists 2, 3%nat, 2%nat, 0%nat, 0, 0, (fun _ => 1). split; [lia|]. split; [cbn; lia|]. split; [fits_tac|]. intros R; specialize (R 0%nat); cbn in R; lia.
  - left. exists 2, 3%nat, 2%nat, 0%nat, 0, 0, (fun _ => 1). split; [lia|]. split; [cbn; lia|]. split; [fits_tac|]. intros i [-> | ->]; cbn; lia.
  - right. exists 2, 3%nat, 1%nat, 0%nat, 1, 0, (fun _ => 1). split; [lia|]. split; [cbn; lia|]. split; [apply ex_fits_x; lia|]. split; [apply ex_fits_y; lia|]. intros (R & _); specialize (R 0%nat); cbn in R; lia.
  - left. exists 2, 3%nat, 1%nat, 0%nat, 1, 0, (fun _ => 1). split; [lia|]. split; [cbn; lia|]. split; [apply ex_fits_x; lia|]. split; [apply ex_fits_y; lia|]. split; intros i [-> | ->]; cbn; lia.
Qed.

(** a clock which the user has started under one of the communicator's names makes an update raise ValueError: at once, when all
    messages are on their way, or in wait() before the first message is received *)
Theorem C85_clash : forall V (neg : V -> V) R sub add clk contig (d : V) n k r l c name now,
  (r < ranks n)%nat -> Forall (call_ok V n k) (comm_calls l) -> waits_in V (comm_calls l) 0 -> Forall harmless (timer_calls l) ->
  call_ok V n k c -> starts V c = true ->
  let start := start_call V neg R sub add clk contig (n, n) r c in
  let s := snd (fst (timed_client V neg R sub add clk contig (n, n) r l [] new_cts)) in
  let s1 := mkCT (ct_comm s) (fst (tstep R sub add (Start name now) (ct_timer s))) (ct_reads s) in
  let messages := fst (fst (start s)) in
  (name = "pack"%string \/ name = "Isend"%string -> exists s2, start s1 = ([], s2, Err ValueError)) /\
  (name = "unpack"%string -> match c with CSync _ _ _ => False | _ => True end -> exists s2, start s1 = (messages, s2, Err ValueError)) /\
  (name = "Recv"%string -> exists s2 trq s3, start s1 = (messages, s2, Ok trq) /\ t_wait V R sub add clk trq s2 = ([], s3, Err ValueError)).
Proof. exact clash. Qed.
Print Assumptions C85_clash.

Definition ex_clash (name : string) : list nat * option exc :=
  let x := timed_client Z Z.opp Z Z.sub Z.add ex_clk ex_contig (2, 2) 0 [HTimer (Start name 100); HCall (CHalo Z ex_q 1); HCall (CWait Z 0)] [] new_cts in
  ([length (filter (fun o => match o with OSend _ _ _ => true | _ => false end) (fst (fst x))); length (filter (fun o => match o with ORecv _ _ _ => true | _ => false end) (fst (fst x)))], error_of (snd x)).
Example C85_clash_example :
  map ex_clash ["step"; "pack"; "Isend"; "unpack"; "Recv"]%string =
  [([7; 7], None); ([0; 0], Some ValueError); ([0; 0], Some ValueError); ([7; 0], Some ValueError); ([7; 0], Some ValueError)]%nat.
Proof. vm_compute. reflexivity. Qed.
