(** C84: programs in which the waits and updates of the ranks do not match. *)
From Verif.Base Require Import Base.
From Verif.Model Require Import Consts Numpy Quantity Partitioner Network Communicator.
From Verif.Spec Require Import Grid Cube Halo Lockstep Sync Client Updates Orders Unmatched.
From Verif.Proofs Require Import UpdateExamples UnmatchedProofs.

(** C84: a rank which waits twice for the same request never gets to its end, whatever the other ranks do and however messages are buffered. *)
Theorem C84_twice : forall V (neg : V -> V) (d : V) n k, 1 <= n -> forall (calls : nat -> list (call V)),
  (forall r, (r < ranks n)%nat -> Forall (call_ok V n k) (calls r) /\ waits_in V (calls r) 0) -> forall m r i buffered, (r < ranks n)%nat ->
  (2 <= count_occ Nat.eq_dec (waited V (calls r)) i)%nat ->
  never_ends buffered (start_state (ranks n) (fun r => client_ops V neg n (calls r) r) m) r.
Proof. exact wait_twice. Qed.
Print Assumptions C84_twice.

(** A rank which waits for an update that a rank it hears from has not started (counting updates by the tags they use) never gets to its end. *)
Theorem C84_missing : forall V (neg : V -> V) (d : V) n k, 1 <= n -> forall (calls : nat -> list (call V)),
  (forall r, (r < ranks n)%nat -> Forall (call_ok V n k) (calls r) /\ waits_in V (calls r) 0) -> forall m r i c src buffered, (r < ranks n)%nat ->
  In i (waited V (calls r)) -> nth_error (filter (starts V) (calls r)) i = Some c -> hears V n c r src ->
  (tags V (calls src) < tags V (firstn (S i) (filter (starts V) (calls r))))%nat ->
  never_ends buffered (start_state (ranks n) (fun r => client_ops V neg n (calls r) r) m) r.
Proof. exact missing. Qed.
Print Assumptions C84_missing.

(** A rank whose sends are not buffered never gets past waiting for an update if a rank which hears from it never waits for that update. *)
Theorem C84_not_waited : forall V (neg : V -> V) (d : V) n k, 1 <= n -> forall (calls : nat -> list (call V)),
  (forall r, (r < ranks n)%nat -> Forall (call_ok V n k) (calls r) /\ waits_in V (calls r) 0) -> forall m r i c dst buffered, (r < ranks n)%nat -> (dst < ranks n)%nat ->
  In i (waited V (calls r)) -> nth_error (filter (starts V) (calls r)) i = Some c -> hears V n c dst r ->
  filter (starts V) (calls dst) = filter (starts V) (calls r) -> ~ In i (waited V (calls dst)) -> (forall j, buffered r j = false) ->
  never_ends buffered (start_state (ranks n) (fun r => client_ops V neg n (calls r) r) m) r.
Proof. exact not_waited. Qed.
Print Assumptions C84_not_waited.

(** Updates of different ranks belong together by their number: if each rank's list of calls is, for this rank, a common one, the ranks complete with
    what the common one means, whichever quantities each of them passed. *)
Theorem C84_by_number : forall V (neg : V -> V) n (d : V) k (calls : nat -> list (call V)) common m,
  (forall r, (r < ranks n)%nat -> Forall2 (same_at V r) (calls r) common) ->
  Forall (call_ok V n k) common -> waits_ok V common 0 [] -> (forall r, (r < ranks n)%nat -> length (m r) = k) ->
  exists m', meaning V neg d n common [] m m' /\ always_completes (start_state (ranks n) (fun r => client_ops V neg n (calls r) r) m) (tab (ranks n) m').
Proof. exact by_position. Qed.
Print Assumptions C84_by_number.

Definition ex_done {L V} (s : @net L V) : list bool := map (fun p => match p with [] => true | _ => false end) (n_prog s).
Definition ex_odd_one (one : nat) (c c' : list (call Z)) (r : nat) : list (call Z) := if Nat.eqb r one then c else c'.
Lemma ex_call : call_ok Z 1 1 (CHalo Z ex_q 1).
Proof. split; [intros r; cbn; lia|exists 2, 3%nat, 2%nat, 0%nat; exact ex_halo_ok]. Qed.

(** 6 ranks, one update: rank 2 waits for it twice, all messages are buffered; only this rank does not end *)
Example C84_twice_example :
  let calls := ex_odd_one 2 [CHalo Z ex_q 1; CWait Z 0; CWait Z 0] [CHalo Z ex_q 1; CWait Z 0] in
  (forall r, Forall (call_ok Z 1 1) (calls r) /\ waits_in Z (calls r) 0) /\ count_occ Nat.eq_dec (waited Z (calls 2%nat)) 0%nat = 2%nat /\
  ex_done (drive (fun _ _ => true) 1000 (start_state (ranks 1) (fun r => client_ops Z Z.opp 1 (calls r) r) ex_mem1)) = [true; true; false; true; true; true].
Proof.
  cbv zeta. split; [|split; [reflexivity|vm_compute; reflexivity]]. pose proof ex_call. intros r. unfold ex_odd_one. destruct (Nat.eqb r 2); cbn [waits_in]; split; auto; repeat (constructor; auto).
Qed.

(** rank 2 starts and waits for a second update, the others do not *)
Example C84_missing_example :
  let calls := ex_odd_one 2 [CHalo Z ex_q 1; CWait Z 0; CHalo Z ex_q 1; CWait Z 1] [CHalo Z ex_q 1; CWait Z 0] in
  (forall r, Forall (call_ok Z 1 1) (calls r) /\ waits_in Z (calls r) 0) /\ hears Z 1 (CHalo Z ex_q 1) 2 1 /\
  (tags Z (calls 1) < tags Z (firstn 2 (filter (starts Z) (calls 2))))%nat /\
  ex_done (drive (fun _ _ => true) 1000 (start_state (ranks 1) (fun r => client_ops Z Z.opp 1 (calls r) r) ex_mem1)) = [true; true; false; true; true; true].
Proof.
  cbv zeta. pose proof ex_call. split; [|split; [|split; [vm_compute; lia|vm_compute; reflexivity]]].
  - intros r. unfold ex_odd_one. destruct (Nat.eqb r 2); cbn [waits_in]; split; auto; repeat (constructor; auto).
  - exists SOUTH. eexists. split; [vm_compute; reflexivity|]. vm_compute. auto.
Qed.

(** rank 2 does not wait: without buffering all ranks but it and rank 5 on the other side of the cube never end, with buffering all do *)
Example C84_not_waited_example :
  let calls := ex_odd_one 2 [CHalo Z ex_q 1] [CHalo Z ex_q 1; CWait Z 0] in
  hears Z 1 (CHalo Z ex_q 1) 2 1 /\ filter (starts Z) (calls 2%nat) = filter (starts Z) (calls 1%nat) /\ waited Z (calls 2%nat) = [] /\
  let go bf := ex_done (drive bf 1000 (start_state (ranks 1) (fun r => client_ops Z Z.opp 1 (calls r) r) ex_mem1)) in
  go (fun _ _ => false) = [false; false; true; false; false; true] /\ go (fun _ _ => true) = [true; true; true; true; true; true].
Proof. cbv zeta. split; [exists SOUTH; eexists; split; [vm_compute; reflexivity|vm_compute; auto]|]. vm_compute. auto. Qed.

(** two arrays per rank, holding 1000 r + ... and 1000 r + 500 + ...: ranks with odd numbers start the updates in the other order, and
    halo points of the first array of rank 0 hold values of the second array of ranks 1 and 5, of the first array of ranks 2 and 4 *)
Definition ex_array (id : nat) (r : nat) := mkH id ex_meta.
Definition ex_pair (r : nat) : mem Z := [ex_arr r 0 [4; 1; 5]; ex_arr r 1 [4; 1; 5]].
Definition ex_swapped (r : nat) : list (call Z) :=
  if Nat.odd r then [CHalo Z (ex_array 1) 1; CHalo Z (ex_array 0) 1; CWait Z 0; CWait Z 1] else [CHalo Z (ex_array 0) 1; CHalo Z (ex_array 1) 1; CWait Z 0; CWait Z 1].
Definition ex_first (r : nat) := ex_array (if Nat.odd r then 1 else 0) r.
Definition ex_second (r : nat) := ex_array (if Nat.odd r then 0 else 1) r.
Example C84_by_number_example :
  let common := [CHalo Z ex_first 1; CHalo Z ex_second 1; CWait Z 0; CWait Z 1] in
  (forall r, Forall2 (same_at Z r) (ex_swapped r) common) /\ Forall (call_ok Z 1 2) common /\ waits_ok Z common 0 [] /\
  (let s := drive (fun _ _ => false) 1000 (start_state (ranks 1) (fun r => client_ops Z Z.opp 1 (ex_swapped r) r) ex_pair) in
   (all_done s, map (fun r => map (fun id => map (value_at 0 s r id) [[0; 0; 2]; [3; 0; 2]; [1; 0; 1]; [1; 0; 4]]) [0; 1]%nat) [0; 1]%nat) =
   (true, [[[5702; 2202; 4203; 1602]; [5202; 2702; 4703; 1102]]; [[5203; 2602; 603; 3103]; [5703; 2102; 103; 3603]]])).
Proof.
  cbv zeta. split; [|split; [|split]].
  - intros r. unfold ex_swapped, ex_first, ex_second. destruct (Nat.odd r) eqn:E; repeat constructor; cbn; now rewrite E.
  - assert (H : forall f : nat -> nat, (forall r, (f r < 2)%nat) -> call_ok Z 1 2 (CHalo Z (fun r => ex_array (f r) r) 1)).
    { intros f Hf. split; [intros r; apply Hf|]. exists 2, 3%nat, 2%nat, 0%nat. exact ex_halo_ok. }
    constructor; [apply (H (fun r => if Nat.odd r then 1 else 0)%nat); intros r; destruct (Nat.odd r); lia|].
    constructor; [apply (H (fun r => if Nat.odd r then 0 else 1)%nat); intros r; destruct (Nat.odd r); lia|]. repeat constructor.
  - cbn. repeat split; auto; intros []; try discriminate; auto.
  - vm_compute. reflexivity.
Qed.
