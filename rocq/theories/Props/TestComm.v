(** C51, C52, C58, C59: the communicator used in tests. *)
From Verif.Base Require Import Base.
From Verif.Model Require Import DummyComm.
From Verif.Spec Require Import Fifo.
From Verif.Proofs Require Import DummyProofs.

(** C51: after any history, a receive gets the contents, when it was sent, of the oldest array not yet taken *)
Theorem C51_fifo : forall V assign contiguous h0 os me from tag ref,
  let '(tr, (h, q)) := prun V assign contiguous os (h0, None) in
  let '(sent, taken) := traffic V contiguous from me tr in
  let '((h', _), r) := pstep V assign contiguous (Recv me from tag ref) (h, q) in
  (forall x, x <> ref -> h' x = h x) /\
  if contiguous ref then
    match nth_error sent taken with
    | Some v => match assign (h ref) v with Ok v' => r = Ok tt /\ h' ref = v' | Err e => r = Err e /\ h' ref = h ref end
    | None => r = Err (match sent with [] => ConcurrencyError | _ => IndexError end) /\ h' ref = h ref
    end
  else r = Err ValueError /\ h' ref = h ref.
Proof. exact dummy_fifo. Qed.
Print Assumptions C51_fifo.

(** tags have no effect *)
Theorem C51_tags_ignored : forall V assign contiguous f os w, snd (prun V assign contiguous (map (retag V f) os) w) = snd (prun V assign contiguous os w).
Proof. exact dummy_ignores_tags. Qed.
Print Assumptions C51_tags_ignored.

(** histories which complete under MPI, receiving in the order of sending for each pair of ranks, have the same effect *)
Theorem C51_as_mpi : forall V assign contiguous os h h' m', (forall ref, contiguous ref = true) -> in_order V assign os (h, []) ->
  mrun V assign os (h, []) = Some (h', m') -> fst (snd (prun V assign contiguous os (h, None))) = h'.
Proof. exact dummy_mpi. Qed.
Print Assumptions C51_as_mpi.

Definition ex_assign (old new : Z) : res Z := Ok new.
(** the sent array is modified after sending; arrays 0 and 1 belong to rank 0, arrays 2 and 3 to rank 1 *)
Definition ex_ops : list (pop Z) := [Modify 0 10; Send 0 1 5 0; Modify 0 20; Send 0 1 6 0; Modify 0 30; Recv 1 0 5 2; Recv 1 0 6 3; Recv 1 0 7 2].
Example C51_example : (let '(tr, (h, q)) := prun Z ex_assign (fun _ => true) ex_ops (fun _ => 0, None) in map h [0; 1; 2; 3]%nat = [30; 0; 10; 20]) /\
  in_order Z ex_assign (removelast ex_ops) (fun _ => 0, []) /\
  option_map (fun w => map (fst w) [0; 1; 2; 3]%nat) (mrun Z ex_assign (removelast ex_ops) (fun _ => 0, [])) = Some [30; 0; 10; 20].
Proof. split; [reflexivity|]. split; [|reflexivity]. cbn. repeat split; eauto. Qed.

(** waiting in the other order swaps the data, unlike MPI *)
Definition ex_crossed : list (pop Z) := [Modify 0 10; Send 0 1 5 0; Modify 0 20; Send 0 1 6 0; Recv 1 0 6 3; Recv 1 0 5 2].
Theorem C51_crossed_refuted : map (fst (snd (prun Z ex_assign (fun _ => true) ex_crossed (fun _ => 0, None)))) [2; 3]%nat = [20; 10] /\
  option_map (fun w => map (fst w) [2; 3]%nat) (mrun Z ex_assign ex_crossed (fun _ => 0, [])) = Some [10; 20].
Proof. split; reflexivity. Qed.
Print Assumptions C51_crossed_refuted.

(** C52: the root raises if some rank never called; otherwise it gets the last contribution of each rank, however old *)
Theorem C52_gather : forall V size cs v, (0 < size)%nat -> (forall c, In c cs -> (fst c < size)%nat) ->
  let r := snd (gather_call V size 0 v (fst (grun V size cs (gather_start V size)))) in
  ((exists k, (0 < k < size)%nat /\ latest V k cs = None) -> r = Err ConcurrencyError) /\
  ((forall k, (0 < k < size)%nat -> latest V k cs <> None) -> exists rows, r = Ok rows /\ length rows = size /\
     forall k, (k < size)%nat -> nth_error rows k = if Nat.eqb k 0 then Some v else latest V k cs).
Proof. exact dummy_gather. Qed.
Print Assumptions C52_gather.

(** three ranks: in the second round rank 2 has not called yet, and its old value 12 is used *)
Theorem C52_stale_refuted : snd (grun Z 3 [(1%nat, 11); (0%nat, 10); (2%nat, 12); (0%nat, 10); (1%nat, 21); (0%nat, 20)] (gather_start Z 3))
  = [Ok []; Err ConcurrencyError; Ok []; Ok [10; 11; 12]; Ok []; Ok [20; 21; 12]].
Proof. reflexivity. Qed.
Print Assumptions C52_stale_refuted.

(** C58: bcast and Scatter: the k-th call of a rank gets the k-th value of the root, and raises if that is not there yet;
    calls which raised are counted, so trying again gets a later value *)
Theorem C58_ordered : forall V cs me v, let b := fst (orun V cs ([], fun _ => O)) in
  snd (get_buffer V me v b) = match nth_error (calls_of V 0 cs ++ (if me =? 0 then [v] else [])) (length (calls_of V me cs)) with Some x => Ok x | None => Err IndexError end.
Proof. exact dummy_ordered. Qed.
Print Assumptions C58_ordered.

Theorem C58_root : forall V cs v, snd (get_buffer V 0 v (fst (orun V cs ([], fun _ => O)))) = Ok v.
Proof. exact dummy_root. Qed.
Print Assumptions C58_root.

Theorem C58_retry_refuted : snd (orun Z [(1, 0); (0, 10); (1, 0); (0, 20); (1, 0); (2, 0)] ([], fun _ => O))
  = [Err IndexError; Ok 10; Err IndexError; Ok 20; Err IndexError; Ok 10].
Proof. reflexivity. Qed.
Print Assumptions C58_retry_refuted.

(** C59: Split on a communicator object of its own makes every rank the only one, hence the root, of its tile; on one shared
    object the calls are numbered *)
Theorem C59_split : forall color, snd (split color []) = (0%nat, 1%nat).
Proof. exact dummy_split. Qed.
Print Assumptions C59_split.

Theorem C59_split_shared : forall n color, let made := Nat.iter n (fun m => fst (split color m)) [] in
  made = map (fun r => (color, (r, n))) (seq 0 n) /\ snd (split color made) = (n, S n).
Proof. exact dummy_split_shared. Qed.
Print Assumptions C59_split_shared.
