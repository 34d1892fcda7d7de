(** C49: capturing a stream. *)
From Verif.Base Require Import Base.
From Verif.Model Require Import Capture.
From Verif.Spec Require Import Descriptors.
From Verif.Proofs Require Import CaptureProofs.

(** what is written to the descriptor inside is returned, no file existing before is changed, every descriptor
    open before is as it was, and one more is open *)
Theorem C49_output : forall A fd pieces s (a : A), is_open s fd ->
  exists s', capture fd (writing fd pieces (Ok a)) s = (s', Ok (a, concat pieces)) /\
    (forall i, is_open s i -> file_of s' i = file_of s i) /\
    (forall f, (f < length (files s))%nat -> nth f (files s') [] = nth f (files s) []) /\
    open_count s' = S (open_count s).
Proof. exact capture_output. Qed.
Print Assumptions C49_output.

(** after an exception inside, the descriptor refers to the temporary file (a new one) *)
Theorem C49_raises : forall A fd (body : os -> os * res A) s e, is_open s fd -> keeps_descriptors body -> (forall s, snd (body s) = Err e) ->
  exists s', capture fd body s = (s', Err e) /\ file_of s' fd = Some (length (files s)) /\
    exists orig, ~ is_open s orig /\ file_of s' orig = file_of s fd /\ forall i, i <> orig -> i <> fd -> file_of s' i = file_of s i.
Proof. exact capture_exception. Qed.
Print Assumptions C49_raises.

(** a closed stream raises and changes nothing *)
Theorem C49_closed : forall A fd (body : os -> os * res A) s, ~ is_open s fd -> capture fd body s = (s, Err OSError).
Proof. exact capture_closed. Qed.
Print Assumptions C49_closed.

(** a block closing the descriptors it did not open (as os.closerange does) loses the saved stream: OSError, and the stream stays redirected *)
Theorem C49_closed_inside : forall A fd (body : os -> os * res A) s a, is_open s fd ->
  (forall s1, snd (body s1) = Ok a /\ file_of (fst (body s1)) fd = file_of s1 fd /\ forall i, ~ is_open s i -> file_of (fst (body s1)) i = None) ->
  exists s', capture fd body s = (s', Err OSError) /\ file_of s' fd = Some (length (files s)).
Proof. exact capture_closed_inside. Qed.
Print Assumptions C49_closed_inside.

(** n uses leave n more descriptors open *)
Theorem C49_leaks : forall A fd bodies s, is_open s fd -> Forall (@keeps_descriptors A) bodies -> Forall (fun b => forall s, exists s' a, b s = (s', Ok a)) bodies ->
  open_count (uses fd bodies s) = (length bodies + open_count s)%nat /\ file_of (uses fd bodies s) fd = file_of s fd.
Proof. exact capture_leaks. Qed.
Print Assumptions C49_leaks.

(** stdin, stdout and stderr, descriptor 3 closed, descriptor 4 open *)
Definition ex_os : os := mkOs [Some 0; Some 1; Some 1; None; Some 2]%nat [[]; [1]; []].
Example C49_example : is_open ex_os 1 /\ capture 1 (writing 1 [[7; 8]; [9]] (Ok tt)) ex_os = (mkOs [Some 0; Some 1; Some 1; Some 1; Some 2; None]%nat [[]; [1]; []; [7; 8; 9]], Ok (tt, [7; 8; 9])) /\
  keeps_descriptors (writing 1 [[7]] (@Err unit RuntimeError)) /\
  capture 1 (writing 1 [[7]] (@Err unit RuntimeError)) ex_os = (mkOs [Some 0; Some 3; Some 1; Some 1; Some 2; None]%nat [[]; [1]; []; [7]], Err RuntimeError).
Proof. split; [discriminate|]. split; [reflexivity|]. split; [apply writing_keeps|reflexivity]. Qed.

(** a block which keeps stdin, stdout and stderr only *)
Definition ex_close (s : os) : os * res unit := (mkOs (firstn 3 (fds s)) (files s), Ok tt).
Example C49_example_closed : let s := mkOs [Some 0; Some 1; Some 1]%nat [[]; [1]] in
  (forall s1, file_of (fst (ex_close s1)) 1 = file_of s1 1 /\ forall i, ~ is_open s i -> file_of (fst (ex_close s1)) i = None) /\
  capture 1 ex_close s = (mkOs [Some 0; Some 2; Some 1; None; None]%nat [[]; [1]; []], Err OSError).
Proof.
  cbv zeta. split; [|reflexivity]. intros s1. unfold ex_close, file_of. cbn [fst fds]. split.
  - destruct (fds s1) as [|? [|? ?]]; reflexivity.
  - intros i N. destruct i as [|[|[|i]]]; try (exfalso; apply N; discriminate). apply nth_overflow. rewrite firstn_length. lia.
Qed.
