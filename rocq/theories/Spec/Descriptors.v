(** What redirecting a stream should leave behind. *)
From Verif.Base Require Import Base.
From Verif.Model Require Import Capture.

Definition is_open (s : os) (fd : nat) : Prop := file_of s fd <> None.
(** number of open descriptors *)
Definition open_count (s : os) : nat := length (filter (fun f => match f with Some _ => true | None => false end) (fds s)).
(** the body opens and closes nothing on balance *)
Definition keeps_descriptors {A} (body : os -> os * res A) : Prop := forall s fd, file_of (fst (body s)) fd = file_of s fd.
(** the body which writes pieces of data to descriptor [fd] and then returns or raises *)
Definition writing {A} (fd : nat) (pieces : list (list Z)) (r : res A) (s : os) : os * res A := (fold_left (fun s d => write s fd d) pieces s, r).

(** the stream is captured around each of these bodies, one after the other *)
Fixpoint uses {A} (fd : nat) (bodies : list (os -> os * res A)) (s : os) : os :=
  match bodies with [] => s | b :: bodies' => uses fd bodies' (fst (capture fd b s)) end.
