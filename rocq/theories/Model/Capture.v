(** Model of fv3gfs/util/_capture_stream.py on a table of file descriptors.
    Simplifications: data goes to descriptors at once (what python still holds in the buffer of the stream object is not
    modelled); the temporary file is a new empty file; a file is named by its number, also after it was deleted. *)
From Verif.Base Require Import Base.

(** open descriptors (position = descriptor, value = file) and contents of files *)
Record os := mkOs { fds : list (option nat); files : list (list Z) }.

Definition file_of (s : os) (fd : nat) : option nat := nth fd (fds s) None.
(** the lowest free descriptor *)
Fixpoint lowest (l : list (option nat)) : nat :=
  match l with [] => O | None :: _ => O | Some _ :: l' => S (lowest l') end.
Definition put (l : list (option nat)) (fd : nat) (f : option nat) : list (option nat) :=
  if Nat.ltb fd (length l) then upd l fd f else (l ++ repeat None (fd - length l) ++ [f])%list.

(** os.dup, opening a new file, os.dup2, closing *)
Definition dup (s : os) (fd : nat) : res (os * nat) :=
  match file_of s fd with
  | None => Err OSError
  | Some f => let n := lowest (fds s) in Ok (mkOs (put (fds s) n (Some f)) (files s), n)
  end.
Definition open_temp (s : os) : os * nat :=
  let n := lowest (fds s) in (mkOs (put (fds s) n (Some (length (files s)))) (files s ++ [[]]), n).
Definition dup2 (s : os) (from to : nat) : res os :=
  match file_of s from with
  | None => Err OSError
  | Some f => Ok (mkOs (put (fds s) to (Some f)) (files s))
  end.
Definition close (s : os) (fd : nat) : os := mkOs (put (fds s) fd None) (files s).
(** data written to a descriptor *)
Definition write (s : os) (fd : nat) (data : list Z) : os :=
  match file_of s fd with
  | None => s
  | Some f => mkOs (fds s) (upd (files s) f (nth f (files s) [] ++ data))
  end.

(** _capture_stream.py:7-25: [with capture_stream(stream) as out: body], where [stream] has descriptor [fd].
    Result: the body's, with the bytes in [out]; an exception of the body is thrown in at the yield, and the only handler is the
    with statement which closes the temporary file. *)
Definition capture {A} (fd : nat) (body : os -> os * res A) (s : os) : os * res (A * list Z) :=
  match dup s fd with
  | Err e => (s, Err e)
  | Ok (s1, orig) =>
      let '(s2, out) := open_temp s1 in
      match dup2 s2 out fd with
      | Err e => (close s2 out, Err e)
      | Ok s3 =>
          match body s3 with
          | (s4, Err e) => (close s4 out, Err e)
          | (s4, Ok a) =>
              match dup2 s4 orig fd with
              | Err e => (close s4 out, Err e)
              | Ok s5 =>
                  let data := match file_of s5 out with Some f => nth f (files s5) [] | None => [] end in
                  (close s5 out, Ok (a, data))
              end
          end
      end
  end.
