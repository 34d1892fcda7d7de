(** Numbers written in decimal digits. *)
From Coq Require Import Ascii.
From Verif.Base Require Import Base.

(** the number [acc] followed by the digits [s] *)
Fixpoint digits (acc : Z) (s : string) : option Z :=
  match s with
  | EmptyString => Some acc
  | String c s => let d := Z.of_nat (nat_of_ascii c) - 48 in if (0 <=? d) && (d <=? 9) then digits (10 * acc + d) s else None
  end.

(** [s] is the number [n] written with at least [width] digits, and with no more than needed *)
Definition decimal (width : nat) (s : string) (n : Z) : Prop :=
  digits 0 s = Some n /\ (width <= String.length s)%nat /\ ((width < String.length s)%nat -> String.get 0 s <> Some "0"%char).

Local Open Scope string_scope.
(** a path below a directory, as os.path.join composes them: absolute paths stay what they are *)
Definition joined (directory path whole : string) : Prop :=
  (exists rest, path = "/" ++ rest) /\ whole = path \/
  (forall rest, path <> "/" ++ rest) /\
    ((directory = "" \/ exists start, directory = start ++ "/") /\ whole = directory ++ path \/
     directory <> "" /\ (forall start, directory <> start ++ "/") /\ whole = directory ++ "/" ++ path).
