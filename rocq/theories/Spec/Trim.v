(** Strings up to surrounding whitespace. *)
From Verif.Base Require Import Base.

Section Trim.
Variable Ch : Type.
Variable space : Ch -> bool.
Definition blanks (s : list Ch) : Prop := Forall (fun c => space c = true) s.
(** begins and ends with other characters, if with any *)
Definition trimmed (s : list Ch) : Prop :=
  (forall c t, s = c :: t -> space c = false) /\ (forall c t, s = (t ++ [c])%list -> space c = false).
(** [k] is [s] without the surrounding whitespace *)
Definition core (s k : list Ch) : Prop := exists before after, blanks before /\ blanks after /\ s = (before ++ k ++ after)%list /\ trimmed k.
End Trim.
