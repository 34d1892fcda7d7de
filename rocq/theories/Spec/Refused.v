(** Quantities which a cubed sphere communicator cannot scatter, or gather into: those whose first dimension is not
    the tile, with the exception raised. *)
From Verif.Base Require Import Base.
Local Open Scope string_scope.

Definition refusal (dims : list string) : option exc :=
  match dims with
  | [] => Some IndexError
  | d :: _ => if String.eqb d "tile" then None else Some NotImplementedError
  end.
