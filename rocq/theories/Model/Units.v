(** Model of fv3gfs/util/units.py.  A python string is a list of characters; [space] tells which characters str.strip()
    removes (str.isspace), about which nothing is assumed. *)
From Verif.Base Require Import Base.

Section Units.
Variable Ch : Type.
Variable space : Ch -> bool.
Variable eqb : Ch -> Ch -> bool.

(** str.strip(): drop leading, then trailing whitespace *)
Fixpoint lstrip (s : list Ch) : list Ch :=
  match s with [] => [] | c :: s' => if space c then lstrip s' else s end.
Definition strip (s : list Ch) : list Ch := rev (lstrip (rev (lstrip s))).

(** == on strings *)
Fixpoint str_eqb (s t : list Ch) : bool :=
  match s, t with
  | [], [] => true
  | c :: s', d :: t' => eqb c d && str_eqb s' t'
  | _, _ => false
  end.

(** units.py:6-7 *)
Definition units_are_equal (u1 u2 : list Ch) : bool := str_eqb (strip u1) (strip u2).
(** units.py:1-3 *)
Definition ensure_equal_units (u1 u2 : list Ch) : res unit := if units_are_equal u1 u2 then Ok tt else Err UnitsError.
End Units.
