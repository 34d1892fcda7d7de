(** Which arrays share memory, told from what was done (C82). *)
From Verif.Base Require Import Base.
From Verif.Model Require Import Numpy Quantity Storage.

(** family of each array of the user; family and backend of each quantity; number of families *)
Record sharing := mkSh { sh_arrays : list nat; sh_quantities : list (nat * option string); sh_next : nat }.
Definition nothing_shared : sharing := mkSh [] [] 0.

Definition family_of (s : sharing) (o : object) : option nat :=
  match o with OArray n => nth_error (sh_arrays s) n | OData i | OStorage i => option_map fst (nth_error (sh_quantities s) i) end.
Definition add_quantity (f : option nat) (b : option string) (s : sharing) : sharing :=
  match f with
  | Some f => mkSh (sh_arrays s) (sh_quantities s ++ [(f, b)]) (sh_next s)
  | None => mkSh (sh_arrays s) (sh_quantities s ++ [(sh_next s, b)]) (S (sh_next s))
  end.
(** a quantity gets memory of its own exactly if there is a backend and the data is not a storage *)
Definition evolve {V} (u : use V) (ok : bool) (s : sharing) : sharing :=
  if ok then
    match u with
    | UNew _ => mkSh (sh_arrays s ++ [sh_next s]) (sh_quantities s) (S (sh_next s))
    | UMake _ _ _ _ _ (Some b) => add_quantity None (Some b) s
    | UMake (OStorage i) _ _ _ _ None => add_quantity (family_of s (OStorage i)) (match nth_error (sh_quantities s) i with Some (_, b) => b | None => None end) s
    | UMake o _ _ _ _ None => add_quantity (family_of s o) None s
    | UTranspose i _ =>
        match nth_error (sh_quantities s) i with
        | Some (f, None) => add_quantity (Some f) None s
        | Some (_, Some b) => add_quantity None (Some b) s
        | None => s
        end
    | UWrite _ _ | UView _ _ _ => s
    end
  else s.
Fixpoint sharing_after {V} (us : list (use V)) (oks : list bool) (s : sharing) : sharing :=
  match us, oks with u :: us', ok :: oks' => sharing_after us' oks' (evolve u ok s) | _, _ => s end.

(** does a history write to a family *)
Definition written {V} (u : use V) : option object := match u with UWrite o _ => Some o | UView i _ _ => Some (OData i) | _ => None end.
Definition writes {V} (u : use V) (s : sharing) (f : nat) : Prop := exists o, written u = Some o /\ family_of s o = Some f.
Fixpoint touches {V} (us : list (use V)) (oks : list bool) (s : sharing) (f : nat) : Prop :=
  match us, oks with u :: us', ok :: oks' => writes u s f \/ touches us' oks' (evolve u ok s) f | _, _ => False end.

(** what an object shows at present *)
Definition shown {V} (w : world V) (o : object) : option (arr V) :=
  match find_object w o with
  | Ok (FromArray r) => show (w_mem w) r
  | Ok (FromStorage s) => show (w_mem w) (s_ref s)
  | Err _ => None
  end.
