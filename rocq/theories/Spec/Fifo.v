(** What a communicator for tests should deliver. *)
From Verif.Base Require Import Base.
From Verif.Model Require Import DummyComm.

Section Fifo.
Variable V : Type.
Variable assign : V -> V -> res V.
Variable contiguous : nat -> bool.

(** the contents of the arrays sent from [s] to [d], at the time of sending, and how many of them were taken *)
Definition traffic (s d : Z) (past : list ((nat -> V) * pop V)) : list V * nat :=
  fold_left (fun (t : list V * nat) (e : (nat -> V) * pop V) =>
    match snd e with
    | Send me to _ ref => if contiguous ref && ((me =? s) && (to =? d)) then ((fst t ++ [fst e ref])%list, snd t) else t
    | Recv me from _ ref => if contiguous ref && ((from =? s) && (me =? d)) then (fst t, Nat.min (S (snd t)) (length (fst t))) else t
    | Modify _ _ => t
    end) past ([], O).

(** MPI: a receive gets the oldest message not yet received which was sent to it with the same tag *)
Definition mailbox := list ((Z * Z * Z) * V).
Fixpoint take (s d tag : Z) (m : mailbox) : option (V * mailbox) :=
  match m with
  | [] => None
  | ((s', d', tag'), v) :: m' =>
      if (s' =? s) && (d' =? d) && (tag' =? tag) then Some (v, m')
      else match take s d tag m' with Some (x, m'') => Some (x, ((s', d', tag'), v) :: m'') | None => None end
  end.
(** the tag of the oldest message from [s] to [d] *)
Fixpoint first_from (s d : Z) (m : mailbox) : option (Z * V) :=
  match m with
  | [] => None
  | ((s', d', tag), v) :: m' => if (s' =? s) && (d' =? d) then Some (tag, v) else first_from s d m'
  end.
(** the machine of MPI, with messages delivered by tag; a receive without a message to it would wait *)
Definition mstep (o : pop V) (w : (nat -> V) * mailbox) : option ((nat -> V) * mailbox) :=
  let '(h, m) := w in
  match o with
  | Modify ref v => Some (hset V h ref v, m)
  | Send me to tag ref => Some (h, m ++ [((me, to, tag), h ref)])
  | Recv me from tag ref =>
      match take from me tag m with
      | Some (v, m') => match assign (h ref) v with Ok v' => Some (hset V h ref v', m') | Err _ => None end
      | None => None
      end
  end.
Fixpoint mrun (os : list (pop V)) (w : (nat -> V) * mailbox) : option ((nat -> V) * mailbox) :=
  match os with
  | [] => Some w
  | o :: os' => match mstep o w with Some w' => mrun os' w' | None => None end
  end.
(** every receive asks for the tag of the oldest message to it *)
Fixpoint in_order (os : list (pop V)) (w : (nat -> V) * mailbox) : Prop :=
  match os with
  | [] => True
  | o :: os' =>
      match o with
      | Recv me from tag _ => exists v, first_from from me (snd w) = Some (tag, v)
      | _ => True
      end /\ match mstep o w with Some w' => in_order os' w' | None => True end
  end.

(** the same operation with another tag *)
Definition retag (f : pop V -> Z) (o : pop V) : pop V :=
  match o with Send me to _ ref => Send me to (f o) ref | Recv me from _ ref => Recv me from (f o) ref | Modify _ _ => o end.
(** values given by the calls of rank [r], in order *)
Definition calls_of (r : Z) (cs : list (Z * V)) : list V := map snd (filter (fun c => fst c =? r) cs).

(** the last value given by rank [r] *)
Fixpoint latest (r : nat) (cs : list (nat * V)) : option V :=
  match cs with
  | [] => None
  | (me, v) :: cs' => match latest r cs' with Some x => Some x | None => if Nat.eqb me r then Some v else None end
  end.

End Fifo.
