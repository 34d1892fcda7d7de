(** Model of fv3gfs/util/testing/dummy_comm.py: the communicator used to test without MPI.
    All ranks share one dictionary of buffers; its entries "send_recv", "bcast", "scatter" and "gather" are used by
    different methods only, so each is modelled as a state machine of its own.  Arrays live in a heap; contents have an
    abstract type, [assign old new] is what assign_array (utils.py:58-72) makes of an array holding [old]. *)
From Verif.Base Require Import Base.

Section DummyComm.
Variable V : Type.
Variable assign : V -> V -> res V.
(** is the array C or F contiguous (utils.py:52-54, ensure_contiguous) *)
Variable contiguous : nat -> bool.

(** ** messages *)
Definition heap := nat -> V.
Definition hset (h : heap) (ref : nat) (v : V) : heap := fun x => if Nat.eqb x ref then v else h x.

(** self._buffer.get("send_recv"): None when the key is missing; keys are pairs (from_rank, to_rank) *)
Definition queues := option (list ((Z * Z) * list V)).
Definition pair_eqb (k k' : Z * Z) : bool := (fst k =? fst k') && (snd k =? snd k').
Fixpoint qget (k : Z * Z) (d : list ((Z * Z) * list V)) : option (list V) :=
  match d with [] => None | (k', l) :: d' => if pair_eqb k k' then Some l else qget k d' end.
Fixpoint qset (k : Z * Z) (l : list V) (d : list ((Z * Z) * list V)) : list ((Z * Z) * list V) :=
  match d with [] => [(k, l)] | (k', l') :: d' => if pair_eqb k k' then (k', l) :: d' else (k', l') :: qset k l d' end.

(** dummy_comm.py:68-72; the array is copied *)
Definition put_send_recv (me to : Z) (v : V) (q : queues) : queues :=
  let d := match q with Some d => d | None => [] end in
  let l := match qget (me, to) d with Some l => l | None => [] end in
  Some (qset (me, to) (l ++ [v]) d).

(** dummy_comm.py:53-66; pop(0) on an empty list raises IndexError *)
Definition get_send_recv (me from : Z) (q : queues) : queues * res V :=
  match q with
  | None => (q, Err ConcurrencyError)
  | Some d =>
      match qget (from, me) d with
      | None => (q, Err ConcurrencyError)
      | Some [] => (q, Err IndexError)
      | Some (v :: l) => (Some (qset (from, me) l d), Ok v)
      end
  end.

(** what ranks do: modify an array, Send (146-148) or Isend (150-156), Recv (158-160) or wait on an Irecv (162-166), which
    receives when it is waited on.  Tags are passed as keyword arguments, which are ignored. *)
Inductive pop := Modify (ref : nat) (v : V) | Send (me to tag : Z) (ref : nat) | Recv (me from tag : Z) (ref : nat).

Definition pstep (o : pop) (w : heap * queues) : (heap * queues) * res unit :=
  let '(h, q) := w in
  match o with
  | Modify ref v => ((hset h ref v, q), Ok tt)
  | Send me to _ ref => if contiguous ref then ((h, put_send_recv me to (h ref) q), Ok tt) else (w, Err ValueError)
  | Recv me from _ ref =>
      if contiguous ref then
        match get_send_recv me from q with
        | (q', Err e) => ((h, q'), Err e)
        | (q', Ok v) => match assign (h ref) v with
                        | Ok v' => ((hset h ref v', q'), Ok tt)
                        | Err e => ((h, q'), Err e)
                        end
        end
      else (w, Err ValueError)
  end.

(** a history: each operation with the heap before it, and the final state *)
Fixpoint prun (os : list pop) (w : heap * queues) : list (heap * pop) * (heap * queues) :=
  match os with
  | [] => ([], w)
  | o :: os' => let '(tr, w') := prun os' (fst (pstep o w)) in ((fst w, o) :: tr, w')
  end.

(** ** bcast and Scatter (dummy_comm.py:42-51, 92-99, 104-115): a list of values given by rank 0 and the number of calls made
    so far by each rank.  The counter is advanced before the list is read. *)
Definition ordered := (list V * (Z -> nat))%type.
Definition get_buffer (me : Z) (v : V) (b : ordered) : ordered * res V :=
  let '(l, count) := b in
  let i := count me in
  let count' := fun r => if r =? me then S i else count r in
  let l' := if me =? 0 then (l ++ [v])%list else l in
  ((l', count'), match nth_error l' i with Some x => Ok x | None => Err IndexError end).
Fixpoint orun (cs : list (Z * V)) (b : ordered) : ordered * list (res V) :=
  match cs with
  | [] => (b, [])
  | (me, v) :: cs' => let '(b', r) := get_buffer me v b in let '(b'', rs) := orun cs' b' in (b'', r :: rs)
  end.

(** ** Gather (dummy_comm.py:86-90, 117-132), root 0: the shared list of contributions; a root call gives the rows stored in
    its receive buffer *)
Definition gather_call (size : nat) (me : nat) (v : V) (g : list (option V)) : list (option V) * res (list V) :=
  let g' := upd g me (Some v) in
  (g', if Nat.eqb me 0 then
         if existsb (fun x => match x with None => true | Some _ => false end) g' then Err ConcurrencyError
         else Ok (flat_map (fun x => match x with Some v => [v] | None => [] end) g')
       else Ok []).
Fixpoint grun (size : nat) (cs : list (nat * V)) (g : list (option V)) : list (option V) * list (res (list V)) :=
  match cs with
  | [] => (g, [])
  | (me, v) :: cs' => let '(g', r) := gather_call size me v g in let '(g'', rs) := grun size cs' g' in (g'', r :: rs)
  end.
Definition gather_start (size : nat) : list (option V) := repeat None size.

(** ** Split (dummy_comm.py:168-183) on one communicator object: communicators made so far by color, as (rank, size) *)
Definition split (color : Z) (made : list (Z * (nat * nat))) : list (Z * (nat * nat)) * (nat * nat) :=
  let rank := length (filter (fun c => fst c =? color) made) in
  let made' := map (fun c => if fst c =? color then (fst c, (fst (snd c), S rank)) else c) made in
  ((made' ++ [(color, (rank, S rank))])%list, (rank, S rank)).
End DummyComm.
Arguments Modify {V}. Arguments Send {V}. Arguments Recv {V}.
