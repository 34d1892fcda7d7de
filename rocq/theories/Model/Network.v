(** Message passing between ranks, as the package uses MPI.

    Each rank runs a list of operations.  A send never blocks; the request it returns completes when
    its message has been received, or earlier if MPI buffered it (decided by an arbitrary oracle).
    A receive names its source and tag, blocks until a message is there, and gets messages from one
    source with one tag in the order sent.  Message contents are the elements of the sent array in C
    order.  Here a message is read when it is sent; [Model/LateRead.v] lets MPI read it later. *)
From Verif.Base Require Import Base.

Section Network.
Variables L V : Type.   (* local memory of a rank; array elements *)

Inductive op :=
| OSend (dst tag : Z) (payload : L -> list V)
| ORecv (src tag : Z) (store : list V -> L -> option L)  (* None: does not fit the receive buffer *)
| OWait (request : nat)  (* wait for the request of the n-th send of this rank *)
| OLocal (f : L -> L).   (* computation between communication calls *)

Record msg := mkM { ms_dst : Z; ms_tag : Z; ms_body : list V; ms_taken : bool }.

(** per rank: what is left to do, memory, messages sent so far *)
Record net := mkN { n_prog : list (list op); n_mem : list L; n_sent : list (list msg) }.

Definition matches (dst tag : Z) (m : msg) : bool :=
  negb (ms_taken m) && (ms_dst m =? dst) && (ms_tag m =? tag).

(** first message for [dst] with [tag] not yet received *)
Fixpoint take (dst tag : Z) (l : list msg) : option (list V * list msg) :=
  match l with
  | [] => None
  | m :: l' =>
      if matches dst tag m then Some (ms_body m, mkM (ms_dst m) (ms_tag m) (ms_body m) true :: l')
      else match take dst tag l' with
           | Some (b, l'') => Some (b, m :: l'')
           | None => None
           end
  end.

(** one operation of rank [r]; None if it cannot proceed *)
Definition step (buffered : nat -> nat -> bool) (r : nat) (s : net) : option net :=
  match nth_error (n_prog s) r, nth_error (n_mem s) r, nth_error (n_sent s) r with
  | Some (OSend dst tag payload :: ps), Some m, Some sent =>
      Some (mkN (upd (n_prog s) r ps) (n_mem s) (upd (n_sent s) r (sent ++ [mkM dst tag (payload m) false])))
  | Some (ORecv src tag store :: ps), Some m, Some _ =>
      if src <? 0 then None else
      match nth_error (n_sent s) (Z.to_nat src) with
      | Some sent =>
          match take (Z.of_nat r) tag sent with
          | Some (body, sent') =>
              match store body m with
              | Some m' => Some (mkN (upd (n_prog s) r ps) (upd (n_mem s) r m') (upd (n_sent s) (Z.to_nat src) sent'))
              | None => None
              end
          | None => None
          end
      | None => None
      end
  | Some (OWait j :: ps), Some m, Some sent =>
      match nth_error sent j with
      | Some mg => if ms_taken mg || buffered r j then Some (mkN (upd (n_prog s) r ps) (n_mem s) (n_sent s)) else None
      | None => None
      end
  | Some (OLocal f :: ps), Some m, Some _ =>
      Some (mkN (upd (n_prog s) r ps) (upd (n_mem s) r (f m)) (n_sent s))
  | _, _, _ => None
  end.

(** a schedule says which rank moves next *)
Fixpoint run (buffered : nat -> nat -> bool) (sched : list nat) (s : net) : option net :=
  match sched with
  | [] => Some s
  | r :: sched' => match step buffered r s with Some s' => run buffered sched' s' | None => None end
  end.

Definition finished (s : net) : Prop := Forall (fun p => p = []) (n_prog s).

End Network.

Arguments OSend {L V}. Arguments ORecv {L V}. Arguments OWait {L V}. Arguments OLocal {L V}.
Arguments mkM {V}. Arguments mkN {L V}.
Arguments ms_dst {V}. Arguments ms_tag {V}. Arguments ms_body {V}. Arguments ms_taken {V}.
Arguments n_prog {L V}. Arguments n_mem {L V}. Arguments n_sent {L V}.
Arguments matches {V}. Arguments take {V}. Arguments step {L V}. Arguments run {L V}. Arguments finished {L V}.
