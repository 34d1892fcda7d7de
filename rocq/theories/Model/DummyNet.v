(** Message passing operations (as in [Network.v]) executed with fv3gfs/util/testing/dummy_comm.py.
    One thread executes the operations of all ranks, in an order it chooses; nothing waits, a receive without a message raises.
    Messages are elements in C order: the shape of a sent array is not compared with that of the receive buffer (assign_array,
    utils.py 60-72, would broadcast or raise), only the number of elements. *)
From Verif.Base Require Import Base.
From Verif.Model Require Import Network DummyComm.

Section DummyNet.
Variables L V : Type.

(** memories of the ranks; the dictionary of buffers they share *)
Record world := mkDW { dw_mem : list L; dw_queues : queues (list V) }.

(** an operation of rank [r]: Isend is done at once (dummy_comm.py 150-156) and waiting on it does nothing; Irecv receives when
    waited on (162-166) *)
Definition dstep (r : nat) (o : op L V) (w : world) : res world :=
  match nth_error (dw_mem w) r with
  | None => Err IndexError
  | Some m =>
      match o with
      | OSend dst _ payload => Ok (mkDW (dw_mem w) (put_send_recv (list V) (Z.of_nat r) dst (payload m) (dw_queues w)))
      | ORecv src _ store =>
          match get_send_recv (list V) (Z.of_nat r) src (dw_queues w) with
          | (_, Err e) => Err e
          | (q, Ok body) => match store body m with Some m' => Ok (mkDW (upd (dw_mem w) r m') q) | None => Err ValueError end
          end
      | OWait _ => Ok w
      | OLocal f => Ok (mkDW (upd (dw_mem w) r (f m)) (dw_queues w))
      end
  end.
(** an exception ends the run *)
Fixpoint drun (l : list (nat * op L V)) (w : world) : res world :=
  match l with [] => Ok w | (r, o) :: l' => do w <- dstep r o w; drun l' w end.
End DummyNet.
Arguments mkDW {L V}. Arguments dw_mem {L V}. Arguments dw_queues {L V}. Arguments dstep {L V}. Arguments drun {L V}.
