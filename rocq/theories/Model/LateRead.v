(** Message passing as in [Model/Network.v], but a message is not read when it is sent.

    communicator.py 637-646 (_Isend): np.ascontiguousarray does not copy a view that is contiguous already, so MPI is handed
    memory of the array itself, and reads it some time before the request of the send completes. Here
    MPI reads each element of a message at a time of its own: some during a [Copy], the rest when the
    message is received. Sends of a private copy (views which are not contiguous, and negated data) are the case in which all elements are copied at
    once. The request of a send completes when all of the message has been read. *)
From Verif.Base Require Import Base.
From Verif.Model Require Import Network.

Section LateRead.
Variables L V : Type.

(** a message: where to read it, and the elements read so far *)
Record lmsg := mkLM { lm_dst : Z; lm_tag : Z; lm_read : L -> list V; lm_part : list (option V); lm_taken : bool }.

Record lnet := mkLN { l_prog : list (list (op L V)); l_mem : list L; l_sent : list (list lmsg) }.

Definition is_copied (x : option V) : bool := match x with Some _ => true | None => false end.
Definition all_copied (part : list (option V)) : bool := forallb is_copied part.

(** elements not read yet are read now *)
Fixpoint fill (part : list (option V)) (now : list V) : list V :=
  match part, now with
  | Some x :: part', _ => x :: fill part' (tl now)
  | None :: part', y :: now' => y :: fill part' now'
  | _, _ => []
  end.

Definition lmatches (dst tag : Z) (m : lmsg) : bool :=
  negb (lm_taken m) && (lm_dst m =? dst) && (lm_tag m =? tag).

(** first message for [dst] with [tag] not yet received; [now]: memory of the sender *)
Fixpoint ltake (dst tag : Z) (now : L) (l : list lmsg) : option (list V * list lmsg) :=
  match l with
  | [] => None
  | m :: l' =>
      if lmatches dst tag m
      then Some (fill (lm_part m) (lm_read m now), mkLM (lm_dst m) (lm_tag m) (lm_read m) (lm_part m) true :: l')
      else match ltake dst tag now l' with
           | Some (b, l'') => Some (b, m :: l'')
           | None => None
           end
  end.

(** one operation of rank [r] *)
Definition lmove (r : nat) (s : lnet) : option lnet :=
  match nth_error (l_prog s) r, nth_error (l_mem s) r, nth_error (l_sent s) r with
  | Some (OSend dst tag payload :: ps), Some m, Some sent =>
      Some (mkLN (upd (l_prog s) r ps) (l_mem s)
              (upd (l_sent s) r (sent ++ [mkLM dst tag payload (map (fun _ => None) (payload m)) false])))
  | Some (ORecv src tag store :: ps), Some m, Some _ =>
      if src <? 0 then None else
      match nth_error (l_sent s) (Z.to_nat src), nth_error (l_mem s) (Z.to_nat src) with
      | Some sent, Some now =>
          match ltake (Z.of_nat r) tag now sent with
          | Some (body, sent') =>
              match store body m with
              | Some m' => Some (mkLN (upd (l_prog s) r ps) (upd (l_mem s) r m') (upd (l_sent s) (Z.to_nat src) sent'))
              | None => None
              end
          | None => None
          end
      | _, _ => None
      end
  | Some (OWait j :: ps), Some m, Some sent =>
      match nth_error sent j with
      | Some mg => if lm_taken mg || all_copied (lm_part mg) then Some (mkLN (upd (l_prog s) r ps) (l_mem s) (l_sent s)) else None
      | None => None
      end
  | Some (OLocal f :: ps), Some m, Some _ =>
      Some (mkLN (upd (l_prog s) r ps) (upd (l_mem s) r (f m)) (l_sent s))
  | _, _, _ => None
  end.

(** MPI reads element [k] of the [j]-th message sent by rank [r] *)
Definition lcopy (r j k : nat) (s : lnet) : option lnet :=
  match nth_error (l_mem s) r, nth_error (l_sent s) r with
  | Some m, Some sent =>
      match nth_error sent j with
      | Some mg =>
          if lm_taken mg then None else
          match nth_error (lm_part mg) k, nth_error (lm_read mg m) k with
          | Some None, Some v =>
              Some (mkLN (l_prog s) (l_mem s)
                (upd (l_sent s) r (upd sent j (mkLM (lm_dst mg) (lm_tag mg) (lm_read mg) (upd (lm_part mg) k (Some v)) false))))
          | _, _ => None
          end
      | None => None
      end
  | _, _ => None
  end.

Inductive action := Move (r : nat) | Copy (r j k : nat).
Definition lstep (a : action) (s : lnet) : option lnet :=
  match a with Move r => lmove r s | Copy r j k => lcopy r j k s end.
Fixpoint lrun (sched : list action) (s : lnet) : option lnet :=
  match sched with
  | [] => Some s
  | a :: sched' => match lstep a s with Some s' => lrun sched' s' | None => None end
  end.

Definition lfinished (s : lnet) : Prop := Forall (fun p => p = []) (l_prog s).
End LateRead.

Arguments mkLM {L V}. Arguments lm_dst {L V}. Arguments lm_tag {L V}. Arguments lm_read {L V}. Arguments lm_part {L V}. Arguments lm_taken {L V}.
Arguments mkLN {L V}. Arguments l_prog {L V}. Arguments l_mem {L V}. Arguments l_sent {L V}.
Arguments is_copied {V}. Arguments all_copied {V}. Arguments fill {V}. Arguments lmatches {L V}. Arguments ltake {L V}.
Arguments lmove {L V}. Arguments lcopy {L V}. Arguments lstep {L V}. Arguments lrun {L V}. Arguments lfinished {L V}.
