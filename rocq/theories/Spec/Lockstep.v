(** What a program of communication calls means, without messages or schedules.

    An exchange is one collective communication: for each rank a list of sends and a list of receives.
    A script is a sequence of events executed by all ranks: starting an exchange (its data is what the
    memories hold then), finishing a started exchange, local computation. In the lock-step meaning
    each event happens on all ranks at once. *)
From Verif.Base Require Import Base.
From Verif.Model Require Import Network.

Section Lockstep.
Variables L V : Type.

Record exchange := mkX {
  x_sends : nat -> list (Z * Z * (L -> list V));                   (* destination, tag, data *)
  x_recvs : nat -> list (Z * Z * (list V -> L -> option L))        (* source, tag, what to do with the data *)
}.

Definition has_key {A} (who tag : Z) (x : Z * Z * A) : bool := (fst (fst x) =? who) && (snd (fst x) =? tag).

(** on [n] ranks, sends and receives correspond one to one *)
Record matched (n : nat) (e : exchange) : Prop := {
  mt_recv : forall r src t g, (r < n)%nat -> In (src, t, g) (x_recvs e r) ->
    0 <= src < Z.of_nat n /\ exists f, filter (has_key (Z.of_nat r) t) (x_sends e (Z.to_nat src)) = [(Z.of_nat r, t, f)];
  mt_once : forall r, (r < n)%nat -> NoDup (map fst (x_recvs e r));
  mt_send : forall r d t f, (r < n)%nat -> In (d, t, f) (x_sends e r) ->
    0 <= d < Z.of_nat n /\ In (Z.of_nat r, t) (map fst (x_recvs e (Z.to_nat d)))
}.

(** data sent by a rank to [dst] with [tag] if its memory is [m] *)
Definition payload_for (sends : list (Z * Z * (L -> list V))) (dst tag : Z) (m : L) : list V :=
  match filter (has_key dst tag) sends with
  | (_, f) :: _ => f m
  | [] => []
  end.

(** memory [m] of rank [r] after it has received everything, the data being what the memories [snap] held *)
Definition deliver (e : exchange) (snap : nat -> L) (r : nat) (m : L) : option L :=
  fold_left (fun acc x => match acc with
                          | Some m => snd x (payload_for (x_sends e (Z.to_nat (fst (fst x)))) (Z.of_nat r) (snd (fst x))
                                               (snap (Z.to_nat (fst (fst x))))) m
                          | None => None
                          end) (x_recvs e r) (Some m).

Inductive event :=
| EvStart (e : exchange)
| EvFinish (i : nat)            (* the i-th exchange started *)
| EvLocal (f : nat -> L -> L).

(** lock-step meaning on [n] ranks; [started]: exchanges with the memories at their start *)
Fixpoint lockstep (n : nat) (evs : list event) (started : list (exchange * (nat -> L))) (m : nat -> L)
    (m' : nat -> L) : Prop :=
  match evs with
  | [] => forall r, (r < n)%nat -> m' r = m r
  | EvStart e :: evs' => lockstep n evs' (started ++ [(e, m)]) m m'
  | EvFinish i :: evs' =>
      exists e snap m1, nth_error started i = Some (e, snap) /\
        (forall r, (r < n)%nat -> deliver e snap r (m r) = Some (m1 r)) /\ lockstep n evs' started m1 m'
  | EvLocal f :: evs' => lockstep n evs' started (fun r => f r (m r)) m'
  end.

(** The operations rank [r] issues for a script. Requests are numbered by the sends of the rank;
    [count]: sends issued so far, [offs]: number of the first send of each started exchange. *)
Fixpoint script_ops (r : nat) (evs : list event) (started : list (exchange * nat)) (count : nat) : list (op L V) :=
  match evs with
  | [] => []
  | EvStart e :: evs' =>
      (map (fun x => OSend (fst (fst x)) (snd (fst x)) (snd x)) (x_sends e r) ++
      script_ops r evs' (started ++ [(e, count)]) (count + length (x_sends e r)))%list
  | EvFinish i :: evs' =>
      match nth_error started i with
      | Some (e, o) =>
          (map (fun x => ORecv (fst (fst x)) (snd (fst x)) (snd x)) (x_recvs e r) ++
          map OWait (seq o (length (x_sends e r))) ++ script_ops r evs' started count)%list
      | None => []
      end
  | EvLocal f :: evs' => OLocal (f r) :: script_ops r evs' started count
  end.

(** tags used by an exchange on any of n ranks *)
Definition uses_tag (n : nat) (e : exchange) (t : Z) : Prop :=
  exists r x, (r < n)%nat /\ In x (x_sends e r) /\ snd (fst x) = t.

(** exchanges are matched, with tags not used by other exchanges; each is finished at most once *)
Fixpoint well_formed (n : nat) (evs : list event) (started : list exchange) (done : list nat) : Prop :=
  match evs with
  | [] => True
  | EvStart e :: evs' => matched n e /\
      (forall e' t, In e' started -> uses_tag n e t -> uses_tag n e' t -> False) /\
      well_formed n evs' (started ++ [e]) done
  | EvFinish i :: evs' => ~ In i done /\ (i < length started)%nat /\ well_formed n evs' started (i :: done)
  | EvLocal _ :: evs' => well_formed n evs' started done
  end.

End Lockstep.
Arguments mkX {L V}. Arguments x_sends {L V}. Arguments x_recvs {L V}. Arguments matched {L V}.
Arguments payload_for {L V}. Arguments deliver {L V}.
Arguments EvStart {L V}. Arguments EvFinish {L V}. Arguments EvLocal {L V}.
Arguments lockstep {L V}. Arguments script_ops {L V}. Arguments uses_tag {L V}. Arguments well_formed {L V}.

(** list of the values of [f] on ranks 0..n-1 *)
Definition tab {A} (n : nat) (f : nat -> A) : list A := map f (seq 0 n).

(** From state [s], whatever the schedule and whichever sends complete before being received: executions are
    finite, and when no rank can move every rank has run to its end, with memories [ms]. *)
Definition always_completes {L V} (s : @net L V) (ms : list L) : Prop :=
  exists total, forall bf sched s1, run bf sched s = Some s1 ->
    (length sched <= total)%nat /\ ((forall r, step bf r s1 = None) -> finished s1 /\ n_mem s1 = ms).

(** initial state: programs [p], memories [m], nothing sent *)
Definition start_state {L V} (n : nat) (p : nat -> list (op L V)) (m : nat -> L) : @net L V :=
  mkN (tab n p) (tab n m) (tab n (fun _ => [])).
