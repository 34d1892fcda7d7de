(** Ranks which use messages and collective operations on several communicators in one program, as the package uses MPI.

    Messages are as in [Network.v]; they use the communicator of all ranks.  Collective operations are as in [Collective.v], on the
    communicator of all ranks or on one made by Split: the n-th calls on a communicator of its members belong together.  A
    communicator is identified by the Split calls which led to it.  A rank blocks in a collective call: it posts the call, and
    later completes it. *)
From Verif.Base Require Import Base.
From Verif.Model Require Import Network Collective.

(** the history of Split calls: which call on the communicator split, and the colour *)
Definition ctx := list (nat * Z).
Fixpoint ctx_eqb (a b : ctx) : bool :=
  match a, b with
  | [], [] => true
  | (n, c) :: a', (m, d) :: b' => Nat.eqb n m && (c =? d) && ctx_eqb a' b'
  | _, _ => false
  end.
(** ranks of the machine, in the order of their ranks in the communicator *)
Record group := mkG { g_ctx : ctx; g_members : list nat }.
Definition all_ranks (size : nat) : group := mkG [] (seq 0 size).

(** comm.Get_rank() *)
Fixpoint rank_in (r : nat) (l : list nat) : option nat :=
  match l with
  | [] => None
  | x :: l' => if Nat.eqb x r then Some O else option_map S (rank_in r l')
  end.

Section Cluster.
Variables Ob V : Type.   (* python objects broadcast; array elements *)

Inductive gcall := GCall (c : call Ob V) | GSplit (color key : Z).
Inductive ganswer := GAnswer (a : answer Ob V) | GGroup (g : group).

(** a rank's program *)
Inductive rproc (A : Type) :=
| RRet (a : A)
| RErr (e : exc)
| RSend (dst tag : Z) (body : list V) (k : rproc A)
| RRecv (src tag : Z) (k : list V -> rproc A)
| RWait (request : nat) (k : rproc A)
| RCall (g : group) (c : gcall) (k : ganswer -> rproc A).

Record rank (A : Type) := mkRk { k_proc : rproc A; k_posted : list (ctx * gcall); k_pending : bool }.
Record cluster (A : Type) := mkCl { cl_ranks : list (rank A); cl_sent : list (list (msg V)) }.

Definition calls_on (c : ctx) (l : list (ctx * gcall)) : list gcall := map snd (filter (fun x => ctx_eqb (fst x) c) l).
(** n-th call of the i-th member *)
Definition posted_by {A} (ks : list (rank A)) (g : group) (n i : nat) : option gcall :=
  match nth_error (g_members g) i with
  | Some r => match nth_error ks r with Some k => nth_error (calls_on (g_ctx g) (k_posted A k)) n | None => None end
  | None => None
  end.
Definition as_call (c : option gcall) : option (call Ob V) := match c with Some (GCall c) => Some c | _ => None end.

(** Split: members with the same colour, ordered by key and then by rank *)
Fixpoint insert_by_key (x : Z * nat) (l : list (Z * nat)) : list (Z * nat) :=
  match l with
  | [] => [x]
  | y :: l' => if fst x <=? fst y then x :: l else y :: insert_by_key x l'
  end.
Definition sort_by_key (l : list (Z * nat)) : list (Z * nat) := fold_right insert_by_key [] l.
Fixpoint same_colour (posted : nat -> option gcall) (color : Z) (members : list nat) (i : nat) : option (list (Z * nat)) :=
  match members with
  | [] => Some []
  | r :: rs =>
      match posted i, same_colour posted color rs (S i) with
      | Some (GSplit c key), Some l => Some (if c =? color then (key, r) :: l else l)
      | _, _ => None
      end
  end.

(** the answer to the n-th call of rank [r] on the communicator, given the calls posted so far; None: it has to wait *)
Definition ganswered {A} (ks : list (rank A)) (g : group) (n : nat) (r : nat) (c : gcall) : option ganswer :=
  match c with
  | GCall _ =>
      match rank_in r (g_members g) with
      | Some i => option_map GAnswer (respond (length (g_members g)) (fun i => as_call (posted_by ks g n i)) i)
      | None => None
      end
  | GSplit color _ =>
      match same_colour (posted_by ks g n) color (g_members g) 0 with
      | Some l => Some (GGroup (mkG (g_ctx g ++ [(n, color)]) (map snd (sort_by_key l))))
      | None => None
      end
  end.
Definition everyone_posted {A} (ks : list (rank A)) (g : group) (n : nat) : bool :=
  forallb (fun i => match posted_by ks g n i with Some _ => true | None => false end) (seq 0 (length (g_members g))).

(** what a step does to the messages *)
Inductive effect := ENone | ESent (m : msg V) | ETaken (src tag : Z).
Definition affect (r : nat) (e : effect) (sent : list (list (msg V))) : list (list (msg V)) :=
  match e with
  | ENone => sent
  | ESent m => match nth_error sent r with Some l => upd sent r (l ++ [m]) | None => sent end
  | ETaken src tag =>
      match nth_error sent (Z.to_nat src) with
      | Some l => match take (Z.of_nat r) tag l with Some (_, l') => upd sent (Z.to_nat src) l' | None => sent end
      | None => sent
      end
  end.

Section Step.
Variable buffered : nat -> nat -> bool.          (* may a request complete before its message is received *)
Variable delayed : nat -> ctx -> nat -> bool.    (* does a collective call wait for all members *)

(** one step of rank [r]: its new state and what happens to the messages; None if it cannot proceed *)
Definition react {A} (r : nat) (s : cluster A) : option (rank A * effect) :=
  match nth_error (cl_ranks A s) r with
  | None => None
  | Some k =>
      match k_proc A k with
      | RRet _ _ => None
      | RErr _ _ => None
      | RSend _ dst tag body p =>
          match nth_error (cl_sent A s) r with
          | Some _ => Some (mkRk A p (k_posted A k) (k_pending A k), ESent (mkM dst tag body false))
          | None => None
          end
      | RRecv _ src tag p =>
          if src <? 0 then None else
          match nth_error (cl_sent A s) (Z.to_nat src) with
          | Some l => match take (Z.of_nat r) tag l with
                      | Some (body, _) => Some (mkRk A (p body) (k_posted A k) (k_pending A k), ETaken src tag)
                      | None => None
                      end
          | None => None
          end
      | RWait _ j p =>
          match nth_error (cl_sent A s) r with
          | Some l => match nth_error l j with
                      | Some m => if ms_taken m || buffered r j then Some (mkRk A p (k_posted A k) (k_pending A k), ENone) else None
                      | None => None
                      end
          | None => None
          end
      | RCall _ g c p =>
          if k_pending A k then
            let n := pred (length (calls_on (g_ctx g) (k_posted A k))) in
            if delayed r (g_ctx g) n && negb (everyone_posted (cl_ranks A s) g n) then None
            else match ganswered (cl_ranks A s) g n r c with
                 | Some a => Some (mkRk A (p a) (k_posted A k) false, ENone)
                 | None => None
                 end
          else Some (mkRk A (k_proc A k) (k_posted A k ++ [(g_ctx g, c)]) true, ENone)
      end
  end.
Definition cl_step {A} (r : nat) (s : cluster A) : option (cluster A) :=
  match react r s with
  | Some (k, e) => Some (mkCl A (upd (cl_ranks A s) r k) (affect r e (cl_sent A s)))
  | None => None
  end.
Fixpoint cl_run {A} (sched : list nat) (s : cluster A) : option (cluster A) :=
  match sched with
  | [] => Some s
  | r :: sched' => match cl_step r s with Some s' => cl_run sched' s' | None => None end
  end.
End Step.

Definition cl_start {A} (size : nat) (p : nat -> rproc A) : cluster A :=
  mkCl A (map (fun r => mkRk A (p r) [] false) (seq 0 size)) (map (fun _ => []) (seq 0 size)).
(** what a rank has returned or raised; None while running *)
Definition rank_outcome {A} (k : rank A) : option (res A) :=
  match k_proc A k with RRet _ a => Some (Ok a) | RErr _ e => Some (Err e) | _ => None end.

Fixpoint rbind {A B} (p : rproc A) (f : A -> rproc B) : rproc B :=
  match p with
  | RRet _ a => f a
  | RErr _ e => RErr B e
  | RSend _ dst tag body k => RSend B dst tag body (rbind k f)
  | RRecv _ src tag k => RRecv B src tag (fun b => rbind (k b) f)
  | RWait _ j k => RWait B j (rbind k f)
  | RCall _ g c k => RCall B g c (fun a => rbind (k a) f)
  end.

(** a program of collective calls, on a communicator *)
Fixpoint on_group {A} (g : group) (p : proc Ob V A) : rproc A :=
  match p with
  | PRet a => RRet A a
  | PErr e => RErr A e
  | PCall c k => RCall A g (GCall c) (fun a => match a with GAnswer a => on_group g (k a) | GGroup _ => RErr A TypeError end)
  end.

(** message passing operations, on a memory; a message which does not fit the receive buffer raises *)
Fixpoint on_memory {L} (os : list (op L V)) (m : L) : rproc L :=
  match os with
  | [] => RRet L m
  | OSend dst tag payload :: os' => RSend L dst tag (payload m) (on_memory os' m)
  | ORecv src tag store :: os' => RRecv L src tag (fun b => match store b m with Some m' => on_memory os' m' | None => RErr L ValueError end)
  | OWait j :: os' => RWait L j (on_memory os' m)
  | OLocal f :: os' => on_memory os' (f m)
  end.
End Cluster.
Arguments GCall {Ob V}. Arguments GSplit {Ob V}. Arguments GAnswer {Ob V}. Arguments GGroup {Ob V}.
Arguments RRet {Ob V A}. Arguments RErr {Ob V A}. Arguments RSend {Ob V A}. Arguments RRecv {Ob V A}. Arguments RWait {Ob V A}. Arguments RCall {Ob V A}.
Arguments mkRk {Ob V A}. Arguments k_proc {Ob V A}. Arguments k_posted {Ob V A}. Arguments k_pending {Ob V A}.
Arguments mkCl {Ob V A}. Arguments cl_ranks {Ob V A}. Arguments cl_sent {Ob V A}. Arguments calls_on {Ob V}. Arguments posted_by {Ob V A}.
Arguments as_call {Ob V}. Arguments same_colour {Ob V}. Arguments ganswered {Ob V A}. Arguments everyone_posted {Ob V A}.
Arguments ENone {V}. Arguments ESent {V}. Arguments ETaken {V}. Arguments affect {V}. Arguments react {Ob V} _ _ {A}. Arguments cl_step {Ob V} _ _ {A}. Arguments cl_run {Ob V} _ _ {A}.
Arguments cl_start {Ob V A}. Arguments rank_outcome {Ob V A}. Arguments rbind {Ob V A B}. Arguments on_group {Ob V A}. Arguments on_memory {Ob V L}.
