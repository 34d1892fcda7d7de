(** C45: nudging. *)
From Coq Require Import QArith Qabs.
From Verif.Base Require Import Base.
From Verif.Model Require Import Consts Numpy Quantity Nudging.
From Verif.Spec Require Import Grid Views Relaxation.
From Verif.Proofs Require Import NudgeProofs.
Open Scope Z_scope.

(** every variable with a timescale is relaxed in its compute domain; halos, other variables and metadata are kept; the rates are returned *)
Theorem C45_nudged : forall V T (sub add : V -> V -> V) (div mul : V -> T -> V) state reference_state timescales dt,
  NoDup (dkeys timescales) -> Forall (matched state reference_state) timescales ->
  exists state' tendencies, apply_nudging sub add div mul state reference_state timescales dt = (state', Ok tendencies) /\
    dkeys state' = dkeys state /\ dkeys tendencies = dkeys timescales /\
    (forall name tau, In (name, tau) timescales -> exists q r t q', dget name state = Some q /\ dget name reference_state = Some r /\
       dget name tendencies = Some t /\ is_rate sub div q r tau t /\ dget name state' = Some q' /\ is_relaxed sub add div mul q r tau dt q') /\
    (forall name, ~ In name (dkeys timescales) -> dget name state' = dget name state).
Proof. exact @nudged. Qed.
Print Assumptions C45_nudged.

(** a variable missing in the state or the reference raises before anything is changed *)
Theorem C45_missing : forall V T (sub add : V -> V -> V) (div mul : V -> T -> V) state reference_state timescales dt name,
  In name (dkeys timescales) -> dget name state = None \/ dget name reference_state = None ->
  exists e, apply_nudging sub add div mul state reference_state timescales dt = (state, Err e).
Proof. exact @nudging_missing. Qed.
Print Assumptions C45_missing.

(** in exact arithmetic the distance to the reference shrinks by the factor 1 - dt/tau, so never grows for steps up to the timescale *)
Theorem C45_distance : forall s r tau dt : Q, (~ tau == 0 -> relaxed Qminus Qplus Qdiv Qmult s r tau dt - r == (s - r) * (1 - dt / tau))%Q.
Proof. exact relaxed_distance. Qed.
Print Assumptions C45_distance.

Theorem C45_closer : forall s r tau dt : Q, (0 < tau -> 0 <= dt -> dt <= tau -> Qabs (relaxed Qminus Qplus Qdiv Qmult s r tau dt - r) <= Qabs (s - r))%Q.
Proof. exact relaxed_closer. Qed.
Print Assumptions C45_closer.

(** a zero-dimensional quantity cannot be nudged *)
Theorem C45_zero_dims : forall V T (sub add : V -> V -> V) (div mul : V -> T -> V) state reference_state name tau dt q r,
  dget name state = Some q -> dget name reference_state = Some r -> well_formed (q_meta q) -> well_formed (q_meta r) -> q_dims q = [] -> q_dims r = [] ->
  apply_nudging sub add div mul state reference_state [(name, tau)] dt = (state, Err AttributeError).
Proof. exact @nudging_zero_dims. Qed.
Print Assumptions C45_zero_dims.

(** three cells with a halo of one on each side; temperature and wind, of which only the first is nudged *)
Definition ex_state : dict (quantity Z) :=
  [("t", mkQ (mkA [5] (fun p => nth 0 p 0 * 10)) ["x"] "K" [1] [3]); ("u", mkQ (mkA [5] (fun p => 7)) ["x"] "m/s" [1] [3])]%string.
Definition ex_reference : dict (quantity Z) := [("t", mkQ (mkA [3] (fun p => 110)) ["x"] "K" [0] [3])]%string.
Definition contents (d : dict (quantity Z)) : list (string * string * list Z) := map (fun nq => (fst nq, q_units (snd nq), ravel (q_data (snd nq)))) d.
Example C45_example :
  Forall (matched ex_state ex_reference) [("t"%string, 10)] /\
  (let r := apply_nudging Z.sub Z.add Z.div Z.mul ex_state ex_reference [("t"%string, 10)] 2 in
   (contents (fst r), option_map contents (match snd r with Ok t => Some t | Err _ => None end))) =
  ([("t", "K", [0; 30; 38; 46; 40]); ("u", "m/s", [7; 7; 7; 7; 7])], Some [("t", "K s^-1", [10; 9; 8])])%string.
Proof.
  split; [|vm_compute; reflexivity]. repeat constructor. do 2 eexists. split; [reflexivity|]. split; [reflexivity|].
  split; [split; [reflexivity|repeat constructor; lia]|]. split; [split; [reflexivity|repeat constructor; lia]|]. split; [reflexivity|discriminate].
Qed.

(** nudging is not atomic: a reference with more points than a state variable of extent 1 raises after the variables before it were nudged *)
Definition ex_short : dict (quantity Z) := [("t", mkQ (mkA [3] (fun _ => 10)) ["x"] "K" [0] [3]); ("u", mkQ (mkA [1] (fun _ => 7)) ["x"] "m/s" [0] [1])]%string.
Definition ex_long : dict (quantity Z) := [("t", mkQ (mkA [3] (fun _ => 20)) ["x"] "K" [0] [3]); ("u", mkQ (mkA [2] (fun _ => 9)) ["x"] "m/s" [0] [2])]%string.
Theorem C45_atomic_refuted :
  (let r := apply_nudging Z.sub Z.add Z.div Z.mul ex_short ex_long [("t", 10); ("u", 10)]%string 2 in
   (contents (fst r), match snd r with Ok _ => None | Err e => Some e end)) = ([("t", "K", [12; 12; 12]); ("u", "m/s", [7])]%string, Some ValueError).
Proof. vm_compute. reflexivity. Qed.
Print Assumptions C45_atomic_refuted.

(** references of another extent are not rejected if numpy can broadcast them *)
Theorem C45_extent_refuted :
  (let r := apply_nudging Z.sub Z.add Z.div Z.mul [("t", mkQ (mkA [3] (fun _ => 10)) ["x"] "K" [0] [3])]%string [("t", mkQ (mkA [1] (fun _ => 20)) ["x"] "K" [0] [1])]%string [("t", 10)]%string 2 in
   (contents (fst r), match snd r with Ok _ => None | Err e => Some e end)) = ([("t", "K", [12; 12; 12])]%string, None).
Proof. vm_compute. reflexivity. Qed.
Print Assumptions C45_extent_refuted.
