(** A model whose states are stored after every step: what the store should hold. *)
From Verif.Base Require Import Base.
From Verif.Model Require Import Consts Numpy Quantity Partitioner Network Communicator Collective ScatterGather Zarr.
From Verif.Spec Require Import Grid Cube Halo Lockstep Sync Client Updates Steps Views Distribute Storage Mixed Prognostic ModelRun.

Section History.
Context {V T : Type}.

(** [Fs i] is the sphere after [i] steps *)
Definition evolution (neg : V -> V) (M : Z) (ks : list (bool * form)) (syn : nat -> bool) (gs : list (mrule V)) (F : sphere V) (Fs : nat -> sphere V) : Prop :=
  Fs 0%nat = F /\ forall i g, nth_error gs i = Some g -> proper neg ks (Fs (S i)) /\ follows M ks syn g (Fs i) (Fs (S i)).

(** a program which keeps a copy of the arrays, at the start and after every step, besides the arrays; [b] requests were made before *)
Definition copy_arrays {Ob} : mcall Ob V (list (mem V)) := MWorld (fun _ s => PRet (fst s, snd s ++ [fst s])%list).
Fixpoint recorded_steps {Ob} (st : state) (syn : nat -> bool) (h : Z) (fs : list (nat -> mem V -> mem V)) (b : nat) : list (mcall Ob V (list (mem V))) :=
  match fs with
  | [] => []
  | f :: fs' => (map MUpdate (model_steps st syn h [f] b) ++ copy_arrays :: recorded_steps st syn h fs' (b + length st + length (synced syn 0 st)))%list
  end.
Definition recorded_run {Ob} (st : state) (syn : nat -> bool) (h : Z) (fs : list (nat -> mem V -> mem V)) : list (mcall Ob V (list (mem V))) :=
  copy_arrays :: recorded_steps st syn h fs 0.

(** the state which rank [r] stores, its arrays being [m] *)
Definition snapshot (es : list entry) (local : nat -> list (quantity V)) (m : nat -> mem V) (time : T) (r : nat) : ScatterGather.state V T :=
  mkSt (dictionary es (local r) (m r)) (Some time).

(** the store has for every name an array of all times and the whole sphere, and it holds the [K] spheres [Fs]; times are counted from the first *)
Definition records (M : Z) (ks : list (bool * form)) (es : list entry) (units : entry -> string) (calendar_of text_of : T -> string) (encode : T -> T -> V)
    (Fs : nat -> sphere V) (times : nat -> T) (K : nat) (s : zstore V) : Prop :=
  (forall e f, In e es -> part ks (e_var e) (e_comp e) f ->
     let c := e_comp e in
     (exists chunks, s_meta s (e_name e) = Some (mkZM (Z.of_nat K :: 6 :: extent_on f c M) chunks
        (mkZA ("time"%string :: "tile"%string :: e_dims e) (Some (units e)) None))) /\
     forall i t j x lev, (i < K)%nat -> 0 <= t < 6 -> 0 <= j < M + stag_y f c -> 0 <= x < M + stag_x f c -> level (f_len f) (f_ix f) (f_iy f) (f_ext f) lev ->
       element s (e_name e) (Z.of_nat i :: t :: tile_index (f_len f) (f_ix f) (f_iy f) j x lev) =
         Some (Fs i (e_var e) (spot M (stag_y f c) (stag_x f c) t j x) lev (bearing M (stag_y f c) (stag_x f c) c t j x))) /\
  s_meta s "time"%string = Some (mkZM [Z.of_nat K] [1024] (mkZA ["time"%string] (Some ("seconds since " ++ text_of (times 0%nat))%string) (Some (calendar_of (times 0%nat))))) /\
  forall i, (i < K)%nat -> element s "time"%string [Z.of_nat i] = Some (encode (times 0%nat) (times i)).
End History.
