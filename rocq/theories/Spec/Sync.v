(** What interface synchronisation should achieve. *)
From Verif.Base Require Import Base.
From Verif.Model Require Import Consts Quantity.
From Verif.Spec Require Import Grid Cube Halo.

(** vectors that can be synchronised: x component on y interfaces, y component on x interfaces, the two
    horizontal dimensions first *)
Definition sync_ok (n N : Z) (len ix iy : nat) (mx my : nat -> meta) : Prop :=
  1 <= n /\ 1 <= N /\ ((ix = 0 /\ iy = 1) \/ (ix = 1 /\ iy = 0))%nat /\
  exists ext, forall r, (r < ranks n)%nat ->
    fits N 0 len ix iy 1 0 ext (mx r) /\ fits N 0 len ix iy 0 1 ext (my r).

Section Sync.
Variable V : Type.
Variable neg : V -> V.
Variables n N : Z.
Variables ix iy : nat.

(** component x (false): points on the rank's north edge get new values, from points on
    south or west edges; component y (true): east edge *)
Definition in_edge (c : bool) (m : meta) (p : list Z) : Prop := in_domain m p /\ rel m p (if c then ix else iy) = N.
Definition out_edge (c : bool) (m : meta) (p : list Z) : Prop := in_domain m p /\ rel m p (if c then ix else iy) = 0.

Definition synchronized (mt : bool -> nat -> meta) (sent before after : bool -> nat -> list Z -> V) : Prop :=
  forall c r p, (r < ranks n)%nat ->
    (in_edge c (mt c r) p ->
     exists c' r' p', (r' < ranks n)%nat /\ out_edge c' (mt c' r') p' /\ same_column (mt c r) (mt c' r') ix iy p p' /\
       place_of n N ix iy (mt c' r') r' p' = place_of n N ix iy (mt c r) r p /\
       ((dir_of n N ix iy c' (mt c' r') r' p' = dir_of n N ix iy c (mt c r) r p /\ after c r p = sent c' r' p') \/
        (dir_of n N ix iy c' (mt c' r') r' p' = vscale (-1) (dir_of n N ix iy c (mt c r) r p) /\ after c r p = neg (sent c' r' p')))) /\
    (~ in_edge c (mt c r) p -> after c r p = before c r p).
End Sync.
Arguments synchronized {V}.
