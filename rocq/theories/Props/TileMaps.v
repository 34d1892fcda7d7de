(** C71: flipping, transposing and rotating a tile. *)
From Verif.Base Require Import Base.
From Verif.Model Require Import Consts Partitioner.
From Verif.Proofs Require Import TileMapProofs.

(** the rank in row J and column I *)
Theorem C71_flips : forall h w J I, 0 <= J < h -> 0 <= I < w ->
  fliplr_subtile_rank (J * w + I) (h, w) = Ok (J * w + (w - 1 - I)) /\ flipud_subtile_rank (J * w + I) (h, w) = Ok ((h - 1 - J) * w + I).
Proof. exact flips. Qed.
Print Assumptions C71_flips.

Theorem C71_turns : forall h w J I, 0 <= J < h -> 0 <= I < w ->
  transpose_subtile_rank (J * w + I) (h, w) = (if (I <? h) && (J <? w) then Ok (I * w + J) else Err IndexError) /\
  rotate_subtile_rank (J * w + I) (h, w) 1 = (if (w - 1 - I <? h) && (J <? w) then Ok ((w - 1 - I) * w + J) else Err IndexError).
Proof. exact turns. Qed.
Print Assumptions C71_turns.

(** ranks of other tiles *)
Theorem C71_outside : forall h w rank, ~ 0 <= rank < h * w ->
  fliplr_subtile_rank rank (h, w) = Err IndexError /\ flipud_subtile_rank rank (h, w) = Err IndexError /\
  transpose_subtile_rank rank (h, w) = Err IndexError /\ rotate_subtile_rank rank (h, w) 1 = Err IndexError.
Proof. exact outside. Qed.
Print Assumptions C71_outside.

(** other numbers of rotations *)
Theorem C71_rotations : forall rank layout n, rotate_subtile_rank rank layout 0 = Ok rank /\
  (n <> 0 -> n <> 1 -> rotate_subtile_rank rank layout n = Err NotImplementedError).
Proof. exact other_turns. Qed.
Print Assumptions C71_rotations.

(** square layouts: rotating four times is doing nothing ... *)
Theorem C71_four_turns : forall n, 1 <= n -> forall rank, 0 <= rank < n * n ->
  exists r1 r2 r3, rotate_subtile_rank rank (n, n) 1 = Ok r1 /\ rotate_subtile_rank r1 (n, n) 1 = Ok r2 /\
    rotate_subtile_rank r2 (n, n) 1 = Ok r3 /\ rotate_subtile_rank r3 (n, n) 1 = Ok rank.
Proof. exact four_turns. Qed.
Print Assumptions C71_four_turns.

(** ... flips and transposition undo themselves, and two of them in a row make a rotation ... *)
Theorem C71_reflections : forall n, 1 <= n -> forall rank, 0 <= rank < n * n ->
  exists l u t r, fliplr_subtile_rank rank (n, n) = Ok l /\ fliplr_subtile_rank l (n, n) = Ok rank /\
    flipud_subtile_rank rank (n, n) = Ok u /\ flipud_subtile_rank u (n, n) = Ok rank /\
    transpose_subtile_rank rank (n, n) = Ok t /\ transpose_subtile_rank t (n, n) = Ok rank /\
    rotate_subtile_rank rank (n, n) 1 = Ok r /\ flipud_subtile_rank t (n, n) = Ok r /\ transpose_subtile_rank l (n, n) = Ok r.
Proof. exact reflections. Qed.
Print Assumptions C71_reflections.

(** ... which is clockwise: the neighbour on the right goes below, that above to the right *)
Theorem C71_clockwise : forall n J I, 0 <= J < n -> 0 <= I < n ->
  exists r, rotate_subtile_rank (J * n + I) (n, n) 1 = Ok r /\
    (I + 1 < n -> rotate_subtile_rank (J * n + I + 1) (n, n) 1 = Ok (r - n)) /\
    (J + 1 < n -> rotate_subtile_rank (J * n + I + n) (n, n) 1 = Ok (r + 1)).
Proof. exact clockwise. Qed.
Print Assumptions C71_clockwise.

(** on every other layout some rank cannot be rotated, and some rank not transposed *)
Theorem C71_only_square : forall h w, 1 <= h -> 1 <= w -> h <> w -> exists r r', 0 <= r < h * w /\ 0 <= r' < h * w /\
  rotate_subtile_rank r (h, w) 1 = Err IndexError /\ transpose_subtile_rank r' (h, w) = Err IndexError.
Proof. exact only_square. Qed.
Print Assumptions C71_only_square.

Example C71_example : fliplr_subtile_rank 5 (2, 3) = Ok 3 /\ flipud_subtile_rank 5 (2, 3) = Ok 2 /\ rotate_subtile_rank 5 (2, 3) 1 = Ok 1 /\
  rotate_subtile_rank 0 (2, 3) 1 = Err IndexError /\ rotate_subtile_rank 5 (3, 3) 1 = Ok 1 /\ transpose_subtile_rank 5 (3, 3) = Ok 7.
Proof. repeat split; reflexivity. Qed.
