(** Stores which a ZarrMonitor finds or makes empty. *)
From Verif.Base Require Import Base.
From Verif.Model Require Import Zarr ZarrOpen.

Definition starts_empty {V} (m : mode) (d : disk V) : Prop :=
  match m with
  | ModeW => True
  | ModeA => d_store d = empty_store
  | ModeRPlus => d_group d = true /\ d_store d = empty_store
  | ModeWMinus => d_group d = false /\ d_store d = empty_store
  | ModeR => False
  end.
(** stores which cannot be opened *)
Definition refused {V} (m : mode) (d : disk V) : Prop :=
  match m with
  | ModeR | ModeRPlus => d_group d = false
  | ModeWMinus => d_group d = true
  | ModeW | ModeA => False
  end.
