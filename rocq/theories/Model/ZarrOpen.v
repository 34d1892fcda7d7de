(** ZarrMonitor's constructor (fv3gfs/util/zarr_monitor.py 46-68), with zarr.open_group (zarr 2, hierarchy.py) for a store whose root is a group
    or empty, and monitors which are constructed and used.  A mode other than those below is left out.  Only the root's mode is used
    (lines 62-65); the others get the group from it. *)
From Verif.Base Require Import Base.
From Verif.Model Require Import Consts Partitioner ScatterGather Shared Zarr.

Inductive mode := ModeR | ModeRPlus | ModeW | ModeA | ModeWMinus.   (* "x" is the same as "w-" *)

Section Open.
Variables V Time : Type.

(** is there a group? and the arrays in it *)
Record disk := mkDisk { d_group : bool; d_store : zstore V }.
Inductive dop :=
| DOpen (m : mode)
| DArray (read_only : bool) (o : zop V).   (* an operation on the arrays of the group *)

(** operations which change the store *)
Definition changes (o : zop V) : bool := match o with OLoad _ | ORead _ _ => false | _ => true end.
Definition dexec (o : dop) (d : disk) : zans V * disk :=
  match o with
  | DOpen ModeW => (AUnit, mkDisk true empty_store)
  | DOpen ModeA => (AUnit, mkDisk true (d_store d))
  | DOpen ModeWMinus => if d_group d then (ARaised ValueError, d) (* ContainsGroupError *) else (AUnit, mkDisk true (d_store d))
  | DOpen (ModeR | ModeRPlus) => if d_group d then (AUnit, d) else (ARaised ValueError, d)   (* GroupNotFoundError *)
  | DArray read_only o =>
      if read_only && changes o then (ARaised OSError, d) (* ReadOnlyError, a PermissionError *)
      else let '(a, s) := zexec o (d_store d) in (a, mkDisk (d_group d) s)
  end.

Definition dproc := sproc dop (zans V).
(** a program on the arrays of the group opened *)
Fixpoint within {A} (read_only : bool) (p : zproc V A) : dproc A :=
  match p with
  | SRet a => SRet a
  | SDo o k => SDo (DArray read_only o) (fun a => within read_only (k a))
  | SSync b k => SSync b (within read_only k)
  end.
Definition is_r (m : mode) : bool := match m with ModeR => true | _ => false end.

(** zarr_monitor.py 46-68; [k] is what is done with the monitor, [failed] is what comes of an exception *)
Definition construct {A} (rank : Z) (m : mode) (failed : exc -> A) (k : zproc V A) : dproc A :=
  if rank =? ROOT_RANK then
    SDo (DOpen m) (fun a => match a with ARaised e => SRet (failed e) | _ => SSync false (within (is_r m) k) end)
  else SSync false (within (is_r m) k).
End Open.
Arguments mkDisk {V}. Arguments d_group {V}. Arguments d_store {V}. Arguments DOpen {V}. Arguments DArray {V}. Arguments changes {V}. Arguments dexec {V}.
Arguments within {V A}. Arguments construct {V A}.
