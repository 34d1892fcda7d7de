(** fv3gfs/util/communicator.py: the communicator of a tile *)
From Verif.Base Require Import Base.
From Verif.Model Require Import Consts Partitioner Network Numpy Quantity Collective ScatterGather Properties Restart Cluster.

Section TileComm.
Context {Ob V A : Type}.

(** communicator.py 335-346; [cached] is self._tile_communicator, None if there is none yet; [comm] is self.comm.
    The program goes on with the communicator of the tile, which it keeps.
    Its partitioner is self.partitioner.tile (partitioner.py 312-321): programs using it are given [TilePart layout]. *)
Definition tile (layout : layout_t) (rank : nat) (comm : group) (cached : option group) (k : group -> rproc Ob V A) : rproc Ob V A :=
  match cached with
  | Some g => k g
  | None =>
      match tile_index layout (Z.of_nat rank) with
      | Err e => RErr e
      | Ok color => RCall comm (GSplit color (Z.of_nat rank)) (fun a => match a with GGroup g => k g | GAnswer _ => RErr TypeError end)
      end
  end.

(** communicator.py 64-67: rank of a communicator object, comm.Get_rank() *)
Definition with_rank (rank : nat) (comm : group) (k : nat -> rproc Ob V A) : rproc Ob V A :=
  match rank_in rank (g_members comm) with Some i => k i | None => RErr ValueError end.
End TileComm.

(** operations on the communicator of the tile by a program which ends with their result; [p] depends on the rank in the tile *)
Definition on_tile {Ob V A} (layout : layout_t) (rank : nat) (comm : group) (p : nat -> proc Ob V A) : rproc Ob V A :=
  tile layout rank comm None (fun g => with_rank rank g (fun i => rbind (on_group g (p i)) RRet)).

(** _legacy_restart.py 19-63 with a new communicator object: open_restart accesses [tile] (47) before any other communication *)
Definition open_restart_on (V Date : Type) cftime (fs : string -> node V) order dirname (layout : layout_t) (rank : nat) (comm : group) label only junk
    (to_state : option (state V (time_value V Date))) tracer_properties : rproc _ V (state V (time_value V Date)) :=
  on_tile layout rank comm (fun i => open_restart V Date cftime fs order dirname layout (Z.of_nat rank) (Z.of_nat i) label only junk to_state tracer_properties).
