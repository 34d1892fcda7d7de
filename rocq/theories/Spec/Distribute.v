(** How the data of ranks and global data correspond. *)
From Verif.Base Require Import Base.
From Verif.Model Require Import Consts Numpy Quantity Collective ScatterGather.
From Verif.Spec Require Import Grid Layouts Views Together.

(** row and column of a rank on its tile *)
Definition seat (layout : Z * Z) (r : Z) : Z * Z :=
  let k := r mod (fst layout * snd layout) in (k / snd layout, k mod snd layout).

(** where the point [p] of the rank seated at [s], with extent [rext], is in the tile: ranks share the points
    on interfaces between them *)
Fixpoint in_tile (s : Z * Z) (dims : list string) (rext p : list Z) : list Z :=
  match dims, rext, p with
  | d :: dims', e :: rext', x :: p' => (along d s 0 * (e - stag d) + x) :: in_tile s dims' rext' p'
  | _, _, _ => []
  end.
Definition tile_size (layout : Z * Z) (dims : list string) (rext : list Z) : list Z :=
  map2 (fun d e => (e - stag d) * along d layout 1 + stag d) dims rext.

(** a tile is divided as one, the cube has six in front *)
Definition layout_of (p : partitioner) : Z * Z := match p with TilePart l => l | CubePart l => l end.
Definition ranks (p : partitioner) : nat :=
  match p with TilePart l => Z.to_nat (fst l * snd l) | CubePart l => Z.to_nat (6 * (fst l * snd l)) end.
Definition global_dims (p : partitioner) (dims : list string) : list string :=
  match p with TilePart _ => dims | CubePart _ => "tile"%string :: dims end.
Definition global_size (p : partitioner) (dims : list string) (rext : list Z) : list Z :=
  match p with TilePart l => tile_size l dims rext | CubePart l => 6 :: tile_size l dims rext end.
Definition place (p : partitioner) (r : nat) (dims : list string) (rext pt : list Z) : list Z :=
  let s := seat (layout_of p) (Z.of_nat r) in
  match p with
  | TilePart _ => in_tile s dims rext pt
  | CubePart l => Z.of_nat r / (fst l * snd l) :: in_tile s dims rext pt
  end.

(** extents for which the partitioner's floating point arithmetic is exact *)
Definition fits (layout : Z * Z) (dims : list string) (rext : list Z) : Prop :=
  layouts_ok layout /\ dims <> [] /\
  Forall2 (fun d e => 0 <= e - stag d /\ (e - stag d) * along d layout 1 + stag d + 2 * along d layout 1 <= 2 ^ 51) dims rext.

(** not more than one dimension along each horizontal axis *)
Definition at_most_one (a : axis) (dims : list string) : Prop := one_axis a dims \/ Forall (fun d => axis_of d <> a) dims.

Section Q.
Context {V T : Type}.

(** quantities the size of a rank, or global *)
Definition rank_sized (rext : list Z) (q : quantity V) : Prop := well_formed (q_meta q) /\ q_extent q = rext.
Definition global_sized (p : partitioner) (dims : list string) (rext : list Z) (q : quantity V) : Prop :=
  well_formed (q_meta q) /\ q_dims q = global_dims p dims /\ q_extent q = global_size p dims rext.

(** quantities with as many points in the compute domain as a rank has *)
Definition same_count (rext : list Z) (q : quantity V) : Prop :=
  well_formed (q_meta q) /\ q_extent q <> [] /\ length (all_idx (q_extent q)) = length (all_idx rext).

(** a quantity filling an array of its own, with unknown contents *)
Definition blank (dims : list string) (units : string) (ext : list Z) (contents : idx -> V) : quantity V :=
  mkQ (mkA ext contents) dims units (map (fun _ => 0) dims) ext.

Definition or_blank (q : option (quantity V)) (b : quantity V) : quantity V := match q with Some q => q | None => b end.
Definition given (P : quantity V -> Prop) (q : option (quantity V)) : Prop := match q with Some q => P q | None => True end.

(** [a] takes its value at every point covered by a rank from the greatest such rank, and is [old] elsewhere *)
Definition gathered (p : partitioner) (dims : list string) (rext : list Z) (vals : nat -> arr V) (old a : arr V) : Prop :=
  shp a = global_size p dims rext /\
  forall g, in_shape (shp a) g ->
    (exists r pt, (r < ranks p)%nat /\ in_shape rext pt /\ place p r dims rext pt = g /\ at_ a g = at_ (vals r) pt /\
       forall r' pt', (r' < ranks p)%nat -> in_shape rext pt' -> place p r' dims rext pt' = g -> (r' <= r)%nat) \/
    ((forall r' pt', (r' < ranks p)%nat -> in_shape rext pt' -> place p r' dims rext pt' <> g) /\ at_ a g = at_ old g).

(** ranks hold the same values at shared points *)
Definition consistent (p : partitioner) (dims : list string) (rext : list Z) (vals : nat -> arr V) : Prop :=
  forall r r' pt pt', (r < ranks p)%nat -> (r' < ranks p)%nat -> in_shape rext pt -> in_shape rext pt' ->
    place p r dims rext pt = place p r' dims rext pt' -> at_ (vals r) pt = at_ (vals r') pt'.

(** the part of global data [a] belonging to rank [r] *)
Definition part_of (p : partitioner) (r : nat) (dims : list string) (rext : list Z) (a : arr V) : arr V :=
  mkA rext (fun pt => at_ a (place p r dims rext pt)).
End Q.
