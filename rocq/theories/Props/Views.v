(** C25-C31: quantities and their views. *)
From Verif.Base Require Import Base.
From Verif.Model Require Import Consts Numpy Quantity Partitioner Rotate.
From Verif.Spec Require Import Grid Cube Halo Views.
From Verif.Proofs Require Import UpdateExamples ViewProofs CornerProofs TransposeProofs RegionViews.
From Coq Require Import Permutation.

(** a quantity with halo: y, z, x with origin 1, 0, 2; element [y; z; x] is 100 y + 10 z + x *)
Definition ex : quantity Z := mkQ (ex_arr 0 0 [4; 1; 5]) (m_dims ex_meta) "m"%string [1; 0; 2] [2; 1; 2].
Definition listed (x : res (arr Z)) : option (list Z * list Z) := match x with Ok a => Some (shp a, ravel a) | Err _ => None end.
Definition entries (q : res (quantity Z)) : option (list Z) := match q with Ok q => Some (ravel (q_data q)) | Err _ => None end.

(** C25: reading from a view is reading from the compute domain, as an array of its own; also in what is raised *)
Theorem C25_read : forall V (q : quantity V) es, well_formed (q_meta q) -> index_ok (q_origin q) (q_extent q) es ->
  agree same (view_get q (PTuple es)) (getitem (domain_of q) es).
Proof. exact @view_read. Qed.
Print Assumptions C25_read.

(** C25: assigning to a view is assigning to the compute domain and leaves the rest alone *)
Theorem C25_write : forall V (q : quantity V) es src, well_formed (q_meta q) -> index_ok (q_origin q) (q_extent q) es ->
  agree (written q) (view_set q (PTuple es) src) (setitem (domain_of q) es src).
Proof. exact @view_write. Qed.
Print Assumptions C25_write.

Example C25_example : well_formed (q_meta ex) /\ index_ok (q_origin ex) (q_extent ex) [IInt 1; IALL; ISL 0 1] /\
  listed (view_get ex (PTuple [IInt 1; IALL; ISL 0 1])) = Some ([1; 1], [202]) /\
  listed (view_get ex (PTuple [IALL; IInt 0; ISlice (Some 1) (Some 0) (Some (-1))])) = Some ([2; 1], [103; 203]) /\
  entries (view_set ex (PTuple [IInt 1; IALL; ISL 0 1]) (mkA [] (fun _ => -1))) =
    Some [0; 1; 2; 3; 4; 100; 101; 102; 103; 104; 200; 201; -1; 203; 204; 300; 301; 302; 303; 304].
Proof.
  split; [split; [reflexivity|repeat constructor; cbn; lia]|]. split; [|vm_compute; auto].
  cbn. unfold bound_ok. repeat split; try congruence; try lia; intros a [=]; subst; lia.
Qed.

(** C26: when the first axis has a halo of at least one point, [1:-1] selects nothing *)
Theorem C26_one_to_minus_one : forall m o e s origin extent shape, well_formed m ->
  m_origin m = o :: origin -> m_extent m = e :: extent -> m_shape m = s :: shape ->
  1 <= o -> exists v, view_index m (PTuple [ISL 1 (-1)]) = Ok v /\ vshp v = 0 :: extent.
Proof. exact one_to_minus_one. Qed.
Print Assumptions C26_one_to_minus_one.

(** C26: [::-1] selects nothing, with or without a halo *)
Theorem C26_backwards : forall m o e s origin extent shape, well_formed m ->
  m_origin m = o :: origin -> m_extent m = e :: extent -> m_shape m = s :: shape ->
  exists v, view_index m (PTuple [ISlice None None (Some (-1))]) = Ok v /\ vshp v = 0 :: extent.
Proof. exact backwards. Qed.
Print Assumptions C26_backwards.

(** C26: [-k:] starts in the halo before the compute domain if k is at most the origin ... *)
Theorem C26_last_few : forall m o e s origin extent shape, well_formed m ->
  m_origin m = o :: origin -> m_extent m = e :: extent -> m_shape m = s :: shape ->
  forall k, 1 <= k <= o -> exists v, view_index m (PTuple [ISlice (Some (- k)) None None]) = Ok v /\
    shows v (Span (o - k) (o + e) :: rest_picks origin extent).
Proof. exact last_few. Qed.
Print Assumptions C26_last_few.

(** ... and is the last k points of the compute domain otherwise *)
Theorem C26_last_few_deep : forall m o e s origin extent shape, well_formed m ->
  m_origin m = o :: origin -> m_extent m = e :: extent -> m_shape m = s :: shape ->
  forall k, o < k <= e -> exists v, view_index m (PTuple [ISlice (Some (- k)) None None]) = Ok v /\
    shows v (Span (o + e - k) (o + e) :: rest_picks origin extent).
Proof. exact last_few_deep. Qed.
Print Assumptions C26_last_few_deep.

(** C26: the integer -k is k points before the origin, wrapping around the whole array *)
Theorem C26_integer : forall m o e s origin extent shape, well_formed m ->
  m_origin m = o :: origin -> m_extent m = e :: extent -> m_shape m = s :: shape ->
  forall k, 1 <= k -> k - o <= s -> exists v, view_index m (PTuple [IInt (- k)]) = Ok v /\
    shows v (Point (if k <=? o then o - k else s + o - k) :: rest_picks origin extent).
Proof. exact minus_int. Qed.
Print Assumptions C26_integer.

(** C26: integers which miss the array raise IndexError *)
Theorem C26_integer_outside : forall m o e s origin extent shape, well_formed m ->
  m_origin m = o :: origin -> m_extent m = e :: extent -> m_shape m = s :: shape ->
  forall i, i + o < - s \/ s <= i + o -> view_index m (PTuple [IInt i]) = Err IndexError.
Proof. exact int_outside. Qed.
Print Assumptions C26_integer_outside.

Example C26_example : well_formed (q_meta ex) /\
  listed (view_get ex (PTuple [ISL 1 (-1)])) = Some ([0; 1; 2], []) /\
  listed (view_get ex (PTuple [ISlice (Some (-1)) None None])) = Some ([3; 1; 2], [2; 3; 102; 103; 202; 203]) /\
  listed (view_get ex (PTuple [ISlice (Some (-2)) None None])) = Some ([2; 1; 2], [102; 103; 202; 203]) /\
  listed (view_get ex (PTuple [IInt (-1)])) = Some ([1; 2], [2; 3]) /\ listed (view_get ex (PTuple [IInt (-2)])) = Some ([1; 2], [302; 303]).
Proof. split; [split; [reflexivity|repeat constructor; cbn; lia]|]. vm_compute. auto 10. Qed.

(** C27: indexing with too many entries raises and changes nothing *)
Theorem C27_view : forall V (q : quantity V) l src, well_formed (q_meta q) -> (length (q_dims q) < length l)%nat ->
  view_get q (PTuple l) = Err (match q_dims q with [] => IndexError | _ => AttributeError end) /\ view_set q (PTuple l) src = Err AttributeError.
Proof. exact @too_many_view. Qed.
Print Assumptions C27_view.

Theorem C27_corner : forall V (q : quantity V) k l src, well_formed (q_meta q) -> (length (q_dims q) < length l)%nat ->
  corner_get q k (PTuple l) = Err IndexError /\ corner_set q k (PTuple l) src = Err IndexError.
Proof. exact @too_many_corner. Qed.
Print Assumptions C27_corner.

(** C27: the exception is a single integer used on a quantity without dimensions, which is ignored *)
Theorem C27_zero_dimensions : forall V (q : quantity V) i k, q_origin q = [] ->
  view_get q (PSingle (IInt i)) = Ok (v_read (q_data q) (v_whole (shp (q_data q)))) /\
  corner_get q k (PSingle (IInt i)) = Ok (v_read (q_data q) (v_whole (shp (q_data q)))).
Proof. exact @zero_dim_int. Qed.
Print Assumptions C27_zero_dimensions.

Example C27_example : view_get ex (PTuple [IALL; IALL; IALL; IInt 0]) = Err AttributeError /\
  corner_get ex (VCorner NORTHWEST) (PTuple [IALL; IALL; IALL; IInt 0]) = Err IndexError /\
  listed (view_get (mkQ (mkA [] (fun _ => 5)) [] "m"%string [] []) (PSingle (IInt 17))) = Some ([], [5]).
Proof. vm_compute. auto. Qed.

(** C28: what the corner views and view.interior select *)
Theorem C28_read : forall m k fs, well_formed m -> kind_ok k -> (length fs <= length (m_dims m))%nat ->
  let ks := all_picked k (m_dims m) (m_origin m) (m_extent m) fs in
  Forall2 pick_ok (m_shape m) ks -> exists v, corner_index m k (PTuple (map offset_entry fs)) = Ok v /\ shows v ks.
Proof. exact corner_read. Qed.
Print Assumptions C28_read.

Theorem C28_write : forall V (q : quantity V) k fs src, well_formed (q_meta q) -> kind_ok k -> (length fs <= length (q_dims q))%nat ->
  let ks := all_picked k (q_dims q) (q_origin q) (q_extent q) fs in
  Forall2 pick_ok (shp (q_data q)) ks -> shp src = pick_shape ks ->
  exists q', corner_set q k (PTuple (map offset_entry fs)) src = Ok q' /\ q_meta q' = q_meta q /\ q_units q' = q_units q /\
    (forall p, in_shape (pick_shape ks) p -> at_ (q_data q') (pick_place ks p) = at_ src p) /\
    (forall i, (forall p, in_shape (pick_shape ks) p -> i <> pick_place ks p) -> at_ (q_data q') i = at_ (q_data q) i).
Proof. exact @corner_write. Qed.
Print Assumptions C28_write.

(** C28: sel takes the entry for each dimension by its name ... *)
Theorem C28_sel : forall m k kw, well_formed m -> kind_ok k -> Forall2 pick_ok (m_shape m) (sel_picks k m kw) ->
  exists v, corner_sel m k (sel_entries kw) = Ok v /\ shows v (sel_picks k m kw).
Proof. exact sel_read. Qed.
Print Assumptions C28_sel.

(** ... so that it selects the same along each dimension after transposing *)
Theorem C28_sel_order : forall V (q q' : quantity V) targets k kw, lengths_ok q -> NoDup (q_dims q) -> q_transpose q targets = Ok q' ->
  exists along, sel_picks k (q_meta q) kw = map along (q_dims q) /\ sel_picks k (q_meta q') kw = map along (q_dims q').
Proof. exact (fun V q q' targets k kw => @sel_transposed V q targets q' k kw). Qed.
Print Assumptions C28_sel_order.

Example C28_example :
  listed (corner_get ex (VCorner NORTHEAST) (PTuple (map offset_entry [OFrom (-1) 1; OAt 0; OFrom 0 1]))) = Some ([2; 1], [204; 304]) /\
  Forall2 pick_ok (m_shape ex_meta) (sel_picks (VCorner SOUTHEAST) ex_meta [("x"%string, OFrom (-2) 1); ("y"%string, OAt (-1))]) /\
  sel_picks (VCorner SOUTHEAST) ex_meta [("x"%string, OFrom (-2) 1); ("y"%string, OAt (-1))] = [Point 0; Span 0 1; Span 2 5] /\
  listed (rmap (v_read (q_data ex)) (corner_sel ex_meta (VCorner SOUTHEAST) (sel_entries [("x"%string, OFrom (-2) 1); ("y"%string, OAt (-1))]))) = Some ([1; 3], [2; 3; 4]) /\
  listed (corner_get ex VInterior (PTuple [ISL 1 0; IALL; ISL (-1) 1])) = Some ([1; 1; 4], [201; 202; 203; 204]).
Proof. split; [vm_compute; auto|]. split; [repeat constructor; cbn; lia|]. vm_compute. auto. Qed.

(** C29: a boundary region is shown exactly or refused *)
Theorem C29_exact : forall B m h interior,
  length (m_origin m) = length (m_dims m) -> length (m_extent m) = length (m_dims m) -> length (m_shape m) = length (m_dims m) ->
  Forall (Z.le 0) (m_extent m) -> 0 <= h ->
  let ks := region_picks (b_type B) interior h (m_dims m) (m_origin m) (m_extent m) in
  (Forall2 pick_ok (m_shape m) ks -> exists v, boundary_view B m h interior = Ok v /\ shows v ks) /\
  (~ Forall2 pick_ok (m_shape m) ks -> boundary_view B m h interior = Err OutOfBoundsError).
Proof. exact region_view. Qed.
Print Assumptions C29_exact.

(** C29: the points sent are in the compute domain, those received are the halo points on that side of it *)
Theorem C29_regions : forall N h len ix iy, 1 <= N -> 0 <= h <= N -> forall sy sx ext m, fits N h len ix iy sy sx ext m ->
  forall B B', exists sv rv, send_view B m h = Ok sv /\ recv_view B m h = Ok rv /\ vshp sv = vshp rv /\
  (forall p, in_shape (vshp sv) p -> in_domain m (vmap sv p)) /\ covers rv (in_side m ix iy h (b_type B)) /\
  (forall i, in_side m ix iy h (b_type B) i -> ~ in_domain m i) /\
  (b_type B <> b_type B' -> forall i, ~ (in_side m ix iy h (b_type B) i /\ in_side m ix iy h (b_type B') i)).
Proof. exact region_sets. Qed.
Print Assumptions C29_regions.

Definition points_of (v : res view) : option (list (list Z)) := match v with Ok v => Some (map (vmap v) (all_idx (vshp v))) | Err _ => None end.
Example C29_example : fits 2 1 3 2 0 0 0 (fun _ => 1) ex_meta /\
  points_of (send_view (mkB NORTHWEST 0 0 0) ex_meta 1) = Some [[2; 0; 2]] /\ points_of (recv_view (mkB NORTHWEST 0 0 0) ex_meta 1) = Some [[3; 0; 1]] /\
  points_of (recv_view (mkB WEST 0 0 0) ex_meta 2) = Some [[1; 0; 0]; [1; 0; 1]; [2; 0; 0]; [2; 0; 1]] /\
  recv_view (mkB SOUTH 0 0 0) ex_meta 2 = Err OutOfBoundsError /\
  points_of (send_view (mkB EAST 0 0 0) ex_my 1) = Some [[1; 2; 0]; [2; 2; 0]].
Proof. split; [exact ex_fits|]. vm_compute. auto 10. Qed.

(** C30: transposing moves data, origin, extent and shape together *)
Theorem C30_transpose : forall V (q : quantity V) targets t, lengths_ok q -> NoDup (q_dims q) ->
  Forall2 (means (q_dims q)) targets t -> Permutation t (q_dims q) ->
  exists q', q_transpose q targets = Ok q' /\ q_dims q' = t /\ q_units q' = q_units q /\
    Permutation (combine t (q_origin q')) (combine (q_dims q) (q_origin q)) /\
    Permutation (combine t (q_extent q')) (combine (q_dims q) (q_extent q)) /\
    Permutation (combine t (shp (q_data q'))) (combine (q_dims q) (shp (q_data q))) /\
    (forall coord, at_names (q_data q') t coord = at_names (q_data q) (q_dims q) coord) /\ lengths_ok q'.
Proof. exact @transpose_ok. Qed.
Print Assumptions C30_transpose.

Theorem C30_back : forall V (q : quantity V) targets t q', lengths_ok q -> NoDup (q_dims q) ->
  Forall2 (means (q_dims q)) targets t -> Permutation t (q_dims q) -> q_transpose q targets = Ok q' ->
  exists q'', q_transpose q' (map TName (q_dims q)) = Ok q'' /\ q_meta q'' = q_meta q /\ q_units q'' = q_units q /\ same (q_data q'') (q_data q).
Proof. exact @transpose_back. Qed.
Print Assumptions C30_back.

(** C30: anything else is refused *)
Theorem C30_refused : forall V (q : quantity V) targets, lengths_ok q -> NoDup (q_dims q) ->
  (forall t, Forall2 (means (q_dims q)) targets t -> ~ Permutation t (q_dims q)) -> q_transpose q targets = Err ValueError.
Proof. exact @transpose_err. Qed.
Print Assumptions C30_refused.

Example C30_example : let x_any := TAny ["x_interface"; "x"]%string in
  Forall2 (means (q_dims ex)) [x_any; TName "y"; TName "z"]%string ["x"; "y"; "z"]%string /\
  rmap q_meta (q_transpose ex [x_any; TName "y"; TName "z"]%string) = Ok (mkMeta ["x"; "y"; "z"]%string [2; 1; 0] [2; 2; 1] [5; 4; 1]) /\
  match q_transpose ex [x_any; TName "y"; TName "z"]%string with Ok q => at_ (q_data q) [4; 3; 0] = 304 | Err _ => False end /\
  q_transpose ex [x_any; TName "y"]%string = Err ValueError /\ q_transpose ex [x_any; x_any; TName "y"]%string = Err ValueError.
Proof.
  split; [|vm_compute; auto]. constructor; [|constructor; [|constructor; [|constructor]]]; (split; [cbn; tauto|]); auto.
  exists ["x_interface"]%string, []. split; [reflexivity|]. constructor; [cbn; intuition discriminate|constructor].
Qed.

(** C31: constructing from an array *)
Theorem C31_array : forall V (a : arr V) dims units origin extent,
  let o := default_origin dims origin in let e := match extent with Some e => e | None => map2 Z.sub (shp a) o end in
  let ok := length dims = length (shp a) /\ length o = length (shp a) /\ length e = length (shp a) in
  (ok -> new_quantity (DArray a) dims units origin extent = Ok (mkQ a dims units o e)) /\
  (~ ok -> new_quantity (DArray a) dims units origin extent = Err ValueError).
Proof. exact @construct_array. Qed.
Print Assumptions C31_array.

(** C31: constructing from a plain number or list never works *)
Theorem C31_plain : forall V (a : arr V) dims units origin extent,
  exists e, new_quantity (DPlain a) dims units origin extent = Err e /\ (extent = None -> e = AttributeError) /\
    (forall x, extent = Some x -> (e = AttributeError <-> length dims = length (shp a) /\ length (default_origin dims origin) = length (shp a) /\ length x = length (shp a)) /\
                                  (e = AttributeError \/ e = ValueError)).
Proof. exact @construct_plain. Qed.
Print Assumptions C31_plain.

Example C31_example :
  rmap q_meta (new_quantity (DArray (ex_arr 0 0 [4; 5])) ["y"; "x"]%string "m"%string (Some [1; 2]) None) = Ok (mkMeta ["y"; "x"]%string [1; 2] [3; 3] [4; 5]) /\
  new_quantity (DArray (ex_arr 0 0 [4; 5])) ["y"]%string "m"%string None None = Err ValueError /\
  new_quantity (DPlain (ex_arr 0 0 [2])) ["y"]%string "m"%string None None = Err AttributeError.
Proof. vm_compute. auto. Qed.
