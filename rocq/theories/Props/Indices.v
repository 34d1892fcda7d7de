(** C72-C74: new axes, values, sel. *)
From Verif.Base Require Import Base.
From Verif.Model Require Import Consts Numpy Quantity Values.
From Verif.Spec Require Import Grid Views Newaxis.
From Verif.Proofs Require Import NewaxisProofs ValuesProofs.

(** C72: view[None, ..., None] with j new axes: the remaining axes are clipped to the origins and extents of axes j places further on, and the
    last j axes are shown with their halo *)
Theorem C72_new_axes : forall m j, well_formed m -> (1 <= j <= length (m_dims m))%nat ->
  exists v, view_index m (PTuple (repeat INone j)) = Ok v /\
    let oes := skipn j (combine (m_origin m) (m_extent m)) in
    vshp v = (repeat 1 j ++ clipped_shape (m_shape m) oes)%list /\
    forall p, in_shape (vshp v) p -> vmap v p = clipped_place (m_shape m) oes (skipn j p).
Proof. exact new_axes. Qed.
Print Assumptions C72_new_axes.

(** so that it is never the compute domain with new axes if the last axis has a halo *)
Theorem C72_halo_refuted : forall V (q : quantity V) j, well_formed (q_meta q) -> (1 <= j <= length (q_dims q))%nat -> last (shp (q_data q)) 0 <> last (q_extent q) 0 ->
  exists a b, view_get q (PTuple (repeat INone j)) = Ok a /\ getitem (domain_of q) (repeat INone j) = Ok b /\ shp a <> shp b.
Proof. exact @halo_shown. Qed.
Print Assumptions C72_halo_refuted.

(** the corner views and view.interior do not take new axes at all *)
Theorem C72_corners : forall V (q : quantity V) k l src, well_formed (q_meta q) -> In INone l -> (length l <= length (q_dims q))%nat ->
  corner_get q k (PTuple l) = Err TypeError /\ corner_set q k (PTuple l) src = Err TypeError.
Proof. exact @no_new_axes. Qed.
Print Assumptions C72_corners.

(** y and x with halos of 1 and 2 points; then without halo but with different extents *)
Definition ex_yx : quantity Z := mkQ (mkA [4; 6] (fun p => 10 * nth 0 p 0 + nth 1 p 0)) ["y"; "x"]%string "m"%string [1; 2] [2; 2].
Definition ex_plain : quantity Z := mkQ (mkA [3; 1] (fun p => nth 0 p 0)) ["y"; "x"]%string "m"%string [0; 0] [3; 1].
Definition listed (x : res (arr Z)) : option (list Z * list Z) := match x with Ok a => Some (shp a, ravel a) | Err _ => None end.
Example C72_example : well_formed (q_meta ex_yx) /\ last (shp (q_data ex_yx)) 0 <> last (q_extent ex_yx) 0 /\
  listed (view_get ex_yx (PTuple [INone])) = Some ([1; 2; 6], [20; 21; 22; 23; 24; 25; 30; 31; 32; 33; 34; 35]) /\
  listed (getitem (domain_of ex_yx) [INone]) = Some ([1; 2; 2], [12; 13; 22; 23]) /\
  listed (view_get ex_plain (PTuple [INone])) = Some ([1; 1; 1], [0]) /\ listed (getitem (domain_of ex_plain) [INone]) = Some ([1; 3; 1], [0; 1; 2]).
Proof. split; [split; [reflexivity|repeat constructor; cbn; lia]|]. split; [discriminate|]. repeat split; reflexivity. Qed.

(** C73: with at least one dimension, assigning to the view works as ever, whatever was done before *)
Theorem C73_still_assignable : forall V (q : quantity V) us, q_origin q <> [] ->
  let w := perform_all us (world_of q) in
  forall i src, set_view i src w = do q' <- view_set (w_q w) i src; Ok (mkWorld q' (w_objs w)).
Proof. exact @still_assignable. Qed.
Print Assumptions C73_still_assignable.

(** the array returned cannot be assigned to, and shows the compute domain also when that changes later *)
Theorem C73_readonly : forall V (q : quantity V) us, well_formed (q_meta q) ->
  exists w' o, get_values (perform_all us (world_of q)) = Ok (w', o) /\ w_q w' = w_q (perform_all us (world_of q)) /\
  forall us', let w := perform_all us' w' in
    (forall src, set_object o src w = Err ValueError) /\ exists a, contents o w = Some a /\ same a (domain_of (w_q w)).
Proof. exact @values_readonly. Qed.
Print Assumptions C73_readonly.

(** without dimensions, reading values once makes the quantity itself read-only for ever *)
Theorem C73_no_dimensions : forall V (q : quantity V) us, well_formed (q_meta q) -> q_origin q = [] ->
  exists w' o, get_values (perform_all us (world_of q)) = Ok (w', o) /\ forall us', let w := perform_all us' w' in
    w_q w = w_q w' /\ forall src, set_view (PTuple []) src w = Err ValueError.
Proof. exact @no_dimensions. Qed.
Print Assumptions C73_no_dimensions.

Definition ex_scalar : quantity Z := mkQ (mkA [] (fun _ => 5)) [] "m"%string [] [].
Definition ex_new (k : Z) : arr Z := mkA [] (fun _ => k).
Definition ex_data (us : list (use Z)) (q : quantity Z) : list Z := ravel (q_data (w_q (perform_all us (world_of q)))).
Example C73_example :
  well_formed (q_meta ex_yx) /\ q_origin ex_yx <> [] /\ well_formed (q_meta ex_scalar) /\ q_origin ex_scalar = [] /\
  ex_data [USet (PTuple []) (ex_new 6)] ex_scalar = [6] /\ ex_data [USet (PTuple []) (ex_new 6); UValues; USet (PTuple []) (ex_new 7); UAssign 0 (ex_new 8)] ex_scalar = [6] /\
  ex_data [UValues; UAssign 1 (ex_new 7); USet (PTuple [IInt 0; IInt 0]) (ex_new 8)] (mkQ (q_data ex_plain) ["y"; "x"]%string "m"%string [0; 0] [3; 1]) = [8; 1; 2].
Proof. split; [split; [reflexivity|repeat constructor; cbn; lia]|]. split; [discriminate|]. split; [split; [reflexivity|constructor]|]. repeat split; reflexivity. Qed.

(** C74: sel looks at the arguments with names of dimensions only: a misspelt name selects everything *)
Theorem C74_unknown : forall m k kw kw', (forall d, In d (m_dims m) -> dget d kw = dget d kw') ->
  view_sel m kw = view_sel m kw' /\ corner_sel m k kw = corner_sel m k kw'.
Proof. exact unknown_dims. Qed.
Print Assumptions C74_unknown.

(** if no argument is named after a dimension, everything is selected; *)
Theorem C74_everything : forall V (q : quantity V) kw, well_formed (q_meta q) -> (forall d, In d (q_dims q) -> dget d kw = None) ->
  exists v, view_sel (q_meta q) kw = Ok v /\ same (v_read (q_data q) v) (domain_of q).
Proof. exact sel_everything. Qed.
Print Assumptions C74_everything.

(** otherwise each dimension is indexed with the argument of its name *)
Theorem C74_by_name : forall V (q : quantity V) kw es, well_formed (q_meta q) -> Forall2 (fun d e => dget d kw = Some e \/ dget d kw = None /\ e = IALL) (q_dims q) es ->
  index_ok (q_origin q) (q_extent q) es -> agree same (rmap (v_read (q_data q)) (view_sel (q_meta q) kw)) (getitem (domain_of q) es).
Proof. exact sel_by_name. Qed.
Print Assumptions C74_by_name.

Example C74_example : forall d, In d (m_dims (q_meta ex_yx)) -> dget d [("x_interface"%string, IInt 0)] = dget d (@nil (string * ientry)).
Proof. cbn. intros d [<-|[<-|[]]]; reflexivity. Qed.

Example C74_by_name_example :
  Forall2 (fun d e => dget d [("x"%string, IInt 0); ("z"%string, IInt 3)] = Some e \/ dget d [("x"%string, IInt 0); ("z"%string, IInt 3)] = None /\ e = IALL) (q_dims ex_yx) [IALL; IInt 0].
Proof. constructor; [right; auto|]. constructor; [left; auto|constructor]. Qed.
