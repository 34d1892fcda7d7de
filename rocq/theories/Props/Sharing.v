(** C82: which memory quantities use. *)
From Verif.Base Require Import Base.
From Verif.Model Require Import Consts Partitioner Numpy Quantity Sizer Storage.
From Verif.Spec Require Import Grid Layouts Views Sharing.
From Verif.Proofs Require Import SharingProofs.

(** writing through objects of other families does not change what an object shows *)
Theorem C82_separate : forall V refuses (junk : nat -> idx -> V) us w oks us' w' oks' o f, perform_all refuses junk us empty_world = (w, oks) ->
  let s := sharing_after us oks nothing_shared in
  perform_all refuses junk us' w = (w', oks') -> shown w o <> None -> family_of s o = Some f -> ~ touches us' oks' s f -> shown w' o = shown w o.
Proof. exact @separate. Qed.
Print Assumptions C82_separate.

(** without a backend a quantity shows the array or storage it was given, whatever is done later *)
Theorem C82_shared : forall V refuses (junk : nat -> idx -> V) us w oks o dims units origin extent w', perform_all refuses junk us empty_world = (w, oks) ->
  perform refuses junk (UMake o dims units origin extent None) w = (w', Ok tt) -> let k := length (w_quantities w) in
  forall us' w'' oks', perform_all refuses junk us' w' = (w'', oks') -> exists a, shown w'' (OData k) = Some a /\ shown w'' o = Some a.
Proof. exact @made_shared. Qed.
Print Assumptions C82_shared.

(** with a backend it gets a copy *)
Theorem C82_copied : forall V refuses (junk : nat -> idx -> V) us w oks o dims units origin extent b w', perform_all refuses junk us empty_world = (w, oks) ->
  perform refuses junk (UMake o dims units origin extent (Some b)) w = (w', Ok tt) -> let k := length (w_quantities w) in
  let s := sharing_after us oks nothing_shared in let s' := evolve (UMake o dims units origin extent (Some b) : use V) true s in
  (exists a c, shown w o = Some a /\ shown w' (OData k) = Some c /\ same c a) /\
  family_of s' (OData k) = Some (sh_next s) /\ (forall o f, family_of s o = Some f -> family_of s' o = Some f /\ f <> sh_next s).
Proof. exact @made_copied. Qed.
Print Assumptions C82_copied.

(** the transpose of a quantity without backend shows the data of the quantity, transposed, whatever is done later *)
Theorem C82_transposed : forall V refuses (junk : nat -> idx -> V) us w oks i q targets w' r, perform_all refuses junk us empty_world = (w, oks) ->
  nth_error (w_quantities w) i = Some q -> g_backend q = None -> perform refuses junk (UTranspose i targets) w = (w', r) ->
  match r with
  | Err e => exists Q, as_quantity (w_mem w) q = Some Q /\ q_transpose Q targets = Err e
  | Ok _ => exists q', nth_error (w_quantities w') (length (w_quantities w)) = Some q' /\
      forall us' w'' oks', perform_all refuses junk us' w' = (w'', oks') ->
        exists Q Q', as_quantity (w_mem w'') q = Some Q /\ as_quantity (w_mem w'') q' = Some Q' /\ q_transpose Q targets = Ok Q'
  end.
Proof. exact @transposed_shared. Qed.
Print Assumptions C82_transposed.

(** with a backend it is a copy *)
Theorem C82_transposed_copy : forall V refuses (junk : nat -> idx -> V) us w oks i q b targets w', perform_all refuses junk us empty_world = (w, oks) ->
  nth_error (w_quantities w) i = Some q -> g_backend q = Some b -> perform refuses junk (UTranspose i targets) w = (w', Ok tt) ->
  let k := length (w_quantities w) in
  let s := sharing_after us oks nothing_shared in let s' := evolve (UTranspose i targets : use V) true s in
  (exists q' Q Q' C, nth_error (w_quantities w') k = Some q' /\ as_quantity (w_mem w) q = Some Q /\ q_transpose Q targets = Ok Q' /\
     as_quantity (w_mem w') q' = Some C /\ q_meta C = q_meta Q' /\ q_units C = q_units Q' /\ same (q_data C) (q_data Q') /\ g_backend q' = Some b) /\
  family_of s' (OData k) = Some (sh_next s) /\ (forall o f, family_of s o = Some f -> family_of s' o = Some f /\ f <> sh_next s).
Proof. exact @transposed_copied. Qed.
Print Assumptions C82_transposed_copy.

(** quantity.storage and quantity.data always show the same; there is no storage exactly if there is no backend *)
Theorem C82_storage : forall V refuses (junk : nat -> idx -> V) us w oks i q, perform_all refuses junk us empty_world = (w, oks) ->
  nth_error (w_quantities w) i = Some q ->
  option_map snd (nth_error (sh_quantities (sharing_after us oks nothing_shared)) i) = Some (g_backend q) /\
  match g_backend q with
  | None => get_storage q = Err TypeError
  | Some b => exists st, get_storage q = Ok st /\ s_backend st = b /\ shown w (OStorage i) = shown w (OData i)
  end.
Proof. exact @storage_attribute. Qed.
Print Assumptions C82_storage.

Theorem C82_origin : forall V refuses (junk : nat -> idx -> V) us w oks o dims units origin extent b w', perform_all refuses junk us empty_world = (w, oks) ->
  perform refuses junk (UMake o dims units origin extent (Some b)) w = (w', Ok tt) ->
  exists q st, nth_error (w_quantities w') (length (w_quantities w)) = Some q /\ get_storage q = Ok st /\ s_default_origin st = g_origin q /\
    g_origin q = match origin with Some o => o | None => map (fun _ => 0) dims end.
Proof. exact @storage_origin. Qed.
Print Assumptions C82_origin.

(** a storage given as data is kept, with its backend, and no other backend may be asked for *)
Theorem C82_given : forall V refuses (junk : nat -> idx -> V) us w oks i dims units origin extent w', perform_all refuses junk us empty_world = (w, oks) ->
  perform refuses junk (UMake (OStorage i) dims units origin extent None) w = (w', Ok tt) ->
  exists q q', nth_error (w_quantities w) i = Some q /\ nth_error (w_quantities w') (length (w_quantities w)) = Some q' /\
    get_storage q' = get_storage q /\ g_backend q' = g_backend q /\ g_backend q <> None.
Proof. exact @storage_given. Qed.
Print Assumptions C82_given.

Theorem C82_twice : forall V refuses (junk : nat -> idx -> V) us w oks i dims units origin extent b w' r, perform_all refuses junk us empty_world = (w, oks) ->
  perform refuses junk (UMake (OStorage i) dims units origin extent (Some b)) w = (w', r) -> w' = w /\ (shown w (OStorage i) <> None -> r = Err TypeError).
Proof. exact @backend_twice. Qed.
Print Assumptions C82_twice.

(** quantities of a factory with a backend: as those of a numpy factory, in new memory, but the default origin of the storage is zero whatever the halo *)
Theorem C82_factory : forall V refuses (junk : nat -> idx -> V) sz backend contents m dims units m' q,
  storage_allocate refuses junk sz backend contents m dims units = (m', Ok q) ->
  (exists st, get_storage q = Ok st /\ s_backend st = backend /\ s_default_origin st = map (fun _ => 0) dims) /\ g_origin q = get_origin sz dims /\
  (exists a, m' = (m ++ [a])%list) /\ forall Q, allocate sz contents dims units = Ok Q -> as_quantity m' q = Some Q.
Proof. exact @factory_storage. Qed.
Print Assumptions C82_factory.

(** an array, a quantity of it, the transpose of the quantity, a quantity with backend, its transpose; then writing through the array, the
    first quantity's view and the storage *)
Definition never (_ : string) (_ _ : list Z) : option exc := None.
Definition junk0 (_ : nat) (_ : idx) : Z := 77.
Definition square : arr Z := mkA [2; 2] (fun p => 10 * nth 0 p 0 + nth 1 p 0).
Definition made : list (use Z) :=
  [UNew square;
   UMake (OArray 0) ["y"; "x"]%string "m" None None None;
   UTranspose 0 [TName "x"; TName "y"]%string;
   UMake (OArray 0) ["y"; "x"]%string "m" (Some [0; 1]) (Some [2; 1]) (Some "gtx86"%string);
   UTranspose 2 [TName "x"; TName "y"]%string;
   UMake (OStorage 2) ["y"; "x"]%string "m" None None (Some "numpy"%string);
   UMake (OStorage 2) ["y"; "x"]%string "m" None None None].
Definition looks (w : world Z) (o : object) : option (list Z) := option_map ravel (shown w o).
Definition first_writes : list (use Z) := [UWrite (OArray 0) (mkA [2] (fun p => 5 + nth 0 p 0)); UView 0 (PSingle (IInt 1)) (mkA [2] (fun p => 8 + nth 0 p 0))].
Definition second_writes : list (use Z) := [UWrite (OStorage 2) (mkA [] (fun _ => 1))].
Definition after (us : list (use Z)) : world Z * list bool := perform_all never junk0 us empty_world.
Definition objects := [OArray 0; OData 0; OData 1; OData 2; OData 3; OStorage 4].
Example C82_example :
  (snd (after made), map (looks (fst (after made))) objects, map (looks (fst (after (made ++ first_writes)))) objects,
   map (looks (fst (after (made ++ first_writes ++ second_writes)))) objects, map (family_of (sharing_after made (snd (after made)) nothing_shared)) objects) =
  ([true; true; true; true; true; false; true],
   [Some [0; 1; 10; 11]; Some [0; 1; 10; 11]; Some [0; 10; 1; 11]; Some [0; 1; 10; 11]; Some [0; 10; 1; 11]; Some [0; 1; 10; 11]],
   [Some [5; 6; 8; 9]; Some [5; 6; 8; 9]; Some [5; 8; 6; 9]; Some [0; 1; 10; 11]; Some [0; 10; 1; 11]; Some [0; 1; 10; 11]],
   [Some [5; 6; 8; 9]; Some [5; 6; 8; 9]; Some [5; 8; 6; 9]; Some [1; 1; 1; 1]; Some [0; 10; 1; 11]; Some [1; 1; 1; 1]],
   [Some 0; Some 0; Some 0; Some 1; Some 2; Some 1]%nat).
Proof. vm_compute. reflexivity. Qed.
Example C82_untouched : ~ touches second_writes [true] (mkSh [0] [(0, None); (0, None); (1, Some "gtx86"%string); (2, Some "gtx86"%string); (1, Some "gtx86"%string)] 3)%nat 2.
Proof. intros [(o & [= <-] & [=])|[]]. Qed.

Example C82_factory_example : let sz := mkSizer 2 3 1 3 [] in
  match storage_allocate never junk0 sz "gtx86" (fun _ => 0) [] ["y"; "x"]%string "m" with
  | (_, Ok q) => g_origin q = [3; 3] /\ rmap s_default_origin (get_storage q) = Ok [0; 0]
  | _ => False
  end.
Proof. vm_compute. auto. Qed.
