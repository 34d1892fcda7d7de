(** C99: strides, contiguity and messages in memory. *)
From Verif.Base Require Import Base.
From Verif.Model Require Import Consts Numpy Quantity Partitioner Rotate Strides.
From Verif.Spec Require Import Grid Memory.
From Verif.Proofs Require Import StridesProofs.

Theorem C99_views base ops : proper base ->
  match chain view_op ops (v_whole (s_shape base)) with
  | Ok v => exists a, chain strided_op ops base = Ok a /\ shows base v a /\ forall p, in_shape (vshp v) p -> in_shape (s_shape base) (vmap v p)
  | Err e => chain strided_op ops base = Err e
  end.
Proof. exact (views_in_memory base ops). Qed.
Print Assumptions C99_views.

Theorem C99_separate item o shape ops a : item <> 0 -> Forall (Z.le 0) shape -> chain strided_op ops (new_array item o shape) = Ok a -> NoDup (elements a).
Proof. exact (new_views_separate item o shape ops a). Qed.
Print Assumptions C99_separate.

Theorem C99_c_contiguous item a : proper a -> is_c_contiguous item a = true <-> elements a = block item a.
Proof. exact (c_flag_iff item a). Qed.
Print Assumptions C99_c_contiguous.

Theorem C99_contiguous item a : proper a ->
  ensure_contiguous item a = Ok tt <-> elements a = block item a \/ map (fun p => address a (rev p)) (all_idx (rev (s_shape a))) = block item a.
Proof. exact (contiguous_iff item a). Qed.
Print Assumptions C99_contiguous.

Theorem C99_sent V item free a (m : memory V) : item <> 0 -> proper a -> sent V item free a m = map m (elements a).
Proof. exact (sent_elements V item free a m). Qed.
Print Assumptions C99_sent.

Theorem C99_received V item free a body (m : memory V) : item <> 0 -> proper a -> NoDup (elements a) -> length body = length (elements a) ->
  map (received V item free a body m) (elements a) = body /\
  forall x, ~ In x (elements a) -> is_c_contiguous item a = true \/ ~ In x (block item (new_array item free (s_shape a))) -> received V item free a body m x = m x.
Proof. exact (received_elements V item free a body m). Qed.
Print Assumptions C99_received.

Theorem C99_message V item free free' a b (m m' : memory V) p : item <> 0 -> proper a -> proper b -> s_shape b = s_shape a -> NoDup (elements b) -> in_shape (s_shape a) p ->
  received V item free' b (sent V item free a m) m' (address b p) = m (address a p).
Proof. exact (message_between V item free free' a b m m' p). Qed.
Print Assumptions C99_message.

Theorem C99_halo_sent V item free base b m n k v v' (mm : memory V) : item <> 0 -> proper base -> s_shape base = m_shape m ->
  send_view b m n = Ok v -> rotate_scalar_data v (m_dims m) k = Ok v' ->
  exists ops a, chain strided_op ops base = Ok a /\ shows base v' a /\ sent V item free a mm = map (fun p => mm (address base (vmap v' p))) (all_idx (vshp v')).
Proof. exact (halo_sent V item free base b m n k v v' mm). Qed.
Print Assumptions C99_halo_sent.

Theorem C99_halo_received V item free base b m n v body (mm : memory V) : item <> 0 -> proper base -> NoDup (elements base) -> s_shape base = m_shape m ->
  recv_view b m n = Ok v -> length body = length (all_idx (vshp v)) ->
  exists ops a, chain strided_op ops base = Ok a /\ shows base v a /\
    map (fun p => received V item free a body mm (address base (vmap v p))) (all_idx (vshp v)) = body /\
    forall q, in_shape (m_shape m) q -> (forall p, in_shape (vshp v) p -> vmap v p <> q) -> ~ In (address base q) (block item (new_array item free (vshp v))) ->
      received V item free a body mm (address base q) = mm (address base q).
Proof. exact (halo_received V item free base b m n v body mm). Qed.
Print Assumptions C99_halo_received.

Theorem C99_scatter V item a n s r (m : memory V) : item <> 0 -> proper a -> s_shape a = Z.of_nat n :: s -> is_c_contiguous item a = true -> (r < n)%nat ->
  exists b, strided_op (OIndex [IInt (Z.of_nat r)]) a = Ok b /\ s_shape b = s /\ scattered V item n a m r = map m (elements b).
Proof. exact (scattered_rows V item a n s r m). Qed.
Print Assumptions C99_scatter.

Theorem C99_gather V item a n s bodies (m : memory V) : item <> 0 -> proper a -> s_shape a = Z.of_nat n :: s -> is_c_contiguous item a = true ->
  length bodies = n -> Forall (fun body => length body = length (all_idx s)) bodies ->
  (forall r body, nth_error bodies r = Some body -> exists b, strided_op (OIndex [IInt (Z.of_nat r)]) a = Ok b /\ s_shape b = s /\ map (gathered V item n a bodies m) (elements b) = body) /\
  forall x, ~ In x (elements a) -> gathered V item n a bodies m x = m x.
Proof. exact (gathered_rows V item a n s bodies m). Qed.
Print Assumptions C99_gather.

Theorem C99_fortran_refuted : exists a, proper a /\ NoDup (elements a) /\ ensure_contiguous 1 a = Ok tt /\ ~ (forall (m : memory Z), map m (block 1 a) = map m (elements a)).
Proof. exact fortran_refuted. Qed.
Print Assumptions C99_fortran_refuted.

(** three rows of four float64 values at address 1000; the two columns in the middle, turned by a quarter *)
Definition ex_base : strided := new_array 8 1000 [3; 4].
Definition ex_ops : list vop := [OIndex [IALL; ISL 1 3]; OFlip 1; OSwap 0 1].
Example C99_example_view : chain strided_op ex_ops ex_base = Ok (mkS 1016 [2; 3] [-8; 32]) /\
  elements (mkS 1016 [2; 3] [-8; 32]) = [1016; 1048; 1080; 1008; 1040; 1072].
Proof. split; reflexivity. Qed.
Example C99_example_flags : is_c_contiguous 8 ex_base = true /\ is_contiguous 8 (mkS 1016 [2; 3] [-8; 32]) = false /\
  is_c_contiguous 8 (mkS 0 [2; 3] [8; 16]) = false /\ is_contiguous 8 (mkS 0 [2; 3] [8; 16]) = true /\ is_c_contiguous 8 (mkS 0 [1; 3] [-5; 8]) = true.
Proof. repeat split; reflexivity. Qed.
Example C99_example_message : sent Z 8 5000 (mkS 1016 [2; 3] [-8; 32]) (fun x => x) = [1016; 1048; 1080; 1008; 1040; 1072] /\
  map (received Z 8 5000 (mkS 1016 [2; 3] [-8; 32]) [1; 2; 3; 4; 5; 6] (fun _ => 0)) (elements ex_base) = [0; 4; 1; 0; 0; 5; 2; 0; 0; 6; 3; 0].
Proof. split; reflexivity. Qed.
(** an error of both *)
Example C99_example_error : chain view_op [OIndex [IInt 3]] (v_whole [3; 4]) = Err IndexError /\ chain strided_op [OIndex [IInt 3]] ex_base = Err IndexError.
Proof. split; reflexivity. Qed.
(** the northern interior of a field of two points by two with a halo of one, turned for a neighbour, and its northern halo *)
Definition ex_m : meta := mkMeta [Y_DIM; X_DIM] [1; 1] [2; 2] [4; 4].
Example C99_example_halo : exists v v' w, send_view (mkB NORTH 0 1 1) ex_m 1 = Ok v /\ rotate_scalar_data v [Y_DIM; X_DIM] (-1) = Ok v' /\
  vshp v' = [2; 1] /\ map (vmap v') (all_idx (vshp v')) = [[2; 1]; [2; 2]] /\
  recv_view (mkB NORTH 0 1 1) ex_m 1 = Ok w /\ map (vmap w) (all_idx (vshp w)) = [[3; 1]; [3; 2]].
Proof. do 3 eexists. repeat (split; [vm_compute; reflexivity|]). vm_compute; reflexivity. Qed.
(** rows of a contiguous array go to three ranks and come back *)
Example C99_example_rows : scattered Z 8 3 ex_base (fun x => x) 1 = [1032; 1040; 1048; 1056] /\
  map (gathered Z 8 3 ex_base [[1; 2; 3; 4]; [5; 6; 7; 8]; [9; 10; 11; 12]] (fun _ => 0)) (elements ex_base) = [1; 2; 3; 4; 5; 6; 7; 8; 9; 10; 11; 12].
Proof. split; vm_compute; reflexivity. Qed.
(** numpy.transpose moves nothing; repeated axes are refused *)
Example C99_example_transpose : chain strided_op [OTranspose [2; 0; 1]%nat] (new_array 8 0 [2; 3; 4]) = Ok (mkS 0 [4; 2; 3] [8; 96; 32]) /\
  chain strided_op [OTranspose [1; 1]%nat] ex_base = Err ValueError /\ is_contiguous 8 (mkS 0 [4; 2; 3] [8; 96; 32]) = false.
Proof. repeat split; reflexivity. Qed.
