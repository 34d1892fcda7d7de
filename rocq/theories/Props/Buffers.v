(** C36, C37: recycled buffers. *)
From Verif.Base Require Import Base.
From Verif.Model Require Import Numpy Buffer.
From Verif.Spec Require Import Grid Views Lending.
From Verif.Proofs Require Import BufferProofs.

(** C36: after any history, buffers held by different contexts are different arrays, and each was created with the allocator, shape and dtype asked for *)
Theorem C36_distinct : forall V (user : nat -> arr V) os, Forall op_ok os -> let w := brun os (empty_world user) in
  (forall i j k k' b b' t t', ctx_of w i = Some (mkC (HBuf k b) t) -> ctx_of w j = Some (mkC (HBuf k' b') t') -> i <> j -> b <> b') /\
  (forall i k b t, ctx_of w i = Some (mkC (HBuf k b) t) -> w_made w b = k /\ shp (w_buf w b) = snd (fst k)).
Proof. exact buffers_distinct. Qed.
Print Assumptions C36_distinct.

(** C37: send_buffer hands out the contents of its argument, leaves the memory of the user alone, and a buffer it
    hands out keeps the contents whatever happens in other contexts and to the array itself *)
Theorem C37_send : forall V (user : nat -> arr V) os alloc u junk later, Forall op_ok os -> uarr_ok u -> Forall op_ok later ->
  let w := brun os (empty_world user) in let id := length (w_live w) in
  let '(w', r) := bstep (OSend alloc u junk) w in
  r = Ok tt /\ w_user w' = w_user w /\
  exists h, ctx_of w' id = Some (mkC h None) /\ same (contents w' h) (u_read w u) /\
    (u_contig u = true -> h = HArr u) /\
    (u_contig u = false -> Forall (fun o => ~ about id o) later -> same (contents (brun later w') h) (u_read w u)).
Proof. exact send_copies. Qed.
Print Assumptions C37_send.

(** C37: what was put into a receive buffer is in the target, and nothing else is changed, after leaving; broken off, nothing is changed *)
Theorem C37_recv : forall V (user : nat -> arr V) os id k b u f later, Forall op_ok os -> Forall op_ok later ->
  let w := brun os (empty_world user) in
  ctx_of w id = Some (mkC (HBuf k b) (Some u)) -> Forall (fun o => ~ about id o) later ->
  let w1 := brun later (fst (bstep (OFill id f) w)) in
  let '(w2, r) := bstep (OLeave id) w1 in
  r = Ok tt /\ same (u_read w2 u) (mkA (vshp (u_view u)) f) /\ ctx_of w2 id = None /\
  (forall m, m <> u_mem u -> w_user w2 m = w_user w1 m) /\ shp (w_user w2 (u_mem u)) = shp (w_user w1 (u_mem u)) /\
  (forall i, (forall p, in_shape (vshp (u_view u)) p -> i <> vmap (u_view u) p) -> at_ (w_user w2 (u_mem u)) i = at_ (w_user w1 (u_mem u)) i) /\
  w_user (fst (bstep (OThrow id) w1)) = w_user w1.
Proof. exact recv_copies. Qed.
Print Assumptions C37_recv.

(** every second element of the blocks 0 and 1 of eight elements *)
Definition ex_user (m : nat) : arr Z := mkA [8] (fun i => 100 * Z.of_nat m + nth 0 i 0).
Definition ex_even (m : nat) : uarr := mkU m (mkV [4] (fun p => [2 * nth 0 p 0])) 0 false.
(** nested contexts with the same key, one left by an exception, a third which reuses the first buffer *)
Definition ex_history : list (bop Z) :=
  [ORecv 0 (ex_even 0) (fun _ => -1); OSend 0 (ex_even 1) (fun _ => -2); OFill 0 (fun p => 7 + nth 0 p 0); OModify 1 (fun _ => 0); OLeave 0; OThrow 1; ORecv 0 (ex_even 1) (fun _ => -3)].
Example C36_example : Forall op_ok ex_history /\
  map (fun c => match c with Some (mkC (HBuf _ b) _) => Some b | _ => None end) (w_live (brun (firstn 2 ex_history) (empty_world ex_user))) = [Some 0; Some 1]%nat /\
  map (fun c => match c with Some (mkC (HBuf _ b) _) => Some b | _ => None end) (w_live (brun ex_history (empty_world ex_user))) = [None; None; Some 0]%nat /\
  map (at_ (w_user (brun ex_history (empty_world ex_user)) 0)) [[0]; [1]; [2]; [3]; [4]] = [7; 1; 8; 3; 9] /\
  map (at_ (w_buf (brun (firstn 4 ex_history) (empty_world ex_user)) 1)) [[0]; [1]; [2]; [3]] = [100; 102; 104; 106].
Proof.
  assert (U : forall m, uarr_ok (ex_even m)).
  { intros m. split; [|discriminate]. unfold ex_even. cbn [u_view vmap vshp]. intros p q P Q. inversion P as [|? x ? ? Hx P']; inversion P'; subst. inversion Q as [|? y ? ? Hy Q']; inversion Q'; subst. cbn [nth]. intros E. assert (2 * x = 2 * y) by congruence. f_equal. lia. }
  split; [repeat apply Forall_cons; try apply Forall_nil; try exact I; apply U|]. repeat split; reflexivity.
Qed.

(** the stale contents of a reused buffer reach the target if the body does not fill it *)
Theorem C37_stale_refuted : map (at_ (w_user (brun (ex_history ++ [OLeave 2]) (empty_world ex_user)) 1)) [[0]; [1]; [2]; [3]; [4]] = [7; 0; 8; 0; 9].
Proof. reflexivity. Qed.
Print Assumptions C37_stale_refuted.
