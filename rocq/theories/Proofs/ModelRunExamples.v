(** A concrete instance used beside the theorem of Props/ModelRun.v: the variables of PrognosticExamples, scattered before and gathered after. *)
From Verif.Base Require Import Base Lemmas.
From Verif.Model Require Import Consts Numpy Quantity Partitioner Network Communicator Collective ScatterGather Cluster.
From Verif.Spec Require Import Grid Cube Halo Lockstep Sync Client Updates Steps Views Distribute Mixed Prognostic ModelRun.
From Verif.Proofs Require Import Slices WholeProofs UpdateExamples StepsProofs PrognosticProofs PrognosticExamples MixedExamples ModelRunProofs.
From Coq Require Import ZifyBool.

(** arrays are numbered in this order *)
Definition mr_entries : list entry :=
  [mkEntry "v" 1 true ["y_interface"; "x"; "z"]; mkEntry "t" 0 false ["y"; "z"; "x"]; mkEntry "u" 1 false ["y"; "x_interface"; "z"];
   mkEntry "a" 2 false ["y_interface"; "x"; "z"]; mkEntry "b" 2 true ["y"; "x_interface"; "z"]]%string.
Example mr_catalogue : catalogue pr_kinds mr_entries.
Proof.
  split; [vm_compute; repeat (constructor; [cbn; intuition discriminate|]); constructor|].
  split; [vm_compute; repeat (constructor; [cbn; intuition discriminate|]); constructor|]. split.
  - intros e I. cbn in I. destruct I as [<-|[<-|[<-|[<-|[<-|[]]]]]]; cbn [e_var e_comp]; eexists; eexists; (split; [reflexivity|auto || discriminate]).
  - intros i c f (b & E & CB). destruct i as [|[|[|[|]]]]; try discriminate; injection E as <- <-; destruct c; try (discriminate (CB eq_refl)).
    + exists (nth 1 mr_entries (mkEntry "" 0 false [])). split; [cbn; tauto|split; reflexivity].
    + exists (nth 0 mr_entries (mkEntry "" 0 false [])). split; [cbn; tauto|split; reflexivity].
    + exists (nth 2 mr_entries (mkEntry "" 0 false [])). split; [cbn; tauto|split; reflexivity].
    + exists (nth 4 mr_entries (mkEntry "" 0 false [])). split; [cbn; tauto|split; reflexivity].
    + exists (nth 3 mr_entries (mkEntry "" 0 false [])). split; [cbn; tauto|split; reflexivity].
Qed.

(** quantities of ranks, which hold nothing useful *)
Definition mr_of (hd : handle) : quantity Z := let m := h_meta hd in mkQ (mkA (m_shape m) (fun _ => -7)) (m_dims m) "m" (m_origin m) (m_extent m).
Definition mr_local (N : Z) (r : nat) : list (quantity Z) := [mr_of (pr_v N r); mr_of (pr_T N r); mr_of (pr_u N r); mr_of (pr_a N r); mr_of (pr_b N r)].
Example mr_arranged n N : arranged n mr_entries (pr_state N) (mr_local N).
Proof.
  intros r Hr. split; [reflexivity|]. intros j e v f EJ C. destruct C as (C & _).
  destruct j as [|[|[|[|[|[|]]]]]]; try discriminate; injection EJ as <-; cbn [e_var e_comp] in *; injection C as <- <-; eexists; (split; [reflexivity|split; reflexivity]).
Qed.
Example mr_fits n N e f : 1 <= n <= 2 -> 1 <= N <= 2 -> In e mr_entries -> part pr_kinds (e_var e) (e_comp e) f -> Distribute.fits (n, n) (e_dims e) (extent_on f (e_comp e) N).
Proof.
  intros Hn HN I (b & E & _). split; [split; apply layout_ok_below_49; simpl; lia|].
  assert (X1 : n = 1 \/ n = 2) by lia. assert (X2 : N = 1 \/ N = 2) by lia.
  cbn in I. destruct I as [<-|[<-|[<-|[<-|[<-|[]]]]]]; cbn [e_var e_comp] in E; injection E as <- <-; (split; [discriminate|]); destruct X1 as [-> | ->], X2 as [-> | ->];
    (repeat apply Forall2_cons; try apply Forall2_nil); vm_compute; split; congruence.
Qed.

(** the sphere of PrognosticExamples on tiles of [M] by [M] cells, behind [o] other layers of the array *)
Definition mr_global (M o : Z) (e : entry) (f : form) : quantity Z :=
  let c := e_comp e in
  mkQ (mkA (6 :: map (fun x => x + o) (extent_on f c M))
         (fun p => match p with t :: q => pr_sphere (e_var e) (spot M (stag_y f c) (stag_x f c) t (xat q (f_iy f) - o) (xat q (f_ix f) - o)) [] (bearing M (stag_y f c) (stag_x f c) c t (xat q (f_iy f) - o) (xat q (f_ix f) - o)) | [] => 0 end))
    ("tile"%string :: e_dims e) "m" (0 :: map (fun _ => o) (extent_on f c M)) (6 :: extent_on f c M).
Definition mr_form (e : entry) : form := match nth_error pr_kinds (e_var e) with Some (_, f) => f | None => pr_cells end.
Definition mr_send (M : Z) : ScatterGather.state Z Z := mkSt (map (fun e => (e_name e, mr_global M (if e_comp e then 1 else 0) e (mr_form e))) mr_entries) (Some 12).
Example mr_keys M : dkeys (st_vars (mr_send M)) = map e_name mr_entries.
Proof. reflexivity. Qed.
Lemma mr_sphere_level i pl lev lev' dir : pr_sphere i pl lev dir = pr_sphere i pl lev' dir.
Proof. destruct i, pl as [[[a b] c]|]; reflexivity. Qed.
Example mr_on_sphere M : 1 <= M -> on_sphere M pr_kinds mr_entries pr_sphere (st_vars (mr_send M)).
Proof.
  intros HM e f I (b & E & _). cbv zeta.
  assert (F : f = mr_form e) by (unfold mr_form; now rewrite E). assert (L : length (extent_on f (e_comp e) M) = 3%nat /\ f_len f = 3%nat /\ (f_ix f < 3)%nat /\ (f_iy f < 3)%nat /\ f_ix f <> f_iy f).
  { subst f. cbn in I. destruct I as [<-|[<-|[<-|[<-|[<-|[]]]]]]; cbn; repeat (split; [lia|]); lia. }
  exists (mr_global M (if e_comp e then 1 else 0) e f). split; [subst f; cbn in I; destruct I as [<-|[<-|[<-|[<-|[<-|[]]]]]]; reflexivity|]. split.
  - split; [|split; reflexivity]. split.
    + subst f; cbn in I; destruct I as [<-|[<-|[<-|[<-|[<-|[]]]]]]; reflexivity.
    + subst f; cbn in I; destruct I as [<-|[<-|[<-|[<-|[<-|[]]]]]]; cbn; repeat (apply ax_cons; [lia|lia|lia|]); apply ax_nil.
  - intros t j x lev Ht Hj Hx LV. unfold domain_of, mr_global. cbn [at_ q_data q_origin]. unfold shifted. cbn [Numpy.map2]. rewrite Z.add_0_l.
    destruct L as (L1 & L2 & L3 & L4 & L5).
    set (o := if e_comp e then 1 else 0).
    assert (X : forall k, (k < 3)%nat -> xat (Numpy.map2 Z.add (map (fun _ => o) (extent_on f (e_comp e) M)) (tile_index (f_len f) (f_ix f) (f_iy f) j x lev)) k = o + xat (tile_index (f_len f) (f_ix f) (f_iy f) j x lev) k).
    { intros k Hk. unfold xat. rewrite nth_map2 with (a := o) (b := 0) by (rewrite ?map_length; unfold tile_index; rewrite ?map_length, ?seq_length; lia). f_equal. apply map_nth with (f := fun _ => o) (d := 0). }
    rewrite !X by auto. unfold tile_index, xat. rewrite !nth_map_seq by lia. rewrite !Nat.eqb_refl. replace (Nat.eqb (f_iy f) (f_ix f)) with false by (symmetry; apply Nat.eqb_neq; congruence).
    replace (o + j - o) with j by lia. replace (o + x - o) with x by lia. apply mr_sphere_level.
Qed.

(** what rank 0 gathers, as lists by name, and what another rank returns *)
Definition mr_gathered (n N : Z) :=
  let (s, stuck) := drive_all (fun _ _ => false) (fun _ _ _ => false) (100 * 100) (cl_start (Mixed.size (n, n)) (mixed_program (obj Z) Z (held_back Z Z) Z.opp (n, n)
    (model_run (n, n) (pr_state N) pr_syn 1 (repeat (run_model Z (-1) n N (pr_state N) pr_rule) 2) mr_entries (fun r => match r with O => Some (mr_send (n * N)) | _ => None end) (mr_local N) (fun _ => None)
      (fun _ _ _ _ => -9) (fun _ _ _ _ => -8))
    (fun r => map (fun q => q_data q) (mr_local N r)) (fun _ => (None, None)))) in
  (stuck, map (fun x => match x with
     | Some (Ok s) => (fst (snd s), match snd (snd s) with Some st => Some (map (fun kq => (fst kq, q_dims (snd kq), q_extent (snd kq), firstn 4 (ravel (q_data (snd kq))))) (st_vars st), st_time st) | None => None end)
     | _ => (None, None) end) (firstn 2 (outcomes s))).
