(** Interface synchronisation of arrays whose first dimension is vertical (C18): a concrete case. *)
From Verif.Base Require Import Base Lemmas.
From Verif.Model Require Import Consts Numpy Quantity Partitioner Network Communicator.
From Verif.Spec Require Import Grid Cube Halo Lockstep Sync Client Updates.
From Verif.Proofs Require Import NetworkProofs UpdateExamples LateExamples.

Section Ex.
Local Open Scope string_scope.
Definition ex_vx (r : nat) := mkH 0 (mkMeta ["z"; "y_interface"; "x"] [0; 1; 1]%Z [2; 3; 2]%Z [2; 5; 4]%Z).
Definition ex_vy (r : nat) := mkH 1 (mkMeta ["z"; "y"; "x_interface"] [0; 1; 1]%Z [2; 2; 3]%Z [2; 4; 5]%Z).
End Ex.
Definition ex_memv (r : nat) : mem Z := [ex_arr r 0 [2; 5; 4]; ex_arr r 1 [2; 4; 5]].

(** all that is asked for by [sync_ok], but for the order of dimensions *)
Example ex_vertical_fits : forall r, fits 2 0 3 2 1 1 0 (fun _ => 2) (h_meta (ex_vx r)) /\ fits 2 0 3 2 1 0 1 (fun _ => 2) (h_meta (ex_vy r)).
Proof. intros r. split; fits_tac; intros i [->| ->]; unfold xat; cbn; lia. Qed.

Lemma completes_from_run {L V} sched (s F : @net L V) : run (fun _ _ => false) sched s = Some F -> finished F -> always_completes s (n_mem F).
Proof.
  intros R FF. exists (length sched). intros bf sched1 s1 R1.
  assert (R' := run_buffered _ bf _ _ _ (fun _ _ X => match Bool.diff_false_true X with end) R). split.
  - destruct (complete_after_run _ _ _ _ _ _ R' FF R1) as (l & _ & E). lia.
  - intros ST. rewrite (stuck_is_final _ _ _ _ _ _ R' FF R1 ST). auto.
Qed.

Lemma done_finished {L V} (s : @net L V) : all_done s = true -> finished s.
Proof.
  intros H. unfold all_done in H. rewrite forallb_forall in H. apply Forall_forall. intros p Hp. apply H in Hp. now destruct p.
Qed.

Lemma list_tab {A} (d : A) l : l = tab (length l) (fun r => nth r l d).
Proof.
  unfold tab.
  revert d; induction l as [|a l IH]; intros d; simpl; auto. f_equal. rewrite <- seq_shift, map_map. apply IH.
Qed.

Definition ex_vertical (r : nat) : eff Z unit := synchronize_vector_interfaces Z Z.opp (1, 1) (Z.of_nat r) (ex_vx r) (ex_vy r).
Definition ex_vstart : @net (mem Z) Z := start_state (ranks 1) (fun r => issued (ex_vertical r)) ex_memv.

(** north edge of the x component of tile 0: from the west edge of tile 2, which is turned; levels are exchanged, the order along the edge is kept *)
Lemma vertical_run : option_map (fun s => (all_done s, (length (n_mem s), map (value_at 0 s 0 0) [[0; 3; 1]; [0; 3; 2]; [1; 3; 1]; [1; 3; 2]])))
  (run (fun _ _ => false) (plan (step (fun _ _ => false)) 5 1000 ex_vstart) ex_vstart) = Some (true, (6%nat, [-2611; -2621; -2511; -2521])).
Proof. vm_compute. reflexivity. Qed.

Definition v_hd (c : bool) (r : nat) := if c then ex_vy r else ex_vx r.
Definition v_at (m : nat -> mem Z) (c : bool) := content Z m (fun r => h_id (v_hd c r)) 0.


(** from one complete run, the memories of all *)
Lemma run_memories (s : @net (mem Z) Z) n sched r id p v :
  option_map (fun s => (all_done s, (length (n_mem s), value_at 0 s r id p))) (run (fun _ _ => false) sched s) = Some (true, (n, v)) -> (r < n)%nat ->
  exists m', always_completes s (tab n m') /\ match nth_error (m' r) id with Some a => at_ a p | None => 0 end = v.
Proof.
  intros E Hr. apply some_pair in E. destruct E as (F & R & D & E).
  pose proof (f_equal fst E) as LN. pose proof (f_equal snd E) as NV. cbn [fst snd] in LN, NV. clear E.
  exists (fun r => nth r (n_mem F) []). split.
  - subst n. rewrite <- list_tab. eapply completes_from_run; [exact R|now apply done_finished].
  - unfold value_at in NV. destruct (nth_error (n_mem F) r) as [m0|] eqn:E; [|apply nth_error_None in E; lia].
    erewrite nth_error_nth; [exact NV|exact E].
Qed.

Lemma vertical_value : option_map (fun s => (all_done s, (length (n_mem s), value_at 0 s 0 0 [0; 3; 1])))
  (run (fun _ _ => false) (plan (step (fun _ _ => false)) 5 1000 ex_vstart) ex_vstart) = Some (true, (6%nat, -2611)).
Proof. vm_compute. reflexivity. Qed.

(** what the ranks hold at their lowest level *)
Lemma lowest_level c r p : in_domain (h_meta (v_hd c r)) p -> xat p 0 = 0 ->
  exists a b, v_at ex_memv c r p = 1000 * Z.of_nat r + 500 * (if c then 1 else 0) + 10 * a + b /\ 0 <= a <= 3 /\ 0 <= b <= 3.
Proof.
  intros (Lp & DM) Z0. exists (xat p 1), (xat p 2).
  assert (Lp' : length p = 3%nat) by (destruct c; exact Lp).
  assert (D1 := DM 1%nat). assert (D2 := DM 2%nat). unfold rel in D1, D2.
  split.
  - destruct p as [|z [|y [|x [|]]]]; try discriminate. unfold xat in *. cbn [nth] in *. subst z.
    destruct c; unfold v_at, content; cbn [v_hd ex_vx ex_vy h_id ex_memv nth_error ex_arr at_ fold_left]; lia.
  - destruct c; cbn [v_hd ex_vx ex_vy h_meta m_dims m_origin m_extent length] in D1, D2; specialize (D1 ltac:(lia)); specialize (D2 ltac:(lia));
    unfold xat in *; cbn [nth] in *; lia.
Qed.

Lemma vertical_wrong (after : bool -> nat -> list Z -> Z) : after false 0%nat [0; 3; 1] = -2611 ->
  ~ synchronized Z.opp 1 2 2 1 (fun c r => h_meta (v_hd c r)) (v_at ex_memv) (v_at ex_memv) after.
Proof.
  intros AV SY. destruct (SY false 0%nat [0; 3; 1]) as (IE & _). { vm_compute. lia. }
  destruct IE as (c' & r' & p' & Hr & (DM & OE) & SC & _ & G).
  { split; [|reflexivity]. split; [reflexivity|]. intros i Hi. apply nat_lt3 in Hi. destruct Hi as [->|[->| ->]]; vm_compute; split; congruence. }
  assert (Z0 : xat p' 0 = 0).
  { specialize (SC 0%nat ltac:(cbn; lia) ltac:(lia) ltac:(lia)). unfold rel in SC. destruct c'; unfold xat in *; cbn in SC; lia. }
  destruct (lowest_level c' r' p' DM Z0) as (a & b & SV & Ha & Hb). rewrite AV, SV in G. destruct c'; destruct G as [(_ & G)|(_ & G)]; lia.
Qed.

Theorem vertical_first : exists m', all_ranks_end 1 ex_vertical ex_memv m' /\
  ~ synchronized Z.opp 1 2 2 1 (fun c r => h_meta (v_hd c r)) (v_at ex_memv) (v_at ex_memv) (v_at m').
Proof.
  destruct (run_memories _ _ _ _ _ _ _ vertical_value ltac:(lia)) as (m' & AC & NV).
  exists m'. split; [exact AC|]. apply vertical_wrong. exact NV.
Qed.
