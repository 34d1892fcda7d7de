(** C41-C44: storing states in a zarr store. *)
From Coq Require Import Permutation.
From Verif.Base Require Import Base.
From Verif.Model Require Import Consts Partitioner Numpy Quantity ScatterGather Shared Zarr.
From Verif.Spec Require Import Grid Layouts Views Distribute Storage.
From Verif.Proofs Require Import Slices ZarrGeometry ZarrStores ZarrErrors ZarrExamples.
Local Open Scope string_scope.

(** C41: all ranks store N states with the same variables, each divided among the ranks.  However the ranks are scheduled, no store
    raises, all ranks come to an end, and the store then holds the states. *)
Theorem C41_stores : forall V Time (junk : list Z -> V) (calendar_of text_of : Time -> string) (encode : Time -> Time -> V)
    layout names var (states : nat -> nat -> state V Time) times N,
  NoDup names -> ~ In "time" names -> layouts_ok layout -> (forall n, In n names -> divided layout (var n)) ->
  (forall r i, (r < ranks (CubePart layout))%nat -> (i < N)%nat -> described names var (times r i) (states r i)) ->
  (forall i, (i < N)%nat -> calendar_of (times 0%nat i) = calendar_of (times 0%nat 0%nat)) ->
  ends_with zexec (ranks (CubePart layout))
    (fun r => store_all V Time junk calendar_of text_of encode layout (Z.of_nat r) None (map (states r) (seq 0 N))) empty_store
    (fun st out => (forall r, (r < ranks (CubePart layout))%nat -> snd (out r) = Ok tt) /\
       ((0 < N)%nat -> holds layout names var calendar_of text_of encode states times N st)).
Proof. exact @stores_hold. Qed.
Print Assumptions C41_stores.

(** two rows of ranks on each tile, one variable on interfaces between them; dictionaries in different orders *)
Definition ex_var (n : string) : vspec := if String.eqb n "a" then mkVS ["y_interface"; "x"] "m" [3; 2] else mkVS ["x"; "z"; "y"] "K" [2; 1; 4].
Definition ex_q (n : string) (r i : nat) : quantity Z := blank (vs_dims (ex_var n)) (vs_units (ex_var n)) (vs_ext (ex_var n)) (fun p => Z.of_nat (r + 100 * i) + 1000 * hd 0 p)%Z.
Definition ex_state (r i : nat) : state Z Z :=
  mkSt (if Nat.even r then [("a", ex_q "a" r i); ("b", ex_q "b" r i)] else [("b", ex_q "b" r i); ("a", ex_q "a" r i)]) (Some (Z.of_nat i)).
Example C41_example : NoDup ["a"; "b"] /\ ~ In "time" ["a"; "b"] /\ layouts_ok (2, 1)%Z /\ (forall n, In n ["a"; "b"] -> divided (2, 1)%Z (ex_var n)) /\
  (forall r i, described ["a"; "b"] ex_var (Z.of_nat i) (ex_state r i)) /\
  ranks (CubePart (2, 1)%Z) = 12%nat /\ tile_size (2, 1)%Z ["y_interface"; "x"] [3; 2]%Z = [5; 2]%Z.
Proof.
  assert (LO : layouts_ok (2, 1)%Z) by (split; apply layout_ok_below_49; simpl; lia).
  split; [repeat constructor; cbn; intuition discriminate|]. split; [cbn; intuition discriminate|]. split; [exact LO|]. split; [|split; [|split; reflexivity]].
  - intros n [<-|[<-|[]]]; (split; [split; [exact LO|split; [discriminate|]]|split; [split|]]); cbn.
    + repeat apply Forall2_cons; try apply Forall2_nil; vm_compute; split; congruence.
    + exists ["y_interface"], [], "x". repeat constructor; cbn; congruence.
    + exists [], ["x"], "y_interface". repeat constructor; cbn; congruence.
    + repeat apply Forall2_cons; try apply Forall2_nil; vm_compute; congruence.
    + repeat apply Forall2_cons; try apply Forall2_nil; vm_compute; split; congruence.
    + exists [], ["z"; "y"], "x". repeat constructor; cbn; congruence.
    + exists ["x"; "z"], [], "y". repeat constructor; cbn; congruence.
    + repeat apply Forall2_cons; try apply Forall2_nil; vm_compute; congruence.
  - intros r i. assert (Q : forall n, In n ["a"; "b"] -> well_formed (q_meta (ex_q n r i))).
    { intros n [<-|[<-|[]]]; (split; [reflexivity|]); repeat constructor; cbn; lia. }
    unfold described, ex_state. destruct (Nat.even r); cbn [st_vars st_time dkeys map fst].
    + split; [apply Permutation_refl|]. split; [reflexivity|]. intros n q. cbn [dget].
      destruct (String.eqb_spec n "a") as [->|]; [intros [= <-]; repeat split; try reflexivity; apply Q; cbn; auto|].
      destruct (String.eqb_spec n "b") as [->|]; [intros [= <-]; repeat split; try reflexivity; apply Q; cbn; auto|discriminate].
    + split; [apply perm_swap|]. split; [reflexivity|]. intros n q. cbn [dget].
      destruct (String.eqb_spec n "b") as [->|]; [intros [= <-]; repeat split; try reflexivity; apply Q; cbn; auto|].
      destruct (String.eqb_spec n "a") as [->|]; [intros [= <-]; repeat split; try reflexivity; apply Q; cbn; auto|discriminate].
Qed.

(** C42: points which different ranks write are in different chunks *)
Theorem C42_disjoint : forall layout dims ext r r' b b' t p p',
  fits layout dims ext -> Forall2 (fun d e => 1 <= e - stag d)%Z dims ext -> horizontal dims ->
  cs_subtile_slice layout r ("tile" :: dims) (6 :: tile_size layout dims ext)%Z false = Ok (t, b) -> in_box b p ->
  cs_subtile_slice layout r' ("tile" :: dims) (6 :: tile_size layout dims ext)%Z false = Ok (t, b') -> in_box b' p' ->
  map2 Z.div p (array_chunks layout (tile_size layout dims ext) dims) = map2 Z.div p' (array_chunks layout (tile_size layout dims ext) dims) ->
  r = r'.
Proof. exact chunks_disjoint. Qed.
Print Assumptions C42_disjoint.
Example C42_example : array_chunks (2, 1)%Z [5; 2]%Z ["y_interface"; "x"] = [2; 2]%Z /\
  cs_subtile_slice (2, 1)%Z 0 ["tile"; "y_interface"; "x"] [6; 5; 2]%Z false = Ok (0, [(0, 2); (0, 2)])%Z /\
  cs_subtile_slice (2, 1)%Z 1 ["tile"; "y_interface"; "x"] [6; 5; 2]%Z false = Ok (0, [(2, 5); (0, 2)])%Z.
Proof. split; [|split]; vm_compute; reflexivity. Qed.

(** false for variables without both horizontal dimensions: all ranks of a tile which differ only along the missing one write the
    same points, and which of their values remain depends on the schedule *)
Theorem C42_column_refuted : exists sched sched',
  option_map (seen "a" [0; 0; 0]%Z) (srun zexec (fun _ _ => false) sched (empty_store, sstart 12 ex_race)) = Some (repeat (Some [Ok tt]) 12, Some 1%Z) /\
  option_map (seen "a" [0; 0; 0]%Z) (srun zexec (fun _ _ => false) sched' (empty_store, sstart 12 ex_race)) = Some (repeat (Some [Ok tt]) 12, Some 0%Z).
Proof. exact column_race. Qed.
Print Assumptions C42_column_refuted.

(** C43: after a first state and any further ones, stored with or without success, a state with other names than the first one's and
    "time" is refused before any operation on the store and before any communication, and the monitor is unchanged *)
Theorem C43_other_names : forall V Time (junk : list Z -> V) (calendar_of text_of : Time -> string) (encode : Time -> Time -> V) layout rank
    (s0 : state V Time) l s, (exists n, ~ (In n (names_of s) <-> n = "time" \/ In n (names_of s0))) ->
  returns (fun a => store V Time junk calendar_of text_of encode layout rank (fst a) s = SRet (fst a, Err ValueError))
    (store_each V Time junk calendar_of text_of encode layout rank None (s0 :: l)).
Proof. exact @other_names_refused. Qed.
Print Assumptions C43_other_names.
(** in particular names without "time", which are accepted the first time, are refused ever after *)
Example C43_no_time : let s := mkSt (T := Z) [("a", ex_q "a" 0 0)] None in
  (exists n, ~ (In n (names_of s) <-> n = "time" \/ In n (names_of s))) /\
  exists sched, option_map (fun st => map results (snd st)) (srun zexec (fun _ _ => false) sched (empty_store, sstart 1 (fun r => ex_each (1, 1)%Z r [s; s])))
    = Some [Some [Ok tt; Err ValueError]].
Proof.
  split; [exists "time"; cbn; intuition discriminate|]. exists (repeat 0%nat 10). vm_compute. reflexivity.
Qed.

(** C44: changed attributes are noticed by the root after it enlarged the array, so that neither the array nor the writer are as before *)
Theorem C44_refused_after_resize : forall V Time (junk : list Z -> V) layout name (w : writer Time) (z : zmeta) (q : quantity V),
  w_array w = Some z -> (nth 0 (z_shape z) 0 <= w_time w)%Z -> attrs_eqb (z_attrs z) (get_attrs V q) = false ->
  let shape := (w_time w + 1 :: 6 :: tp_global_extent layout (q_dims q) (q_extent q))%Z in
  append V Time junk layout 0 name w q =
  SDo (OResize name shape) (fun a => match a with ARaised e => SRet (w, Err e) | _ => SRet (mkW (w_time w) (Some (mkZM shape (z_chunks z) (z_attrs z))) (w_since w), Err ValueError) end).
Proof. exact @refused_after_resize. Qed.
Print Assumptions C44_refused_after_resize.
Example C44_example : let z := mkZM [1; 6; 1; 1]%Z [1; 1; 1; 1]%Z (mkZA ["time"; "tile"; "y"; "x"] (Some "m") None) in
  attrs_eqb (z_attrs z) (get_attrs Z (blank ["y"; "x"] "K" [1; 1]%Z (fun _ => 0%Z))) = false.
Proof. reflexivity. Qed.

(** one rank, three states of a, b and time; the second is refused because of the units of b, the third is stored.  Then a has three
    entries, b and time have two. *)
Theorem C44_misaligned : exists sched,
  option_map rows (srun zexec (fun _ _ => false) sched (empty_store, sstart 1 alone)) =
  Some ([Some [Ok tt; Err ValueError; Ok tt]], [Some 3; Some 2; Some 2],
        [(Some 0, Some 100, Some 0); (Some 1, Some 102, Some 2); (Some 2, None, Some (-1))])%Z.
Proof. exact misaligned. Qed.
Print Assumptions C44_misaligned.
(** storing the refused state again is accepted, under the first state's units *)
Theorem C44_accepted_again : exists sched,
  option_map (fun s => (map results (snd s), option_map (fun m => za_units (z_attrs m)) (s_meta (fst s) "b"), element (fst s) "b" [1; 0; 0; 0]%Z))
    (srun zexec (fun _ _ => false) sched (empty_store, sstart 1 again)) =
  Some ([Some [Ok tt; Err ValueError; Ok tt]], Some (Some "m"), Some 101%Z).
Proof. exact accepted_again. Qed.
Print Assumptions C44_accepted_again.
(** with several ranks the others wait for ever *)
Theorem C44_others_wait : exists sched,
  option_map (fun s => (map results (snd s), stuck s)) (srun zexec (fun _ _ => false) sched (empty_store, sstart 6 crew)) =
  Some (Some [Ok tt; Err ValueError] :: repeat None 5, true).
Proof. exact others_wait. Qed.
Print Assumptions C44_others_wait.
