(** Concrete executions of stores (C42, C44). *)
From Verif.Base Require Import Base Lemmas.
From Verif.Model Require Import Consts Partitioner Numpy Quantity ScatterGather Shared Zarr.
From Verif.Spec Require Import Grid Layouts Views Distribute Storage.
Local Open Scope string_scope.
Local Open Scope Z_scope.

Definition ex_calendar (t : Z) : string := if t <? 0 then "360_day" else "julian".
Definition ex_text (t : Z) : string := "0001-01-01 00:00:00".
Definition ex_encode (a b : Z) : Z := b - a.
Definition ex_each (layout : Z * Z) (r : nat) (l : list (state Z Z)) : zproc Z (monitor Z * list (res unit)) :=
  store_each Z Z (fun _ => -1) ex_calendar ex_text ex_encode layout (Z.of_nat r) None l.

Definition ended {Op Ans A} (c : srank Op Ans A) : bool := match result_of c with Some _ => true | None => false end.
Definition results {A} (c : srank (zop Z) (zans Z) (A * list (res unit))) : option (list (res unit)) := option_map snd (result_of c).
Definition stuck {A} (s : zstore Z * list (srank (zop Z) (zans Z) A)) : bool :=
  forallb (fun r => match sstep zexec (fun _ _ => false) r s with None => true | Some _ => false end) (seq 0 (length (snd s))).

(** a schedule: the root some steps, then the ranks in the given order, each as far as it gets, and again *)
Fixpoint go {A} (fuel r : nat) (s : zstore Z * list (srank (zop Z) (zans Z) A)) (acc : list nat) :=
  match fuel with
  | O => (s, acc)
  | S f => match sstep zexec (fun _ _ => false) r s with Some s' => go f r s' (r :: acc) | None => (s, acc) end
  end.
Definition greedy {A} (first rounds : nat) (order : list nat) (s : zstore Z * list (srank (zop Z) (zans Z) A)) : list nat :=
  rev (snd (fold_left (fun sa r => go 200 r (fst sa) (snd sa)) (concat (repeat order rounds)) (go first 0 s []))).

(** one column, stored by two ranks of each tile *)
Definition ex_column (r : nat) : state Z Z := mkSt [("a", blank ["z"] "m" [2] (fun _ => Z.of_nat r))] (Some 0).
Definition ex_race := fun r => ex_each (1, 2) r [ex_column r].
Definition sched_up := Eval vm_compute in greedy 0 3 (seq 0 12) (empty_store, sstart 12 ex_race).
Definition sched_down := Eval vm_compute in greedy 5 3 (rev (seq 0 12)) (empty_store, sstart 12 ex_race).
Definition seen (name : string) (g : list Z) (s : zstore Z * list (srank (zop Z) (zans Z) (monitor Z * list (res unit)))) :=
  (map results (snd s), element (fst s) name g).

Theorem column_race : exists sched sched',
  option_map (seen "a" [0; 0; 0]) (srun zexec (fun _ _ => false) sched (empty_store, sstart 12 ex_race)) = Some (repeat (Some [Ok tt]) 12, Some 1) /\
  option_map (seen "a" [0; 0; 0]) (srun zexec (fun _ _ => false) sched' (empty_store, sstart 12 ex_race)) = Some (repeat (Some [Ok tt]) 12, Some 0).
Proof. exists sched_up, sched_down. split; vm_compute; reflexivity. Qed.

(** two variables; the units of the second change in the second state *)
Definition ex_pair (units : string) (v : Z) : state Z Z :=
  mkSt [("a", blank ["y"; "x"] "m" [1; 1] (fun _ => v)); ("b", blank ["y"; "x"] units [1; 1] (fun _ => v + 100))] (Some v).
Definition ex_history := [ex_pair "m" 0; ex_pair "K" 1; ex_pair "m" 2].
Definition alone := fun r => ex_each (1, 1) r ex_history.
Definition sched_alone := Eval vm_compute in greedy 0 3 [0%nat] (empty_store, sstart 1 alone).
(** the values of store [i] on the first tile, and the times *)
Definition rows (s : zstore Z * list (srank (zop Z) (zans Z) (monitor Z * list (res unit)))) :=
  (map results (snd s),
   map (fun n => option_map (fun m => hd 0 (z_shape m)) (s_meta (fst s) n)) ["a"; "b"; "time"],
   map (fun i => (element (fst s) "a" [i; 0; 0; 0], element (fst s) "b" [i; 0; 0; 0], element (fst s) "time" [i])) [0; 1; 2]).

Theorem misaligned : exists sched,
  option_map rows (srun zexec (fun _ _ => false) sched (empty_store, sstart 1 alone)) =
  Some ([Some [Ok tt; Err ValueError; Ok tt]], [Some 3; Some 2; Some 2],
        [(Some 0, Some 100, Some 0); (Some 1, Some 102, Some 2); (Some 2, None, Some (-1))]).
Proof. exists sched_alone. vm_compute. reflexivity. Qed.

(** with all ranks: the root has refused the state, the others wait for it *)
Definition crew := fun r => ex_each (1, 1) r [ex_pair "m" 0; ex_pair "K" 1].
Definition sched_crew := Eval vm_compute in greedy 0 6 (seq 0 6) (empty_store, sstart 6 crew).
Theorem others_wait : exists sched,
  option_map (fun s => (map results (snd s), stuck s)) (srun zexec (fun _ _ => false) sched (empty_store, sstart 6 crew)) =
  Some (Some [Ok tt; Err ValueError] :: repeat None 5, true).
Proof. exists sched_crew. vm_compute. reflexivity. Qed.

(** the refused state is accepted when it is stored again *)
Definition again := fun r => ex_each (1, 1) r [ex_pair "m" 0; ex_pair "K" 1; ex_pair "K" 1].
Definition sched_again := Eval vm_compute in greedy 0 3 [0%nat] (empty_store, sstart 1 again).
Theorem accepted_again : exists sched,
  option_map (fun s => (map results (snd s), option_map (fun m => za_units (z_attrs m)) (s_meta (fst s) "b"), element (fst s) "b" [1; 0; 0; 0]))
    (srun zexec (fun _ _ => false) sched (empty_store, sstart 1 again)) =
  Some ([Some [Ok tt; Err ValueError; Ok tt]], Some (Some "m"), Some 101).
Proof. exists sched_again. vm_compute. reflexivity. Qed.
