(** C95: references of another extent. *)
From Verif.Base Require Import Base.
From Verif.Model Require Import Consts Numpy Quantity Nudging.
From Verif.Spec Require Import Grid Views Relaxation Spread.
From Verif.Proofs Require Import SpreadProofs.

(** a reference with fewer axes, or axes of length one, is used for all points along them *)
Theorem C95_spread : forall V T (sub add : V -> V -> V) (div mul : V -> T -> V) state reference_state name tau dt q r,
  dget name state = Some q -> dget name reference_state = Some r -> well_formed (q_meta q) -> well_formed (q_meta r) ->
  q_dims q <> [] -> q_dims r <> [] -> spreads (q_extent r) (q_extent q) ->
  exists q' t, apply_nudging sub add div mul state reference_state [(name, tau)] dt = (dset name q' state, Ok [(name, t)]) /\
    is_rate sub div q (spread_to q r) tau t /\ is_relaxed sub add div mul q (spread_to q r) tau dt q'.
Proof. exact @nudged_spread. Qed.
Print Assumptions C95_spread.

(** the same for any number of variables: nothing else is changed *)
Theorem C95_state : forall V T (sub add : V -> V -> V) (div mul : V -> T -> V) state reference_state timescales dt,
  NoDup (dkeys timescales) -> Forall (spread_matched state reference_state) timescales ->
  exists state' tendencies, apply_nudging sub add div mul state reference_state timescales dt = (state', Ok tendencies) /\
    dkeys state' = dkeys state /\ dkeys tendencies = dkeys timescales /\
    (forall name tau, In (name, tau) timescales -> exists q r t q', dget name state = Some q /\ dget name reference_state = Some r /\
       dget name tendencies = Some t /\ is_rate sub div q (spread_to q r) tau t /\ dget name state' = Some q' /\ is_relaxed sub add div mul q (spread_to q r) tau dt q') /\
    (forall name, ~ In name (dkeys timescales) -> dget name state' = dget name state).
Proof. exact @nudged_spread_state. Qed.
Print Assumptions C95_state.

(** any other raises ValueError and leaves the state as it was *)
Theorem C95_refused : forall V T (sub add : V -> V -> V) (div mul : V -> T -> V) state reference_state name tau dt q r,
  dget name state = Some q -> dget name reference_state = Some r -> well_formed (q_meta q) -> well_formed (q_meta r) ->
  q_dims q <> [] -> q_dims r <> [] -> ~ spreads (q_extent r) (q_extent q) ->
  apply_nudging sub add div mul state reference_state [(name, tau)] dt = (state, Err ValueError).
Proof. exact @nudging_refused. Qed.
Print Assumptions C95_refused.

(** y and x with a halo; the reference is a row along x with other names of dimensions, or a column the wrong way round *)
Local Open Scope string_scope.
Local Open Scope Z_scope.
Definition ex_q : quantity Z := mkQ (mkA [4; 5] (fun p => 10 * nth 0 p 0 + nth 1 p 0)) ["y"; "x"]%string "K" [1; 1] [2; 3].
Definition ex_row : quantity Z := mkQ (mkA [4] (fun p => 100 * nth 0 p 0)) ["z"]%string "m" [1] [3].
Definition ex_column : quantity Z := mkQ (mkA [2] (fun p => 100 * nth 0 p 0)) ["y"]%string "K" [0] [2].
Definition ex_wide : quantity Z := mkQ (mkA [1; 2; 3] (fun p => 100)) ["z"; "y"; "x"]%string "K" [0; 0; 0] [1; 2; 3].
Example C95_example : spreads (q_extent ex_row) (q_extent ex_q) /\ ~ spreads (q_extent ex_column) (q_extent ex_q) /\ ~ spreads (q_extent ex_wide) (q_extent ex_q) /\
  (let '(s, x) := apply_nudging Z.sub Z.add Z.div Z.mul [("t", ex_q)] [("t", ex_row)] [("t", 1)] 1 in
   option_map (fun q => map (at_ (q_data q)) [[1; 1]; [2; 1]; [2; 3]; [3; 3]]) (dget "t" s)) = Some [100; 100; 300; 33] /\
  map (fun r => match snd (apply_nudging Z.sub Z.add Z.div Z.mul [("t", ex_q)] [("t", r)] [("t", 1)] 1) with Ok _ => None | Err e => Some e end) [ex_column; ex_wide] = [Some ValueError; Some ValueError].
Proof.
  split. { split; [cbn; lia|]. repeat constructor. }
  split. { intros (_ & F). inversion F as [|? ? ? ? [X|X]]; discriminate. }
  split. { intros (L & _). cbn in L. lia. }
  vm_compute. auto.
Qed.

(** two variables, the second towards a single value, and a third which is not nudged *)
Definition ex_point : quantity Z := mkQ (mkA [1; 1] (fun _ => 7)) ["y"; "x"]%string "K" [0; 0] [1; 1].
Example C95_example_state : let s := [("t", ex_q); ("u", ex_q); ("v", ex_q)] in let r := [("u", ex_point); ("t", ex_row)] in
  Forall (spread_matched s r) [("t", 1); ("u", 2)] /\
  (let '(s', x) := apply_nudging Z.sub Z.add Z.div Z.mul s r [("t", 1); ("u", 2)] 2 in
   map (fun n => option_map (fun q => map (at_ (q_data q)) [[1; 1]; [2; 3]; [3; 3]]) (dget n s')) ["t"; "u"; "v"] =
   [Some [189; 577; 33]; Some [7; 7; 33]; Some [11; 23; 33]]).
Proof.
  split; [|vm_compute; reflexivity]. repeat (apply Forall_cons; [do 2 eexists; cbn [fst]; split; [reflexivity|]; split; [reflexivity|]|]); [| |apply Forall_nil];
  (split; [split; [reflexivity|repeat constructor; cbn; lia]|]; split; [split; [reflexivity|repeat constructor; cbn; lia]|]; split; [discriminate|]; split; [discriminate|]; split; [cbn; lia|]; cbn; auto).
Qed.
