(** Property theorems: mass conservation inside parts (C08, C09). *)
From Coq Require Import Reals List Arith Lra Lia.
From Verif Require Import MFlow SFlow LFlow.
Import ListNotations.
Open Scope R_scope.

(** C08: part with one through flow [io] (positive: from port 0 at the first cell to port 1 at
    the last cell), after any earlier calls. *)
Theorem C08_through_flow : forall n own hist io, (1 <= n)%nat ->
  own 0%nat = 0%nat -> own 1%nat = (n - 1)%nat ->
  let f := fold_left (fun f x => process_flow_invar n 2 x f) hist flows0 in
  let g := process_flow_invar n 2 io f in
  let signed := fun i => match i with O => io | _ => - io end in
  (forall j, (j < n)%nat ->
     cell_in (f_top g) (f_bot g) 2 own (f_port g) j =
     cell_out n (f_top g) (f_bot g) 2 own (leaves signed) j /\
     0 <= f_top g j /\ 0 <= f_bot g j) /\
  f_port g 0%nat = Rmax 0 io /\ f_port g 1%nat = Rmax 0 (- io).
Proof. exact C08_proof. Qed.
Print Assumptions C08_through_flow.

(** C08 for every channel of a part with separate flow channels (heat exchanger). *)
Theorem C08_channels : forall n nch own io top bot port c, (1 <= n)%nat -> (c < nch)%nat ->
  own 0%nat = 0%nat -> own 1%nat = (n - 1)%nat ->
  top c 0%nat = 0 -> bot c (n - 1)%nat = 0 ->
  let '(t, b, p) := process_flow_multi n nch io top bot port in
  let inflow := fun i => p (2 * c + i)%nat in
  let signed := fun i => match i with O => io c | _ => - io c end in
  (forall j, (j < n)%nat ->
     cell_in (t c) (b c) 2 own inflow j = cell_out n (t c) (b c) 2 own (leaves signed) j /\
     0 <= t c j /\ 0 <= b c j) /\
  inflow 0%nat = Rmax 0 (io c) /\ inflow 1%nat = Rmax 0 (- io c).
Proof. exact C08_multi_proof. Qed.
Print Assumptions C08_channels.

(** Five cells, flow reversed from +2 to -3: fluid enters only at the last cell. *)
Example C08_example :
  let own := fun i => match i with O => 0%nat | _ => 4%nat end in
  let g := process_flow_invar 5 2 (-3) (fold_left (fun f x => process_flow_invar 5 2 x f) [2] flows0) in
  cell_in (f_top g) (f_bot g) 2 own (f_port g) 4 = 3 /\ f_port g 0%nat = 0 /\ f_bot g 2%nat = 3.
Proof.
  unfold cell_in, at_cell, process_flow_invar. cbn [fold_left].
  destruct (Rle_dec 0 (-3)); [lra|]. cbn. destruct (Rle_dec 0 2); [|lra]. cbn. lra.
Qed.

(** C09: part with any number of ports at sorted cell positions, flows positive into the part,
    after any earlier calls. *)
Theorem C09_multi_port : forall n np own hist io,
  (1 <= n)%nat -> (1 <= np)%nat ->
  (forall i, (S i < np)%nat -> (own i <= own (S i))%nat) ->
  (forall i, (i < np)%nat -> (own i < n)%nat) ->
  rsum np io = 0 ->
  let f := fold_left (fun f x => fst (process_flow_var n np own x f)) hist flows0 in
  let g := fst (process_flow_var n np own io f) in
  let stored := snd (process_flow_var n np own io f) in
  forall j, (j < n)%nat ->
    cell_in (f_top g) (f_bot g) np own (f_port g) j =
    cell_out n (f_top g) (f_bot g) np own (leaves io) j /\
    0 <= f_top g j /\ 0 <= f_bot g j /\
    (forall i, 0 <= f_port g i) /\
    ((S j < n)%nat ->
       f_top g (S j) - f_bot g j = rsum np (fun i => if (own i <=? j)%nat then io i else 0) /\
       stored j = rsum np (fun i => if (own i <=? j)%nat then io i else 0)).
Proof. exact C09_proof. Qed.
Print Assumptions C09_multi_port.

(** Six cells, ports at 0, 3, 3, 5 with flows +2, -3, +2, -1. *)
Example C09_example :
  let own := fun i => nth i [0;3;3;5]%nat 0%nat in
  let io := fun i => nth i [2;-3;2;-1] 0 in
  (forall i, (S i < 4)%nat -> (own i <= own (S i))%nat) /\
  (forall i, (i < 4)%nat -> (own i < 6)%nat) /\ rsum 4 io = 0 /\
  snd (process_flow_var 6 4 own io flows0) 4%nat = 1.
Proof.
  cbv zeta. split; [|split; [|split]].
  - intros [|[|[|i]]] Hi; cbn; lia.
  - intros [|[|[|[|i]]]] Hi; cbn; lia.
  - cbn. lra.
  - cbn. lra.
Qed.
