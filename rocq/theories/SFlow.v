(** Specification vocabulary for mass conservation (C08, C09). *)
From Coq Require Import Reals List Arith.
Open Scope R_scope.

(** Sum of [f 0 .. f (m-1)]. *)
Fixpoint rsum (m : nat) (f : nat -> R) : R :=
  match m with O => 0 | S k => rsum k f + f k end.

(** What the [m] ports located at cell [j] contribute. *)
Definition at_cell (m : nat) (own : nat -> nat) (f : nat -> R) (j : nat) : R :=
  rsum m (fun i => if (own i =? j)%nat then f i else 0).

(** Mass entering cell [j]: from above, from below, through its ports. *)
Definition cell_in (top bot : nat -> R) (m : nat) (own : nat -> nat) (port : nat -> R) (j : nat) : R :=
  top j + bot j + at_cell m own port j.

(** Mass leaving cell [j] of [n]: what its neighbours receive from it, and what its ports
    carry away. *)
Definition cell_out (n : nat) (top bot : nat -> R) (m : nat) (own : nat -> nat)
  (port_out : nat -> R) (j : nat) : R :=
  (if (j =? 0)%nat then 0 else bot (j - 1)%nat) +
  (if (S j <? n)%nat then top (S j) else 0) +
  at_cell m own port_out j.

(** A signed port flow (positive into the part) seen as what leaves through the port. *)
Definition leaves (io : nat -> R) : nat -> R := fun i => Rmax 0 (- io i).
