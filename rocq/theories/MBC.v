(** Model of dynamic boundary conditions (time series on ports, part variables, set points).

    Code: /repo/multisim/simenv.py [assign_boundary_cond] (1449-1471, length check),
    [_initialize_dynamic_BC] (1560-1566), [_update_dyn_BC] (2717-2763), called once per step
    from [start_sim] (5065-5077) with the size of the step just made.

    Simplifications: one series; real arithmetic; the index checks of [assign_boundary_cond]
    other than the length are not modelled. *)
From Coq Require Import Reals List Arith ZArith.
Import ListNotations.
Open Scope R_scope.

(** Python's [int] of a non-negative float. *)
Definition fl (x : R) : nat := Z.to_nat (Int_part x).

(** Python's [round] of a non-negative float: half to even. *)
Definition pyround (x : R) : nat :=
  let f := fl x in
  let d := x - INR f in
  if Rlt_dec d (1 / 2) then f
  else if Rlt_dec (1 / 2) d then S f
  else if Nat.even f then f else S f.

(** [y[a:b]] and its mean. *)
Definition slice (y : list R) (a b : nat) : list R := firstn (b - a) (skipn a y).
Definition sum (l : list R) : R := fold_right Rplus 0 l.
Definition mean (l : list R) : R := sum l / INR (length l).

(** One update with step size [h] from reading position [last]; [None] is an IndexError.  The
    result is the new position and the value written. *)
Definition bc_update (td : R) (y : list R) (last h : R) : option (R * R) :=
  let cells := h / td in
  let new := last + cells in
  let f := fl new in
  let lev := new - INR f in
  match nth_error y f, nth_error y (S f) with
  | Some a, Some b =>
      let lm := a * (1 - lev) + b * lev in
      if Rle_dec cells 1 then Some (new, lm)
      else Some (new, (mean (slice y (pyround last) (S f)) * (cells - lev) + lm * lev) / cells)
  | _, _ => None
  end.

(** Position and value after the steps of sizes [h 0 .. h (k-1)]; position 0 and the first
    sample at the start. *)
Fixpoint bc_at (td : R) (y : list R) (h : nat -> R) (k : nat) : option (R * R) :=
  match k with
  | O => match nth_error y 0 with Some v => Some (0, v) | None => None end
  | S k => match bc_at td y h k with
           | Some (last, _) => bc_update td y last (h k)
           | None => None
           end
  end.

(** The length check (1462-1465). *)
Definition accepted (td : R) (y : list R) (timeframe : R) : Prop :=
  td * INR (length y) > timeframe.
