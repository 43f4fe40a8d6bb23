(** Model of centred rolling statistics and of the fitting of a control.

    Code: /repo/multisim/utility_functions.py [rolling_centered] (983-1194) and
    the objective of [opt_control] (3831-3926).

    Simplifications: real arithmetic; an evenly spaced series (1027-1032) is the list of its values, row [i] is
    at time [i q] where [q] is the frequency in whole nanoseconds; the window is [w] whole nanoseconds;
    no NaN in the input; [win_type], [on] and [axis] have their default values, [closed] too;
    [min_periods] is the number of rows after 1046-1051.  pandas is modelled by what it is
    documented to do.  [None] is NaN. *)
From Coq Require Import Reals List Bool Arith.
From Verif Require Import MOut.
Import ListNotations.
Open Scope R_scope.

Inductive stat := Mean | Median | Sum | Min | Max.
Definition least (l : list R) : R := match l with [] => 0 | x :: t => fold_right Rmin x t end.
Definition greatest (l : list R) : R := match l with [] => 0 | x :: t => fold_right Rmax x t end.
(** Statistic of the values in a window; an empty window has a sum, but nothing else. *)
Definition statistic (m : stat) (l : list R) : option R :=
  match m, l with
  | Sum, _ => Some (lsum l)
  | _, [] => None
  | Mean, _ => Some (lmean l)
  | Median, _ => Some (median l)
  | Min, _ => Some (least l)
  | Max, _ => Some (greatest l)
  end.
(** Rows [a], ..., [b - 1] of the series, as far as they exist. *)
Definition rows (a b : nat) (l : list R) : list R := firstn (b - a) (skipn a l).
Definition enough (mp : nat) (m : stat) (l : list R) : option R :=
  if (length l <? mp)%nat then None else statistic m l.

(** 1057-1128: the window is a multiple of the frequency: centred window of [k] rows, row [i] is the one in
    front of the middle or the middle; [min_periods=None] stands for [k]. *)
Definition by_rows (mp : option nat) (m : stat) (k : nat) (l : list R) (i : nat) : option R :=
  let e := (i + (k - 1) / 2 + 1)%nat in
  enough (match mp with None => k | Some p => p end) m (rows (e - k) e l).

(** 1129-1194: otherwise rolling in time over [t - w, t) ([closed='left']; row [j] counts if
    [i q - w <= j q] and [j < i]), then [.shift(-shift_idc)] with [shift_idc] of 1044;
    [min_periods=None] stands for 1. *)
Definition in_time (mp : option nat) (m : stat) (w q : nat) (l : list R) (i : nat) : option R :=
  enough (match mp with None => 1%nat | Some p => p end) m (rows (i - w / q) i l).
Definition by_time (mp : option nat) (m : stat) (w q : nat) (l : list R) (i : nat) : option R :=
  let s := (w / (2 * q))%nat in
  if (i + s <? length l)%nat then in_time mp m w q l (i + s) else None.

(** 983-1194 *)
Definition rolling_centered (mp : option nat) (m : stat) (w q : nat) (l : list R) : list (option R) :=
  map (if (w mod q =? 0)%nat then by_rows mp m (w / q) l else by_time mp m w q l) (seq 0 (length l)).

(** 3919: what [opt_control] minimises: [(even_massflow.values - labdata_flow[:end].values).sum()]. *)
Definition objective (simulated measured : list R) : R :=
  lsum (map (fun p => fst p - snd p) (combine simulated measured)).
