(** Model of the resampling of measured series.

    Code: /repo/multisim/utility_functions.py [process_unevenly_spaced_timeseries] (415-448).

    Simplifications: real values; a series with DatetimeIndex is the list of its (time, value)
    pairs in the order of time, times are whole seconds after midnight of the day of the first
    value; the frequency is a whole number [f] of seconds; no NaN in the input; DataFrames are
    treated column by column and left out.  pandas is modelled by what it is documented to do:
    [resample(freq)] has the bins [k f, (k + 1) f), each labelled with its left edge, beginning with
    the bin of the first and ending with the bin of the last value (edges counted from midnight of the
    first day).  [None] is NaN. *)
From Coq Require Import Reals List Bool Arith.
From Verif Require Import MOut.
Import ListNotations.
Open Scope R_scope.

Definition obs := list (nat * R).
Inductive how := Interpolated | ForwardFill | BackwardFill.

Definition t_first (s : obs) : nat := fst (hd (0%nat, 0) s).
Definition t_last (s : obs) : nat := fst (last s (0%nat, 0)).
(** Numbers of the bins. *)
Definition bins (f : nat) (s : obs) : list nat :=
  seq (t_first s / f) (S (t_last s / f - t_first s / f)).

(** 443: mean of each bin, NaN for empty bins ... *)
Definition in_bin (f : nat) (s : obs) (k : nat) : list R :=
  map snd (filter (fun o => (fst o / f =? k)%nat) s).
Definition bin_mean (f : nat) (s : obs) (k : nat) : option R :=
  match in_bin f s k with [] => None | l => Some (lmean l) end.
(** ... then linear interpolation, for which the bins are equally spaced. *)
Definition by_means (f : nat) (s : obs) : list (option R) :=
  interpolate false (map INR (bins f s)) (map (bin_mean f s) (bins f s)).

(** 445, 447: [ffill] and [bfill] of a resampler look up the labels among the times: the last value
    not after the label, the first value not before it. *)
Fixpoint last_until (t : nat) (s : obs) (found : option R) : option R :=
  match s with
  | [] => found
  | (u, v) :: r => if (u <=? t)%nat then last_until t r (Some v) else found
  end.
Fixpoint first_from (t : nat) (s : obs) : option R :=
  match s with
  | [] => None
  | (u, v) :: r => if (t <=? u)%nat then Some v else first_from t r
  end.
(** pandas, [DatetimeIndexResampler._upsample]: a series whose inferred frequency (which takes three values)
    is the wanted one keeps its values and gets the labels of the bins as new times. *)
Fixpoint steps (f : nat) (s : obs) : bool :=
  match s with
  | (t, _) :: (((u, _) :: _) as r) => (u =? t + f)%nat && steps f r
  | _ => true
  end.
Definition equal_sampled (f : nat) (s : obs) : bool := ((3 <=? length s)%nat && steps f s)%bool.
Definition filled (look : nat -> option R) (f : nat) (s : obs) : list (option R) :=
  if equal_sampled f s then map (fun o => Some (snd o)) s
  else map (fun k => look (k * f)%nat) (bins f s).

(** 415-448 *)
Definition resampled (h : how) (f : nat) (s : obs) : list (nat * option R) :=
  combine (map (fun k => k * f)%nat (bins f s))
    match h with
    | Interpolated => by_means f s
    | ForwardFill => filled (fun t => last_until t s None) f s
    | BackwardFill => filled (fun t => first_from t s) f s
    end.
