(** Model of the making of boundary condition series.

    Code: /repo/multisim/utility_functions.py [make_boundarycond_timeseries] (293-412).

    Simplifications: the type checks (305-346) pass; times are whole nanoseconds after [ts_start]:
    [b] is the distance of two values of [bc_array] (350: [int(1 / bc_freq * 1e9)]), [d] is
    [ts_duration] (365); the resampling (371-375, 406-410) is not modelled, the series handed to
    it is.  [how_accepted] tells whether [Series.resample] of the installed pandas has the parameter
    [how]; it was removed in pandas 1.0 and requirements.txt asks for [pandas>=1.0.5]. *)
From Coq Require Import List Arith.
Import ListNotations.

Inductive too_short := Stop | Stack.
Inductive made {A} := IndexError | UnboundLocalError | TypeError | ValueError | ZeroDivisionError
  | Series_of (l : list (nat * A)).
Arguments made : clear implicits.

(** 354-361: [pd.date_range] and the series. *)
Definition timed {A} (b : nat) (l : list A) : list (nat * A) :=
  combine (map (fun i => i * b) (seq 0 (length l))) l.
(** 370, 403: [bc[first : first + ts_timedelta]], both ends included. *)
Definition cut {A} (d : nat) (l : list (nat * A)) : list (nat * A) := filter (fun o => fst o <=? d) l.
(** 389-391 *)
Fixpoint stacked {A} (n : nat) (short l : list A) : list A :=
  match n with O => l | S k => stacked k short (l ++ short) end.
(** 387: [np.ceil(ts_timedelta / bc_duration)] *)
Definition ceil_div (a b : nat) : nat := (a + b - 1) / b.

Definition make {A} (how_accepted : bool) (w : too_short) (b d : nat) (bc : list A) : made A :=
  let duration := (length bc - 1) * b in   (* 363 *)
  let resample l := if how_accepted then Series_of l else TypeError in
  if length bc =? 0 then IndexError         (* 358 *)
  else if duration =? d then UnboundLocalError  (* 367 skipped, 412: [bc_ts] is not bound *)
  else if d <? duration then resample (cut d (timed b bc))  (* 369-375 *)
  else match w with
       | Stop => ValueError                  (* 378-384 *)
       | Stack => if duration =? 0 then ZeroDivisionError
                  else resample (cut d (timed b (stacked (ceil_div d duration) bc bc)))
       end.
