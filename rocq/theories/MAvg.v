(** Model of moving averages, of the logarithmic mean temperature difference and of walls split into two
    heat transfer coefficients.

    Code: /repo/multisim/precomp_funs.py [moving_avg] (5378-5383), [fill_edges] (5390-5398),
    [moving_avg_fill_edges] (5404-5405), [weighted_moving_avg] (5412-5435), [log_mean_temp_diff] (5354-5374),
    [UA_fld_wll_ins_amb_cyl] (4912-4967), [UA_fld_wll_amb_cyl] (4971-5006), [UA_fld_wll_cyl] (5010-5042),
    [UA_wll_ins_amb_cyl] (5046-5094), [UA_wll_amb_cyl] (5098-5131), [UA_fld_wll_plate] (5135-5157),
    [UA_fld_wll_ins_amb_plate] (5161-5198), [UA_wll_ins_amb_plate] (5202-5228).

    Simplifications: real arithmetic; arrays of one cell for the heat transfer coefficients.  [None] stands for
    access beyond the end of an array, for a division by 0 and for the logarithm of a number which is not
    positive. *)
From Coq Require Import Reals List Bool Arith.
From Verif Require Import MOut.
Import ListNotations.
Open Scope R_scope.

(** [cumsum[j]], 5380-5382. *)
Definition csum (x : list R) (j : nat) : R := lsum (firstn j x).
(** [moving_avg], 5383. *)
Definition moving_avg (x : list R) (N : nat) : list R :=
  map (fun i => (csum x (i + N) - csum x i) / INR N) (seq 0 (length x + 1 - N)).
(** 5392-5394: where the old array starts in the new one. *)
Definition edge_start (old new : nat) : nat := ((new - old) / 2 + (new - old) mod 2)%nat.
(** [fill_edges] for an array which is not longer than the new length. *)
Definition fill_edges (x : list R) (new : nat) : option (list R) :=
  match x with
  | [] => None
  | a :: _ =>
      let s := edge_start (length x) new in
      Some (map (fun r => if (r <? s)%nat then a else if (r <? s + length x)%nat then nth (r - s) x 0
                          else last x 0) (seq 0 new))
  end.
Definition moving_avg_fill_edges (x : list R) (N : nat) : option (list R) :=
  match N with O => None | S _ => fill_edges (moving_avg x N) (length x) end.
(** 5431: weighted mean of the window which starts at cell [i]. *)
Fixpoint dot (x w : list R) : R :=
  match x, w with a :: x', b :: w' => a * b + dot x' w' | _, _ => 0 end.
(** [weighted_moving_avg] with [fill_edges]: cells in front of [start] get the first value, cells behind the last
    window the last value (5433-5434); without any window the loop variable [i] is not defined. *)
Definition weighted_moving_avg (x w : list R) : option (list R) :=
  let n := (length x + 1 - length w)%nat in
  match n with
  | O => None
  | S m =>
      let s := edge_start n (length x) in
      let at_ := fun i => dot (firstn (length w) (skipn i x)) w in
      Some (map (fun r => if (r <? s)%nat then at_ 0%nat else if (r <? s + n)%nat then at_ (r - s)%nat
                          else at_ m) (seq 0 (length x)))
  end.

(** [log_mean_temp_diff]. *)
Definition lmtd (TA1 TA2 TB1 TB2 : R) : option R :=
  let dA := TA1 - TA2 in
  let dB := TB1 - TB2 in
  if Req_EM_T dB 0 then None else
  if Rlt_dec 0 (dA / dB) then
    if Req_EM_T (ln (dA / dB)) 0 then None else Some ((dA - dB) / ln (dA / dB))
  else None.

(** Heat transfer coefficients of cylinders and plates. *)
Definition UA_fld_wll_ins_amb_cyl (Ai r_ln_wll r_ln_ins r_rins ai ainf lw li : R) : R :=
  Ai / (1 / ai + r_ln_wll / lw + r_ln_ins / li + r_rins / ainf).
Definition UA_fld_wll_amb_cyl (Ai r_ln_wll r_ro ai ainf lw : R) : R :=
  Ai / (1 / ai + r_ln_wll / lw + r_ro / ainf).
Definition UA_fld_wll_cyl (Ai ri ro ai lw : R) : R :=
  Ai / (1 / ai + ri * ln ((ro / ri + 1) / 2) / lw).
Definition UA_wll_ins_amb_cyl (Ai ri ro r_ln_ins r_rins ainf lw li : R) : R :=
  Ai / (ri * ln (2 / (ri / ro + 1)) / lw + r_ln_ins / li + r_rins / ainf).
Definition UA_wll_amb_cyl (Ai ri ro ainf lw : R) : R :=
  Ai / (ri * ln (2 / (ri / ro + 1)) / lw + ri / (ro * ainf)).
Definition UA_fld_wll_plate (A s af lw : R) : R := A / (1 / af + s / lw).
Definition UA_fld_wll_ins_amb_plate (A s si af ainf lw li : R) : R :=
  A / (1 / af + s / lw + si / li + 1 / ainf).
Definition UA_wll_ins_amb_plate (A s si lw li ainf : R) : R := A / (s / lw + si / li + 1 / ainf).
