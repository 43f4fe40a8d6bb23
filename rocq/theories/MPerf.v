(** Model of the performance indicators of a predicted against a measured series.

    Code: /repo/multisim/utility_functions.py [fit_time_series] (2834-2922) and
    [ts_performance_indicators] (2925-3027).

    Simplifications: real arithmetic; a pandas Series is the list of its (label, value) pairs,
    labels are integers (numbers or points in time) and pairwise different ([pd.concat] raises for
    repeated labels unless both indexes are equal); the values handed over are numbers (no NaN).
    [None] stands for NaN or an infinite result of a division by zero.  Resampling (2893-2905) is
    modelled in MResample and left out here, i.e. the series have the wanted frequency already.
    [exclude_values] and [exclude_range] (2966-2979) raise and are left out. *)
From Coq Require Import Reals List Bool Arith ZArith.
From Verif Require Import MOut.
Import ListNotations.
Open Scope R_scope.

Definition series := list (Z * R).
Definition labels (s : series) : list Z := map fst s.

(** Type of an index: numbers, or points in time with the frequency pandas knows, if any. *)
Inductive index := Numbers | Times (freq : option Z).

(** Value at a label. *)
Fixpoint at_label (s : series) (k : Z) : option R :=
  match s with
  | [] => None
  | (j, v) :: t => if Z.eq_dec j k then Some v else at_label t k
  end.
Definition has (s : series) (k : Z) : bool := existsb (Z.eqb k) (labels s).

(** 2922: [pd.concat((pred, rlz), axis=1)] joins the columns by label (outer join). *)
Definition row : Type := option R * option R.
Definition concat (p r : series) : list row :=
  map (fun k => (at_label p k, at_label r k))
      (labels p ++ filter (fun k => negb (has p k)) (labels r)).

(** 2872-2916 without resampling: [None] is a failed assertion. *)
Definition same_freq (f g : option Z) : bool :=
  match f, g with Some a, Some b => Z.eqb a b | _, _ => false end.
Definition fit (ip ir : index) (p r : series) : option (list row) :=
  match ip, ir with
  | Times f, Times g =>
      if (same_freq f g && (length p =? length r)%nat)%bool then Some (concat p r) else None
  | Times _, Numbers => None
  | Numbers, _ => if (length p =? length r)%nat then Some (concat p r) else None
  end.

(** 2963-2965: [pred_rlz.loc[(pred_rlz != 0).all(axis=1)]]; NaN differs from 0. *)
Definition nonzero (v : option R) : bool :=
  match v with None => true | Some x => if Req_EM_T x 0 then false else true end.
Definition kept (exclude_zeros : bool) (l : list row) : list row :=
  if exclude_zeros then filter (fun w => (nonzero (fst w) && nonzero (snd w))%bool) l else l.

(** 2983: difference of the columns; NaN if one of them is NaN. *)
Definition residual (w : row) : option R :=
  match w with (Some x, Some y) => Some (x - y) | _ => None end.
Definition residuals (l : list row) : list R := somes (map residual l).
Definition measured (l : list row) : list R := somes (map snd l).

(** Quartiles as given by [describe] (linear interpolation between order statistics). *)
Definition quartile (k : nat) (l : list R) : R :=
  let s := isort l in let h := (k * (length l - 1))%nat in
  nth (h / 4) s 0 + (nth (h / 4 + 1) s 0 - nth (h / 4) s 0) * (INR (h mod 4) / 4).
Definition smallest (l : list R) : R := nth 0 (isort l) 0.
Definition largest (l : list R) : R := nth (length l - 1) (isort l) 0.

(** A quotient; no number for a zero denominator. *)
Definition quot (a b : R) : option R := if Req_EM_T b 0 then None else Some (a / b).
Definition obind {A B} (o : option A) (f : A -> option B) : option B :=
  match o with None => None | Some a => f a end.

Record indicators := {
  n_samples : nat; mbe : option R; mae : option R; nmbe : option R; mse : option R;
  rmse : option R; cv_rmse : option R; nrmse : option R; nrmse_iqr : option R; r2 : option R }.

(** 2983-3027.  Sums skip NaN (2988, 2993, 2994), [residuals.size] (2987) does not; [describe]
    (2986) skips NaN; its standard deviation divides by count - 1. *)
Definition evaluate (l : list row) : indicators :=
  let res := residuals l in let y := measured l in
  let n := length l in
  let ss_res := lsum (map (fun e => e * e) res) in
  let filled (f : option R) := if (length y =? 0)%nat then None else f in
  let m := quot (lsum res) (INR n) in
  let rm := obind (quot ss_res (INR n)) (fun q => Some (sqrt q)) in
  {| n_samples := n;
     mbe := m;
     mae := quot (lsum (map Rabs res)) (INR n);
     nmbe := filled (obind m (fun b => quot b (lmean y)));
     mse := obind rm (fun v => Some (v * v));
     rmse := rm;
     cv_rmse := filled (obind rm (fun v => quot v (lmean y)));
     nrmse := filled (obind rm (fun v => quot v (largest y - smallest y)));
     nrmse_iqr := filled (obind rm (fun v => quot v (Rabs (quartile 3 y - quartile 1 y))));
     r2 := obind (lstd 1 y) (fun s =>
             obind (quot ss_res (s * s * INR (length y))) (fun q => Some (1 - q))) |}.

(** 2925-3027; [None]: an assertion of [fit_time_series] fails. *)
Definition performance (exclude_zeros : bool) (ip ir : index) (p r : series) : option indicators :=
  obind (fit ip ir p r) (fun l => Some (evaluate (kept exclude_zeros l))).
