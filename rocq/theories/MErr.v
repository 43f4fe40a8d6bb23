(** Model of the statistical error measures.

    Code: /repo/multisim/_utility/stat_error_measures.py [r_squared] (12-44), [r_squared_adj]
    (47-99), [mean_squared_err] (102-144), [mean_abs_err] (147-191), [mean_signed_deviation]
    (194-238), [rmse] (241-268), [cv_rmse] (271-296), [normalized_err] (299-344).

    Simplifications: real arithmetic; numpy arrays with one or two dimensions (a 2-D array is the
    list of its columns); series of different length raise, numpy's broadcasting of series of
    length one is left out; the check for NaN in [y] is left out; division by zero is [NaN]
    ([None]).  [normalized_err] with the norms 'mean' and 'range' and, for 'IQR', with the two
    quartiles as an argument. *)
From Coq Require Import Reals List Bool Arith ZArith.
From Verif Require Import MMpcCost.
Import ListNotations.
Open Scope R_scope.

Inductive arr := One (y : list R) | Two (cols : list (list R)).
(** Result: a number, one number per column, or an exception. *)
Inductive out (A : Type) := Num (a : A) | Cols (l : list A) | Error.
Arguments Num {A} a. Arguments Cols {A} l. Arguments Error {A}.

Definition mean (l : list R) : R := rsum l / INR (length l).

(** Broadcasting of columns (131-136 etc. and [y - y_hat]). *)
Definition same_length (y h : list R) : bool := Nat.eqb (length y) (length h).
Definition colwise {A} (f : list R -> list R -> A) (y h : arr) : out A :=
  match y, h with
  | One y, One h => if same_length y h then Num (f y h) else Error
  | One y, Two hs => if forallb (same_length y) hs then Cols (map (f y) hs) else Error
  | Two ys, One h =>
      if forallb (fun y => same_length y h) ys then Cols (map (fun y => f y h) ys) else Error
  | Two ys, Two hs =>
      match ys, hs with
      | [y], hs => if forallb (same_length y) hs then Cols (map (f y) hs) else Error
      | ys, [h] => if forallb (fun y => same_length y h) ys then Cols (map (fun y => f y h) ys) else Error
      | ys, hs => if (Nat.eqb (length ys) (length hs)
                      && forallb (fun p => same_length (fst p) (snd p)) (combine ys hs))%bool
                  then Cols (map2 f ys hs) else Error
      end
  end.

(** ** Plain measures *)
Definition resid (y h : list R) : list R := map2 Rminus y h.
Definition sq (v : R) : R := v * v.
Definition mse1 (y h : list R) : R := mean (map sq (resid y h)).
Definition mae1 (y h : list R) : R := mean (map Rabs (resid y h)).
Definition msd1 (y h : list R) : R := mean (resid h y).
Definition rmse1 (y h : list R) : R := sqrt (mse1 y h).

Definition mean_squared_err := colwise mse1.
Definition mean_abs_err := colwise mae1.
Definition mean_signed_deviation := colwise msd1.
Definition rmse := colwise rmse1.

(** ** Coefficient of determination *)
Definition ss_res1 (y h : list R) : R := rsum (map sq (resid y h)).
Definition ss_tot1 (y : list R) : R := rsum (map (fun v => sq (v - mean y)) y).
(** 43: the sum runs over all columns of [y]. *)
Definition ss_tot (y : arr) : R :=
  match y with One y => ss_tot1 y | Two ys => rsum (map ss_tot1 ys) end.
Definition ratio (a b : R) : option R := if Req_EM_T b 0 then None else Some (a / b).
Definition r_squared (y h : arr) : out (option R) :=
  colwise (fun y1 h1 => option_map (fun q => 1 - q) (ratio (ss_res1 y1 h1) (ss_tot y))) y h.

(** 96-99, called with [r_sqrd] and [n] (with [y] and [y_hat] the function stops in a debugger,
    line 90). *)
Definition r_squared_adj (p r : R) (n : R) : option R :=
  let top := if Rle_dec r 1 then 1 else 100 in
  option_map (fun q => top - q) (ratio ((top - r) * (n - 1)) (n - p - 1)).

(** ** Normalised measures *)

(** [np.mean(y)]: over all entries. *)
Definition mean_all (y : arr) : R :=
  match y with One y => mean y | Two ys => mean (concat ys) end.
Definition over (b : R) (o : out R) : out (option R) :=
  match o with Num a => Num (ratio a b) | Cols l => Cols (map (fun a => ratio a b) l) | Error => Error end.
Definition cv_rmse (y h : arr) : out (option R) := over (mean_all y) (rmse y h).

Inductive method := MSE | RMSE | MSD | MAE.
Definition err_fun (m : method) : arr -> arr -> out R :=
  match m with MSE => mean_squared_err | RMSE => rmse | MSD => mean_signed_deviation | MAE => mean_abs_err end.
Definition lmaximum (l : list R) : R := match l with [] => 0 | a :: l => fold_left Rmax l a end.
Definition lminimum (l : list R) : R := match l with [] => 0 | a :: l => fold_left Rmin l a end.
Definition normalized_mean (m : method) (y h : arr) : out (option R) := over (mean_all y) (err_fun m y h).
Definition normalized_range (m : method) (y : list R) (h : arr) : out (option R) :=
  over (lmaximum y - lminimum y) (err_fun m (One y) h).
Definition normalized_iqr (m : method) (quart : arr -> R * R) (y h : arr) : out (option R) :=
  over (fst (quart y) - snd (quart y)) (err_fun m y h).

(** ** Rolling measures *)

(** [pd.DataFrame(l).rolling(window=w, min_periods=mp, center=True).mean()], row [i], one column:
    the window ends at row [i + (w - 1) / 2]. *)
Definition window (w : nat) (l : list R) (i : nat) : list R :=
  let e := (i + (w - 1) / 2)%nat in
  firstn (S e - (S e - w)) (skipn (S e - w) l).
Definition rolling (w mp : nat) (l : list R) (i : nat) : option R :=
  let v := window w l i in
  if (Nat.ltb (length v) mp || Nat.eqb (length v) 0)%bool then None else Some (mean v).
Definition roll_mse (w mp : nat) (y h : list R) (i : nat) : option R := rolling w mp (map sq (resid y h)) i.
Definition roll_mae (w mp : nat) (y h : list R) (i : nat) : option R := rolling w mp (map Rabs (resid y h)) i.
Definition roll_msd (w mp : nat) (y h : list R) (i : nat) : option R := rolling w mp (resid h y) i.
Definition roll_rmse (w mp : nat) (y h : list R) (i : nat) : option R :=
  option_map sqrt (roll_mse w mp y h i).
