(** Model of the implicit solving of discretised heat exchangers: [hexnum_imp_root_diff],
    [hexnum_imp_newt_diff] of multisim/precomp_funs.py and the implicit half steps of
    [_heun_adaptive] in multisim/simenv.py.
    Simplifications: exact real arithmetic; two-dimensional arrays are functions of row and
    column (their flattening is omitted). *)
From Coq Require Import Reals List Arith Bool.
From Verif Require Import MFlow MWater MDiff MMix MHexNum.
Import ListNotations.
Open Scope R_scope.

(** [T_ext] after [input_args[0][1:-1, 1:-1] = y]: the inner [n] x 3 cells are [y], the border
    [B] stays (precomp_funs.py 3195). *)
Definition ext_of (n : nat) (B y : grid) : grid := fun i c =>
  if ((1 <=? i) && (i <=? n) && (1 <=? c) && (c <=? 3))%nat
  then y (i - 1)%nat (c - 1)%nat else B i c.

(** The differential of the implicit solver as function of the cell temperatures:
    [hexnum_diff_impl], precomp_funs.py 2997-3185, which is [hexnum_diff] without the stability
    check. *)
Definition hexn_rate (g : hexn) (junk : nat -> R) (io : arr) (f : hflows) (B : grid) (Tp : arr)
  (y : grid) : grid := hr_tot (hexn_diff g junk io f (ext_of (hn_n g) B y) Tp).

(** [hexnum_imp_root_diff], precomp_funs.py 3194-3196. *)
Definition imp_root (d : grid -> grid) (y yprev : grid) (h : R) : grid := fun i c =>
  y i c - yprev i c - h * d y i c.

(** The implicit part of one step (simenv.py 4004-4016 and 4052-4064): two half steps by
    [scipy.optimize.root(fun, x0).x]; [root] is that solver, a function of the residual and the
    start value, whose success flag is not looked at.  [d1], [d2]: the differential with the port
    temperatures of the first and of the second half. *)
Definition impl_step (root : (grid -> grid) -> grid -> grid) (d1 d2 : grid -> grid) (h : R)
  (y0 : grid) : grid :=
  let y1 := root (fun y => imp_root d1 y y0 (h / 2)) y0 in
  root (fun y => imp_root d2 y y1 (h / 2)) y1.

(** Floating point numbers as far as [hexnum_imp_newt_diff] needs them: a division by zero gives
    an infinity (or NaN for 0/0); subtracting [f / inf] = 0 changes nothing. *)
Inductive fval := Num (x : R) | Nan.

(** One pass of the loop of [hexnum_imp_newt_diff], precomp_funs.py 3240-3266, for one cell:
    [y] current, [yl] last iterate, [fl] last residual, [f] residual at [y]; returns the new [y]. *)
Definition newt_cell (y yl f fl : R) : fval :=
  if Req_EM_T f 0 then Num y                       (* not in the mask [nz] *)
  else if Req_EM_T y yl then
    if Req_EM_T f fl then Nan                      (* slope = 0 / 0 *)
    else Num yl                                    (* slope = +-inf *)
  else if Req_EM_T f fl then Nan                   (* f / 0: infinite *)
  else Num (yl - f / ((f - fl) / (y - yl))).
(** Cells in a list of length [m] (flattened array); [d]: differential. *)
Definition vgrid := nat -> R.
Definition newt_pass (m : nat) (d : vgrid -> vgrid) (h : R) (yp y yl fl : vgrid)
  : nat -> fval := fun k => newt_cell (y k) (yl k) (y k - yp k - h * d y k) (fl k).
(** All entries are numbers. *)
Fixpoint all_num (m : nat) (v : nat -> fval) : option vgrid :=
  match m with
  | O => Some (fun _ => 0)
  | S k => match all_num k v, v k with
           | Some a, Num x => Some (fun j => if (j =? k)%nat then x else a j)
           | _, _ => None
           end
  end.
(** [np.any(err > rtol)] with [err = (y - yl) / yl]; [yl = 0] gives an infinity with the sign of
    [y - yl] (NaN for 0/0, which is not greater). *)
Definition newt_go (m : nat) (rtol : R) (y yl : vgrid) : bool :=
  existsb (fun k =>
    if Req_EM_T (yl k) 0 then if Rlt_dec 0 (y k - yl k) then true else false
    else if Rlt_dec rtol ((y k - yl k) / yl k) then true else false) (seq 0 m).
(** The loop.  A pass producing NaN or infinite cells ends the model with [NBad]. *)
Inductive nres := NDone (y : vgrid) | NBad | NFuel.
Fixpoint newt_loop (fuel m : nat) (d : vgrid -> vgrid) (h rtol : R) (yp y yl fl : vgrid) : nres :=
  match fuel with
  | O => NFuel
  | S k =>
    match all_num m (newt_pass m d h yp y yl fl) with
    | None => NBad
    | Some y' =>
      if newt_go m rtol y' yl
      then newt_loop k m d h rtol yp y' y' (fun j => y j - yp j - h * d y j)
      else NDone y'
    end
  end.
(** [hexnum_imp_newt_diff], precomp_funs.py 3224-3268: start from an explicit Euler step with last
    iterate [yprev] and last residual 0 ([err = 1.0] exceeds the tolerance). *)
Definition imp_newt (fuel m : nat) (d : vgrid -> vgrid) (h rtol : R) (yp : vgrid) : nres :=
  newt_loop fuel m d h rtol yp (fun k => yp k + h * d yp k) yp (fun _ => 0).

(** ** Cell counts and system error *)
(** A part as [add_part] looks at it, simenv.py 861-899. *)
Record cpart := { cp_numeric : bool; cp_explicit : bool; cp_gp : nat }.
Definition cells_expl (ps : list cpart) : nat :=
  fold_left (fun acc p => if (cp_numeric p && cp_explicit p)%bool then (acc + cp_gp p)%nat else acc)
    ps 0%nat.
(** [err_rms = (err / self._num_cells_tot_nmrc_expl) ** 0.5], simenv.py 4144.  [err] is a Python
    float; dividing it by the integer 0 raises [ZeroDivisionError] ([None]). *)
Definition err_rms (err : R) (cells : nat) : option R :=
  match cells with O => None | _ => Some (sqrt (err / INR cells)) end.
