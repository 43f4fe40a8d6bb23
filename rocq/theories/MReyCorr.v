(** The search for a Reynolds correction.

    Code modelled: parts/heatexchanger.py 943-1020 ([find_Reynolds_correction]) and
    parts/hex_num.py 1106-1188 ([find_reynolds_correction]), which differ in the names only, with
    [phex_alpha_i_wll_sep], precomp_funs.py 4516-4597, as it works on arrays of points;
    heatexchanger.py 442-453 and hex_num.py 543-559 ([_corr_Re], [_cell_dist]).

    Simplifications: exact reals.  [scipy.optimize.minimize] is not modelled: it may return any
    number [x] and reports the value of the objective there.  [P] and [alpha_target] are given
    together with the temperatures as a list of points; a single number is a list of one.  The
    assertions on types and shapes of the arguments hold by that.  The formula for channels with
    positive Reynolds number is [hex_alpha] of MMix. *)
From Coq Require Import Reals List Bool Arith.
From Verif Require Import MWater MMix.
Import ListNotations.
Local Open Scope R_scope.

(** A measured point: arguments [T_in], [T_out], [P], [alpha_target]. *)
Record hpoint := { hp_Tin : R; hp_Tout : R; hp_P : R; hp_target : R }.
(** The argument [side]. *)
Inductive hside := Supply | Demand.
(** Lines 954-957 (1120-1123): [num_channels]. *)
Definition side_channels (g : hexgeo) (s : hside) : R :=
  match s with Supply => hg_nsup g | Demand => hg_ndmd g end.
(** The exchanger with another [_corr_Re] and another distance. *)
Definition with_corr (g : hexgeo) (x : R) : hexgeo :=
  {| hg_A_plate := hg_A_plate g; hg_A_chan := hg_A_chan g; hg_dh := hg_dh g; hg_s := hg_s g;
     hg_x := hg_x g; hg_lam := hg_lam g; hg_numA := hg_numA g; hg_nsup := hg_nsup g;
     hg_ndmd := hg_ndmd g; hg_corr := x |}.
Definition with_dist (g : hexgeo) (d : R) : hexgeo :=
  {| hg_A_plate := hg_A_plate g; hg_A_chan := hg_A_chan g; hg_dh := hg_dh g; hg_s := hg_s g;
     hg_x := d; hg_lam := hg_lam g; hg_numA := hg_numA g; hg_nsup := hg_nsup g;
     hg_ndmd := hg_ndmd g; hg_corr := hg_corr g |}.

(** Line 974: [T_mean]. *)
Definition hp_Tm (p : hpoint) : R := (hp_Tin p + hp_Tout p) / 2.
(** Line 985: [dm = abs(P / ((T_in - T_out) * cp_mean))]. *)
Definition hp_dm (p : hpoint) : R :=
  Rabs (hp_P p / ((hp_Tin p - hp_Tout p) * cp_water (hp_Tm p))).

(** Line 4560 and 4566: Reynolds number of a channel with its correction. *)
Definition chan_Re (g : hexgeo) (corr dm T : R) : R :=
  Rabs (dm / (rho_water T * hg_A_chan g)) * hg_dh g / ny_water T + corr.
(** Coefficient of one channel at distance [d] ([None] is NaN): powers of a negative Reynolds
    number are NaN, the power of zero is zero (lines 4579-4584). *)
Definition chan_alpha (g : hexgeo) (corr d dm T : R) : option R :=
  if Rlt_dec (chan_Re g corr dm T) 0 then None
  else if Req_EM_T (chan_Re g corr dm T) 0
  then Some (Rpower (49.371 + (- 0.7) ^ 3) (1/3) * lambda_water T / hg_dh g)
  else Some (hex_alpha (with_corr (with_dist g d) corr) dm T).

(** NumPy: an operation on two one-dimensional arrays. *)
Definition bcast {A B C} (f : A -> B -> C) (l : list A) (m : list B) : option (list C) :=
  if (length l =? length m)%nat then Some (map (fun p => f (fst p) (snd p)) (combine l m))
  else match m with
       | [y] => Some (map (fun x => f x y) l)
       | _ => match l with [x] => Some (map (f x) m) | _ => None end
       end.
(** [Nu[mask] = values] for the rows where [p] holds: as many values as rows. *)
Definition masked {A C} (p : A -> bool) (rows : list A) (vals : option (list C)) : option (list C) :=
  match vals with
  | Some v => if (length v =? length (filter p rows))%nat then Some v else None
  | None => None
  end.
(** The filled array: values of the rows where [p] holds from [a], the others from [b]. *)
Fixpoint scatter {A C} (p : A -> bool) (rows : list A) (a b : list C) : list C :=
  match rows with
  | [] => []
  | r :: rs => if p r
               then match a with v :: a' => v :: scatter p rs a' b | [] => [] end
               else match b with v :: b' => v :: scatter p rs a b' | [] => [] end
  end.

Definition point_turb (g : hexgeo) (s : hside) (corr : R) (p : hpoint) : bool :=
  if Rlt_dec 2300 (chan_Re g corr (hp_dm p / side_channels g s) (hp_Tm p)) then true else false.

(** Lines 4575-4597 for all points: [dist] is [_cell_dist].  [None]: an exception. *)
Definition alphas (g : hexgeo) (dist : list R) (s : hside) (pts : list hpoint) (corr : R)
  : option (list (option R)) :=
  let al p d := chan_alpha g corr d (hp_dm p / side_channels g s) (hp_Tm p) in
  let lam p := negb (point_turb g s corr p) in
  match masked lam pts (bcast al (filter lam pts) dist),
        masked (point_turb g s corr) pts (bcast al (filter (point_turb g s corr) pts) dist) with
  | Some b, Some a => Some (scatter (point_turb g s corr) pts a b)
  | _, _ => None
  end.

(** What the objective gives. *)
Inductive outcome := Raised | NaN | Val (v : R).
(** Line 1012: [abs(alpha / alpha_target - 1).sum()]; a temperature difference of zero or a target
    of zero make the deviation infinite or NaN. *)
Fixpoint deviation (pts : list hpoint) (a : list (option R)) : option R :=
  match pts, a with
  | [], _ => Some 0
  | p :: ps, Some v :: r =>
      if Req_EM_T (hp_Tin p) (hp_Tout p) then None
      else if Req_EM_T (hp_target p) 0 then None
      else option_map (Rplus (Rabs (v / hp_target p - 1))) (deviation ps r)
  | _, _ => None
  end.
Definition objective (g : hexgeo) (dist : list R) (s : hside) (pts : list hpoint) (x : R) : outcome :=
  match alphas g dist s pts x with
  | None => Raised
  | Some a => match deviation pts a with Some v => Val v | None => NaN end
  end.

(** Lines 1014-1020: the correction found is stored, the objective there is printed.  The first
    evaluation is at the start value 1 (line 988). *)
Definition find_corr (g : hexgeo) (dist : list R) (s : hside) (pts : list hpoint) (x : R)
  : option (hexgeo * outcome) :=
  match objective g dist s pts 1, objective g dist s pts x with
  | Raised, _ | _, Raised => None
  | _, o => Some (with_corr g x, o)
  end.
(** HeatExchanger: [_cell_dist = np.array([self.length])]. *)
Definition find_plate (g : hexgeo) := find_corr g [hg_x g].
(** HEXnum: [_cell_dist], one distance per cell. *)
Definition find_num (g : hexgeo) (dist : list R) := find_corr g dist.
