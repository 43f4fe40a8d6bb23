(** Model of the solver settings: /repo/multisim/simenv.py [set_timeframe] (243-452).

    Arguments are Python values: booleans (instances of int), integers, floats with infinities and
    NaN, anything else.  [None] is a raised exception of any type.  The keyword arguments are an
    association list. *)
From Coq Require Import Reals List ZArith String Bool.
Import ListNotations.
Open Scope R_scope.

Inductive num : Set := Fin : R -> num | PInf : num | NInf : num | NaN : num.
Inductive val : Set := VBool : bool -> val | VInt : Z -> val | VFloat : num -> val | VOther : val.

(** Comparison [a < b]. *)
Definition nlt (a b : num) : bool :=
  match a, b with
  | Fin x, Fin y => if Rlt_dec x y then true else false
  | Fin _, PInf | NInf, Fin _ | NInf, PInf => true
  | _, _ => false
  end.
(** [isinstance(v, (int, float))] with the value, [isinstance(v, float)], [isinstance(v, bool)]. *)
Definition number (v : val) : option num :=
  match v with
  | VBool b => Some (Fin (if b then 1 else 0))
  | VInt z => Some (Fin (IZR z))
  | VFloat x => Some x
  | VOther => None
  end.
Definition float (v : val) : option num := match v with VFloat x => Some x | _ => None end.

Definition lookup (k : string) (l : list (string * val)) : option val :=
  match find (fun p => String.eqb (fst p) k) l with Some p => Some (snd p) | None => None end.

(** A setting: default when absent, else the checked value. *)
Definition setting (k : string) (kw : list (string * val)) (typ : val -> option num)
  (ok : num -> bool) (default : R) : option num :=
  match lookup k kw with
  | None => Some (Fin default)
  | Some v => match typ v with Some x => if ok x then Some x else None | None => None end
  end.
Definition flag (k : string) (kw : list (string * val)) (default : bool) : option bool :=
  match lookup k kw with
  | None => Some default
  | Some (VBool b) => Some b
  | Some _ => None
  end.
Definition unit_open (x : num) : bool := (nlt (Fin 0) x && nlt x (Fin 1))%bool.

Record settings := {
  tf : R; adaptive : bool; rtol : num; atol : num; max_step : num; min_step : num;
  max_factor : num; min_factor : num; check_vn : bool; max_speed : bool; safety : num;
  recovery : num; start_step : R }.
(** The settings of an adaptive run or the constant step. *)
Inductive mode : Set := Adaptive : settings -> mode | Constant : R -> num -> mode.

(** 391-396: [assert isinstance(...)('...')] calls a bool: TypeError whatever the value. *)
Definition check_vn_arg (kw : list (string * val)) : option bool :=
  match lookup "check_vN" kw with None => Some true | Some _ => None end.

Definition set_timeframe (timeframe : val) (adaptive_steps : val) (kw : list (string * val)) :
  option mode :=
  match number timeframe with
  | Some (Fin T) =>
    if Rlt_dec 0 T then
      match adaptive_steps with
      | VBool true =>
        match setting "rtol" kw float unit_open (1 / 1000),
              setting "atol" kw float unit_open (1 / 1000000),
              setting "max_stepsize" kw number (fun x => nlt (Fin (1 / 100000000)) x) 100 with
        | Some r, Some a, Some mx =>
          match setting "min_stepsize" kw number (fun x => nlt (Fin 0) x && nlt x mx)%bool
                  (1 / 100000000),
                setting "max_factor" kw number (fun x => nlt (Fin 1) x) 2,
                setting "min_factor" kw float unit_open (2 / 10),
                check_vn_arg kw, flag "max_speed" kw false,
                setting "safety_factor" kw float unit_open (9 / 10),
                setting "factor_recovery" kw number (fun x => nlt (Fin 0) x) 50 with
          | Some mn, Some xf, Some nf, Some cv, Some ms, Some sf, Some rc =>
              Some (Adaptive {| tf := T; adaptive := true; rtol := r; atol := a; max_step := mx;
                min_step := mn; max_factor := xf; min_factor := nf; check_vn := cv;
                max_speed := ms; safety := sf; recovery := rc; start_step := 1 |})
          | _, _, _, _, _, _, _ => None
          end
        | _, _, _ => None
        end
      | VBool false =>
        match lookup "timestep" kw with
        | Some v => match number v with
                    | Some h => if nlt (Fin 0) h then Some (Constant T h) else None
                    | None => None
                    end
        | None => None
        end
      | _ => None
      end
    else None
  | Some PInf => None (* int(np.ceil(inf)) raises OverflowError (446) *)
  | _ => None
  end.
