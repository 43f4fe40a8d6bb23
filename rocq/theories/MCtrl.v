(** Model of the controllers: PID, bang-bang and two-sensor controllers with dead time,
    saturation, slope limit, inversion, sub-controller check and hardware limits.

    Code: /repo/multisim/controls.py [Controls.__init__] (defaults, 606-804),
    [Controls.ctrl] (841-907), [_process_cv_direct] (909-917), [_clip_cv_to_saturation]
    (919-926), [_cv_invert] (928-930), [_subcontroller_check] (932-953);
    /repo/multisim/parts/controllers.py [PID] (366-494), [BangBang] (497-554), [TwoSensors]
    (557-661); /repo/multisim/precomp_funs.py [ctrl_deadtime] (3654-3729).

    Simplifications: [steady_state=True] is not modelled; [process_CV_mode] is 'direct'; the
    set point is an input of each step. *)
From Coq Require Import Reals List Arith Bool ZArith.
Import ListNotations.
Open Scope R_scope.

(** ** Dead time *)

(** The state kept for the dead time; [d_idx = None] stands for -1. *)
Record dead := mkDead {
  d_age : list R;         (* dt_arr *)
  d_pv : list R;          (* pv_arr *)
  d_idx : option nat;     (* dt_idx *)
  d_last : nat;           (* last_dt_idx *)
  d_val : R               (* delayed_pv *)
}.

(** controls.py 641-650, 797-800: [ceil (100 * deadtime)] slots, 25 degC everywhere. *)
Definition buf_len (D : R) : nat := Z.to_nat (1 - up (- (100 * D))).
Definition dead_init (D : R) : dead :=
  mkDead (repeat 0 (buf_len D)) (repeat 25 (buf_len D)) (Some O) O 25.

(** First slot that is at least [D] old (precomp_funs.py 3680-3687). *)
Fixpoint first_old (D : R) (l : list R) : option nat :=
  match l with
  | [] => None
  | a :: r => if Rle_dec D a then Some O else option_map S (first_old D r)
  end.

(** Reading slot [i]; the compiled code does not check the index: beyond the end it reads
    whatever memory holds there. *)
Definition rd (junk : nat -> R) (l : list R) (i : nat) : R :=
  if lt_dec i (length l) then nth i l 0 else junk i.

(** [l[i:] = 0]; [None] is index -1, the last slot. *)
Definition zero_from (i : option nat) (l : list R) : list R :=
  match i with
  | Some i => firstn i l ++ repeat 0 (length l - i)
  | None => firstn (length l - 1) l ++ repeat 0 (length l - (length l - 1))
  end.

(** [l[1:] = l[:-1]; l[0] = x]. *)
Definition push (x : R) (l : list R) : list R := firstn (length l) (x :: l).

(** precomp_funs.py 3654-3729 without the error, which is [sp - d_val]. *)
Definition dead_step (junk : nat -> R) (D h pv : R) (s : dead) : dead :=
  let age := map (fun a => a + h) (d_age s) in
  let last := match d_idx s with Some i => i | None => S (d_last s) end in
  let idx := first_old D age in
  let val :=
    match idx with
    | Some O => d_val s + (rd junk (d_pv s) 0 - d_val s) / D * rd junk age 0
    | Some (S i) =>
        if Req_EM_T (rd junk age (S i)) D then rd junk (d_pv s) (S i)
        else rd junk (d_pv s) i
             + (rd junk (d_pv s) (S i) - rd junk (d_pv s) i)
               / (rd junk age (S i) - rd junk age i) * (D - rd junk age i)
    | None => d_val s + (rd junk (d_pv s) last - d_val s)
                        / (D - (rd junk age last - h)) * h
    end in
  mkDead (push 0 (zero_from idx age)) (push pv (d_pv s)) idx last val.

(** ** Controllers *)

(** Gains, anti-windup limit ([None] = infinite), time constant of the derivative filter
    ([None] = no filter); parts/controllers.py 160-364. *)
Record gains := mkGains {
  g_kp : R; g_ki : R; g_kd : R; g_aw : option R; g_rc : option R
}.

Inductive kind :=
| PID (g : gains)
| BangBang (reversed : bool) (hyst : R)          (* hyst >= 0 *)
| TwoSensors (act_low : bool) (act_val : R) (deact_low : bool).

Record cfg := mkCfg {
  f_kind : kind;
  f_min : R; f_max : R;             (* CV_saturation *)
  f_slope : option (R * R);         (* (negative, positive); None for (0, 0) *)
  f_inv : bool;                     (* invert *)
  f_sub : option (bool * R);        (* concurrent?, off state of the master *)
  f_off : R;                        (* off_state *)
  f_ll : R; f_ul : R;               (* hardware limits of the actuator *)
  f_disc : bool;                    (* time_domain = 'discrete' *)
  f_dead : R                        (* deadtime *)
}.

Record st := mkSt {
  s_cv : R; s_err : R; s_err1 : R; s_err2 : R;
  s_i : R; s_pi : R;                (* i_term, prev_i_term *)
  s_deriv : R;
  s_dead : dead;
  s_act : R                         (* value at the actuator *)
}.

(** What the controller sees in one step. *)
Record inp := mkInp {
  i_h : R;                          (* timestep *)
  i_sp : R; i_pv : R; i_on : R;     (* set point, process value, on-sensor *)
  i_master : R;                     (* actuator value of the master *)
  i_junk : nat -> R                 (* memory behind the dead-time buffer *)
}.

(** controls.py 780-800 (defaults); the actuator starts with [act]. *)
Definition fresh (c : cfg) (act : R) : st :=
  mkSt 0 0 0 0 0 0 0 (dead_init (f_dead c)) act.

Definition clip (lo hi x : R) : R := if Rlt_dec x lo then lo else if Rlt_dec hi x then hi else x.

(** Anti-windup limit. *)
Definition clip_aw (aw : option R) (x : R) : R :=
  match aw with None => x | Some a => clip (- a) a x end.

(** Derivative with or without low-pass filter. *)
Definition filtered (rc : option R) (h prev raw : R) : R :=
  match rc with None => raw | Some t => prev + h / (t + h) * (raw - prev) end.

(** [_cv_invert]. *)
Definition sgn (c : cfg) : R := if f_inv c then -1 else 1.

Definition is0 (x : R) : bool := if Req_EM_T x 0 then true else false.

(** [PID.run_controller], 375-494, up to the sub-controller check: new value, integral,
    derivative. *)
Definition run_pid (c : cfg) (g : gains) (s : st) (h : R) : R * R * R :=
  if f_disc c then
    if is0 (g_ki g) then
      let d := filtered (g_rc g) h (s_deriv s) (s_err s - s_err1 s) in
      (clip (f_min c) (f_max c) (g_kp g * s_err s + g_kd g / h * d), s_i s, d)
    else
      let d := filtered (g_rc g) h (s_deriv s) (s_err s - 2 * s_err1 s + s_err2 s) in
      (clip (f_min c) (f_max c)
         (clip_aw (g_aw g) (s_cv s) + g_kp g * (s_err s - s_err1 s) + g_ki g * h * s_err s
          + g_kd g / h * d), s_i s, d)
  else
    let i := clip_aw (g_aw g) (h * s_err s + s_pi s) in
    let d := filtered (g_rc g) h (s_deriv s) (s_err s - s_err1 s) in
    (clip (f_min c) (f_max c)
       ((g_kp g * s_err s + g_ki g * i + g_kd g * (d / h)) * sgn c), i, d).

(** [BangBang.run_controller], 536-551. *)
Definition run_bb (c : cfg) (rev : bool) (hyst : R) (cv : R) (i : inp) : R :=
  sgn c *
  (if Rlt_dec (i_pv i) (i_sp i - hyst / 2) then if rev then f_off c else f_max c
   else if Rlt_dec (i_sp i + hyst / 2) (i_pv i) then if rev then f_max c else f_off c
   else cv).

(** [TwoSensors.run_controller], 638-658. *)
Definition below (low : bool) (x lim : R) : bool :=
  if low then if Rlt_dec x lim then true else false
  else if Rlt_dec lim x then true else false.
Definition run_ts (c : cfg) (al : bool) (av : R) (dl : bool) (cv : R) (i : inp) : R :=
  let cv1 := if below al (i_on i) av then f_max c else cv in
  sgn c * (if below dl (i_pv i) (i_sp i) then f_off c else cv1).

(** [_subcontroller_check]: does the dependency switch the controller off? *)
Definition blocked (c : cfg) (i : inp) : bool :=
  match f_sub c with
  | None => false
  | Some (conc, off) => if Req_EM_T (i_master i) off then conc else negb conc
  end.

(** Slope limit (889-898). *)
Definition limit (c : cfg) (prev h cv : R) : R :=
  match f_slope c with
  | None => cv
  | Some (n, p) =>
      let q := (cv - prev) / h in
      if Rle_dec n q then if Rle_dec q p then cv else prev + p * h
      else if Rlt_dec p q then prev + p * h else prev + n * h
  end.

(** [Controls.ctrl]. *)
Definition ctrl (c : cfg) (s : st) (i : inp) : st :=
  let h := i_h i in
  let e2 := if f_disc c then s_err1 s else s_err2 s in
  let e1 := s_err s in
  let pi := if f_disc c then s_pi s else s_i s in
  let dd := if Req_EM_T (f_dead c) 0 then s_dead s
            else dead_step (i_junk i) (f_dead c) h (i_pv i) (s_dead s) in
  let e := i_sp i - (if Req_EM_T (f_dead c) 0 then i_pv i else d_val dd) in
  let s1 := mkSt (s_cv s) e e1 e2 (s_i s) pi (s_deriv s) dd (s_act s) in
  let '(cv, it, de) :=
    match f_kind c with
    | PID g =>
        let '(cv, it, de) := run_pid c g s1 h in
        if blocked c i then (f_off c, 0, de) else (cv, it, de)
    | BangBang rev hy =>
        (if blocked c i then f_off c else run_bb c rev hy (s_cv s) i, s_i s, s_deriv s)
    | TwoSensors al av dl =>
        (if blocked c i then f_off c else run_ts c al av dl (s_cv s) i, s_i s, s_deriv s)
    end in
  let cv' := limit c (s_cv s) h cv in
  mkSt cv' e e1 e2 it pi de dd (clip (f_ll c) (f_ul c) cv').

(** [_reset_to_init_cond] (366-373, 527-534, 629-636) followed by the reset of the actuator
    part to [act].  The integral [i_term] and the dead-time buffers are not touched. *)
Definition reset (s : st) (act : R) : st := mkSt 0 0 0 0 (s_i s) 0 0 (s_dead s) act.

(** A sequence of control steps. *)
Fixpoint after (c : cfg) (s : st) (ins : list inp) : st :=
  match ins with [] => s | i :: r => after c (ctrl c s i) r end.

(** The same for an infinite input: state after the first [k] steps. *)
Fixpoint ctrl_at (c : cfg) (s : st) (ins : nat -> inp) (k : nat) : st :=
  match k with O => s | S k => ctrl c (ctrl_at c s ins k) (ins k) end.

(** What a user sees: actuator values after each step. *)
Fixpoint outputs (c : cfg) (s : st) (ins : list inp) : list R :=
  match ins with [] => [] | i :: r => s_act (ctrl c s i) :: outputs c (ctrl c s i) r end.

(** ** Construction of a controller: set point from another part (controls.py 296-325) and
    the selection of gains (parts/controllers.py 160-340), reduced to which arguments are
    given. *)
Inductive arg := Setpoint | RefSPdiff | DifferenceToRef | Kp | Ki | Kd.
Inductive outcome (A : Type) := Built (a : A) | AssertionFails | Crash.
Arguments Built {A}. Arguments AssertionFails {A}. Arguments Crash {A}.

(** [ref] = a reference part is given; the result is the constant part of the set point. *)
Definition get_sp (ref : bool) (kw : arg -> option R) : outcome R :=
  if ref then
    match kw RefSPdiff with
    | None => AssertionFails
    | Some _ => match kw DifferenceToRef with None => Crash | Some d => Built d end
    end
  else match kw Setpoint with None => AssertionFails | Some x => Built x end.

(** The accepted values of [terms] (parts/controllers.py 19-29) and manual loop tuning
    (87-129).  Only 'P', 'PI', 'PD' and 'PID' enter the block that defines the gains (48-50);
    for 'I' the attributes [kp], [ki], [kd] are never created and the first access fails. *)
Inductive terms := TP | TI | TPI | TPD | TPID.
Definition has_I (t : terms) : bool := match t with TP | TPD => false | _ => true end.
Definition has_D (t : terms) : bool := match t with TPD | TPID => true | _ => false end.
Definition want (b : bool) (x : option R) : option R := if b then x else Some 0.
Definition manual_gains (t : terms) (kw : arg -> option R) : outcome (R * R * R) :=
  match t with
  | TI => Crash
  | _ => match kw Kp, want (has_I t) (kw Ki), want (has_D t) (kw Kd) with
         | Some p, Some i, Some d => Built (p, i, d)
         | _, _, _ => AssertionFails
         end
  end.

(** 'auto_X' (parts/controllers.py 344-362): limit [X / ki], accepted if positive. *)
Definition auto_aw (X ki : R) : outcome R :=
  if Rlt_dec 0 (X / ki) then Built (X / ki) else AssertionFails.
