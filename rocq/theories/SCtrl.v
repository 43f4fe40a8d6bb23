(** Specification vocabulary for the controllers. *)
From Coq Require Import Reals List.
From Verif Require Import MCtrl.
Import ListNotations.
Open Scope R_scope.

(** Time of call [k] for the step sizes [h]; call [k] (from 1) is made at [clock h k]. *)
Fixpoint clock (h : nat -> R) (k : nat) : R :=
  match k with O => 0 | S k => clock h k + h k end.

(** Samples: 25 degC at time 0 (the value the buffers start with), then the process value
    seen by call [k] at its time. *)
Definition sample (pv : nat -> R) (k : nat) : R := match k with O => 25 | S k => pv k end.

(** [v] is the value at time [tau] of the measured signal, interpolated linearly between
    neighbouring samples and 25 degC before time 0. *)
Definition signal (h pv : nat -> R) (tau v : R) : Prop :=
  (tau <= 0 /\ v = 25) \/
  exists i, clock h i <= tau <= clock h (S i) /\
    v = sample pv i + (sample pv (S i) - sample pv i) * ((tau - clock h i) / h i).

(** Dead-time state after [k] calls. *)
Fixpoint dead_at (junk : nat -> nat -> R) (D : R) (h pv : nat -> R) (k : nat) : dead :=
  match k with
  | O => dead_init D
  | S k => dead_step (junk k) D (h k) (pv k) (dead_at junk D h pv k)
  end.

(** What the controller asks for in a step before the slope limit. *)
Definition wish (c : cfg) (s : st) (i : inp) : R :=
  s_cv (ctrl (mkCfg (f_kind c) (f_min c) (f_max c) None (f_inv c) (f_sub c) (f_off c)
                    (f_ll c) (f_ul c) (f_disc c) (f_dead c)) s i).

(** Sums over the first [k] steps. *)
Fixpoint total (f : nat -> R) (k : nat) : R :=
  match k with O => 0 | S k => total f k + f k end.

(** Controllers the constructors accept: limits in order, slopes of the right sign. *)
Definition cfg_ok (c : cfg) : Prop :=
  f_min c < f_max c /\ f_ll c <= f_ul c /\ 0 <= f_dead c /\
  match f_slope c with None => True | Some (n, p) => n < 0 < p end /\
  match f_kind c with
  | PID g => match g_aw g with None => True | Some a => 0 < a end /\
             match g_rc g with None => True | Some t => 0 < t end
  | BangBang _ hy => 0 <= hy
  | TwoSensors _ _ _ => True
  end.

(** Inputs with positive step sizes. *)
Definition steps_ok (ins : nat -> inp) : Prop := forall k, 0 < i_h (ins k).

(** The input seen by a controller with all errors reversed: set point and process value
    mirrored (error [- (sp - pv)]). *)
Definition mirrored (i : inp) : inp :=
  mkInp (i_h i) (- i_sp i) (- i_pv i) (- i_on i) (i_master i) (i_junk i).

(** Error seen in step [k] without dead time, and the one of the step before (0 at first). *)
Definition err (ins : nat -> inp) (k : nat) : R := i_sp (ins k) - i_pv (ins k).
Definition perr (ins : nat -> inp) (k : nat) : R :=
  match k with O => 0 | S k => err ins k end.

(** Integral of the error up to and including step [k]. *)
Definition integral (ins : nat -> inp) (k : nat) : R :=
  total (fun j => i_h (ins j) * err ins j) (S k).

(** The textbook control law in position form. *)
Definition law (g : gains) (ins : nat -> inp) (k : nat) : R :=
  g_kp g * err ins k + g_ki g * integral ins k
  + g_kd g * ((err ins k - perr ins k) / i_h (ins k)).

(** Within the anti-windup limit. *)
Definition within (aw : option R) (x : R) : Prop :=
  match aw with None => True | Some a => - a <= x <= a end.

(** A controller without slope limit, master and dead time. *)
Definition plain (c : cfg) : Prop := f_slope c = None /\ f_sub c = None /\ f_dead c = 0.
