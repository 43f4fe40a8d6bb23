(** Model of the adaptive step-size control of the solver.

    Code: /repo/multisim/simenv.py, [SimEnv._heun_adaptive] (lines 3920-4260) and
    [SimEnv.set_timeframe] (lines 243-453); the stability checkers
    /repo/multisim/precomp_funs.py lines 640-1026 (only their effect on the shared solver
    variables; their criterion is modelled in [MStab]). *)
From Coq Require Import Reals List Arith Lia.
Import ListNotations.
Open Scope R_scope.

(** Solver settings stored by [set_timeframe] (simenv.py 335-418).  [rtol]/[atol] only enter
    the error value, which is an input of this model. *)
Record cfg := mkCfg {
  c_max_step   : R;    (* __max_stepsize *)
  c_min_step   : R;    (* __min_stepsize *)
  c_max_factor : R;    (* value given for max_factor *)
  c_min_factor : R;    (* __min_factor *)
  c_safety     : R;    (* __safety *)
  c_fctr_rec   : R     (* _fctr_rec_stps *)
}.

(** The range checks of [set_timeframe] for these settings (simenv.py 354-413). *)
Definition cfg_ok (c : cfg) : Prop :=
  1e-8 < c_max_step c /\ 0 < c_min_step c < c_max_step c /\ 1 < c_max_factor c /\
  0 < c_min_factor c < 1 /\ 0 < c_safety c < 1 /\ 0 < c_fctr_rec c.

(** System wide RMS error [err_rms] of an attempt (simenv.py 4110): a non-negative number,
    infinity or NaN. *)
Inductive errval := ENum (e : R) | EInf | ENan.

(** What the parts report during one attempt.  [OUnstable d]: during the predictor loop a
    part reports a stability violation with divider [vN_div_max = d] (> 1), the loop breaks
    (simenv.py 3983-3985).  [OStable ds e]: no violation in the predictor loop, violations
    with dividers [ds] in the corrector loop (ignored by the solver apart from their effect
    on the shared variables), error [e]. *)
Inductive outcome := OUnstable (d : R) | OStable (ds : list R) (e : errval).

(** Variables of the solver.  [s_vN = None] stands for [np.inf]. *)
Record sst := mkSst {
  s_h   : R;          (* _h *)
  s_vN  : option R;   (* _vN_max_step[0] *)
  s_mf  : R;          (* _max_factor[0] *)
  s_ssf : nat;        (* _steps_since_fail *)
  s_cnt : nat         (* cnt_instable *)
}.

(** [max_factor] adjustment of a stability checker (precomp_funs.py 736-739, 1007-1010). *)
Definition lower_mf (m : R) : R :=
  if Rlt_dec 1.05 m then
    (let m' := Rpower m 0.99 in if Rlt_dec m' 1.05 then 1.05 else m')
  else m.

(** One stability violation with divider [d] during an attempt with step [h]
    (precomp_funs.py 722-739, 993-1010): shared [vN_max_step], [max_factor]. *)
Definition breach (h : R) (vm : option R * R) (d : R) : option R * R :=
  let loc := h / d * 0.95 in
  (match fst vm with
   | None => Some loc
   | Some v => if Rlt_dec loc v then Some loc else Some v
   end, lower_mf (snd vm)).

(** Third root of the error as used in [err_rms ** (-1 / (order + 1))] with order 2
    (simenv.py 4126-4129); Python evaluates [inf ** (-1/3) = 0]. *)
Definition err_pow (e : R) : R := Rpower e (- (1/3)).

(** Factor applied to the step size after an error rejection (simenv.py 4186-4192);
    [max(min_factor, nan)] is [min_factor] in Python. *)
Definition reject_factor (c : cfg) (e : errval) : R :=
  match e with
  | ENum r => Rmax (c_min_factor c) (c_safety c * err_pow r)
  | EInf => Rmax (c_min_factor c) (c_safety c * 0)
  | ENan => c_min_factor c
  end.

(** Factor applied to the step size after acceptance with [0 < err < 1]
    (simenv.py 4121-4135). *)
Definition accept_factor (c : cfg) (mf : R) (ssf : nat) (r : R) : R :=
  Rmax 1 (Rmin mf (c_safety c * err_pow r) * (INR ssf / c_fctr_rec c) ^ 2).

(** Result of one pass of the while loop. *)
Inductive attempt_res :=
| AAccept (used : R) (code : nat) (s : sst)  (* timestep, _solver_state, new variables *)
| ARetry (s : sst)
| ARaise.                                    (* ValueError: no stable solution found *)

(** Limit the next step to the maximum (simenv.py 4137-4144, 4159-4161). *)
Definition cap (c : cfg) (h : R) : R :=
  if Rlt_dec (c_max_step c) h then c_max_step c else h.

(** One pass of the while loop (simenv.py 3966-4256) given what the parts report.
    Simplified: only the variables of the step-size control; the numerical state is in
    [MHeun]. *)
Definition attempt (c : cfg) (s : sst) (o : outcome) : attempt_res :=
  match o with
  | OUnstable d =>
      let vm := breach (s_h s) (s_vN s, s_mf s) d in
      let h' := match fst vm with Some v => v * 0.9 | None => 0 end in
      (* fst vm is never None after a breach *)
      if Nat.eqb (S (s_cnt s)) 100 then ARaise
      else ARetry (mkSst h' (fst vm) (snd vm) 0 (S (s_cnt s)))
  | OStable ds e =>
      let vm := fold_left (breach (s_h s)) ds (s_vN s, s_mf s) in
      let reject :=
        if Req_EM_T (s_h s) (c_min_step c) then
          AAccept (s_h s) 6 (mkSst (s_h s) (fst vm) (snd vm) (s_ssf s) (s_cnt s))
        else
          let h' := s_h s * reject_factor c e in
          let h'' := if Rlt_dec h' (c_min_step c) then c_min_step c else h' in
          ARetry (mkSst h'' (fst vm) (snd vm) (s_ssf s) (s_cnt s)) in
      match e with
      | ENum r =>
          if Rlt_dec 0 r then
            if Rlt_dec r 1 then
              let h' := s_h s * accept_factor c (snd vm) (s_ssf s) r in
              AAccept (s_h s) (if Rlt_dec (c_max_step c) h' then 5 else 4)
                      (mkSst (cap c h') (fst vm) (snd vm) (s_ssf s) (s_cnt s))
            else reject
          else if Req_EM_T r 0 then
            AAccept (s_h s) 7
                    (mkSst (cap c (s_h s * snd vm)) (fst vm) (snd vm) (s_ssf s) (s_cnt s))
          else reject
      | _ => reject
      end
  end.

Inductive step_res :=
| Accepted (used : R) (code : nat) (s : sst)
| Raised
| OutOfFuel.

(** The while loop; [o i] is what the parts report in pass [i]. *)
Fixpoint step_loop (c : cfg) (fuel : nat) (o : nat -> outcome) (i : nat) (s : sst)
  : step_res :=
  match fuel with
  | O => OutOfFuel
  | S f =>
      match attempt c s (o i) with
      | AAccept u k s' => Accepted u k s'
      | ARetry s' => step_loop c f o (S i) s'
      | ARaise => Raised
      end
  end.

(** Entry of [_heun_adaptive] (simenv.py 3945-3963): take over [_new_step], reset the
    counters and the von Neumann step. *)
Definition enter (s : sst) : sst := mkSst (s_h s) None (s_mf s) (S (s_ssf s)) 0.

(** One call of [_heun_adaptive]. *)
Definition solver_step (c : cfg) (fuel : nat) (o : nat -> outcome) (s : sst) : step_res :=
  step_loop c fuel o 0 (enter s).

(** State after [set_timeframe] (simenv.py 369-372, 414-418): first step is always 1.0. *)
Definition init_sst (c : cfg) : sst := mkSst 1 None (c_max_factor c) 0 0.

(** What the environment guarantees about an outcome: dividers are only reported if they
    exceed 1 (precomp_funs.py 715, 986) and [err_rms] is a root, hence not negative. *)
Definition reported_ok (o : outcome) : Prop :=
  match o with
  | OUnstable d => 1 < d
  | OStable ds e =>
      Forall (fun d => 1 < d) ds /\ match e with ENum r => 0 <= r | _ => True end
  end.

(** A run of the solver: for each step the stream of reported outcomes ([os]) and the
    accepted step size ([us]), oldest first. *)
Inductive solver_run (c : cfg) : list (nat -> outcome) -> list R -> sst -> Prop :=
| run_init : solver_run c [] [] (init_sst c)
| run_step os us s fuel o u k s' :
    solver_run c os us s ->
    (forall i, reported_ok (o i)) ->
    solver_step c fuel o s = Accepted u k s' ->
    solver_run c (os ++ [o]) (us ++ [u]) s'.
