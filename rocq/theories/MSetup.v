(** Model of the variables which the environment and its parts share, and of the calls which prepare a run.

    Code: /repo/multisim/simenv.py [set_timeframe] (374-379 and 440-453), [_initialize_arrays] (4640-4673,
    4718), [_create_diff_inputs] (4740-4772), [_reset_simenv] (4782-4806), [initialize_sim] (4808-4845),
    [start_sim] (5035-5042), first loop of [_heun_adaptive] (3966-3992); parts/pipe.py 485, tes.py 573,
    hex_num.py 616 (arrays taken from the argument tuple), parts/heated_pipe.py 246-303, chp_plant.py
    1005-1024 (arrays looked up in the environment); precomp_funs.py 722-743 (what a checker writes).

    Simplifications: only calls whose arguments are accepted; [initialize_sim] after the first time with
    [build_simenv=False]; arrays with one entry are references into a memory of values; the number of rows
    limited by the memory ([_max_steps], 4642) is a natural number. *)
From Coq Require Import Reals List Arith Bool.
From Verif Require Import MSolver MRun.
Import ListNotations.
Open Scope R_scope.

(** Arguments of [set_timeframe]: steps needed with the first step size (446: [ceil(timeframe/timestep)]),
    adaptive steps or not, largest factor. *)
Record setting := { t_num : nat; t_adaptive : bool; t_mf : R }.
Inductive prep := SetTime (t : setting) | Initialize (reset : bool).

(** Limits of the number of steps kept: [_msb4save] and [_max_steps]. *)
Record limits := { l_save : nat; l_ram : nat }.

Record env := {
  v_next : nat;              (* next free reference *)
  v_stable : nat;            (* reference of [_step_stable] *)
  v_factor : nat;            (* reference of [_max_factor] *)
  v_held : option (nat * nat);  (* references in the argument tuples of the parts *)
  v_flag : nat -> bool;      (* memory *)
  v_mf : nat -> R;
  v_num : nat;               (* [num_steps] *)
  v_rows : nat;              (* rows of the result arrays *)
  v_set : option setting;    (* arguments kept for a reset; [_timeframe_set] *)
  v_ready : bool             (* [_initialized] *) }.
Definition env0 : env :=
  {| v_next := 0; v_stable := 0; v_factor := 0; v_held := None; v_flag := fun _ => true; v_mf := fun _ => 0;
     v_num := 0; v_rows := 0; v_set := None; v_ready := false |}.
Definition upd {A} (f : nat -> A) (k : nat) (v : A) : nat -> A := fun i => if (i =? k)%nat then v else f i.

(** 374-379, 440-453: new arrays, the old ones are left where they are used. *)
Definition set_time (e : env) (t : setting) : env :=
  {| v_next := S (S (v_next e)); v_stable := v_next e; v_factor := S (v_next e); v_held := v_held e;
     v_flag := upd (v_flag e) (v_next e) true; v_mf := upd (v_mf e) (S (v_next e)) (t_mf t);
     v_num := t_num t; v_rows := v_rows e; v_set := Some t; v_ready := v_ready e |}.
(** 4646-4664. *)
Definition steps_kept (l : limits) (adaptive : bool) (n : nat) : nat :=
  let n := if adaptive then (100 * n)%nat else n in
  if ((l_save l <? n) || (l_ram l <? n))%nat%bool then (if (l_save l <? l_ram l)%nat then l_save l else l_ram l) else n.
(** 4640-4718 and 4740-4772; [None] is the AssertionError of 4608. *)
Definition initialize (l : limits) (e : env) (reset : bool) : option env :=
  match v_set e with
  | None => None
  | Some t =>
      let e := if reset then set_time e t else e in
      let n := steps_kept l (t_adaptive t) (v_num e) in
      Some {| v_next := v_next e; v_stable := v_stable e; v_factor := v_factor e;
              v_held := Some (v_stable e, v_factor e); v_flag := v_flag e; v_mf := v_mf e;
              v_num := n; v_rows := S n; v_set := v_set e; v_ready := true |}
  end.
Definition prepare1 (l : limits) (e : env) (c : prep) : option env :=
  match c with SetTime t => Some (set_time e t) | Initialize r => initialize l e r end.
Fixpoint prepare (l : limits) (e : env) (cs : list prep) : option env :=
  match cs with
  | [] => Some e
  | c :: r => match prepare1 l e c with Some e' => prepare l e' r | None => None end
  end.
(** 5035: a run is only started in an initialised environment. *)
Definition startable (e : env) : bool := v_ready e.

(** ** What a part writes *)
(** [Held]: arrays from the argument tuple; [Asks]: arrays looked up in the environment. *)
Inductive manner := Held | Asks.
Definition refs (e : env) (m : manner) : nat * nat :=
  match m with
  | Asks => (v_stable e, v_factor e)
  | Held => match v_held e with Some r => r | None => (v_stable e, v_factor e) end
  end.
(** precomp_funs.py 722-743: a breach. *)
Definition object (e : env) (m : manner) : env :=
  let r := refs e m in
  {| v_next := v_next e; v_stable := v_stable e; v_factor := v_factor e; v_held := v_held e;
     v_flag := upd (v_flag e) (fst r) false; v_mf := upd (v_mf e) (snd r) (lower_mf (v_mf e (snd r)));
     v_num := v_num e; v_rows := v_rows e; v_set := v_set e; v_ready := v_ready e |}.
(** A part in one attempt: its manner and, if its step is not stable, the divider (> 1). *)
Definition says := (manner * option R)%type.
(** simenv.py 3971: the flag is set before the parts are evaluated. *)
Definition clear (e : env) : env :=
  {| v_next := v_next e; v_stable := v_stable e; v_factor := v_factor e; v_held := v_held e;
     v_flag := upd (v_flag e) (v_stable e) true; v_mf := v_mf e;
     v_num := v_num e; v_rows := v_rows e; v_set := v_set e; v_ready := v_ready e |}.
(** 3974-3992: the loop over the parts, left when the flag of the environment is not set. The result is the
    divider of the part at which it was left. *)
Fixpoint predictor (e : env) (ps : list says) : env * option R :=
  match ps with
  | [] => (e, None)
  | (m, d) :: r =>
      let e' := match d with Some _ => object e m | None => e end in
      if v_flag e' (v_stable e') then predictor e' r
      else (e', match d with Some d => Some d | None => Some 0 end)
  end.
(** What the step-size control gets to see ([MSolver.outcome]); [err] is the error of the attempt. *)
Definition heard (e : env) (ps : list says) (err : errval) : outcome :=
  match snd (predictor (clear e) ps) with Some d => OUnstable d | None => OStable [] err end.

(** The run which starts with arrays of [rows] rows while [num_steps] is [num] (start_sim 5054-5091,
    [MRun.run] with the two numbers apart). *)
Definition run_with {Row} (zero : Row) (fuel : nat) (m : mode) (captures : bool) (rows num : nat) (tf : R) (row0 : Row)
  (steps : nat -> R * Row) : rres :=
  run_loop zero fuel m (if captures then Some rows else None) tf steps 0
    {| r_t := 0; r_step := 1; r_num := num; r_total := 0;
       r_buf := (0, row0) :: repeat (0, zero) (rows - 1); r_disk := [] |}.
