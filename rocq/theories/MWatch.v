(** Model of the supervision of a run: the search for invalid values in the main loop, the choice
    of the solver method, and what resetting the environment keeps.

    Code: /repo/multisim/simenv.py [set_solver] (593-661), [_heun] (3862-3918), [_heun_adaptive]
    (3920-4260), [start_sim] (5032-5134), [_free_memory] (5278-5422), [_finalize_sim] (4876-4984),
    [_compress_store] (5424-5530), [_reset_simenv] (4782-4802).

    Simplifications: a part is seen through two flags, "its temperature array contains a NaN" and
    "its mass flow array contains a NaN"; what the parts report to the solver in each attempt is
    arbitrary ([MSolver.outcome]); of the result arrays only the number of rows is kept (contents:
    [MRun]); Python's check of the number of positional arguments is modelled by counting. *)
From Coq Require Import Reals List Bool Arith ZArith.
From Verif Require Import MSolver MSettings.
Import ListNotations.
Open Scope R_scope.

Inductive pyerr := TypeError | IndexError | ValueError | FileError.

(** ** Search for invalid values, 5103-5128 *)
Record pflags := { nan_T : bool; nan_dm : bool }.
(** 5108-5110 *)
Definition invalid (p : pflags) : bool := nan_T p && nan_dm p.
(** [a[i]] with a possibly negative index on an array with [rows] rows. *)
Definition index_ok (rows : nat) (i : Z) : bool :=
  (Z.leb (- Z.of_nat rows) i && Z.ltb i (Z.of_nat rows))%bool.
Inductive verdict := GoOn | Stop | Fails (e : pyerr).
(** 5104-5128: only if the number of banked steps is a multiple of 5000; the message reads
    [time_vec[total - 5000]], the mark is written to [_solver_state[total]]. *)
Definition nan_search (total rows : nat) (parts : list pflags) : verdict :=
  if (total mod 5000 =? 0)%nat then
    if existsb invalid parts then
      if index_ok rows (Z.of_nat total - 5000) then
        if index_ok rows (Z.of_nat total) then Stop else Fails IndexError
      else Fails IndexError
    else GoOn
  else GoOn.

(** ** The main loop with the search *)
Inductive keep := ToDisk | InMemory (base : nat).
Record wst := {
  w_t : R;        (* time_sim *)
  w_tf : R;       (* timeframe *)
  w_step : nat;   (* stepnum[0] *)
  w_num : nat;    (* num_steps; the arrays have num_steps + 1 rows *)
  w_total : nat;  (* _total_stepnum *)
  w_sol : sst }.  (* solver variables *)
(** What happens in one pass: the outcomes of the solver's attempts and the parts afterwards. *)
Record pass := { p_out : nat -> outcome; p_parts : list pflags }.

Inductive loop_res := Going (s : wst) | Broke (e : pyerr).
(** One pass, 5060-5128; [_free_memory] 5287-5322 and 5416-5422. *)
Definition one_pass (c : cfg) (fuel : nat) (k : keep) (p : pass) (s : wst) : option loop_res :=
  match solver_step c fuel (p_out p) (w_sol s) with
  | OutOfFuel => None
  | Raised => Some (Broke ValueError)
  | Accepted u _ sol =>
      let t := w_t s + u in
      let full := (w_step s =? w_num s)%nat && (if Rlt_dec t (w_tf s) then true else false) in
      let num := match k with ToDisk => w_num s
                 | InMemory base => if full then (w_num s + base)%nat else w_num s end in
      let total := match k with ToDisk => if full then (w_total s + w_step s)%nat else w_total s
                   | InMemory _ => w_total s end in
      let step := match k with ToDisk => if full then 0%nat else w_step s | InMemory _ => w_step s end in
      match nan_search total (S num) (p_parts p) with
      | GoOn => Some (Going {| w_t := t; w_tf := w_tf s; w_step := S step; w_num := num;
                               w_total := total; w_sol := sol |})
      | Stop => Some (Going {| w_t := t; w_tf := 1e-9; w_step := S step; w_num := num;
                               w_total := total; w_sol := sol |})
      | Fails e => Some (Broke e)
      end
  end.
(** [n] passes from a state, as long as the loop condition holds. *)
Inductive passes (c : cfg) (k : keep) (p : nat -> pass) : nat -> wst -> wst -> Prop :=
| ps_none s : passes c k p 0 s s
| ps_more n s s1 s2 fuel : passes c k p n s s1 -> w_t s1 < w_tf s1 ->
    one_pass c fuel k (p n) s1 = Some (Going s2) -> passes c k p (S n) s s2.

(** [set_timeframe] 447 with the first step of one second, [_initialize_arrays] 4647 and 4658-4664:
    hundred rows per second, at most [cap] (the limit before saving to disk). *)
Definition rows_for (tf : R) (cap : nat) : nat :=
  Nat.min (Z.to_nat (100 * - Int_part (- tf))) cap.
(** 5054-5058 after [initialize_sim]: [num] rows allocated besides the first one. *)
Definition start_of (c : cfg) (tf : R) (num : nat) : wst :=
  {| w_t := 0; w_tf := tf; w_step := 1; w_num := num; w_total := 0; w_sol := init_sst c |}.

(** ** The solver method *)
Inductive method := Heun | HeunAdaptive.
(** [set_solver] 640-661 *)
Definition set_solver (m : mode) : method :=
  match m with Adaptive _ => HeunAdaptive | Constant _ _ => Heun end.
(** Positional parameters besides [self] (3862, 3920-3922) and arguments in [start_sim]
    (5064-5069). *)
Definition params (m : method) : nat := match m with Heun => 3 | HeunAdaptive => 4 end.
Definition start_sim_args : nat := 4.
(** Parameters of [get_diff] of a part besides [self] (e.g. parts/pipe.py, parts/tes.py) and
    arguments given by [_heun] (3889, 3906) and [_heun_adaptive] (3977, 4029). *)
Definition get_diff_params : nat := 1.
Definition get_diff_args (m : method) : nat := match m with Heun => 0 | HeunAdaptive => 1 end.
Definition call {A} (params args : nat) (body : A) : A + pyerr :=
  if (params =? args)%nat then inl body else inr TypeError.
(** First statement of both solvers: slopes of all discretised parts. *)
Definition first_slopes {A} (m : method) (parts : list A) : list A + pyerr :=
  match parts with
  | [] => inl []
  | p :: t => match call get_diff_params (get_diff_args m) p with
              | inl _ => inl (p :: t)
              | inr e => inr e
              end
  end.
Definition first_call {A} (md : mode) (parts : list A) : list A + pyerr :=
  let m := set_solver md in
  match call (params m) start_sim_args tt with
  | inr e => inr e
  | inl _ => first_slopes m parts
  end.

(** ** A second run *)
(** [_reset_simenv] 4784-4788: the time frame is taken over from the attribute; the number of
    banked steps is only set by the constructor (204). *)
Definition reset_run (c : cfg) (cap : nat) (s : wst) : wst :=
  {| w_t := 0; w_tf := w_tf s; w_step := 1; w_num := rows_for (w_tf s) cap;
     w_total := w_total s; w_sol := init_sst c |}.

(** Disk saving: does the temporary store exist, how many rows does it hold, and how many entries
    have been banked in [_total_time_vec] and [_total_stepnum]. *)
Record disk := { d_tmp : bool; d_rows : nat; d_times : nat; d_steps : nat }.
(** [set_disksaving] 578-588: a new, empty temporary store. *)
Definition new_store (d : disk) : disk :=
  {| d_tmp := true; d_rows := 0; d_times := d_times d; d_steps := d_steps d |}.
Definition disk0 : disk := {| d_tmp := true; d_rows := 0; d_times := 0; d_steps := 0 |}.
(** [_free_memory] on disk: opening with mode 'r+' needs the file (5324); [n] rows are appended to
    the store and to the time vector, [n] steps are banked. *)
Definition flush (n : nat) (d : disk) : disk + pyerr :=
  if d_tmp d then inl {| d_tmp := true; d_rows := d_rows d + n; d_times := d_times d + n;
                         d_steps := d_steps d + n |}
  else inr FileError.
(** [_finalize_sim]: last flush of [n] rows (4881), crop to the banked steps (4885, 4937, 5673),
    the temporary store is removed or renamed (5490-5491, 5496-5501, 5529-5530), and the time
    vector is written with the index of the stored rows (4957-4968): lengths have to agree. *)
Definition finish (n : nat) (d : disk) : disk + pyerr :=
  match flush n d with
  | inr e => inr e
  | inl d1 =>
      if (Nat.min (d_times d1) (d_steps d1) =? d_rows d1)%nat
      then inl {| d_tmp := false; d_rows := d_rows d1; d_times := d_times d1; d_steps := d_steps d1 |}
      else inr ValueError
  end.
(** A run which flushes chunks of the given sizes and at the end [n] rows. *)
Fixpoint disk_run (chunks : list nat) (n : nat) (d : disk) : disk + pyerr :=
  match chunks with
  | [] => finish n d
  | m :: t => match flush m d with inl d1 => disk_run t n d1 | inr e => inr e end
  end.
