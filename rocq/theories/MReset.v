(** Model of what [initialize_sim(reset_simenv=True)] leaves in pipes and heated pipes.

    Code: /repo/multisim/simenv.py [_reset_simenv] (4782-4802), [initialize_sim] (4804-4874);
    /repo/multisim/parts/pipe.py [_reset_to_init_cond] (499-501), inherited by
    parts/heated_pipe.py; the arrays which the differential overwrites and reads
    (precomp_funs.py [pipe1D_diff], [heatedpipe1D_diff], see [MDiff]).

    Simplifications: of a part only temperatures, the flow given at its port, the power and the
    buffers of the surface are kept; the flow arrays of the cells are recomputed by every
    evaluation apart from their constant ends. *)
From Coq Require Import Reals.
From Verif Require Import MFlow MWater MDiff.
Open Scope R_scope.

Record pipe_state := { q_T : arr; q_io : R; q_dQ : R; q_buf : buf }.
(** Freshly built: parts/pipe.py 361-371 (temperatures), parts/heated_pipe.py 54 (power),
    and the buffers ([buf0]). *)
Definition built (T_init : arr) : pipe_state :=
  {| q_T := T_init; q_io := 0; q_dQ := 0; q_buf := buf0 |}.
(** parts/pipe.py 499-501 *)
Definition reset (T_init : arr) (s : pipe_state) : pipe_state :=
  {| q_T := T_init; q_io := 0; q_dQ := q_dQ s; q_buf := q_buf s |}.
(** Evaluation of the slopes with the flow [io] of the circuit. *)
Definition slopes (g : geo) (lo hi : nat) (io : R) (f : flows) (Tp : arr) (Tamb : R) (s : pipe_state)
  : res * pipe_state :=
  let e := heated_eval g lo hi io f (q_T s) Tp Tamb (q_dQ s, q_buf s) in
  (fst e, {| q_T := q_T s; q_io := io; q_dQ := fst (snd e); q_buf := snd (snd e) |}).
(** Between evaluations the solver writes temperatures and the controller the power. *)
Definition set_T (T : arr) (s : pipe_state) : pipe_state :=
  {| q_T := T; q_io := q_io s; q_dQ := q_dQ s; q_buf := q_buf s |}.
Definition set_power (p : R) (s : pipe_state) : pipe_state :=
  {| q_T := q_T s; q_io := q_io s; q_dQ := p; q_buf := q_buf s |}.
