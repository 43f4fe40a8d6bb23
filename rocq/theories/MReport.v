(** Model of the report about a finished run.

    Code: /repo/multisim/simenv.py [_heun_adaptive] (4160-4256: [_solver_state], [_failed_steps]), [start_sim]
    (5056-5087: [time_vec], [stepnum]; 5126: state 98), [_finalize_sim] (4947-4952: [time_step_vec]; 4986-5026: what is
    printed), [_write_report] (5532-5617).

    Simplifications: real arithmetic; the vectors are those of the whole run, first row the start (that flushing and
    cropping gives them is C07); versions, file names and clock times of the report are left out. *)
From Coq Require Import Reals List Bool Arith.
From Verif Require Import MOut MPerf MSolver.
Import ListNotations.
Open Scope R_scope.

(** A step: its size, the state written for it and the number of repetitions counted. *)
Record done := mkDone { d_size : R; d_state : nat; d_failed : nat }.

(** One call of the solver with the counter of 4222 and 4236. *)
Fixpoint counted (c : cfg) (fuel : nat) (o : nat -> outcome) (i : nat) (s : sst) (failed : nat)
  : option (done * sst) :=
  match fuel with
  | O => None
  | S f =>
      match attempt c s (o i) with
      | AAccept u k s' => Some (mkDone u k failed, s')
      | ARetry s' => counted c f o (S i) s' (S failed)
      | ARaise => None
      end
  end.
(** A run; [os] gives what the parts report in each pass of each step. *)
Fixpoint steps_of (c : cfg) (fuel : nat) (os : list (nat -> outcome)) (s : sst) : option (list done) :=
  match os with
  | [] => Some []
  | o :: r =>
      match counted c fuel o 0 (enter s) 0 with
      | Some (d, s') => option_map (cons d) (steps_of c fuel r s')
      | None => None
      end
  end.

(** The vectors, row 0 for the start (4719-4724). *)
Fixpoint times (t : R) (l : list done) : list R :=
  match l with [] => [t] | d :: r => t :: times (t + d_size d) r end.
Definition states (nan_stop : bool) (l : list done) : list nat :=
  (if nan_stop then 98 else 0)%nat :: map d_state l.
Definition failures (l : list done) : list nat := 0%nat :: map d_failed l.
(** 4947-4952: differences, the last one twice. *)
Fixpoint diffs (l : list R) : list R :=
  match l with a :: ((b :: _) as r) => (b - a) :: diffs r | _ => [] end.
Definition time_steps (tv : list R) : list R :=
  diffs tv ++ match rev tv with b :: a :: _ => [b - a] | _ => [] end.

Definition occur (k : nat) (l : list nat) : nat := length (filter (Nat.eqb k) l).
Record report := {
  r_failed : bool;          (* 'Sim. failed at step' instead of 'Sim. solved in n steps' *)
  r_steps : nat;            (* the number given there *)
  r_success : bool;         (* 'Simulation success' *)
  r_normal : nat; r_max : nat; r_min : nat; r_round : nat; r_repeated : nat;
  r_total : R; r_mean : R; r_q25 : R; r_med : R; r_q75 : R }.

(** 5532-5617; [stepnum] is one more than the number of steps (5087). *)
Definition write_report (nan_stop : bool) (l : list done) : report :=
  let st := states nan_stop l in
  let tv := times 0 l in
  let ts := time_steps tv in
  {| r_failed := (negb (occur 98 st =? 0) || negb (occur 99 st =? 0))%nat%bool;
     r_steps := S (length l);
     r_success := (occur 99 st =? 0)%nat;
     r_normal := occur 4 st; r_max := occur 5 st; r_min := occur 6 st; r_round := occur 7 st;
     r_repeated := fold_right Nat.add 0%nat (failures l);
     r_total := largest tv;
     r_mean := lmean ts; r_q25 := quartile 1 ts; r_med := quartile 2 ts; r_q75 := quartile 3 ts |}.
