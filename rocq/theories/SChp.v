(** Specification vocabulary for the CHP plant. *)
From Coq Require Import Reals List.
From Verif Require Import MChp.
Import ListNotations.
Open Scope R_scope.

(** Running in row [k]: the stored modulation is not zero. *)
Definition running (P : chp_par) (s0 : chp) (ins : nat -> chp_in) (k : nat) : Prop :=
  h_row (chp_at P s0 ins k) <> 0.

(** Time at the end of step [k] as announced by the first attempt. *)
Definition stamp (ins : nat -> chp_in) (k : nat) : R := i_t (ins k) + i_dt (ins k).

(** Return flow above 75 degC; some cell above 110 degC. *)
Definition return_hot (i : chp_in) : Prop := 75 < nth 0 (i_T i) 0.
Definition cell_hot (i : chp_in) : Prop := exists x, In x (i_T i) /\ 110 < x.

(** Modulation asked for in a step. *)
Definition asked (s : chp) (i : chp_in) : R :=
  match i_ctl i with Some c => c | None => h_mod s end.

(** Sum of the steps [j .. j + n - 1]. *)
Fixpoint elapsed (ins : nat -> chp_in) (j n : nat) : R :=
  match n with O => 0 | S n' => i_dt (ins j) + elapsed ins (S j) n' end.

(** Histories of solver steps: row [k] of the results is stored at [i_t (ins k)].  An accepted
    step is never longer than the first attempt ... *)
Definition history (ins : nat -> chp_in) : Prop :=
  0 <= i_t (ins O) /\
  forall k, 0 < i_dt (ins k) /\ i_t (ins k) < i_t (ins (S k)) <= stamp ins k.
(** ... and equal to it if no attempt is rejected. *)
Definition unrejected (ins : nat -> chp_in) : Prop :=
  0 <= i_t (ins O) /\
  forall k, 0 < i_dt (ins k) /\ i_t (ins (S k)) = stamp ins k.

(** Neither the return flow nor any cell is too hot. *)
Definition cool (i : chp_in) : Prop := ~ return_hot i /\ ~ cell_hot i.
