(** Insulation of pipes (C189): vocabulary. *)
From Coq Require Import Reals ZArith.
From Verif Require Import MFlow MDiff MGeom.
Open Scope R_scope.

(** The same pipe with an insulation that is not thinner and does not conduct better. *)
Definition reinsulated (a a' : pipe_arg) : Prop :=
  pa_len a' = pa_len a /\ pa_gp a' = pa_gp a /\ pa_di a' = pa_di a /\ pa_do a' = pa_do a /\ pa_A a' = pa_A a /\
  pa_cp a' = pa_cp a /\ pa_rho a' = pa_rho a /\ pa_lam a' = pa_lam a /\
  pa_sins a <= pa_sins a' /\ 0 < pa_lins a' <= pa_lins a.
(** The same storage with an insulation that is not thinner and does not conduct better. *)
Definition tes_reinsulated (a a' : tes_arg) : Prop :=
  ta_vol a' = ta_vol a /\ ta_gp a' = ta_gp a /\ ta_do a' = ta_do a /\ ta_shell a' = ta_shell a /\
  ta_cp a' = ta_cp a /\ ta_rho a' = ta_rho a /\ ta_lam a' = ta_lam a /\
  ta_sins a <= ta_sins a' /\ 0 < ta_lins a' <= ta_lins a.

(** Another evaluation would not change the surface of cell [j] any more. *)
Definition settled (r : res) (b : buf) (j : nat) : Prop := r_ainf r j = b_ainf b j /\ r_ua r j = b_ua b j.
(** Outer radius of the insulation. *)
Definition outer_radius (a : pipe_arg) : R := pa_do a / 2 + pa_sins a.
