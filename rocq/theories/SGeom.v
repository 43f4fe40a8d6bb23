(** Specification vocabulary for the geometry of pipes and storages (C101-C104). *)
From Coq Require Import Reals List Arith ZArith.
From Verif Require Import MFlow MWater MDiff MGeom SFlow.
Open Scope R_scope.

(** A hollow cylinder: dimensions as a table of pipes gives them. *)
Definition pipe_dims (a : pipe_arg) : Prop := 0 < pa_di a < pa_do a /\ 0 < pa_A a.
(** Properties of a solid. *)
Definition solid (cp rho lam : R) : Prop := 0 < cp /\ 0 < rho /\ 0 < lam.
(** Ports of a part with [n] cells. *)
Definition ports_ok (n : nat) (p : prts) : Prop :=
  (forall i, (i < p_np p)%nat -> (p_own p i < n)%nat) /\
  forall i, 0 <= p_gsp p i /\ 0 < p_sub p i /\ 0 < p_A p i /\ 0 <= p_w p i.

(** The same part with another number of cells. *)
Definition pipe_cells (a : pipe_arg) (n : nat) : pipe_arg :=
  {| pa_len := pa_len a; pa_gp := Z.of_nat n; pa_sins := pa_sins a; pa_lins := pa_lins a;
     pa_di := pa_di a; pa_do := pa_do a; pa_A := pa_A a; pa_cp := pa_cp a; pa_rho := pa_rho a;
     pa_lam := pa_lam a |}.
Definition tes_cells (a : tes_arg) (n : nat) : tes_arg :=
  {| ta_vol := ta_vol a; ta_gp := Z.of_nat n; ta_do := ta_do a; ta_shell := ta_shell a;
     ta_sins := ta_sins a; ta_lins := ta_lins a; ta_cp := ta_cp a; ta_rho := ta_rho a;
     ta_lam := ta_lam a |}.

(** Textbook heat loss conductance of an insulated tube of length [l]: resistances of the inner
    film, the wall, the insulation and the outer film in series, each on its own surface. *)
Definition tube_loss (l di do s ai lw li ainf : R) : R :=
  / (/ (ai * (PI * di * l)) + ln (do / di) / (2 * PI * lw * l)
     + ln ((do + 2 * s) / do) / (2 * PI * li * l) + / (ainf * (PI * (do + 2 * s) * l))).

(** Heat loss conductance through the shell of a whole part. *)
Definition shell_loss (g : geo) (r : res) : R := rsum (g_n g) (r_ua r).
