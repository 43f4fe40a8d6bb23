(** Vocabulary for the properties of the condensing heat exchanger. *)
From Coq Require Import Reals List Arith.
From Verif Require Import SFlow MCond.
Import ListNotations.
Open Scope R_scope.

(** Product of the features of a combination. *)
Definition monomial (c : list nat) (X : list R) : R := fold_right (fun v a => nth v X 0 * a) 1 c.

(** The shapes a fitted pipeline has: at least one monomial, features 0 to 3, the last combination
    is a longest one, matching matrices, two outputs. *)
Definition reg_ok (r : reg) : Prop :=
  rg_combos r <> [] /\
  (forall c, In c (rg_combos r) -> (length c <= length (last (rg_combos r) []))%nat /\
     forall v, In v c -> (v < 4)%nat) /\
  length (rg_mean r) = length (rg_combos r) /\
  (forall k, In k (rg_comps r) -> length k = length (rg_combos r)) /\
  length (rg_icpt r) = 2%nat /\ length (rg_coef r) = 2%nat /\
  (forall k, In k (rg_coef r) -> length k = length (rg_comps r)).

(** Value of output [o] of the pipeline "polynomial features, principal components, linear
    model" at [X] (textbook definition). *)
Definition pipeline (r : reg) (o : nat) (X : list R) : R :=
  nth o (rg_icpt r) 0 +
  rsum (length (rg_comps r)) (fun k =>
    nth k (nth o (rg_coef r) []) 0 *
    rsum (length (rg_combos r)) (fun j =>
      nth j (nth k (rg_comps r) []) 0 *
      (monomial (nth j (rg_combos r) []) X - nth j (rg_mean r) 0))).

(** The same output as one polynomial of the features: constant and coefficients. *)
Definition poly_const (r : reg) (o : nat) : R :=
  nth o (rg_icpt r) 0 -
  rsum (length (rg_comps r)) (fun k => nth k (nth o (rg_coef r) []) 0 *
    rsum (length (rg_combos r)) (fun j => nth j (nth k (rg_comps r) []) 0 * nth j (rg_mean r) 0)).
Definition poly_coef (r : reg) (o j : nat) : R :=
  rsum (length (rg_comps r)) (fun k =>
    nth k (nth o (rg_coef r) []) 0 * nth j (nth k (rg_comps r) []) 0).

(** Parameters accepted by the constructor. *)
Definition cpar_ok (p : cpar) : Prop :=
  reg_ok (cp_reg p) /\ 0 < cp_sw p /\ 0 < cp_sg p /\
  0 <= cp_wlo p <= cp_whi p /\ 0 <= cp_glo p <= cp_ghi p.

(** Outlet temperatures as functions of the flows, for calls which do not raise. *)
Definition water_out (p : cpar) (Tw Tg dmw dvg : R) : R :=
  match cond_solve p Tw Tg dmw dvg with Some (w, _) => w | None => 0 end.
Definition gas_out (p : cpar) (Tw Tg dmw dvg : R) : R :=
  match cond_solve p Tw Tg dmw dvg with Some (_, g) => g | None => 0 end.
