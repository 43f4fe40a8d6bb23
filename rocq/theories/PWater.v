(** C18 and C57: material properties of water. *)
From Coq Require Import Reals QArith Qreals Lra.
From Verif Require Import MWater LPoly LWater.
Local Open Scope R_scope.

(** C18: physical bands between 0 and 100 degC. *)
Theorem C18_bands : forall T, 0 <= T <= 100 ->
  958 < rho_water T < 1000
  /\ 569/1000 < lambda_water T < 681/1000
  /\ 4170 < cp_water T < 4225
  /\ 25/100000000 < ny_water T < 18/10000000
  /\ 14/10 < Pr_water T < 126/10.
Proof.
  intros T H. repeat split;
    first [apply rho_bounds | apply lambda_bounds | apply cp_bounds
          | apply ny_bounds | apply Pr_bounds]; exact H.
Qed.
Print Assumptions C18_bands.

(** C18: density falls from 4 degC upwards. *)
Theorem C18_density_falls : forall x y, 4 <= x -> x < y -> y <= 100 ->
  rho_water y < rho_water x.
Proof. exact rho_decreasing. Qed.
Print Assumptions C18_density_falls.

(** C18: conductivity rises and the specific inner energy the differentials
    use (cp times temperature) rises strictly. *)
Theorem C18_conductivity_rises : forall x y, 0 <= x -> x < y -> y <= 100 ->
  lambda_water x < lambda_water y.
Proof. exact lambda_increasing. Qed.
Print Assumptions C18_conductivity_rises.

Theorem C18_energy_rises : forall x y, 0 <= x -> x < y -> y <= 100 ->
  cp_water x * x < cp_water y * y.
Proof. exact u_increasing. Qed.
Print Assumptions C18_energy_rises.

Example C18_example : 0 <= 60 <= 100 /\ rho_water 60 < rho_water 20.
Proof. split; [lra|]. apply rho_decreasing; lra. Qed.

(** C57: the Prandtl number falls on the whole range, the viscosity up to
    95 degC. *)
Theorem C57_prandtl_falls : forall x y, 0 <= x -> x < y -> y <= 100 ->
  Pr_water y < Pr_water x.
Proof. exact Pr_decreasing. Qed.
Print Assumptions C57_prandtl_falls.

Theorem C57_viscosity_falls_partial : forall x y, 0 <= x -> x < y -> y <= 95 ->
  ny_water y < ny_water x.
Proof. exact ny_decreasing. Qed.
Print Assumptions C57_viscosity_falls_partial.

(** The code violates C57 next to the boiling point: the fitted viscosity
    rises strictly between 98 and 100 degC. *)
Theorem C57_viscosity_refuted : forall x y, 98 <= x -> x < y -> y <= 100 ->
  ny_water x < ny_water y.
Proof. exact ny_rises. Qed.
Print Assumptions C57_viscosity_refuted.

(** The whole picture: the fitted viscosity falls up to a temperature between 97.6 and 97.7 degC and rises
    from there on. *)
Lemma ny_der_neg z : 0 <= z <= 97.6 -> qeval (qderiv ny_q) z < 0.
Proof.
  intros Z. enough (0 < - qeval (qderiv ny_q) z) by lra. rewrite <- qneg_eval.
  destruct (Rle_dec z 90) as [L|L]; [|destruct (Rle_dec z 97) as [L'|L']].
  - apply (check_on_sound _ 0%Q 90%Q (3#2) 60%nat); [qchk|]. unfold Q2R; cbn. lra.
  - apply (check_on_sound _ 90%Q 97%Q (1#5) 35%nat); [qchk|]. unfold Q2R; cbn. lra.
  - apply (check_on_sound _ 97%Q (488#5)%Q (3#200) 40%nat); [qchk|]. unfold Q2R; cbn. lra.
Qed.
Lemma ny_der_pos z : 97.7 <= z <= 100 -> 0 < qeval (qderiv ny_q) z.
Proof.
  intros Z. destruct (Rle_dec z 98) as [L|L].
  - apply (check_on_sound _ (977#10)%Q 98%Q (3#400) 40%nat); [qchk|]. unfold Q2R; cbn. lra.
  - apply (check_on_sound _ 98%Q 100%Q (1#10) 20%nat); [qchk|]. unfold Q2R; cbn. lra.
Qed.
Lemma ny_der_incr x y : 95 <= x -> x < y -> y <= 98 -> qeval (qderiv ny_q) x < qeval (qderiv ny_q) y.
Proof.
  intros A XY B.
  use_mono (qeval_increasing (qderiv ny_q)) (qderiv (qderiv ny_q)) 95%Q 98%Q (1#2) 6%nat.
Qed.

Theorem C57_turning_point : exists m, 97.6 < m < 97.7 /\
  (forall x y, 0 <= x -> x < y -> y <= m -> ny_water y < ny_water x) /\
  (forall x y, m <= x -> x < y -> y <= 100 -> ny_water x < ny_water y).
Proof.
  set (d := qeval (qderiv ny_q)).
  assert (C : continuity d).
  { intros z. apply derivable_continuous_pt. exists (qeval (qderiv (qderiv ny_q)) z). apply qeval_derivable. }
  pose proof (ny_der_neg 97.6 ltac:(lra)) as N. pose proof (ny_der_pos 97.7 ltac:(lra)) as P.
  destruct (IVT d 97.6 97.7 C ltac:(lra) N P) as [m [M E]].
  assert (M1 : m <> 97.6) by (intros ->; unfold d in E; lra).
  assert (M2 : m <> 97.7) by (intros ->; unfold d in E; lra).
  exists m. split; [lra|]. split; intros x y A XY B; rewrite !ny_is;
    destruct (MVT_cor2 (qeval ny_q) d x y XY) as (c & Ec & Hc); try (intros; apply qeval_derivable).
  - assert (d c < 0).
    { destruct (Rle_dec c 97.6) as [L|L]; [apply ny_der_neg; lra|].
      rewrite <- E. apply ny_der_incr; lra. }
    nra.
  - assert (0 < d c).
    { destruct (Rle_dec 97.7 c) as [L|L]; [apply ny_der_pos; lra|].
      rewrite <- E. apply ny_der_incr; lra. }
    nra.
Qed.
Print Assumptions C57_turning_point.

Example C57_example : ny_water 98 < ny_water 100 /\ ny_water 80 < ny_water 20.
Proof. split; [apply ny_rises | apply ny_decreasing]; lra. Qed.
