(** Lemmas on the fitted curves of the CHP plant. *)
From Coq Require Import Reals List Arith Bool Lia Lra Psatz.
From Verif Require Import MChp SChp LChp.
Import ListNotations.
Open Scope R_scope.

Lemma Rpower_pos k x : 0 < Rpower k x.
Proof. unfold Rpower. apply exp_pos. Qed.

Lemma Rpower_decr k x y : 0 < k < 1 -> x < y -> Rpower k y < Rpower k x.
Proof.
  intros K L. unfold Rpower. apply exp_increasing.
  assert (ln k < 0) by (rewrite <- ln_1; apply ln_increasing; lra). nra.
Qed.

Lemma Rpower_incr k x y : 1 < k -> x < y -> Rpower k x < Rpower k y.
Proof.
  intros K L. unfold Rpower. apply exp_increasing.
  assert (0 < ln k) by (rewrite <- ln_1; apply ln_increasing; lra). nra.
Qed.

Lemma Rpower_0 k : Rpower k 0 = 1.
Proof. unfold Rpower. rewrite Rmult_0_l. apply exp_0. Qed.

Lemma Rpower_one k : 0 < k -> Rpower k 1 = k.
Proof. intros. unfold Rpower. rewrite Rmult_1_l. apply exp_ln. assumption. Qed.

Lemma Rpower_half k : 0 < k -> Rpower k (1 / 2) = sqrt k.
Proof. intros. replace (1 / 2) with (/ 2) by lra. apply Rpower_sqrt. assumption. Qed.

(** Powers of a base below one fall below any bound. *)
Lemma Rpower_small k eps : 0 < k < 1 -> 0 < eps -> exists X, forall x, X <= x -> Rpower k x < eps.
Proof.
  intros K E. assert (L : ln k < 0) by (rewrite <- ln_1; apply ln_increasing; lra).
  exists (ln eps / ln k + 1). intros x Hx. unfold Rpower.
  rewrite <- (exp_ln eps) by assumption. apply exp_increasing.
  assert (x * ln k <= (ln eps / ln k + 1) * ln k) by nra.
  assert ((ln eps / ln k + 1) * ln k = ln eps + ln k) by (field; lra). lra.
Qed.

(** Limited growth. *)
Lemma lim_start s b0 k : lim_growth 0 s b0 k = b0.
Proof. unfold lim_growth. rewrite Rpower_0. ring. Qed.

Lemma lim_grows s b0 k x y : 0 < k < 1 -> b0 < s -> x < y ->
  lim_growth x s b0 k < lim_growth y s b0 k < s.
Proof.
  intros K B L. unfold lim_growth. pose proof (Rpower_decr k x y K L).
  pose proof (Rpower_pos k y). nra.
Qed.

Lemma lim_falls s b0 k x y : 0 < k < 1 -> s < b0 -> x < y ->
  s < lim_growth y s b0 k < lim_growth x s b0 k.
Proof.
  intros K B L. unfold lim_growth. pose proof (Rpower_decr k x y K L).
  pose proof (Rpower_pos k y). nra.
Qed.

Lemma lim_reaches s b0 k eps : 0 < k < 1 -> 0 < eps ->
  exists X, forall x, X <= x -> Rabs (lim_growth x s b0 k - s) < eps.
Proof.
  intros K E. destruct (Rpower_small k (eps / (Rabs (s - b0) + 1)) K) as [X HX].
  { apply Rdiv_lt_0_compat; [exact E|]. pose proof (Rabs_pos (s - b0)). lra. }
  exists X. intros x Hx. specialize (HX x Hx). unfold lim_growth.
  replace (s - (s - b0) * Rpower k x - s) with (- ((s - b0) * Rpower k x)) by ring.
  rewrite Rabs_Ropp, Rabs_mult, (Rabs_right (Rpower k x)) by (pose proof (Rpower_pos k x); lra).
  pose proof (Rpower_pos k x) as Q. pose proof (Rabs_pos (s - b0)) as A.
  apply Rle_lt_trans with ((Rabs (s - b0) + 1) * Rpower k x); [nra|].
  apply Rlt_le_trans with ((Rabs (s - b0) + 1) * (eps / (Rabs (s - b0) + 1))); [nra|].
  right. field. lra.
Qed.

Lemma lim_above1 s b0 k x y : 1 < k -> s < b0 -> x < y ->
  s < lim_growth x s b0 k < lim_growth y s b0 k.
Proof.
  intros K B L. unfold lim_growth. pose proof (Rpower_incr k x y K L).
  pose proof (Rpower_pos k x). nra.
Qed.

(** Thermal start-up. *)
Lemma th_form t : exists c e, 0 < c /\ e = exp (- 8.61423130773867e-3 * 1 * t) /\
  chp_startup_th t = 1 / (1 + c * e).
Proof.
  exists (1 / 4.3715647889609857e-4 - 1), (exp (- 8.61423130773867e-3 * 1 * t)).
  split; [|split; reflexivity]. lra.
Qed.

Lemma th_range t : 0 < chp_startup_th t < 1.
Proof.
  destruct (th_form t) as (c&e&C&E&->). assert (0 < e) by (rewrite E; apply exp_pos).
  assert (0 < c * e) by (apply Rmult_lt_0_compat; assumption).
  split.
  - apply Rdiv_lt_0_compat; lra.
  - apply Rmult_lt_reg_r with (1 + c * e); [lra|]. unfold Rdiv.
    rewrite Rmult_assoc, Rinv_l by lra. lra.
Qed.

Lemma th_incr x y : x < y -> chp_startup_th x < chp_startup_th y.
Proof.
  intros L. unfold chp_startup_th.
  set (c := 1 / 4.3715647889609857e-4 - 1).
  assert (C : 0 < c) by (unfold c; lra).
  pose proof (exp_pos (- 8.61423130773867e-3 * 1 * x)) as A.
  pose proof (exp_pos (- 8.61423130773867e-3 * 1 * y)) as B.
  assert (D : exp (- 8.61423130773867e-3 * 1 * y) < exp (- 8.61423130773867e-3 * 1 * x)).
  { apply exp_increasing. lra. }
  set (a := exp (- 8.61423130773867e-3 * 1 * x)) in *.
  set (b := exp (- 8.61423130773867e-3 * 1 * y)) in *.
  unfold Rdiv. rewrite !Rmult_1_l. apply Rinv_lt_contravar; [|nra].
  apply Rmult_lt_0_compat; nra.
Qed.

(** Electrical start-up and gas. *)
Lemma el_incr x y : x < y -> chp_startup_el x < chp_startup_el y.
Proof. intros L. unfold chp_startup_el. apply lim_grows; [lra|lra|exact L]. Qed.

Lemma gas_ge_el t : 0 <= chp_startup_el t -> chp_startup_el t <= chp_startup_gas t.
Proof.
  intros E. unfold chp_startup_gas. pose proof (th_range t) as [T _].
  assert (0 < chp_startup_th t / 0.6334) by (apply Rdiv_lt_0_compat; lra).
  assert (chp_startup_el t / 0.32733 = chp_startup_el t * (1 / 0.32733)) by (unfold Rdiv; ring).
  assert (1 <= 1 / 0.32733) by lra. nra.
Qed.

Lemma gas_incr x y : x < y -> chp_startup_gas x < chp_startup_gas y.
Proof.
  intros L. unfold chp_startup_gas. pose proof (th_incr x y L). pose proof (el_incr x y L).
  apply Rplus_lt_compat; unfold Rdiv; apply Rmult_lt_compat_r; try assumption; lra.
Qed.

Lemma clip01_range x : 0 <= clip01 x <= 1.
Proof. unfold clip01. destruct (Rlt_dec x 0), (Rlt_dec 1 x); lra. Qed.
Lemma clip01_mono x y : x <= y -> clip01 x <= clip01 y.
Proof. intros. unfold clip01. destruct (Rlt_dec x 0), (Rlt_dec 1 x), (Rlt_dec y 0), (Rlt_dec 1 y); lra. Qed.
Lemma clip01_id x : 0 <= x <= 1 -> clip01 x = x.
Proof. intros. unfold clip01. destruct (Rlt_dec x 0), (Rlt_dec 1 x); lra. Qed.

Lemma clip_el_gas t : clip01 (chp_startup_el t) <= clip01 (chp_startup_gas t).
Proof.
  destruct (Rle_dec 0 (chp_startup_el t)) as [A|A].
  - apply clip01_mono, gas_ge_el, A.
  - unfold clip01 at 1. destruct (Rlt_dec (chp_startup_el t) 0); [apply clip01_range|lra].
Qed.

(** Part load. *)
Lemma thermal_incr x y : x < y -> chp_thermal_power x < chp_thermal_power y.
Proof. intros L. unfold chp_thermal_power. apply lim_above1; [lra|lra|exact L]. Qed.
Lemma gaspow_incr x y : x < y -> chp_gas_power x < chp_gas_power y.
Proof. intros L. unfold chp_gas_power. apply lim_above1; [lra|lra|exact L]. Qed.
Lemma thermal_0 : chp_thermal_power 0 = 0.972917.
Proof. apply lim_start. Qed.
Lemma gaspow_0 : chp_gas_power 0 = 0.995828402366862.
Proof. apply lim_start. Qed.
Lemma thermal_pos m : 0 <= m -> 0 < chp_thermal_power m.
Proof.
  intros [M| <-]; [|rewrite thermal_0; lra].
  pose proof (thermal_incr 0 m M). rewrite thermal_0 in *. lra.
Qed.
Lemma gaspow_pos m : 0 <= m -> 0 < chp_gas_power m.
Proof.
  intros [M| <-]; [|rewrite gaspow_0; lra].
  pose proof (gaspow_incr 0 m M). rewrite gaspow_0 in *. lra.
Qed.

(** The part-load efficiency never beats the one at full load. *)
Lemma exp_pow8 x : 0 <= x -> (1 + x / 8) ^ 8 <= exp x.
Proof.
  intros X. replace (exp x) with (exp (x / 8) ^ 8).
  - apply pow_incr. split; [lra|]. apply exp_ineq1_le.
  - cbn [pow]. rewrite Rmult_1_r, <- !exp_plus. f_equal. lra.
Qed.

Lemma gaspow_line m : m <= 1 -> m * chp_gas_power 1 <= chp_gas_power m.
Proof.
  intros M. unfold chp_gas_power, lim_growth.
  set (k := 1.9507547298681704). set (s := -1.17). set (b := 0.995828402366862).
  assert (K : 0 < k) by (unfold k; lra).
  rewrite Rpower_one by exact K.
  assert (L : Rpower k m >= k * (1 + (m - 1) * ln k)).
  { replace (Rpower k m) with (k * exp ((m - 1) * ln k)).
    - apply Rle_ge, Rmult_le_compat_l; [lra|]. apply exp_ineq1_le.
    - unfold Rpower. rewrite <- (exp_ln k) at 1 by exact K. rewrite <- exp_plus. f_equal. ring. }
  assert (Hln : ln k <= 0.71).
  { rewrite <- (ln_exp 0.71). apply Rlt_le, ln_increasing; [exact K|].
    eapply Rlt_le_trans; [|apply exp_pow8; lra]. unfold k. lra. }
  assert (Hs : s - b = - 2.165828402366862) by (unfold s, b; lra).
  rewrite Hs. unfold s, k in *.
  assert ((1 - m) * ln 1.9507547298681704 <= (1 - m) * 0.71)
    by (apply Rmult_le_compat_l; lra).
  nra.
Qed.

(** Shut-down: cubic with the zero at 927.5 s. *)
Lemma down_decr x y : x < y -> chp_shutdown_th y < chp_shutdown_th x.
Proof.
  intros L. unfold chp_shutdown_th.
  set (a := x - 927.5198588530006). set (b := y - 927.5198588530006).
  assert (D : a < b) by (unfold a, b; lra).
  assert (Q : a ^ 3 < b ^ 3).
  { replace (b ^ 3 - a ^ 3) with ((b - a) * (a * a + a * b + b * b)) in * by ring.
    assert (0 < a * a + a * b + b * b).
    { assert (0 < (a + b / 2) * (a + b / 2) + 3 / 4 * (b * b)); [|lra].
      destruct (Req_dec b 0) as [->|B]; [nra|]. assert (0 < b * b) by nra. nra. }
    assert (b ^ 3 - a ^ 3 = (b - a) * (a * a + a * b + b * b)) by ring. nra. }
  lra.
Qed.

Lemma down_0 : 0.9999999 < chp_shutdown_th 0 < 1.
Proof. unfold chp_shutdown_th. split; lra. Qed.

Lemma down_end : chp_shutdown_th 728 < 0.01.
Proof. unfold chp_shutdown_th. lra. Qed.

(** Part-load values at one half. *)
Lemma half_bounds :
  0.6744 < chp_thermal_power (1 / 2) / chp_thermal_power 1 < 0.6745 /\
  0.6071 < chp_gas_power (1 / 2) / chp_gas_power 1 < 0.6073.
Proof.
  unfold chp_thermal_power, chp_gas_power, lim_growth.
  rewrite !Rpower_one, !Rpower_half by lra.
  assert (S1 : 1.8971 < sqrt 3.5990506789130166 < 1.8972).
  { split.
    - replace 1.8971 with (sqrt (1.8971 * 1.8971)) by (apply sqrt_square; lra).
      apply sqrt_lt_1; lra.
    - replace 1.8972 with (sqrt (1.8972 * 1.8972)) by (apply sqrt_square; lra).
      apply sqrt_lt_1; lra. }
  assert (S2 : 1.3966 < sqrt 1.9507547298681704 < 1.3967).
  { split.
    - replace 1.3966 with (sqrt (1.3966 * 1.3966)) by (apply sqrt_square; lra).
      apply sqrt_lt_1; lra.
    - replace 1.3967 with (sqrt (1.3967 * 1.3967)) by (apply sqrt_square; lra).
      apply sqrt_lt_1; lra. }
  set (q1 := sqrt 3.5990506789130166) in *. set (q2 := sqrt 1.9507547298681704) in *.
  assert (F1 : forall a b c, 0 < b -> c * b < a -> c < a / b).
  { intros a b c B H. assert (a / b * b = a) by (field; lra). nra. }
  assert (F2 : forall a b c, 0 < b -> a < c * b -> a / b < c).
  { intros a b c B H. assert (a / b * b = a) by (field; lra). nra. }
  split; split; first [apply F1; lra | apply F2; lra].
Qed.
