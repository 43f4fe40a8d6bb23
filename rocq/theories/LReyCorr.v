(** Lemmas on the Nusselt numbers of a plate heat exchanger and on the search for a correction. *)
From Coq Require Import Reals List Bool Arith Lra Lia.
From Verif Require Import MWater MMix MReyCorr LWater.
Import ListNotations.
Local Open Scope R_scope.

Lemma rpow_pos x y : 0 < Rpower x y.
Proof. apply exp_pos. Qed.
Lemma rpow_nat x n : 0 < x -> Rpower x (INR n) = x ^ n.
Proof. apply Rpower_pow. Qed.
Lemma cube_root x : 0 < x -> Rpower x (1/3) ^ 3 = x.
Proof.
  intro H. rewrite <- (rpow_nat (Rpower x (1/3)) 3) by apply rpow_pos. rewrite Rpower_mult.
  replace (1 / 3 * INR 3) with 1 by (cbn; lra). apply Rpower_1, H.
Qed.
Lemma sixth_root x : 0 < x -> Rpower x (1/6) ^ 6 = x.
Proof.
  intro H. rewrite <- (rpow_nat (Rpower x (1/6)) 6) by apply rpow_pos. rewrite Rpower_mult.
  replace (1 / 6 * INR 6) with 1 by (cbn; lra). apply Rpower_1, H.
Qed.
Lemma half_sq x : 0 < x -> Rpower x 0.5 ^ 2 = x.
Proof.
  intro H. rewrite <- (rpow_nat (Rpower x 0.5) 2) by apply rpow_pos. rewrite Rpower_mult.
  replace (0.5 * INR 2) with 1 by (cbn; lra). apply Rpower_1, H.
Qed.
Lemma cube_lt a b : a < b -> a ^ 3 < b ^ 3.
Proof.
  intro H. cut (0 < (b - a) * ((b + a / 2) ^ 2 + 3 / 4 * a ^ 2)); [intro; nra|].
  apply Rmult_lt_0_compat; [lra|].
  destruct (Req_EM_T a 0) as [->|N]; [nra|].
  assert (0 < a ^ 2) by nra. nra.
Qed.
Lemma cube_le a b : a <= b -> a ^ 3 <= b ^ 3.
Proof. intros [H| ->]; [left; apply cube_lt, H|lra]. Qed.
Lemma cube_lt_inv a b : a ^ 3 < b ^ 3 -> a < b.
Proof. intro H. destruct (Rlt_le_dec a b) as [|G]; [assumption|]. pose proof (cube_le _ _ G). lra. Qed.
Lemma rpow_lt x y z : 0 < x < y -> 0 < z -> Rpower x z < Rpower y z.
Proof. intros [A B] Z. apply Rlt_Rpower_l; lra. Qed.

(** ** Laminar flow *)
Definition nu_lam (e Pr Re : R) : R :=
  let q := Re * Pr * e in
  49.371 + (1.615 * Rpower q (1/3) - 0.7) ^ 3 + (Rpower (2 / (1 + 22 * Pr)) (1/6) * Rpower q 0.5) ^ 3.
Lemma nusselt_lam dh x Re Pr : Re <= 2300 ->
  hex_nusselt dh x Re Pr = Rpower (nu_lam (dh / x) Pr Re) (1/3).
Proof.
  intro H. unfold hex_nusselt, nu_lam. destruct (Rlt_dec 2300 Re); [lra|]. cbv zeta.
  replace (Re * Pr * dh / x) with (Re * Pr * (dh / x)) by (unfold Rdiv; ring). reflexivity.
Qed.
Lemma nu_lam_low e Pr Re : 49 < nu_lam e Pr Re.
Proof.
  unfold nu_lam. cbv zeta.
  pose proof (rpow_pos (Re * Pr * e) (1/3)). pose proof (rpow_pos (Re * Pr * e) 0.5).
  pose proof (rpow_pos (2 / (1 + 22 * Pr)) (1/6)).
  assert ((- 0.7) ^ 3 <= (1.615 * Rpower (Re * Pr * e) (1 / 3) - 0.7) ^ 3) by (apply cube_le; lra).
  assert (0 < (Rpower (2 / (1 + 22 * Pr)) (1 / 6) * Rpower (Re * Pr * e) 0.5) ^ 3)
    by (apply pow_lt, Rmult_lt_0_compat; assumption). lra.
Qed.
Lemma nu_lam_mono e Pr r1 r2 : 0 < e -> 0 < Pr -> 0 < r1 < r2 -> nu_lam e Pr r1 < nu_lam e Pr r2.
Proof.
  intros E P [A B]. unfold nu_lam. cbv zeta.
  assert (Q : 0 < r1 * Pr * e < r2 * Pr * e).
  { split; [repeat apply Rmult_lt_0_compat; lra|]. apply Rmult_lt_compat_r; [exact E|].
    apply Rmult_lt_compat_r; lra. }
  pose proof (rpow_lt _ _ (1/3) Q ltac:(lra)). pose proof (rpow_lt _ _ 0.5 Q ltac:(lra)).
  pose proof (rpow_pos (2 / (1 + 22 * Pr)) (1/6)) as W.
  assert ((1.615 * Rpower (r1 * Pr * e) (1 / 3) - 0.7) ^ 3
          < (1.615 * Rpower (r2 * Pr * e) (1 / 3) - 0.7) ^ 3) by (apply cube_lt; lra).
  assert ((Rpower (2 / (1 + 22 * Pr)) (1 / 6) * Rpower (r1 * Pr * e) 0.5) ^ 3
          < (Rpower (2 / (1 + 22 * Pr)) (1 / 6) * Rpower (r2 * Pr * e) 0.5) ^ 3).
  { apply cube_lt, Rmult_lt_compat_l; assumption. }
  lra.
Qed.
Lemma nu_lam_up e Pr Re : 0 < e <= 1 / 74 -> 1.4 <= Pr <= 12.6 -> 0 < Re <= 2300 ->
  nu_lam e Pr Re < 13.4 ^ 3.
Proof.
  intros E P R. set (q := Re * Pr * e).
  assert (Q : 0 < q <= 31.1 * Pr).
  { unfold q. split; [repeat apply Rmult_lt_0_compat; lra|].
    assert (Re * e <= 2300 * (1/74)) by (apply Rmult_le_compat; lra). nra. }
  unfold nu_lam. fold q. cbv zeta.
  set (c := Rpower q (1/3)). set (A := 2 / (1 + 22 * Pr)).
  assert (C3 : c ^ 3 = q) by (apply cube_root; lra). assert (Cp : 0 < c) by apply rpow_pos.
  assert (T1 : (1.615 * c - 0.7) ^ 3 <= (1.615 * c) ^ 3) by (apply cube_le; lra).
  replace ((1.615 * c) ^ 3) with (1.615 ^ 3 * q) in T1 by (rewrite <- C3; ring).
  assert (Ap : 0 < A) by (unfold A; apply Rdiv_lt_0_compat; lra).
  assert (Ab : A * Pr <= 1 / 11).
  { unfold A. apply (Rmult_le_reg_r (1 + 22 * Pr)); [lra|].
    replace (2 / (1 + 22 * Pr) * Pr * (1 + 22 * Pr)) with (2 * Pr) by (field; lra). lra. }
  set (u := Rpower A (1/6) * Rpower q 0.5).
  assert (U : (u ^ 3) ^ 2 = A * q ^ 3).
  { replace ((u ^ 3) ^ 2) with (Rpower A (1/6) ^ 6 * (Rpower q 0.5 ^ 2) ^ 3) by (unfold u; ring).
    rewrite sixth_root, half_sq by lra. reflexivity. }
  assert (Up : 0 < u ^ 3) by (apply pow_lt, Rmult_lt_0_compat; apply rpow_pos).
  assert (Q3 : q ^ 3 <= (31.1 * Pr) ^ 3) by (apply cube_le; lra).
  assert (U2 : (u ^ 3) ^ 2 <= (52.4 * Pr) ^ 2).
  { rewrite U. apply Rle_trans with (A * (31.1 * Pr) ^ 3); [apply Rmult_le_compat_l; lra|].
    replace (A * (31.1 * Pr) ^ 3) with ((A * Pr) * (31.1 ^ 3 * Pr ^ 2)) by ring.
    apply Rle_trans with (1 / 11 * (31.1 ^ 3 * Pr ^ 2)).
    - apply Rmult_le_compat_r; [|exact Ab]. assert (0 < Pr ^ 2) by nra. nra.
    - assert (0 < Pr ^ 2) by nra. nra. }
  assert (T2 : u ^ 3 <= 52.4 * Pr) by nra.
  nra.
Qed.

(** ** Turbulent flow *)
Lemma ln10_gt2 : 2 < ln 10.
Proof.
  apply exp_lt_inv. rewrite exp_ln by lra. replace 2 with (1 + 1) by lra. rewrite exp_plus.
  pose proof exp_le_3. pose proof (exp_pos 1). nra.
Qed.
Lemma ln_pow_nat x n : 0 < x -> ln (x ^ n) = INR n * ln x.
Proof.
  intro H. rewrite <- (rpow_nat x n H). unfold Rpower. apply ln_exp.
Qed.
Lemma log2300 : 3.3 < ln 2300 / ln 10 < 3.4.
Proof.
  pose proof ln10_gt2 as G.
  assert (A : ln (2300 ^ 5) < ln (10 ^ 17)) by (apply ln_increasing; lra).
  assert (B : ln (10 ^ 33) < ln (2300 ^ 10)) by (apply ln_increasing; lra).
  rewrite !ln_pow_nat in A by lra. rewrite !ln_pow_nat in B by lra.
  replace (INR 5) with 5 in A by (cbn; lra). replace (INR 17) with 17 in A by (cbn; lra).
  replace (INR 33) with 33 in B by (cbn; lra). replace (INR 10) with 10 in B by (cbn; lra).
  split; apply (Rmult_lt_reg_r (ln 10)); try lra;
    replace (ln 2300 / ln 10 * ln 10) with (ln 2300) by (field; lra); lra.
Qed.
Definition turb_L (Re : R) : R := 1.8 * (ln Re / ln 10) - 1.5.
Lemma turb_L_low Re : 2300 <= Re -> 4.44 <= turb_L Re.
Proof.
  intro H. unfold turb_L. pose proof ln10_gt2. pose proof log2300.
  assert (ln 2300 <= ln Re) by (destruct H as [H| <-]; [left; apply ln_increasing; lra|lra]).
  assert (ln 2300 / ln 10 <= ln Re / ln 10).
  { apply Rmult_le_compat_r; [left; apply Rinv_0_lt_compat; lra|assumption]. }
  lra.
Qed.
Definition turb_den (c Re : R) : R := 8 * turb_L Re ^ 2 + 12.7 * c * sqrt 8 * turb_L Re.
Lemma nusselt_turb dh x Re Pr : 2300 < Re -> 1 <= Pr ->
  hex_nusselt dh x Re Pr =
    Re * Pr / turb_den (Rpower Pr (2/3) - 1) Re * (1 + Rpower (dh / x) (2/3))
  /\ 0 <= Rpower Pr (2/3) - 1.
Proof.
  intros H P.
  assert (C : 0 <= Rpower Pr (2/3) - 1).
  { destruct P as [P| <-].
    - pose proof (rpow_lt 1 Pr (2/3) ltac:(lra) ltac:(lra)) as Q.
      replace (Rpower 1 (2/3)) with 1 in Q by (unfold Rpower; rewrite ln_1, Rmult_0_r, exp_0; reflexivity).
      lra.
    - unfold Rpower. rewrite ln_1, Rmult_0_r, exp_0. lra. }
  split; [|exact C]. unfold hex_nusselt. destruct (Rlt_dec 2300 Re); [|lra]. cbv zeta. f_equal.
  fold (turb_L Re). pose proof (turb_L_low Re ltac:(lra)) as L. unfold turb_den.
  set (l := turb_L Re) in *. set (c := Rpower Pr (2/3) - 1) in *.
  assert (F : Rpower l (-2) = / l ^ 2).
  { replace (-2) with (- INR 2) by (cbn; lra). rewrite Rpower_Ropp, rpow_nat by lra. reflexivity. }
  rewrite F.
  assert (S8 : sqrt 8 * sqrt 8 = 8) by (apply sqrt_sqrt; lra).
  assert (S0 : 0 < sqrt 8) by (apply sqrt_lt_R0; lra).
  assert (G : Rpower (/ l ^ 2 / 8) 0.5 = / (l * sqrt 8)).
  { assert (P0 : 0 < / l ^ 2 / 8).
    { apply Rdiv_lt_0_compat; [apply Rinv_0_lt_compat, pow_lt|]; lra. }
    apply Rsqr_inj; [left; apply rpow_pos|left; apply Rinv_0_lt_compat, Rmult_lt_0_compat; lra|].
    unfold Rsqr. pose proof (half_sq _ P0) as Q. replace (Rpower (/ l ^ 2 / 8) 0.5 * Rpower (/ l ^ 2 / 8) 0.5)
      with (Rpower (/ l ^ 2 / 8) 0.5 ^ 2) by ring. rewrite Q.
    replace (/ (l * sqrt 8) * / (l * sqrt 8)) with (/ (l ^ 2 * (sqrt 8 * sqrt 8))) by (field; lra).
    rewrite S8. field. lra. }
  rewrite G. clearbody l c. clear F G.
  assert (D : 0 < 8 * l ^ 2 + 12.7 * c * sqrt 8 * l).
  { assert (0 < l ^ 2) by nra. assert (0 <= c * sqrt 8) by nra. nra. }
  replace (1 + 12.7 * c * / (l * sqrt 8)) with ((8 * l ^ 2 + 12.7 * c * sqrt 8 * l) / (8 * l ^ 2)).
  - field. repeat split; lra.
  - replace (12.7 * c * sqrt 8 * l) with (12.7 * c * (8 / sqrt 8) * l)
      by (replace (8 / sqrt 8) with (sqrt 8); [ring|]; rewrite <- S8 at 2; field; lra).
    field. split; lra.
Qed.
(** The number grows with the Reynolds number. *)
Lemma turb_mono c r1 r2 : 0 <= c -> 2300 <= r1 < r2 ->
  0 < turb_den c r1 /\ r1 * turb_den c r2 < r2 * turb_den c r1.
Proof.
  intros C [A B]. unfold turb_den.
  pose proof (turb_L_low r1 A) as L1. pose proof ln10_gt2 as G.
  set (t := ln r2 - ln r1). set (a := 1.8 / ln 10).
  assert (Ht : 0 < t) by (unfold t; pose proof (ln_increasing r1 r2 ltac:(lra) B); lra).
  assert (Ha : 0 < a < 0.9).
  { unfold a. split; [apply Rdiv_lt_0_compat; lra|].
    apply (Rmult_lt_reg_r (ln 10)); [lra|]. replace (1.8 / ln 10 * ln 10) with 1.8 by (field; lra). lra. }
  assert (E : turb_L r2 = turb_L r1 + a * t) by (unfold turb_L, a, t; field; lra).
  rewrite E. set (l := turb_L r1) in *.
  assert (R2 : r2 = r1 * exp t).
  { unfold t. unfold Rminus. rewrite exp_plus, exp_Ropp, !exp_ln by lra. field. lra. }
  assert (X : 1 + t + t ^ 2 / 4 <= exp t).
  { pose proof (exp_ineq1_le (t / 2)) as Q.
    replace (exp t) with (exp (t / 2) * exp (t / 2)) by (rewrite <- exp_plus; f_equal; lra). nra. }
  set (k := 12.7 * c * sqrt 8).
  assert (K : 0 <= k) by (unfold k; pose proof (sqrt_pos 8); nra).
  clearbody k l a t. split; [nra|].
  rewrite R2, Rmult_assoc. apply Rmult_lt_compat_l; [lra|].
  assert (D : 0 < 8 * l ^ 2 + k * l) by nra.
  apply Rlt_le_trans with ((1 + t + t ^ 2 / 4) * (8 * l ^ 2 + k * l)); [|apply Rmult_le_compat_r; lra].
  assert (0 < 8 * l * t * (l - 2 * a)) by (repeat apply Rmult_lt_0_compat; lra).
  assert (0 < t ^ 2 * (2 * l ^ 2 - 8 * a ^ 2)) by (apply Rmult_lt_0_compat; nra).
  assert (0 <= k * t * (l - a)) by (repeat apply Rmult_le_pos; lra).
  assert (0 <= k * l * t ^ 2) by (repeat apply Rmult_le_pos; nra).
  nra.
Qed.
(** At the border the turbulent number is above the laminar ones. *)
Lemma turb_low dh x Re Pr : 0 < dh -> 0 < x -> 2300 < Re -> 1.4 <= Pr <= 12.6 ->
  14.8 < hex_nusselt dh x Re Pr.
Proof.
  intros D X H P. destruct (nusselt_turb dh x Re Pr H ltac:(lra)) as [-> C].
  set (c := Rpower Pr (2/3) - 1) in *.
  destruct (turb_mono c 2300 Re C ltac:(lra)) as [D0 M].
  assert (D1 : 0 < turb_den c Re).
  { unfold turb_den. pose proof (turb_L_low Re ltac:(lra)). pose proof (sqrt_pos 8).
    set (l := turb_L Re) in *. assert (0 <= c * sqrt 8) by (apply Rmult_le_pos; lra). nra. }
  assert (B : c <= 2/3 * (Pr - 1)).
  { unfold c. set (y := Rpower Pr (1/3)). assert (Y : 0 < y) by apply rpow_pos.
    assert (Y3 : y ^ 3 = Pr) by (apply cube_root; lra).
    replace (Rpower Pr (2/3)) with (y ^ 2).
    - rewrite <- Y3. assert (0 <= (y - 1) ^ 2 * (2 * y + 1)); [|nra].
      apply Rmult_le_pos; [apply pow2_ge_0|lra].
    - unfold y. rewrite <- (rpow_nat (Rpower Pr (1/3)) 2) by apply rpow_pos. rewrite Rpower_mult.
      f_equal. cbn. lra. }
  assert (DB : turb_den c 2300 <= 61 + 111 * Pr).
  { unfold turb_den, turb_L. pose proof log2300 as L. set (l := ln 2300 / ln 10) in *.
    assert (S8 : sqrt 8 * sqrt 8 = 8) by (apply sqrt_sqrt; lra).
    assert (S0 : 0 <= sqrt 8) by apply sqrt_pos.
    assert (S1 : sqrt 8 <= 2.8285) by nra. clearbody l c.
    assert (1.8 * l - 1.5 <= 4.62) by lra. set (m := 1.8 * l - 1.5) in *.
    assert (0 < m) by (unfold m; lra). clearbody m.
    assert (c * sqrt 8 <= 2/3 * (Pr - 1) * 2.8285) by (apply Rmult_le_compat; lra).
    assert (c * sqrt 8 * m <= 2/3 * (Pr - 1) * 2.8285 * 4.62).
    { apply Rmult_le_compat; try lra. apply Rmult_le_pos; lra. }
    assert (m ^ 2 <= 4.62 ^ 2) by nra. nra. }
  assert (N : 14.8 < Re * Pr / turb_den c Re).
  { apply (Rmult_lt_reg_r (turb_den c Re)); [exact D1|].
    replace (Re * Pr / turb_den c Re * turb_den c Re) with (Re * Pr) by (field; lra).
    assert (2300 * turb_den c Re <= Re * (61 + 111 * Pr)).
    { apply Rle_trans with (Re * turb_den c 2300); [lra|]. apply Rmult_le_compat_l; lra. }
    apply (Rmult_lt_reg_l 2300); [lra|].
    apply Rle_lt_trans with (14.8 * (Re * (61 + 111 * Pr))); [lra|].
    replace (14.8 * (Re * (61 + 111 * Pr))) with (Re * (14.8 * (61 + 111 * Pr))) by ring.
    replace (2300 * (Re * Pr)) with (Re * (2300 * Pr)) by ring.
    apply Rmult_lt_compat_l; lra. }
  pose proof (rpow_pos (dh / x) (2/3)). nra.
Qed.
Lemma cube_root_lt a b : 0 < a -> 0 < b -> a < b ^ 3 -> Rpower a (1/3) < b.
Proof. intros A B H. apply cube_lt_inv. rewrite cube_root by exact A. exact H. Qed.
Lemma lam_high dh x Re Pr : 0 < dh -> 0 < x -> dh / x <= 1 / 74 -> 0 < Re <= 2300 ->
  1.4 <= Pr <= 12.6 -> hex_nusselt dh x Re Pr < 13.4.
Proof.
  intros D X E H P. rewrite nusselt_lam by lra. pose proof (nu_lam_low (dh / x) Pr Re).
  apply cube_root_lt; try lra. apply nu_lam_up; try assumption.
  split; [apply Rdiv_lt_0_compat; assumption|exact E].
Qed.
(** The Nusselt number of a channel grows with the Reynolds number. *)
Lemma nusselt_mono dh x r1 r2 Pr : 0 < dh -> 0 < x -> dh / x <= 1 / 74 -> 1.4 <= Pr <= 12.6 ->
  0 < r1 < r2 -> hex_nusselt dh x r1 Pr < hex_nusselt dh x r2 Pr.
Proof.
  intros D X E P [A B]. destruct (Rle_lt_dec r2 2300) as [L|L].
  - rewrite !nusselt_lam by lra. apply rpow_lt; [|lra].
    split; [pose proof (nu_lam_low (dh / x) Pr r1); lra|].
    apply nu_lam_mono; try lra. apply Rdiv_lt_0_compat; assumption.
  - destruct (Rle_lt_dec r1 2300) as [G|G].
    + pose proof (lam_high dh x r1 Pr D X E ltac:(lra) P). pose proof (turb_low dh x r2 Pr D X L P). lra.
    + destruct (nusselt_turb dh x r1 Pr G ltac:(lra)) as [-> C].
      destruct (nusselt_turb dh x r2 Pr L ltac:(lra)) as [-> _].
      set (c := Rpower Pr (2/3) - 1) in *.
      destruct (turb_mono c r1 r2 C ltac:(lra)) as [D1 M].
      destruct (turb_mono c r2 (r2 + 1) C ltac:(lra)) as [D2 _].
      apply Rmult_lt_compat_r; [pose proof (rpow_pos (dh / x) (2/3)); lra|].
      apply (Rmult_lt_reg_r (turb_den c r1 * turb_den c r2)); [apply Rmult_lt_0_compat; assumption|].
      replace (r1 * Pr / turb_den c r1 * (turb_den c r1 * turb_den c r2)) with (Pr * (r1 * turb_den c r2)) by (field; lra).
      replace (r2 * Pr / turb_den c r2 * (turb_den c r1 * turb_den c r2)) with (Pr * (r2 * turb_den c r1)) by (field; lra).
      apply Rmult_lt_compat_l; lra.
Qed.
Lemma nusselt_gt_stag dh x r Pr : 0 < dh -> 0 < x -> 0 < Pr -> 0 < r <= 2300 ->
  Rpower (49.371 + (- 0.7) ^ 3) (1/3) < hex_nusselt dh x r Pr.
Proof.
  intros D X P [A B]. rewrite nusselt_lam by lra. apply rpow_lt; [|lra]. split; [lra|].
  unfold nu_lam. cbv zeta. set (q := r * Pr * (dh / x)).
  pose proof (rpow_pos q (1/3)). pose proof (rpow_pos q 0.5).
  pose proof (rpow_pos (2 / (1 + 22 * Pr)) (1/6)).
  assert ((- 0.7) ^ 3 < (1.615 * Rpower q (1 / 3) - 0.7) ^ 3) by (apply cube_lt; lra).
  assert (0 < (Rpower (2 / (1 + 22 * Pr)) (1 / 6) * Rpower q 0.5) ^ 3)
    by (apply pow_lt, Rmult_lt_0_compat; assumption). lra.
Qed.
Lemma stag_bounds : 3.6 < Rpower (49.371 + (- 0.7) ^ 3) (1/3) < 3.7.
Proof.
  split; apply cube_lt_inv; rewrite cube_root by lra; lra.
Qed.


(** ** Arrays *)
Lemma bcast_one {A B C} (f : A -> B -> C) l y : bcast f l [y] = Some (map (fun x => f x y) l).
Proof.
  unfold bcast. destruct (Nat.eqb_spec (length l) (length [y])) as [E|E]; [|reflexivity].
  destruct l as [|a [|b l]]; try discriminate. reflexivity.
Qed.
Lemma scatter_map {A C} (p : A -> bool) (f : A -> C) rows :
  scatter p rows (map f (filter p rows)) (map f (filter (fun r => negb (p r)) rows)) = map f rows.
Proof.
  induction rows as [|r rows IH]; [reflexivity|]. cbn [filter scatter].
  destruct (p r); cbn [negb map]; rewrite IH; reflexivity.
Qed.
Lemma with_dist_id g : with_dist g (hg_x g) = g.
Proof. destruct g; reflexivity. Qed.
Definition palpha (g : hexgeo) (s : hside) (x : R) (p : hpoint) : option R :=
  chan_alpha g x (hg_x g) (hp_dm p / side_channels g s) (hp_Tm p).
Lemma alphas_plate g s pts x : alphas g [hg_x g] s pts x = Some (map (palpha g s x) pts).
Proof.
  unfold alphas. rewrite !bcast_one. unfold masked. rewrite !map_length, !Nat.eqb_refl. f_equal.
  apply (scatter_map (point_turb g s x) (palpha g s x)).
Qed.
Lemma filter_split {A} (p : A -> bool) l :
  (length (filter p l) + length (filter (fun r => negb (p r)) l) = length l)%nat.
Proof. induction l as [|a l IH]; [reflexivity|]. cbn. destruct (p a); cbn; lia. Qed.
Lemma masked_bcast {A C} (p : A -> bool) rows (f : A -> R -> C) (d : list R) v :
  (2 <= length d)%nat -> masked p rows (bcast f (filter p rows) d) = Some v ->
  length (filter p rows) = length d.
Proof.
  intros D. unfold masked, bcast.
  destruct (Nat.eqb_spec (length (filter p rows)) (length d)) as [E|E]; [intro; exact E|].
  destruct d as [|d0 [|d1 d]]; cbn in D; try lia.
  destruct (filter p rows) as [|x [|y l]]; try discriminate.
Qed.
Lemma find_num_fails g dist s pts x : (2 <= length dist)%nat -> length pts <> (2 * length dist)%nat ->
  find_num g dist s pts x = None.
Proof.
  intros D N. unfold find_num, find_corr.
  assert (R1 : objective g dist s pts 1 = Raised); [|rewrite R1; reflexivity].
  unfold objective. destruct (alphas g dist s pts 1) as [a|] eqn:E; [|reflexivity]. exfalso.
  unfold alphas in E.
  destruct (masked (fun p => negb (point_turb g s 1 p)) pts _) as [b|] eqn:B; [|discriminate].
  destruct (masked (point_turb g s 1) pts _) as [c|] eqn:C; [|discriminate].
  apply masked_bcast in B; [|exact D]. apply masked_bcast in C; [|exact D].
  pose proof (filter_split (point_turb g s 1) pts). lia.
Qed.

(** ** The objective *)
Lemma find_plate_inv g s pts x g' o : find_plate g s pts x = Some (g', o) ->
  g' = with_corr g x /\
  o = match deviation pts (map (palpha g s x) pts) with Some v => Val v | None => NaN end.
Proof.
  unfold find_plate, find_corr, objective. rewrite !alphas_plate.
  destruct (deviation pts (map (palpha g s 1) pts)); destruct (deviation pts (map (palpha g s x) pts));
    intro H; injection H as <- <-; auto.
Qed.
Lemma find_plate_val g s pts x v : deviation pts (map (palpha g s x) pts) = Some v ->
  find_plate g s pts x = Some (with_corr g x, Val v).
Proof.
  unfold find_plate, find_corr, objective. rewrite !alphas_plate. intro H. rewrite H.
  destruct (deviation pts (map (palpha g s 1) pts)); reflexivity.
Qed.
Lemma deviation_inv pts f v : deviation pts (map f pts) = Some v ->
  0 <= v /\ forall p, In p pts -> exists a, f p = Some a /\ hp_Tin p <> hp_Tout p /\
    hp_target p <> 0 /\ Rabs (a / hp_target p - 1) <= v.
Proof.
  revert v. induction pts as [|p pts IH]; intros v; cbn [map deviation].
  - intro H; injection H as <-. split; [lra|intros p []].
  - destruct (f p) as [a|] eqn:F; [|discriminate].
    destruct (Req_EM_T (hp_Tin p) (hp_Tout p)) as [|N1]; [discriminate|].
    destruct (Req_EM_T (hp_target p) 0) as [|N2]; [discriminate|].
    destruct (deviation pts (map f pts)) as [w|]; [|discriminate]. cbn [option_map].
    intro H. assert (E : v = Rabs (a / hp_target p - 1) + w) by congruence. clear H.
    destruct (IH w eq_refl) as [W I]. pose proof (Rabs_pos (a / hp_target p - 1)).
    split; [lra|]. intros q [<-|Q]; [exists a; repeat split; auto; lra|].
    destruct (I q Q) as (b & B1 & B2 & B3 & B4). exists b. repeat split; auto. lra.
Qed.
Lemma deviation_zero pts f : (forall p, In p pts -> f p = Some (hp_target p) /\
    hp_Tin p <> hp_Tout p /\ hp_target p <> 0) -> deviation pts (map f pts) = Some 0.
Proof.
  induction pts as [|p pts IH]; intro H; [reflexivity|]. cbn [map deviation].
  destruct (H p (or_introl eq_refl)) as (F & N1 & N2). rewrite F.
  destruct (Req_EM_T (hp_Tin p) (hp_Tout p)); [contradiction|].
  destruct (Req_EM_T (hp_target p) 0); [contradiction|].
  rewrite IH by (intros q Q; apply H; right; exact Q). cbn [option_map]. f_equal.
  replace (hp_target p / hp_target p - 1) with 0 by (field; exact N2). rewrite Rabs_R0. lra.
Qed.

(** ** Coefficients *)
Lemma chan_Re_split g c dm T : chan_Re g c dm T = chan_Re g 0 dm T + c.
Proof. unfold chan_Re. lra. Qed.
Lemma hex_alpha_nu g c dm T : 0 <= T <= 100 ->
  hex_alpha (with_corr g c) dm T
  = hex_nusselt (hg_dh g) (hg_x g) (chan_Re g c dm T) (Pr_water T) * (lambda_water T / hg_dh g).
Proof.
  intro W. pose proof (Pr_bounds T W). unfold hex_alpha, chan_Re, with_corr. cbn. cbv zeta.
  replace (Pr_water T / Pr_water T) with 1 by (field; lra).
  replace (Rpower 1 0.11) with 1 by (unfold Rpower; rewrite ln_1, Rmult_0_r, exp_0; reflexivity).
  unfold Rdiv. ring.
Qed.
(** The coefficient as a multiple of the Nusselt number. *)
Definition nu_full (g : hexgeo) (T r : R) : R :=
  if Req_EM_T r 0 then Rpower (49.371 + (- 0.7) ^ 3) (1/3)
  else hex_nusselt (hg_dh g) (hg_x g) r (Pr_water T).
Lemma chan_alpha_nu g c dm T : 0 <= T <= 100 ->
  chan_alpha g c (hg_x g) dm T
  = if Rlt_dec (chan_Re g c dm T) 0 then None
    else Some (nu_full g T (chan_Re g c dm T) * (lambda_water T / hg_dh g)).
Proof.
  intro W. unfold chan_alpha, nu_full. rewrite with_dist_id.
  destruct (Rlt_dec (chan_Re g c dm T) 0); [reflexivity|].
  destruct (Req_EM_T (chan_Re g c dm T) 0).
  - f_equal. unfold Rdiv. ring.
  - rewrite hex_alpha_nu by exact W. reflexivity.
Qed.
Lemma nu_full_mono g T r1 r2 : 0 < hg_dh g -> 0 < hg_x g -> hg_dh g / hg_x g <= 1 / 74 ->
  0 <= T <= 100 -> 0 <= r1 < r2 -> nu_full g T r1 < nu_full g T r2.
Proof.
  intros D X E W [A B]. pose proof (Pr_bounds T W). unfold nu_full.
  destruct (Req_EM_T r2 0); [lra|]. destruct (Req_EM_T r1 0).
  - destruct (Rle_lt_dec r2 2300).
    + apply nusselt_gt_stag; lra.
    + pose proof stag_bounds. pose proof (turb_low (hg_dh g) (hg_x g) r2 (Pr_water T) D X ltac:(lra) ltac:(lra)). lra.
  - apply nusselt_mono; lra.
Qed.
Lemma nu_full_inj g T r1 r2 : 0 < hg_dh g -> 0 < hg_x g -> hg_dh g / hg_x g <= 1 / 74 ->
  0 <= T <= 100 -> 0 <= r1 -> 0 <= r2 -> nu_full g T r1 = nu_full g T r2 -> r1 = r2.
Proof.
  intros D X E W A B H. destruct (Rtotal_order r1 r2) as [L|[L|L]]; [|exact L|].
  - pose proof (nu_full_mono g T r1 r2 D X E W ltac:(lra)). lra.
  - pose proof (nu_full_mono g T r2 r1 D X E W ltac:(lra)). lra.
Qed.
Lemma nu_full_gap g T r : 0 < hg_dh g -> 0 < hg_x g -> hg_dh g / hg_x g <= 1 / 74 ->
  0 <= T <= 100 -> 0 <= r -> nu_full g T r < 13.4 \/ 14.8 < nu_full g T r.
Proof.
  intros D X E W A. pose proof (Pr_bounds T W). unfold nu_full. pose proof stag_bounds.
  destruct (Req_EM_T r 0); [left; lra|].
  destruct (Rle_lt_dec r 2300).
  - left. apply lam_high; lra.
  - right. apply turb_low; lra.
Qed.
Lemma nu_full_pos g T r : 0 < hg_dh g -> 0 < hg_x g -> hg_dh g / hg_x g <= 1 / 74 ->
  0 <= T <= 100 -> 0 <= r -> 3.6 < nu_full g T r.
Proof.
  intros D X E W [A| <-].
  - pose proof (nu_full_mono g T 0 r D X E W ltac:(lra)). pose proof stag_bounds.
    unfold nu_full in H at 1. destruct (Req_EM_T 0 0); lra.
  - unfold nu_full. pose proof stag_bounds. destruct (Req_EM_T 0 0); lra.
Qed.
