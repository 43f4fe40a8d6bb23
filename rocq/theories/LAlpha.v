(** Proofs about the heat transfer coefficient inside pipes and storages (C106, C107). *)
From Coq Require Import Reals List Arith ZArith Bool Lra Lia.
From Verif Require Import MFlow MWater MDiff SFlow LFlow LWater LDiff LDiff2.
Open Scope R_scope.

(** ** Powers *)
Lemma npow_mult x y e : 0 <= x -> 0 <= y -> npow (x * y) e = npow x e * npow y e.
Proof.
  intros Hx Hy. unfold npow. destruct (Req_EM_T x 0) as [->|Nx].
  - rewrite Rmult_0_l. destruct (Req_EM_T 0 0); lra.
  - destruct (Req_EM_T y 0) as [->|Ny].
    + rewrite Rmult_0_r. destruct (Req_EM_T 0 0); lra.
    + destruct (Req_EM_T (x * y) 0) as [E|_]; [apply Rmult_integral in E; lra|].
      symmetry. apply Rpower_mult_distr; lra.
Qed.
Lemma npow_cbrt x : 0 <= x -> npow x (1 / 3) ^ 3 = x.
Proof.
  intros Hx. unfold npow. destruct (Req_EM_T x 0) as [->|Nx]; [lra|].
  rewrite <- (Rpower_pow 3) by (unfold Rpower; apply exp_pos). rewrite Rpower_mult.
  replace (1 / 3 * INR 3) with 1 by (cbn [INR]; lra). apply Rpower_1. lra.
Qed.
Lemma npow_23 x : 0 <= x -> npow x (2 / 3) = npow x (1 / 3) ^ 2.
Proof.
  intros Hx. unfold npow. destruct (Req_EM_T x 0) as [->|Nx]; [lra|].
  rewrite <- (Rpower_pow 2) by (unfold Rpower; apply exp_pos). rewrite Rpower_mult.
  f_equal. cbn [INR]. lra.
Qed.
Lemma pow3_le_inv u v : 0 <= v -> u ^ 3 <= v ^ 3 -> u <= v.
Proof.
  intros Hv H. destruct (Rle_dec u v) as [L|L]; [exact L|exfalso].
  assert (0 < (u - v) * (u * u + u * v + v * v)); [|nra].
  apply Rmult_lt_0_compat; [lra|]. assert (0 < u) by lra. assert (0 < u * u) by (apply Rmult_lt_0_compat; lra). nra.
Qed.
Lemma npow_cbrt_le x u : 0 <= x -> 0 <= u -> x <= u ^ 3 -> npow x (1 / 3) <= u.
Proof. intros Hx Hu H. apply pow3_le_inv; [exact Hu|]. rewrite npow_cbrt by exact Hx. exact H. Qed.
Lemma npow_cbrt_ge x u : 0 <= x -> u ^ 3 <= x -> u <= npow x (1 / 3).
Proof. intros Hx H. apply pow3_le_inv; [apply npow_nonneg|]. rewrite npow_cbrt by exact Hx. exact H. Qed.

(** ** Logarithm *)
Lemma ln_pow x n : 0 < x -> ln (x ^ n) = INR n * ln x.
Proof.
  intros Hx. induction n; [cbn; rewrite ln_1; lra|]. cbn [pow]. rewrite ln_mult by (try apply pow_lt; lra).
  rewrite IHn, S_INR. lra.
Qed.
Lemma ln10_gt1 : 1 < ln 10.
Proof.
  assert (2 * 1 < 2 * ln 10); [|lra]. change 2 with (INR 2) at 2. rewrite <- ln_pow by lra.
  rewrite <- (ln_exp (2 * 1)). apply ln_increasing; [apply exp_pos|].
  replace (2 * 1) with (1 + 1) by lra. rewrite exp_plus. pose proof exp_le_3.
  pose proof (exp_pos 1). nra.
Qed.
Lemma log10_bounds Re : 2300 < Re <= 2500 -> 3.3 < log10 Re < 3.4.
Proof.
  intros [H1 H2]. pose proof ln10_gt1 as L. unfold log10.
  assert (A : 33 * ln 10 < 10 * ln 2300).
  { replace 33 with (INR 33) by (rewrite INR_IZR_INZ; reflexivity).
    replace (10 * ln 2300) with (INR 10 * ln 2300) by (rewrite INR_IZR_INZ; reflexivity).
    rewrite <- !ln_pow by lra. apply ln_increasing; [apply pow_lt; lra|].
    rewrite !pow_IZR. apply IZR_lt. reflexivity. }
  assert (B : 10 * ln 2500 < 34 * ln 10).
  { replace 34 with (INR 34) by (rewrite INR_IZR_INZ; reflexivity).
    replace (10 * ln 2500) with (INR 10 * ln 2500) by (rewrite INR_IZR_INZ; reflexivity).
    rewrite <- !ln_pow by lra. apply ln_increasing; [apply pow_lt; lra|].
    rewrite !pow_IZR. apply IZR_lt. reflexivity. }
  assert (C : ln 2300 < ln Re) by (apply ln_increasing; lra).
  assert (D : ln Re <= ln 2500) by (destruct H2 as [H2|<-]; [left; apply ln_increasing; lra|lra]).
  split; (apply Rmult_lt_reg_r with (ln 10); [lra|]); unfold Rdiv; rewrite Rmult_assoc, Rinv_l by lra; lra.
Qed.
Lemma log10_mono a b : 0 < a -> a <= b -> log10 a <= log10 b.
Proof.
  intros Ha H. pose proof ln10_gt1. unfold log10, Rdiv. apply Rmult_le_compat_r; [left; apply Rinv_0_lt_compat; lra|].
  destruct H as [H|<-]; [left; apply ln_increasing; lra|lra].
Qed.
Lemma log10_big Re : 2300 < Re -> 3.3 < log10 Re.
Proof.
  intros H. destruct (Rle_dec Re 2500) as [L|L]; [apply log10_bounds; lra|].
  pose proof (log10_bounds 2500 ltac:(lra)). pose proof (log10_mono 2500 Re ltac:(lra) ltac:(lra)). lra.
Qed.

(** ** Laminar flow *)
Lemma nu_laminar_arg y : 0 <= y -> 49 < 49.371 + (1.077 * y - 0.7) ^ 3.
Proof.
  intros H. assert (E7 : 0.7 = 7/10) by lra. rewrite E7.
  pose proof (cube_ge (1.077 * y - 7/10) (7/10) ltac:(lra) ltac:(lra)). lra.
Qed.
Lemma cube_mono a b : a <= b -> a ^ 3 <= b ^ 3.
Proof.
  intros H. assert (0 <= (b - a) * (b * b + a * b + a * a)); [|nra]. apply Rmult_le_pos; [lra|]. nra.
Qed.
Lemma nu_laminar_mono Pe1 Pe2 di x : 0 <= Pe1 <= Pe2 -> 0 < di -> 0 < x ->
  nu_laminar Pe1 di x <= nu_laminar Pe2 di x.
Proof.
  intros H Hd Hx. unfold nu_laminar.
  assert (Q : 0 < di / x) by (apply Rdiv_lt_0_compat; lra).
  assert (0 <= Pe1 * di / x) by (unfold Rdiv in *; rewrite Rmult_assoc; apply Rmult_le_pos; lra).
  assert (Pe1 * di / x <= Pe2 * di / x) by (unfold Rdiv in *; rewrite !Rmult_assoc; apply Rmult_le_compat_r; lra).
  pose proof (npow_mono (Pe1 * di / x) (Pe2 * di / x) (1/3) ltac:(lra) ltac:(lra) ltac:(lra)).
  pose proof (npow_nonneg (Pe1 * di / x) (1/3)). apply npow_mono; [|apply Rplus_le_compat_l, cube_mono; lra|lra].
  pose proof (nu_laminar_arg (npow (Pe1 * di / x) (1/3)) ltac:(lra)). lra.
Qed.
Lemma nu_laminar_min Pe di x : 3.65 <= nu_laminar Pe di x.
Proof.
  unfold nu_laminar. pose proof (npow_nonneg (Pe * di / x) (1/3)) as H.
  pose proof (nu_laminar_arg _ H). set (y := npow (Pe * di / x) (1/3)) in *. apply npow_cbrt_ge; lra.
Qed.

(** Upper bound at the end of laminar flow, in terms of the cube roots of Pr and di/x. *)
Lemma nu_laminar_end Pr di x : 0 < Pr -> 0 < di -> 0 < x ->
  let p := npow Pr (1 / 3) in let w := npow (di / x) (1 / 3) in
  nu_laminar (2300 * Pr) di x <= 5.6 \/ nu_laminar (2300 * Pr) di x <= 14.23 * (p * w).
Proof.
  intros HP Hd Hx p w. unfold nu_laminar.
  assert (Q : 0 < di / x) by (apply Rdiv_lt_0_compat; lra).
  replace (2300 * Pr * di / x) with (2300 * (Pr * (di / x))) by (field; lra).
  rewrite (npow_mult 2300) by (try lra; apply Rmult_le_pos; lra). rewrite (npow_mult Pr) by lra. fold p w.
  pose proof (npow_cbrt_le 2300 13.21 ltac:(lra) ltac:(lra) ltac:(lra)) as C.
  pose proof (npow_nonneg 2300 (1/3)) as C0. set (c := npow 2300 (1/3)) in *. clearbody c.
  pose proof (npow_nonneg Pr (1/3)) as P0. pose proof (npow_nonneg (di / x) (1/3)) as W0. fold p in P0. fold w in W0.
  assert (PW : 0 <= p * w) by (apply Rmult_le_pos; assumption). set (pw := p * w) in *. clearbody pw.
  assert (CP : 0 <= c * pw) by (apply Rmult_le_pos; assumption).
  pose proof (nu_laminar_arg (c * pw) CP) as Z.
  assert (1.077 * (c * pw) <= 14.23 * pw) by nra. set (v := c * pw) in *. clearbody v.
  destruct (Rle_dec (1.077 * v - 0.7) 5) as [L|L].
  - left. apply npow_cbrt_le; [lra|lra|]. pose proof (cube_mono _ _ L). lra.
  - right. apply npow_cbrt_le; [lra|lra|].
    apply Rle_trans with ((1.077 * v) ^ 3); [|apply cube_mono; lra].
    assert (H5 : 5 < 1.077 * v - 0.7) by lra. set (y := 1.077 * v - 0.7) in *.
    replace (1.077 * v) with (y + 0.7) by (unfold y; lra). clearbody y. nra.
Qed.

(** ** Turbulent flow *)
Definition fric (Re : R) : R := / ((1.8 * log10 Re - 1.5) ^ 2).
Lemma fric_pos Re : 2300 < Re -> 0 < fric Re.
Proof. intros H. pose proof (log10_big Re H). apply Rinv_0_lt_compat, pow_lt. lra. Qed.
Lemma fric_decreasing a b : 2300 < a -> a <= b -> fric b <= fric a.
Proof.
  intros Ha H. pose proof (log10_big a Ha). pose proof (log10_mono a b ltac:(lra) H). unfold fric.
  apply Rinv_le_contravar; [apply pow_lt; lra|]. apply pow_incr. lra.
Qed.
(** [Re * fric Re] increases: Re grows faster than the square of the logarithm. *)
Lemma fric_Re a b : 2300 < a -> a <= b -> fric a * a <= fric b * b.
Proof.
  intros Ha H. pose proof (log10_big a Ha) as La. pose proof (log10_mono a b ltac:(lra) H) as Lm.
  pose proof ln10_gt1 as L10.
  assert (S1 : 0 < sqrt a) by (apply sqrt_lt_R0; lra).
  assert (S2 : 0 < sqrt b) by (apply sqrt_lt_R0; lra).
  set (r := sqrt b / sqrt a).
  assert (Hr : 1 <= r).
  { unfold r. apply Rmult_le_reg_r with (sqrt a); [lra|]. unfold Rdiv. rewrite Rmult_assoc, Rinv_l by lra.
    pose proof (sqrt_le_1 a b ltac:(lra) ltac:(lra) H). lra. }
  assert (Eb : b = r ^ 2 * a).
  { unfold r. pose proof (sqrt_sqrt b ltac:(lra)) as Sb. pose proof (sqrt_sqrt a ltac:(lra)) as Sa.
    set (sa := sqrt a) in *. set (sb := sqrt b) in *. rewrite <- Sb, <- Sa. field. lra. }
  assert (Lr : ln r <= r - 1).
  { pose proof (exp_ineq1_le (ln r)) as E. rewrite exp_ln in E by lra. lra. }
  assert (Elog : log10 b = log10 a + 2 * ln r / ln 10).
  { unfold log10. rewrite Eb. rewrite ln_mult by (try apply pow_lt; lra). rewrite ln_pow by lra.
    cbn [INR]. field. lra. }
  assert (K : ln r / ln 10 <= r - 1).
  { apply Rmult_le_reg_r with (ln 10); [lra|]. unfold Rdiv. rewrite Rmult_assoc, Rinv_l by lra. nra. }
  set (u := 1.8 * log10 a - 1.5). set (v := 1.8 * log10 b - 1.5).
  assert (Hu : 4 < u) by (unfold u; lra).
  assert (Hv : u <= v <= r * u).
  { unfold v, u in *. split; [lra|]. rewrite Elog. unfold Rdiv in *.
    replace (2 * ln r * / ln 10) with (2 * (ln r * / ln 10)) by ring. nra. }
  unfold fric. fold u v. rewrite Eb.
  replace (/ u ^ 2 * a) with (a * (/ u * / u)) by (field; lra).
  replace (/ v ^ 2 * (r ^ 2 * a)) with (a * ((r * / v) * (r * / v))) by (field; lra).
  apply Rmult_le_compat_l; [lra|].
  assert (/ u <= r * / v).
  { apply Rmult_le_reg_r with (u * v); [apply Rmult_lt_0_compat; lra|].
    replace (/ u * (u * v)) with v by (field; lra). replace (r * / v * (u * v)) with (r * u) by (field; lra). lra. }
  assert (0 < / u) by (apply Rinv_0_lt_compat; lra). apply Rmult_le_compat; lra.
Qed.

Lemma nu_turbulent_mono Re1 Re2 Pr di x : 2300 < Re1 -> Re1 <= Re2 -> 1 < Pr ->
  nu_turbulent Re1 Pr di x <= nu_turbulent Re2 Pr di x.
Proof.
  intros H1 H HP. unfold nu_turbulent. fold (fric Re1). fold (fric Re2).
  pose proof (fric_pos Re1 H1) as F1. pose proof (fric_pos Re2 ltac:(lra)) as F2.
  pose proof (fric_decreasing _ _ H1 H) as FD. pose proof (fric_Re _ _ H1 H) as FR.
  pose proof (npow_nonneg (di / x) (2/3)) as W. apply Rmult_le_compat_r; [lra|].
  pose proof (npow_ge1 Pr (2/3) HP ltac:(lra)) as P1. set (P := npow Pr (2/3)) in *. clearbody P.
  pose proof (sqrt_le_1 (fric Re2 / 8) (fric Re1 / 8) ltac:(lra) ltac:(lra) ltac:(lra)) as S.
  pose proof (sqrt_pos (fric Re2 / 8)) as S0.
  set (s1 := sqrt (fric Re1 / 8)) in *. set (s2 := sqrt (fric Re2 / 8)) in *. clearbody s1 s2.
  assert (0 <= 12.7 * (P - 1) * s2) by (apply Rmult_le_pos; [apply Rmult_le_pos|]; lra).
  assert (12.7 * (P - 1) * s2 <= 12.7 * (P - 1) * s1) by (apply Rmult_le_compat_l; [apply Rmult_le_pos|]; lra).
  unfold Rdiv. apply Rmult_le_compat.
  - apply Rmult_le_pos; [lra|]. apply Rmult_le_pos; lra.
  - left. apply Rinv_0_lt_compat. lra.
  - replace (fric Re1 * / 8 * (Re1 * Pr)) with (fric Re1 * Re1 * (/ 8 * Pr)) by ring.
    replace (fric Re2 * / 8 * (Re2 * Pr)) with (fric Re2 * Re2 * (/ 8 * Pr)) by ring.
    apply Rmult_le_compat_r; lra.
  - apply Rinv_le_contravar; lra.
Qed.

(** Lower bound right after the transition. *)
Lemma nu_turbulent_begin Re Pr di x : 2300 < Re <= 2500 -> 1 < Pr -> 0 < di -> 0 < x ->
  let p := npow Pr (1 / 3) in let w := npow (di / x) (1 / 3) in
  1 <= p /\ 13.25 * p + 4.41 * (p * w ^ 2) <= nu_turbulent Re Pr di x.
Proof.
  intros HR HP Hd Hx p w. unfold nu_turbulent. fold (fric Re).
  assert (Q : 0 < di / x) by (apply Rdiv_lt_0_compat; lra).
  pose proof (npow_ge1 Pr (1/3) HP ltac:(lra)) as P1. fold p in P1. split; [exact P1|].
  rewrite !npow_23 by lra. fold p w. pose proof (npow_nonneg (di / x) (1/3)) as W0. fold w in W0.
  assert (EP : Pr = p ^ 3) by (unfold p; rewrite npow_cbrt; lra). rewrite EP. clear EP.
  pose proof (log10_bounds Re HR) as L. clearbody p w.
  assert (F1 : 0.04685 <= fric Re <= 0.0512).
  { unfold fric. set (s := 1.8 * log10 Re - 1.5). assert (Hs : 4.44 < s < 4.62) by (unfold s; lra). clearbody s.
    assert (0 < s ^ 2) by nra. split.
    - apply Rmult_le_reg_r with (s ^ 2); [lra|]. rewrite Rinv_l by lra. assert (s ^ 2 <= 21.3444) by nra. lra.
    - apply Rmult_le_reg_r with (s ^ 2); [lra|]. rewrite Rinv_l by lra. assert (19.7 <= s ^ 2) by nra. lra. }
  assert (S : sqrt (fric Re / 8) <= 0.08).
  { rewrite <- (sqrt_square 0.08) by lra. apply sqrt_le_1; lra. }
  pose proof (sqrt_pos (fric Re / 8)) as S0. set (s := sqrt (fric Re / 8)) in *. clearbody s.
  set (f := fric Re) in *. clearbody f.
  assert (P2 : 1 <= p ^ 2) by nra.
  assert (D : 0 < 1 + 12.7 * (p ^ 2 - 1) * s <= 1.016 * p ^ 2).
  { assert (0 <= 12.7 * (p ^ 2 - 1)) by lra. set (k := 12.7 * (p ^ 2 - 1)) in *. assert (0 <= k * s <= k * 0.08).
    { split; [apply Rmult_le_pos; lra|apply Rmult_le_compat_l; lra]. }
    unfold k in *. lra. }
  assert (P3 : 0 < p ^ 3) by (apply pow_lt; lra).
  assert (N : 13.462 * p ^ 3 <= f / 8 * (Re * p ^ 3)).
  { assert (0.005856 * 2300 <= f / 8 * Re) by nra. nra. }
  assert (T : 13.25 * p <= f / 8 * (Re * p ^ 3) / (1 + 12.7 * (p ^ 2 - 1) * s)).
  { apply Rmult_le_reg_r with (1 + 12.7 * (p ^ 2 - 1) * s); [lra|].
    unfold Rdiv at 1. rewrite (Rmult_assoc _ (/ _)), Rinv_l by lra. rewrite Rmult_1_r.
    apply Rle_trans with (13.25 * p * (1.016 * p ^ 2)); [apply Rmult_le_compat_l; lra|].
    replace (p ^ 3) with (p * p ^ 2) in * by ring. nra. }
  set (X := f / 8 * (Re * p ^ 3) / (1 + 12.7 * (p ^ 2 - 1) * s)) in *. clearbody X.
  assert (0 <= w ^ 2) by nra. assert (0 <= p * w ^ 2) by (apply Rmult_le_pos; lra).
  assert (13.25 * p * (1 + w ^ 2 / 3) <= X * (1 + w ^ 2 / 3)) by (apply Rmult_le_compat_r; lra). lra.
Qed.

(** The jump. *)
Lemma nu_jump Re Pr di x : 2300 < Re -> 1 < Pr -> 0 < di -> 0 < x ->
  nu_laminar (2300 * Pr) di x + 1.7 <= nu_turbulent Re Pr di x.
Proof.
  intros HR HP Hd Hx.
  assert (B : forall Re, 2300 < Re <= 2500 -> nu_laminar (2300 * Pr) di x + 1.7 <= nu_turbulent Re Pr di x).
  { intros Re' HR'. destruct (nu_turbulent_begin Re' Pr di x HR' HP Hd Hx) as [P1 T].
    destruct (nu_laminar_end Pr di x ltac:(lra) Hd Hx) as [L|L];
      pose proof (npow_nonneg (di / x) (1/3)) as W0;
      set (p := npow Pr (1/3)) in *; set (w := npow (di / x) (1/3)) in *; clearbody p w.
    - assert (0 <= p * w ^ 2) by (apply Rmult_le_pos; [lra|nra]). lra.
    - assert (Q : 1.7 <= 4.41 * w ^ 2 - 14.23 * w + 13.25).
      { pose proof (Rle_0_sqr (w - 14.23 / 8.82)) as S. unfold Rsqr in S. lra. }
      assert (1.7 <= p * (4.41 * w ^ 2 - 14.23 * w + 13.25)) by nra. lra. }
  destruct (Rle_dec Re 2500) as [L|L]; [apply B; lra|].
  eapply Rle_trans; [apply (B 2500); lra|]. apply nu_turbulent_mono; lra.
Qed.

(** ** The coefficient as function of the flow *)
Lemma reynolds_mono dm1 dm2 T A di : 0 <= T <= 100 -> 0 < A -> 0 < di -> Rabs dm1 <= Rabs dm2 ->
  reynolds dm1 (rho_water T) A di (ny_water T) <= reynolds dm2 (rho_water T) A di (ny_water T).
Proof.
  intros HT HA Hd H. pose proof (rho_bounds T HT). pose proof (ny_bounds T HT). unfold reynolds, Rdiv.
  rewrite !Rabs_mult. apply Rmult_le_compat_r; [left; apply Rinv_0_lt_compat; lra|].
  apply Rmult_le_compat_r; [lra|]. apply Rmult_le_compat_r; [apply Rabs_pos|exact H].
Qed.

Lemma alpha_in_mono dm1 dm2 T A di x : 0 <= T <= 100 -> 0 < A -> 0 < di -> 0 < x -> Rabs dm1 <= Rabs dm2 ->
  alpha_in dm1 T A di x <= alpha_in dm2 T A di x.
Proof.
  intros HT HA Hd Hx H. pose proof (reynolds_mono _ _ T A di HT HA Hd H) as M. unfold alpha_in. cbv zeta.
  pose proof (Pr_bounds T HT) as HP. pose proof (lambda_bounds T HT) as HL. pose proof (ny_bounds T HT).
  pose proof (reynolds_nonneg dm1 (rho_water T) A di (ny_water T) Hd ltac:(lra)) as R0.
  set (R1 := reynolds dm1 _ _ _ _) in *. set (R2 := reynolds dm2 _ _ _ _) in *. clearbody R1 R2.
  unfold Rdiv. apply Rmult_le_compat_r; [left; apply Rinv_0_lt_compat; lra|].
  apply Rmult_le_compat_r; [lra|].
  destruct (Rlt_dec 2300 R1) as [A1|A1]; destruct (Rlt_dec 2300 R2) as [A2|A2].
  - apply nu_turbulent_mono; lra.
  - lra.
  - pose proof (nu_jump R2 (Pr_water T) di x A2 ltac:(lra) Hd Hx).
    pose proof (nu_laminar_mono (R1 * Pr_water T) (2300 * Pr_water T) di x) as N.
    assert (nu_laminar (R1 * Pr_water T) di x <= nu_laminar (2300 * Pr_water T) di x); [|lra].
    apply N; [|lra|lra]. split; [apply Rmult_le_pos; lra|apply Rmult_le_compat_r; lra].
  - apply nu_laminar_mono; [|lra|lra]. split; [apply Rmult_le_pos; lra|apply Rmult_le_compat_r; lra].
Qed.

(** ** Continuity *)
Definition cbrt_abs (u : R) : R := npow (Rabs u) (1 / 3).
Lemma cube_diff u v : 0 <= u -> 0 <= v -> Rabs (u - v) ^ 3 <= Rabs (u ^ 3 - v ^ 3).
Proof.
  intros Hu Hv.
  assert (G : forall a b, 0 <= b -> b <= a -> (a - b) ^ 3 <= a ^ 3 - b ^ 3).
  { intros a b Hb H. assert (0 <= 3 * (a * b) * (a - b)); [|nra]. apply Rmult_le_pos; [|lra].
    apply Rmult_le_pos; [lra|]. apply Rmult_le_pos; lra. }
  destruct (Rle_dec v u) as [L|L].
  - rewrite (Rabs_pos_eq (u - v)) by lra. pose proof (G u v Hv L). pose proof (Rle_abs (u ^ 3 - v ^ 3)). lra.
  - rewrite Rabs_minus_sym, (Rabs_minus_sym (u ^ 3)). rewrite (Rabs_pos_eq (v - u)) by lra.
    pose proof (G v u Hu ltac:(lra)). pose proof (Rle_abs (v ^ 3 - u ^ 3)). lra.
Qed.
Lemma cbrt_abs_cont u : continuity_pt cbrt_abs u.
Proof.
  intros eps He. exists (eps ^ 3). split; [apply pow_lt; lra|].
  intros y [_ Hy]. cbn in *. unfold R_dist in *. unfold cbrt_abs.
  set (a := npow (Rabs y) (1/3)). set (b := npow (Rabs u) (1/3)).
  assert (Ea : a ^ 3 = Rabs y) by (apply npow_cbrt, Rabs_pos).
  assert (Eb : b ^ 3 = Rabs u) by (apply npow_cbrt, Rabs_pos).
  pose proof (cube_diff a b (npow_nonneg _ _) (npow_nonneg _ _)) as C. rewrite Ea, Eb in C.
  pose proof (Rabs_triang_inv2 y u) as T.
  assert (Q : Rabs (a - b) ^ 3 < eps ^ 3) by lra.
  destruct (Rlt_dec (Rabs (a - b)) eps) as [L|L]; [exact L|].
  pose proof (cube_mono eps (Rabs (a - b)) ltac:(lra)). lra.
Qed.

Lemma nu_laminar_is Pe di x : 0 <= Pe * di / x ->
  nu_laminar Pe di x = cbrt_abs (49.371 + (1.077 * cbrt_abs (Pe * di / x) - 0.7) ^ 3).
Proof.
  intros H. unfold nu_laminar, cbrt_abs. rewrite (Rabs_pos_eq (Pe * di / x)) by exact H.
  pose proof (nu_laminar_arg _ (npow_nonneg (Pe * di / x) (1/3))). rewrite (Rabs_pos_eq (49.371 + _)) by lra. reflexivity.
Qed.

Lemma comp_cont f g x : continuity_pt f x -> continuity_pt g (f x) -> continuity_pt (fun y => g (f y)) x.
Proof. intros Hf Hg. exact (continuity_pt_comp f g x Hf Hg). Qed.
Lemma mul_cont f g x : continuity_pt f x -> continuity_pt g x -> continuity_pt (fun y => f y * g y) x.
Proof. exact (continuity_pt_mult f g x). Qed.
Lemma add_cont f g x : continuity_pt f x -> continuity_pt g x -> continuity_pt (fun y => f y + g y) x.
Proof. exact (continuity_pt_plus f g x). Qed.
Lemma const_cont c x : continuity_pt (fun _ => c) x.
Proof. apply continuity_pt_const. intros a b. reflexivity. Qed.
Lemma id_cont x : continuity_pt (fun y => y) x.
Proof. apply derivable_continuous_pt, derivable_pt_id. Qed.
Lemma inv_cont f x : continuity_pt f x -> f x <> 0 -> continuity_pt (fun y => / f y) x.
Proof. intros H N. exact (continuity_pt_inv f x H N). Qed.
Lemma pow_cont f n x : continuity_pt f x -> continuity_pt (fun y => f y ^ n) x.
Proof. intros H. induction n; cbn [pow]; [apply const_cont|apply mul_cont; assumption]. Qed.
Lemma ln_cont f x : continuity_pt f x -> 0 < f x -> continuity_pt (fun y => ln (f y)) x.
Proof.
  intros H P. apply (comp_cont f ln x H). apply derivable_continuous_pt.
  exists (/ f x). apply derivable_pt_lim_ln. exact P.
Qed.
Lemma sqrt_cont f x : continuity_pt f x -> 0 <= f x -> continuity_pt (fun y => sqrt (f y)) x.
Proof. intros H P. apply (comp_cont f sqrt x H). apply continuity_pt_sqrt. exact P. Qed.

Lemma reynolds_cont T A di dm : continuity_pt (fun y => reynolds y (rho_water T) A di (ny_water T)) dm.
Proof.
  unfold reynolds, Rdiv. apply mul_cont; [|apply const_cont]. apply mul_cont; [|apply const_cont].
  apply (comp_cont (fun y => y * / (rho_water T * A)) Rabs).
  - apply mul_cont; [apply id_cont|apply const_cont].
  - apply Rcontinuity_abs.
Qed.

Lemma alpha_in_cont dm T A di x : 0 <= T <= 100 -> 0 < A -> 0 < di -> 0 < x ->
  reynolds dm (rho_water T) A di (ny_water T) <> 2300 ->
  continuity_pt (fun y => alpha_in y T A di x) dm.
Proof.
  intros HT HA Hd Hx HN. pose proof (Pr_bounds T HT) as HP. pose proof (ny_bounds T HT).
  set (re := fun y => reynolds y (rho_water T) A di (ny_water T)) in *.
  assert (RC : continuity_pt re dm) by apply reynolds_cont.
  assert (R0 : forall y, 0 <= re y) by (intros y; apply reynolds_nonneg; lra).
  assert (Q : 0 < di / x) by (apply Rdiv_lt_0_compat; lra).
  destruct (RC (Rabs (re dm - 2300))) as (a & Ha & Near).
  { apply Rabs_pos_lt. fold (re dm) in HN. lra. }
  assert (Near' : forall y, R_dist y dm < a -> Rabs (re y - re dm) < Rabs (re dm - 2300)).
  { intros y Hy. destruct (Req_dec dm y) as [<-|Ny].
    - rewrite Rminus_diag_eq, Rabs_R0 by reflexivity. apply Rabs_pos_lt. fold (re dm) in HN. lra.
    - apply (Near y). split; [split; [exact I|exact Ny]|exact Hy]. }
  destruct (Rlt_dec 2300 (re dm)) as [L|L].
  - (* turbulent *)
    apply (continuity_pt_locally_ext (fun y => nu_turbulent (re y) (Pr_water T) di x * lambda_water T / di) _ a); [exact Ha| |].
    { intros y Hy. pose proof (Near' y Hy) as N. unfold alpha_in. cbv zeta. fold (re y).
      destruct (Rlt_dec 2300 (re y)) as [|C]; [reflexivity|exfalso].
      rewrite (Rabs_pos_eq (re dm - 2300)) in N by lra. rewrite Rabs_left in N by lra. lra. }
    unfold nu_turbulent, Rdiv. apply mul_cont; [|apply const_cont]. apply mul_cont; [|apply const_cont].
    apply mul_cont; [|apply const_cont]. pose proof (log10_big _ L) as LB.
    assert (FC : continuity_pt (fun y => / (1.8 * log10 (re y) - 1.5) ^ 2) dm).
    { apply inv_cont; [|apply pow_nonzero; lra]. apply pow_cont. unfold Rminus. apply add_cont; [|apply const_cont].
      apply mul_cont; [apply const_cont|]. unfold log10, Rdiv. apply mul_cont; [|apply const_cont].
      apply ln_cont; [exact RC|]. lra. }
    pose proof (fric_pos _ L) as FP. unfold fric in FP.
    apply mul_cont.
    + apply mul_cont; [apply mul_cont; [exact FC|apply const_cont]|]. apply mul_cont; [exact RC|apply const_cont].
    + apply inv_cont.
      * apply add_cont; [apply const_cont|]. apply mul_cont; [apply const_cont|].
        apply sqrt_cont; [|lra]. apply mul_cont; [exact FC|apply const_cont].
      * pose proof (npow_ge1 (Pr_water T) (2 * / 3) ltac:(lra) ltac:(lra)).
        pose proof (sqrt_pos (/ (1.8 * log10 (re dm) - 1.5) ^ 2 * / 8)).
        assert (0 <= 12.7 * (npow (Pr_water T) (2 * / 3) - 1) * sqrt (/ (1.8 * log10 (re dm) - 1.5) ^ 2 * / 8)); [|lra].
        apply Rmult_le_pos; [apply Rmult_le_pos; lra|assumption].
  - (* laminar *)
    apply (continuity_pt_locally_ext (fun y => cbrt_abs (49.371 + (1.077 * cbrt_abs (re y * Pr_water T * di / x) - 0.7) ^ 3) * lambda_water T / di) _ a); [exact Ha| |].
    { intros y Hy. pose proof (Near' y Hy) as N. unfold alpha_in. cbv zeta. fold (re y).
      destruct (Rlt_dec 2300 (re y)) as [C|_].
      - exfalso. fold (re dm) in HN. rewrite (Rabs_left (re dm - 2300)) in N by lra. rewrite Rabs_pos_eq in N by lra. lra.
      - rewrite nu_laminar_is; [reflexivity|]. unfold Rdiv in *. rewrite Rmult_assoc. apply Rmult_le_pos; [|lra].
        apply Rmult_le_pos; [apply R0|lra]. }
    unfold Rdiv. apply mul_cont; [|apply const_cont]. apply mul_cont; [|apply const_cont].
    apply (comp_cont (fun y => 49.371 + (1.077 * cbrt_abs (re y * Pr_water T * di * / x) - 0.7) ^ 3) cbrt_abs); [|apply cbrt_abs_cont].
    apply add_cont; [apply const_cont|]. apply pow_cont. unfold Rminus. apply add_cont; [|apply const_cont].
    apply mul_cont; [apply const_cont|].
    apply (comp_cont (fun y => re y * Pr_water T * di * / x) cbrt_abs); [|apply cbrt_abs_cont].
    do 3 (apply mul_cont; [|apply const_cont]). exact RC.
Qed.
