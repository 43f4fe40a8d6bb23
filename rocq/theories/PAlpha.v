(** C106-C109: heat transfer coefficients inside and outside of parts. *)
From Coq Require Import Reals List Arith ZArith Bool Lra Lia.
From Verif Require Import MFlow MWater MDiff SFlow LFlow LWater LDiff LDiff2 LDiff4 LAlpha LAlpha2 SDiff MGeom SGeom LGeom LGeom2 PGeom.
Open Scope R_scope.

(** ** C106 The coefficient depends continuously on the flow *)
(** It does for all flows but the one at which laminar flow ends. *)
Theorem C106_continuous_partial : forall dm T A di x,
  0 <= T <= 100 -> 0 < A -> 0 < di -> 0 < x ->
  Rabs (dm / (rho_water T * A)) * di / ny_water T <> 2300 ->
  continuity_pt (fun y => alpha_in y T A di x) dm.
Proof. intros. apply alpha_in_cont; assumption. Qed.
Print Assumptions C106_continuous_partial.

(** There it jumps, for every pipe, position and temperature. *)
Theorem C106_jump_refuted : forall T A di x, 0 <= T <= 100 -> 0 < A -> 0 < di -> 0 < x ->
  exists dm0, 0 < dm0 /\ ~ continuity_pt (fun y => alpha_in y T A di x) dm0 /\
    (forall dm, dm0 < dm -> alpha_in dm0 T A di x + 1.7 * lambda_water T / di <= alpha_in dm T A di x) /\
    forall dm, 0 <= dm < dm0 -> alpha_in dm T A di x <= alpha_in dm0 T A di x.
Proof.
  intros T A di x HT HA Hd Hx. pose proof (rho_bounds T HT) as HR. pose proof (ny_bounds T HT) as HN.
  pose proof (lambda_bounds T HT) as HL. pose proof (Pr_bounds T HT) as HP.
  set (k := di / (rho_water T * A * ny_water T)).
  assert (K : 0 < k).
  { unfold k. apply Rdiv_lt_0_compat; [lra|]. repeat (apply Rmult_lt_0_compat; try lra). }
  assert (RK : forall dm, 0 <= dm -> reynolds dm (rho_water T) A di (ny_water T) = k * dm).
  { intros dm Hdm. unfold reynolds. rewrite Rabs_pos_eq.
    - unfold k. field. repeat split; lra.
    - unfold Rdiv. apply Rmult_le_pos; [lra|]. left. apply Rinv_0_lt_compat, Rmult_lt_0_compat; lra. }
  set (d0 := 2300 / k). assert (D0 : 0 < d0) by (apply Rdiv_lt_0_compat; lra).
  assert (E0 : k * d0 = 2300) by (unfold d0; field; lra).
  assert (J : forall dm, d0 < dm -> alpha_in d0 T A di x + 1.7 * lambda_water T / di <= alpha_in dm T A di x).
  { intros dm Hdm. unfold alpha_in. cbv zeta. rewrite !RK by lra. rewrite E0.
    assert (Q : 2300 < k * dm) by (rewrite <- E0; apply Rmult_lt_compat_l; lra).
    destruct (Rlt_dec 2300 2300); [lra|]. destruct (Rlt_dec 2300 (k * dm)); [|lra].
    pose proof (nu_jump (k * dm) (Pr_water T) di x Q ltac:(lra) Hd Hx) as N.
    unfold Rdiv. rewrite <- Rmult_plus_distr_r. apply Rmult_le_compat_r; [left; apply Rinv_0_lt_compat; lra|].
    rewrite <- Rmult_plus_distr_r. apply Rmult_le_compat_r; lra. }
  exists d0. split; [exact D0|]. split; [|split; [exact J|]].
  - intros C. destruct (C (1.7 * lambda_water T / di)) as (a & Ha & Near).
    { apply Rdiv_lt_0_compat; lra. }
    specialize (Near (d0 + a / 2)). cbn in Near. unfold R_dist in Near.
    specialize (J (d0 + a / 2) ltac:(lra)).
    assert (Rabs (alpha_in (d0 + a / 2) T A di x - alpha_in d0 T A di x) < 1.7 * lambda_water T / di).
    { apply Near. split.
      - split; [exact I|lra].
      - replace (d0 + a / 2 - d0) with (a / 2) by ring. rewrite Rabs_pos_eq; lra. }
    pose proof (Rle_abs (alpha_in (d0 + a / 2) T A di x - alpha_in d0 T A di x)). lra.
  - intros dm Hdm. apply alpha_in_mono; try assumption. rewrite !Rabs_pos_eq; lra.
Qed.
Print Assumptions C106_jump_refuted.

(** ** C107 More flow never means less heat transfer *)
Theorem C107_flow : forall dm1 dm2 T A di x, 0 <= T <= 100 -> 0 < A -> 0 < di -> 0 < x ->
  Rabs dm1 <= Rabs dm2 -> 0 < alpha_in dm1 T A di x <= alpha_in dm2 T A di x.
Proof. intros. split; [apply alpha_in_pos; assumption|apply alpha_in_mono; assumption]. Qed.
Print Assumptions C107_flow.

(** Water at rest still conducts: the smallest Nusselt number is that of developed laminar flow. *)
Theorem C107_floor : forall dm T A di x, 0 <= T <= 100 -> 0 < A -> 0 < di -> 0 < x ->
  3.65 * lambda_water T / di <= alpha_in dm T A di x.
Proof.
  intros dm T A di x HT HA Hd Hx. pose proof (lambda_bounds T HT) as HL.
  apply Rle_trans with (alpha_in 0 T A di x).
  - unfold alpha_in. cbv zeta.
    replace (reynolds 0 (rho_water T) A di (ny_water T)) with 0
      by (unfold reynolds, Rdiv; rewrite Rmult_0_l, Rabs_R0; ring).
    destruct (Rlt_dec 2300 0); [lra|]. unfold Rdiv. apply Rmult_le_compat_r; [left; apply Rinv_0_lt_compat; lra|].
    apply Rmult_le_compat_r; [lra|]. apply nu_laminar_min.
  - apply alpha_in_mono; try assumption. rewrite Rabs_R0. apply Rabs_pos.
Qed.
Print Assumptions C107_floor.

(** The conductance to the ambient follows. *)
Theorem C107_conductance : forall g dm1 dm2 T A di x ainf, geo_ok g -> 0 <= T <= 100 -> 0 < A -> 0 < di -> 0 < x ->
  0 < ainf -> Rabs dm1 <= Rabs dm2 ->
  ua_cyl g (alpha_in dm1 T A di x) ainf <= ua_cyl g (alpha_in dm2 T A di x) ainf.
Proof.
  intros g dm1 dm2 T A di x ainf G HT HA Hd Hx Hi H.
  destruct (C107_flow dm1 dm2 T A di x HT HA Hd Hx H) as [P M]. unfold ua_cyl. unfold Rdiv at 1 5.
  set (a1 := alpha_in dm1 T A di x) in *. set (a2 := alpha_in dm2 T A di x) in *. clearbody a1 a2.
  assert (/ a2 <= / a1) by (apply Rinv_le_contravar; lra).
  assert (0 < / a2) by (apply Rinv_0_lt_compat; lra).
  pose proof G as [].
  assert (0 <= g_rlw g / g_lw g + g_rli g / g_li g + g_rr g / ainf).
  { assert (W : forall u v, 0 <= u -> 0 < v -> 0 <= u / v).
    { intros u v Hu Hv. unfold Rdiv. apply Rmult_le_pos; [lra|left; apply Rinv_0_lt_compat; lra]. }
    pose proof (W (g_rlw g) (g_lw g) ltac:(lra) ltac:(lra)). pose proof (W (g_rli g) (g_li g) ltac:(lra) ltac:(lra)).
    pose proof (W (g_rr g) ainf ltac:(lra) ltac:(lra)). lra. }
  apply Rmult_le_compat_l; [lra|]. apply Rinv_le_contravar; unfold Rdiv in *; lra.
Qed.
Print Assumptions C107_conductance.

(** ** C108 A hotter surface loses more heat *)
Theorem C108_cylinder : forall Tinf T1 T2 L vert rt, 0 <= Tinf -> Tinf <= T1 < T2 -> T2 <= 100 -> 0 < L -> 0 < rt ->
  cyl_alpha_inf T1 Tinf L vert rt * (T1 - Tinf) < cyl_alpha_inf T2 Tinf L vert rt * (T2 - Tinf).
Proof.
  intros Tinf T1 T2 L vert rt Ha H1 H2 HL Hr. pose proof (rayleigh_mono Tinf T1 T2 L Ha H1 H2 HL) as R.
  unfold cyl_alpha_inf. cbv zeta. set (r1 := rayleigh T1 _ _ _) in *. set (r2 := rayleigh T2 _ _ _) in *. clearbody r1 r2.
  destruct vert.
  - assert (0 < 0.435 * L / (2 * rt)) by (apply Rdiv_lt_0_compat; lra).
    pose proof (nu_ch_mono 0.825 0.3466023585520853 r1 r2 ltac:(lra) ltac:(lra) ltac:(lra)).
    apply flux_mono; try assumption; lra.
  - pose proof (nu_ch_mono 0.752 0.3269207911296459 r1 r2 ltac:(lra) ltac:(lra) ltac:(lra)).
    apply flux_mono; try assumption; lra.
Qed.
Print Assumptions C108_cylinder.

Theorem C108_vertical : forall Tinf T1 T2 L top, 0 <= Tinf -> Tinf <= T1 < T2 -> T2 <= 100 -> 0 < L ->
  plane_alpha_inf T1 Tinf L true top * (T1 - Tinf) < plane_alpha_inf T2 Tinf L true top * (T2 - Tinf).
Proof.
  intros Tinf T1 T2 L top Ha H1 H2 HL. pose proof (rayleigh_mono Tinf T1 T2 L Ha H1 H2 HL) as R.
  unfold plane_alpha_inf. cbv zeta. set (r1 := rayleigh T1 _ _ _) in *. set (r2 := rayleigh T2 _ _ _) in *. clearbody r1 r2.
  pose proof (nu_ch_mono 0.825 0.3466023585520853 r1 r2 ltac:(lra) ltac:(lra) ltac:(lra)).
  apply flux_mono; try assumption; lra.
Qed.
Print Assumptions C108_vertical.

(** The lower side of a lid; and the upper side as long as both are laminar or both turbulent. *)
Theorem C108_horizontal_partial : forall Tinf T1 T2 L top, 0 <= Tinf -> Tinf <= T1 < T2 -> T2 <= 100 -> 0 < L ->
  let turb T := 70000 < rayleigh T Tinf L (ny_dryair ((Tinf + T) / 2)) * 0.40306002707296223 in
  (top = true -> (turb T1 <-> turb T2)) ->
  plane_alpha_inf T1 Tinf L false top * (T1 - Tinf) < plane_alpha_inf T2 Tinf L false top * (T2 - Tinf).
Proof.
  intros Tinf T1 T2 L top Ha H1 H2 HL turb HT. pose proof (rayleigh_mono Tinf T1 T2 L Ha H1 H2 HL) as R.
  unfold turb in HT. clear turb.
  unfold plane_alpha_inf. cbv zeta. set (r1 := rayleigh T1 _ _ _) in *. set (r2 := rayleigh T2 _ _ _) in *. clearbody r1 r2.
  assert (M : forall k e, 0 < k -> 0 < e -> 0 < npow (r2 * k) e /\ 0 <= npow (r1 * k) e <= npow (r2 * k) e).
  { intros k e Hk He. split; [apply npow_pos, Rmult_lt_0_compat; lra|]. split; [apply npow_nonneg|].
    apply npow_mono; [apply Rmult_le_pos; lra|apply Rmult_le_compat_r; lra|lra]. }
  destruct top.
  - specialize (HT eq_refl). destruct (Rle_dec Tinf T1); [|lra]. destruct (Rle_dec Tinf T2); [|lra].
    destruct (Rle_dec (r1 * 0.40306002707296223) 70000) as [A|A]; destruct (Rle_dec (r2 * 0.40306002707296223) 70000) as [B|B];
      try (exfalso; lra).
    + pose proof (M 0.40306002707296223 (1/5) ltac:(lra) ltac:(lra)). apply flux_mono; try assumption; lra.
    + pose proof (M 0.40306002707296223 (1/3) ltac:(lra) ltac:(lra)). apply flux_mono; try assumption; lra.
  - destruct (Rlt_dec T1 Tinf); [lra|]. destruct (Rlt_dec T2 Tinf); [lra|].
    pose proof (M 0.3466023585520853 (1/5) ltac:(lra) ltac:(lra)). apply flux_mono; try assumption; lra.
Qed.
Print Assumptions C108_horizontal_partial.

(** Where the flow over a hot lid becomes turbulent the heat loss drops: whatever the ambient
    temperature and the temperature of the lid, there is a lid which loses less when it gets hotter. *)
Theorem C108_lid_refuted : forall Tinf T1, 0 <= Tinf -> Tinf < T1 -> T1 - Tinf <= 20 -> T1 <= 95 ->
  exists L T2, 0 < L /\ T1 < T2 <= 100 /\
    plane_alpha_inf T2 Tinf L false true * (T2 - Tinf) < plane_alpha_inf T1 Tinf L false true * (T1 - Tinf).
Proof.
  intros Tinf T1 Ha Hd Hm Hx. set (d := T1 - Tinf).
  set (n1 := ny_dryair ((Tinf + T1) / 2)).
  pose proof (ny_air_low ((Tinf + T1) / 2) ltac:(lra)) as N1. fold n1 in N1.
  set (c := 9.81 * 0.708 / (Tinf + 273.15) * (d / n1 ^ 2) * 0.40306002707296223).
  assert (Hd' : 0 < d <= 20) by (unfold d; lra).
  assert (C : 0 < c).
  { unfold c. apply Rmult_lt_0_compat; [|lra]. apply Rmult_lt_0_compat; [apply Rdiv_lt_0_compat; lra|].
    apply Rdiv_lt_0_compat; [lra|apply pow_lt; lra]. }
  set (L := npow (70000 / c) (1 / 3)).
  assert (HL3 : L ^ 3 = 70000 / c). { apply npow_cbrt. left. apply Rdiv_lt_0_compat; lra. }
  assert (HL : 0 < L) by (apply npow_pos, Rdiv_lt_0_compat; lra).
  exists L, (T1 + d / 100). split; [exact HL|]. split; [unfold d; lra|].
  set (T2 := T1 + d / 100).
  pose proof (ny_air_diff ((Tinf + T1) / 2) ((Tinf + T2) / 2)) as D. fold n1 in D.
  set (n2 := ny_dryair ((Tinf + T2) / 2)) in *.
  assert (N2 : n1 < n2 <= 1.001 * n1).
  { replace ((Tinf + T2) / 2 - (Tinf + T1) / 2) with (d / 200) in D by (unfold T2; field).
    set (s := 8.8810389610389459e-08 + _) in D. assert (0 < s <= 1.12e-7) by (unfold s, T2, d; lra). clearbody s.
    assert (d / 200 * s <= 0.1 * 1.12e-7) by (apply Rmult_le_compat; lra).
    assert (0 < d / 200 * s) by (apply Rmult_lt_0_compat; lra). lra. }
  (* Rayleigh numbers *)
  assert (R1 : rayleigh T1 Tinf L n1 * 0.40306002707296223 = 70000).
  { unfold rayleigh. fold d. rewrite Rabs_pos_eq by lra. rewrite HL3. unfold c. field. repeat split; lra. }
  assert (R2 : rayleigh T2 Tinf L n2 * 0.40306002707296223 = 70000 * (1.01 * (n1 / n2) ^ 2)).
  { rewrite <- R1. unfold rayleigh. replace (T2 - Tinf) with (1.01 * d) by (unfold T2, d; lra).
    fold d. rewrite !Rabs_pos_eq by lra. field. repeat split; lra. }
  assert (Q : 0.998 <= (n1 / n2) ^ 2 <= 1).
  { assert (0.999 <= n1 / n2 <= 1).
    { split; apply Rmult_le_reg_r with n2; try lra; unfold Rdiv; rewrite Rmult_assoc, Rinv_l by lra; lra. }
    set (q := n1 / n2) in *. split; nra. }
  set (q := (n1 / n2) ^ 2) in *. clearbody q.
  unfold plane_alpha_inf. cbv zeta. destruct (Rle_dec Tinf T1); [|lra]. destruct (Rle_dec Tinf T2) as [|Bad]; [|unfold T2 in Bad; lra].
  fold n1 n2. rewrite R1, R2. destruct (Rle_dec 70000 70000); [|lra].
  destruct (Rle_dec (70000 * (1.01 * q)) 70000); [lra|].
  pose proof fifth_low as F5.
  pose proof (npow_cbrt_le (70000 * (1.01 * q)) 41.4 ltac:(lra) ltac:(lra) ltac:(lra)) as F3.
  pose proof (npow_nonneg (70000 * (1.01 * q)) (1/3)) as F0.
  set (f3 := npow (70000 * (1.01 * q)) (1/3)) in *. set (f5 := npow 70000 (1/5)) in *. clearbody f3 f5.
  pose proof (lam_air_bounds ((Tinf + T1) / 2) ltac:(lra)) as B1.
  assert (B2 : lam_dryair ((Tinf + T2) / 2) <= 1.001 * lam_dryair ((Tinf + T1) / 2)).
  { assert (E : lam_dryair ((Tinf + T2) / 2) - lam_dryair ((Tinf + T1) / 2)
      = d / 200 * (7.6533982683982561e-05 - 4.2099567099572201e-08 * ((Tinf + T1) / 2 + (Tinf + T2) / 2))).
    { unfold lam_dryair. replace ((Tinf + T2) / 2) with ((Tinf + T1) / 2 + d / 200) by (unfold T2; field). ring. }
    set (s := 7.6533982683982561e-05 - _) in E. assert (0 < s <= 8e-5) by (unfold s, T2, d; lra). clearbody s.
    assert (d / 200 * s <= 0.1 * 8e-5) by (apply Rmult_le_compat; lra). lra. }
  pose proof (lam_air_bounds ((Tinf + T2) / 2) ltac:(unfold T2, d; lra)) as B3.
  set (l1 := lam_dryair ((Tinf + T1) / 2)) in *. set (l2 := lam_dryair ((Tinf + T2) / 2)) in *. clearbody l1 l2.
  replace (T2 - Tinf) with (1.01 * d) by (unfold T2, d; lra). fold d.
  unfold Rdiv. assert (I : 0 < / L * d) by (apply Rmult_lt_0_compat; [apply Rinv_0_lt_compat|]; lra).
  replace (0.15 * f3 * l2 * / L * (1.01 * d)) with (0.15 * 1.01 * (f3 * l2) * (/ L * d)) by ring.
  replace (0.766 * f5 * l1 * / L * d) with (0.766 * (f5 * l1) * (/ L * d)) by ring.
  apply Rmult_lt_compat_r; [exact I|].
  assert (f3 * l2 <= 41.4 * (1.001 * l1)) by (apply Rmult_le_compat; lra).
  assert (9.3 * l1 <= f5 * l1) by (apply Rmult_le_compat_r; lra). lra.
Qed.
Print Assumptions C108_lid_refuted.

(** ** C109 The coefficient of a cell is that at its distance from the inlet *)
(** Documented: for negative flow the distance from the other end of the pipe is taken. *)
Definition dist_from_inlet (g : geo) (dm : arr) (j : nat) : R :=
  if Rlt_dec (dm j) 0 then g_x g (g_n g - 1 - j)%nat else g_x g j.

Theorem C109_unbranched_partial : forall g dm T j, (j < g_n g)%nat ->
  (forall i, (i < g_n g)%nat -> dm i = dm 0%nat) ->
  alpha_i g dm T j = alpha_in (dm j) (T j) (g_A g) (g_di g) (dist_from_inlet g dm j).
Proof.
  intros g dm T j Hj H. unfold alpha_i, dist_from_inlet. rewrite (H j Hj). reflexivity.
Qed.
Print Assumptions C109_unbranched_partial.

(** Reversing the flow and the order of the cells only reverses the coefficients. *)
Theorem C109_reverse : forall g m T j, (j < g_n g)%nat -> 0 < m ->
  alpha_i g (fun _ => - m) (fun i => T (g_n g - 1 - i)%nat) (g_n g - 1 - j)%nat = alpha_i g (fun _ => m) T j.
Proof.
  intros g m T j Hj Hm. unfold alpha_i. destruct (Rlt_dec (- m) 0); [|lra]. destruct (Rlt_dec m 0); [lra|].
  replace (g_n g - 1 - (g_n g - 1 - j))%nat with j by lia. unfold alpha_in, reynolds.
  replace (- m / (rho_water (T j) * g_A g)) with (- (m / (rho_water (T j) * g_A g))) by (unfold Rdiv; ring).
  rewrite Rabs_Ropp. reflexivity.
Qed.
Print Assumptions C109_reverse.

(** In a pipe which is fed between its ends the direction of the first cell is used for all cells. *)
Theorem C109_branched_refuted : forall g dm T j, geo_ok g -> (j < g_n g)%nat -> 0 <= T j <= 100 ->
  dm 0%nat < 0 -> 0 < dm j -> dm j / (rho_water (T j) * g_A g) * g_di g / ny_water (T j) <= 2300 ->
  0 < g_x g j -> 0 < g_x g (g_n g - 1 - j)%nat -> g_x g j <> g_x g (g_n g - 1 - j)%nat ->
  alpha_i g dm T j <> alpha_in (dm j) (T j) (g_A g) (g_di g) (dist_from_inlet g dm j).
Proof.
  intros g dm T j G Hj HT H0 Hp HR X1 X2 NX. pose proof G as []. unfold alpha_i, dist_from_inlet.
  destruct (Rlt_dec (dm 0%nat) 0); [|lra]. destruct (Rlt_dec (dm j) 0); [lra|].
  pose proof (rho_bounds _ HT) as HRho. pose proof (ny_bounds _ HT) as HN.
  pose proof (lambda_bounds _ HT) as HL. pose proof (Pr_bounds _ HT) as HP.
  assert (Q : 0 < dm j / (rho_water (T j) * g_A g)).
  { apply Rdiv_lt_0_compat; [lra|]. apply Rmult_lt_0_compat; lra. }
  unfold alpha_in. cbv zeta. unfold reynolds. rewrite Rabs_pos_eq by lra.
  set (Re := dm j / (rho_water (T j) * g_A g) * g_di g / ny_water (T j)) in *.
  assert (RP : 0 < Re). { unfold Re. apply Rdiv_lt_0_compat; [|lra]. apply Rmult_lt_0_compat; lra. }
  clearbody Re. destruct (Rlt_dec 2300 Re); [lra|].
  assert (M : forall a b, 0 < a -> a < b ->
    nu_laminar (Re * Pr_water (T j)) (g_di g) b < nu_laminar (Re * Pr_water (T j)) (g_di g) a).
  { intros a b A B. unfold nu_laminar. set (P := Re * Pr_water (T j)).
    assert (HPp : 0 < P) by (apply Rmult_lt_0_compat; lra).
    assert (PD : 0 < P * g_di g) by (apply Rmult_lt_0_compat; lra).
    assert (I : / b < / a) by (apply Rinv_lt_contravar; [apply Rmult_lt_0_compat; lra|lra]).
    assert (0 < / b) by (apply Rinv_0_lt_compat; lra).
    assert (O : P * g_di g / b < P * g_di g / a) by (apply Rmult_lt_compat_l; assumption).
    assert (0 <= P * g_di g / b) by (left; apply Rmult_lt_0_compat; assumption).
    pose proof (npow_lt _ _ (1/3) H1 O ltac:(lra)) as W. pose proof (npow_nonneg (P * g_di g / b) (1/3)) as W0.
    pose proof (nu_laminar_arg _ W0). apply npow_lt; [lra| |lra].
    set (u := npow (P * g_di g / b) (1/3)) in *. set (v := npow (P * g_di g / a) (1/3)) in *. clearbody u v.
    apply Rplus_lt_compat_l. set (y := 1.077 * u - 0.7). set (z := 1.077 * v - 0.7). assert (y < z) by (unfold y, z; lra).
    assert (0 < (z - y) * (z * z + z * y + y * y)); [|nra]. apply Rmult_lt_0_compat; [lra|].
    assert (0 < (z - y) * (z - y)) by (apply Rmult_lt_0_compat; lra). nra. }
  intros E. unfold Rdiv in E.
  assert (E2 : nu_laminar (Re * Pr_water (T j)) (g_di g) (g_x g (g_n g - 1 - j)%nat)
             = nu_laminar (Re * Pr_water (T j)) (g_di g) (g_x g j)).
  { apply Rmult_eq_reg_r with (lambda_water (T j) * / g_di g).
    - rewrite <- !Rmult_assoc. exact E.
    - assert (0 < / g_di g) by (apply Rinv_0_lt_compat; lra). assert (0 < lambda_water (T j) * / g_di g) by (apply Rmult_lt_0_compat; lra). lra. }
  destruct (Rtotal_order (g_x g j) (g_x g (g_n g - 1 - j)%nat)) as [O|[O|O]]; [|contradiction|].
  - pose proof (M _ _ X1 O). lra.
  - pose proof (M _ _ X2 O). lra.
Qed.
Print Assumptions C109_branched_refuted.

(** ** Cases *)
(** A 53 mm pipe, 3 m from the inlet, at 60 °C: 2 kg/s transfer no less than 0.1 kg/s. *)
Example C107_ex : 0 < alpha_in (1 / 10) 60 (22 / 10000) (53 / 1000) 3 <= alpha_in (-2) 60 (22 / 10000) (53 / 1000) 3.
Proof. apply C107_flow; try lra. rewrite Rabs_pos_eq, Rabs_left; lra. Qed.
Example C106_ex : exists dm0, 0 < dm0 /\ ~ continuity_pt (fun y => alpha_in y 60 (22 / 10000) (53 / 1000) 3) dm0.
Proof. destruct (C106_jump_refuted 60 (22 / 10000) (53 / 1000) 3) as (d & D & N & _); try lra. exists d. split; assumption. Qed.
Example C106_ex2 : continuity_pt (fun y => alpha_in y 60 (22 / 10000) (53 / 1000) 3) 0.
Proof. apply C106_continuous_partial; try lra. unfold Rdiv. rewrite Rmult_0_l, Rabs_R0. lra. Qed.
Example C108_ex : cyl_alpha_inf 25 20 1 true (1 / 2) * (25 - 20) < cyl_alpha_inf 30 20 1 true (1 / 2) * (30 - 20).
Proof. apply C108_cylinder; lra. Qed.
Example C108_ex2 : exists L T2, 0 < L /\ 22 < T2 <= 100 /\
  plane_alpha_inf T2 20 L false true * (T2 - 20) < plane_alpha_inf 22 20 L false true * (22 - 20).
Proof. apply C108_lid_refuted; lra. Qed.
(** Six cells, fed in the middle: the last cell is judged by the flow of the first. *)
Definition ex_fed : arr := fun i => if (i <? 3)%nat then - (1 / 100) else 1 / 100.
Example C109_ex : exists g, pipe_new ex_pipe ex_prts = Some g /\
  alpha_i g ex_fed (fun _ => 60) 5%nat <> alpha_in (ex_fed 5%nat) 60 (g_A g) (g_di g) (dist_from_inlet g ex_fed 5%nat).
Proof.
  destruct ex_pipe_ok as (g & E & G & _). exists g. split; [exact E|].
  destruct (C102_pipe ex_pipe ex_prts g E) as (En & _ & X & _).
  change (Z.to_nat (pa_gp ex_pipe)) with 6%nat in En. change (pa_len ex_pipe) with 12 in X.
  assert (X5 : g_x g 5%nat = 11) by (rewrite X by (rewrite En; lia); rewrite En; cbn [INR]; lra).
  assert (X0 : g_x g 0%nat = 1) by (rewrite X by (rewrite En; lia); rewrite En; cbn [INR]; lra).
  assert (EA : g_A g = 22 / 10000 /\ g_di g = 53 / 1000).
  { destruct (pipe_new_inv _ _ _ E) as [_ ->]. cbn. split; reflexivity. }
  destruct EA as [EA Ed].
  apply (C109_branched_refuted g ex_fed (fun _ => 60) 5%nat G); cbv beta; rewrite ?En; try lia; try lra.
  - unfold ex_fed; cbn; lra.
  - unfold ex_fed; cbn; lra.
  - rewrite EA, Ed. replace (ex_fed 5%nat) with (1 / 100) by reflexivity.
    pose proof (rho_bounds 60 ltac:(lra)) as HR. pose proof (ny_bounds 60 ltac:(lra)) as HN.
    set (rh := rho_water 60) in *. set (nn := ny_water 60) in *. clearbody rh nn.
    assert (P : 0 < rh * (22 / 10000)) by lra. assert (P2 : 0 < rh * (22 / 10000) * nn) by (apply Rmult_lt_0_compat; lra).
    replace (1 / 100 / (rh * (22 / 10000)) * (53 / 1000) / nn) with (53 / 100000 / (rh * (22 / 10000) * nn)) by (field; split; lra).
    apply Rmult_le_reg_r with (rh * (22 / 10000) * nn); [exact P2|].
    unfold Rdiv at 1. rewrite Rmult_assoc, Rinv_l by lra.
    assert (900 * (22 / 10000) * (25 / 100000000) <= rh * (22 / 10000) * nn) by (apply Rmult_le_compat; lra). lra.
  - cbn. lra.
  - cbn. lra.
Qed.
