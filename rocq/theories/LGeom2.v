(** Dependence of the heat losses on the number of cells (C104). *)
From Coq Require Import Reals List Arith ZArith Bool Lra Lia.
From Verif Require Import MFlow MWater MDiff MGeom SFlow SDiff SGeom LFlow LWater LDiff LDiff2 LDiff4 LGeom.
Import ListNotations.
Open Scope R_scope.

(** ** Outer coefficient of a vertical cylinder *)
Lemma npow_cube k L : 0 <= k -> 0 < L -> npow (k * L ^ 3) (1 / 6) = npow k (1 / 6) * sqrt L.
Proof.
  intros Hk HL. assert (H3 : 0 < L ^ 3) by (apply pow_lt; lra). unfold npow.
  destruct (Req_EM_T k 0) as [->|N].
  - rewrite Rmult_0_l. destruct (Req_EM_T 0 0); lra.
  - destruct (Req_EM_T (k * L ^ 3) 0) as [E|_].
    + apply Rmult_integral in E. lra.
    +
      rewrite <- Rpower_mult_distr by lra. f_equal.
      rewrite <- (Rpower_pow 3 L) by lra. rewrite Rpower_mult. rewrite <- Rpower_sqrt by lra.
      f_equal. cbn [INR]. lra.
Qed.

Lemma vert_alpha Ts Tinf L rt : 0 <= (Tinf + Ts) / 2 <= 100 -> - 273.15 < Tinf -> 0 < L -> 0 < rt ->
  exists q, 0 <= q /\ forall l, 0 < l -> cyl_alpha_inf Ts Tinf l true rt =
    ((0.825 / sqrt l + 0.387 * q) ^ 2 + 0.435 / (2 * rt)) * lam_dryair ((Tinf + Ts) / 2).
Proof.
  intros HT Hi HL Hr. pose proof (ny_air_bounds _ HT) as NB.
  set (ny := ny_dryair ((Tinf + Ts) / 2)) in *.
  set (k := Rabs (Ts - Tinf) * 9.81 * 0.708 / ((Tinf + 273.15) * ny ^ 2) * 0.3466023585520853).
  assert (Hk : 0 <= k).
  { unfold k. apply Rmult_le_pos; [|lra]. apply Rmult_le_pos.
    - pose proof (Rabs_pos (Ts - Tinf)). apply Rmult_le_pos; [|lra]. apply Rmult_le_pos; lra.
    - left. apply Rinv_0_lt_compat. apply Rmult_lt_0_compat; [lra|]. apply pow_lt. lra. }
  exists (npow k (1 / 6)). split; [apply npow_nonneg|]. intros l Hl.
  unfold cyl_alpha_inf. cbv zeta. fold ny.
  replace (rayleigh Ts Tinf l ny * 0.3466023585520853) with (k * l ^ 3).
  2:{ unfold k, rayleigh. field. split; lra. }
  rewrite npow_cube by assumption. set (q := npow k (1 / 6)).
  assert (S : 0 < sqrt l) by (apply sqrt_lt_R0; lra).
  assert (E : sqrt l * sqrt l = l) by (apply sqrt_sqrt; lra).
  set (s := sqrt l) in *. clearbody s. rewrite <- E. field. split; lra.
Qed.

Lemma vert_alpha_decreasing Ts Tinf l1 l2 rt : 0 <= (Tinf + Ts) / 2 <= 100 -> - 273.15 < Tinf ->
  0 < l1 < l2 -> 0 < rt -> cyl_alpha_inf Ts Tinf l2 true rt < cyl_alpha_inf Ts Tinf l1 true rt.
Proof.
  intros HT Hi HL Hr. destruct (vert_alpha Ts Tinf l1 rt HT Hi ltac:(lra) Hr) as (q & Hq & E).
  rewrite (E l1), (E l2) by lra. pose proof (lam_air_bounds _ HT) as LB.
  apply Rmult_lt_compat_r; [lra|]. apply Rplus_lt_compat_r.
  assert (S1 : 0 < sqrt l1) by (apply sqrt_lt_R0; lra).
  assert (S2 : sqrt l1 < sqrt l2) by (apply sqrt_lt_1; lra).
  assert (0.825 / sqrt l2 < 0.825 / sqrt l1).
  { unfold Rdiv. apply Rmult_lt_compat_l; [lra|]. apply Rinv_lt_contravar; [|lra]. apply Rmult_lt_0_compat; lra. }
  assert (0 < 0.825 / sqrt l2) by (apply div_pos; lra).
  set (u := 0.825 / sqrt l2) in *. set (v := 0.825 / sqrt l1) in *. nra.
Qed.

Lemma vert_alpha_large Ts Tinf l rt : 0 <= (Tinf + Ts) / 2 <= 100 -> - 273.15 < Tinf ->
  0 < l -> 0 < rt -> 0.01 / l < cyl_alpha_inf Ts Tinf l true rt.
Proof.
  intros HT Hi HL Hr. destruct (vert_alpha Ts Tinf l rt HT Hi HL Hr) as (q & Hq & E).
  rewrite (E l) by lra. pose proof (lam_air_bounds _ HT) as LB.
  assert (S1 : 0 < sqrt l) by (apply sqrt_lt_R0; lra).
  assert (Es : sqrt l * sqrt l = l) by (apply sqrt_sqrt; lra).
  assert (U : 0 < / sqrt l) by (apply Rinv_0_lt_compat; lra).
  assert (V : / l = / sqrt l * / sqrt l) by (rewrite <- Es at 1; apply Rinv_mult).
  assert (W : 0 < 0.435 / (2 * rt)) by (apply div_pos; lra).
  unfold Rdiv at 1. rewrite V. unfold Rdiv at 1. set (u := / sqrt l) in *. clearbody u.
  set (w := 0.435 / (2 * rt)) in *. clearbody w. set (lam := lam_dryair _) in *. clearbody lam.
  assert (X : 0.68 * (u * u) <= (0.825 * u + 0.387 * q) ^ 2) by nra.
  assert (0.01 * (u * u) < 0.68 * (u * u) * lam) by nra.
  assert (0.68 * (u * u) * lam <= ((0.825 * u + 0.387 * q) ^ 2 + w) * lam); [|lra].
  apply Rmult_le_compat_r; lra.
Qed.

(** ** Inner coefficient at standstill *)
Definition still_alpha (T di : R) : R :=
  npow (49.371 + (1.077 * npow 0 (1 / 3) - 0.7) ^ 3) (1 / 3) * lambda_water T / di.
Lemma alpha_in_still T A di x : alpha_in 0 T A di x = still_alpha T di.
Proof.
  unfold alpha_in, reynolds, still_alpha. cbv zeta.
  replace (0 / (rho_water T * A)) with 0 by (unfold Rdiv; ring). rewrite Rabs_R0.
  replace (0 * di / ny_water T) with 0 by (unfold Rdiv; ring).
  destruct (Rlt_dec 2300 0); [lra|]. unfold nu_laminar.
  replace (0 * Pr_water T * di / x) with 0 by (unfold Rdiv; ring). reflexivity.
Qed.
Lemma still_alpha_pos T di : 0 <= T <= 100 -> 0 < di -> 0 < still_alpha T di.
Proof.
  intros HT Hd. unfold still_alpha. pose proof (lambda_bounds T HT).
  apply div_pos; [|lra]. apply Rmult_lt_0_compat; [|lra]. apply npow_pos.
  pose proof (npow_nonneg 0 (1/3)). set (y := npow 0 (1/3)) in *. clearbody y.
  assert (- 1 <= 1.077 * y - 0.7) by lra. set (z := 1.077 * y - 0.7) in *. clearbody z.
  assert (- 1 <= z ^ 3); [|lra].
  replace (z ^ 3) with (-1 + (z + 1) * (z * z - z + 1)) by ring.
  assert (0 <= (z + 1) * (z * z - z + 1)); [|lra]. apply Rmult_le_pos; [lra|]. nra.
Qed.

Lemma rsum_const n c : rsum n (fun _ => c) = INR n * c.
Proof. induction n; [cbn; lra|]. cbn [rsum]. rewrite IHn, S_INR. ring. Qed.

(** ** Pipes *)
(** Evaluations of the differential of a pipe without flow and with one temperature
    everywhere, for a list of temperatures of water and ambient; latest result first. *)
Fixpoint pipe_rest (g : geo) (h : list (R * R)) : buf :=
  match h with
  | [] => buf0
  | (T, Tamb) :: h' => buf_after (pipe_diff g 0 flows0 (fun _ => T) (fun _ => T) Tamb (pipe_rest g h'))
  end.

Lemma pipe_rest_same a p n1 n2 g1 g2 h : (1 <= n1)%nat -> (1 <= n2)%nat ->
  pipe_new (pipe_cells a n1) p = Some g1 -> pipe_new (pipe_cells a n2) p = Some g2 ->
  forall j1 j2, b_ainf (pipe_rest g1 h) j1 = b_ainf (pipe_rest g2 h) j2 /\
    INR n1 * b_ua (pipe_rest g1 h) j1 = INR n2 * b_ua (pipe_rest g2 h) j2.
Proof.
  intros L1 L2 E1 E2.
  destruct (pipe_new_inv _ _ _ E1) as [_ G1]. destruct (pipe_new_inv _ _ _ E2) as [_ G2].
  assert (N1 : 0 < INR n1) by (apply lt_0_INR; lia). assert (N2 : 0 < INR n2) by (apply lt_0_INR; lia).
  cbn [pipe_cells pa_len pa_gp pa_sins pa_lins pa_di pa_do pa_A pa_cp pa_rho pa_lam] in G1, G2.
  rewrite <- INR_IZR_INZ in G1, G2.
  induction h as [|[T Tamb] h IH]; intros j1 j2; [cbn; split; lra|].
  destruct (IH j1 j2) as [I1 I2]. cbn [pipe_rest].
  unfold pipe_diff, part_diff, buf_after. cbn [b_ainf b_ua r_ainf r_ua].
  set (B1 := pipe_rest g1 h) in *. set (B2 := pipe_rest g2 h) in *. clearbody B1 B2.
  assert (A1 : forall g j, alpha_i g (fun _ => 0) (fun _ => T) j = still_alpha T (g_di g)).
  { intros g j. unfold alpha_i. apply alpha_in_still. }
  rewrite !A1.
  set (M := pa_do a / 2 + pa_sins a) in *.
  assert (U2 : b_ua B2 j2 = INR n1 / INR n2 * b_ua B1 j1).
  { apply Rmult_eq_reg_l with (INR n2); [|lra]. rewrite <- I2. field. lra. }
  assert (S1 : g_As g1 = PI * M * 2 * pa_len a / INR n1) by (rewrite G1; cbn [g_As]; field; lra).
  assert (S2 : g_As g2 = PI * M * 2 * pa_len a / INR n2) by (rewrite G2; cbn [g_As]; field; lra).
  assert (Ai1 : g_Ai g1 = PI * pa_di a * pa_len a / INR n1) by (rewrite G1; cbn [g_Ai]; field; lra).
  assert (Ai2 : g_Ai g2 = PI * pa_di a * pa_len a / INR n2) by (rewrite G2; cbn [g_Ai]; field; lra).
  assert (TS : surface_temp T Tamb (g_As g1) (b_ainf B1 j1) (b_ua B1 j1) =
               surface_temp T Tamb (g_As g2) (b_ainf B2 j2) (b_ua B2 j2)).
  { unfold surface_temp. rewrite <- I1, U2, S1, S2. f_equal. unfold Rdiv.
    destruct (Req_dec (b_ainf B1 j1) 0) as [Z|Z]; [rewrite Z, !Rmult_0_l, Rinv_0; ring|].
    destruct (Req_dec (PI * M * 2 * pa_len a) 0) as [Y|Y]; [rewrite Y, !Rmult_0_l, !Rmult_0_r, Rinv_0; ring|].
    set (Y0 := PI * M * 2 * pa_len a) in *. clearbody Y0. field. repeat split; lra. }
  rewrite TS.
  assert (EL : g_L g1 = g_L g2) by (rewrite G1, G2; reflexivity).
  assert (EV : g_vert g1 = g_vert g2) by (rewrite G1, G2; reflexivity).
  assert (ER : g_rt g1 = g_rt g2) by (rewrite G1, G2; reflexivity).
  assert (ED : g_di g1 = g_di g2) by (rewrite G1, G2; reflexivity).
  assert (E3 : g_rlw g1 = g_rlw g2) by (rewrite G1, G2; reflexivity).
  assert (E4 : g_rli g1 = g_rli g2) by (rewrite G1, G2; reflexivity).
  assert (E5 : g_rr g1 = g_rr g2) by (rewrite G1, G2; reflexivity).
  assert (E6 : g_lw g1 = g_lw g2) by (rewrite G1, G2; reflexivity).
  assert (E7 : g_li g1 = g_li g2) by (rewrite G1, G2; reflexivity).
  rewrite EL, EV, ER, ED. split; [reflexivity|].
  unfold ua_cyl. rewrite E3, E4, E5, E6, E7, Ai1, Ai2. unfold Rdiv. set (D := / (_ + _)). field. lra.
Qed.

Lemma pipe_loss_same a p n1 n2 g1 g2 h : (1 <= n1)%nat -> (1 <= n2)%nat ->
  pipe_new (pipe_cells a n1) p = Some g1 -> pipe_new (pipe_cells a n2) p = Some g2 ->
  rsum n1 (b_ua (pipe_rest g1 h)) = rsum n2 (b_ua (pipe_rest g2 h)).
Proof.
  intros L1 L2 E1 E2. pose proof (pipe_rest_same a p n1 n2 g1 g2 h L1 L2 E1 E2) as S.
  assert (N1 : 0 < INR n1) by (apply lt_0_INR; lia). assert (N2 : 0 < INR n2) by (apply lt_0_INR; lia).
  rewrite (rsum_ext n1 _ (fun _ => b_ua (pipe_rest g1 h) 0%nat)).
  2:{ intros i _. apply Rmult_eq_reg_l with (INR n1); [|lra].
      rewrite (proj2 (S i 0%nat)), (proj2 (S 0%nat 0%nat)). reflexivity. }
  rewrite (rsum_ext n2 _ (fun _ => b_ua (pipe_rest g2 h) 0%nat)).
  2:{ intros i _. apply Rmult_eq_reg_l with (INR n2); [|lra].
      rewrite <- (proj2 (S 0%nat i)), <- (proj2 (S 0%nat 0%nat)). reflexivity. }
  rewrite !rsum_const. apply (proj2 (S 0%nat 0%nat)).
Qed.

(** ** Storages *)
Lemma dm_loop0 own m : forall j, dm_loop own (fun _ => 0) m (fun _ => 0) j = 0.
Proof.
  induction m; intros j; [reflexivity|]. cbn [dm_loop]. unfold fill_add.
  assert (C : forall i, cumsum (fun _ => 0) i = 0) by (induction i; cbn; lra).
  rewrite C, IHm. destruct (_ && _)%bool; lra.
Qed.

Lemma tes_ua_still g T Tamb j :
  r_ua (tes_diff g (fun _ => 0) flows0 (fun _ => T) (fun _ => T) Tamb buf0) j =
  ua_cyl g (still_alpha T (g_di g)) (cyl_alpha_inf Tamb Tamb (g_L g) (g_vert g) (g_rt g)).
Proof.
  unfold tes_diff, part_diff. cbn [r_ua]. unfold alpha_i.
  assert (Z : forall k, snd (process_flow_var (g_n g) (g_np g) (g_own g) (fun _ => 0) flows0) k = 0).
  { intros k. unfold process_flow_var. cbn [snd]. unfold put. rewrite !dm_loop0. destruct (k =? _)%nat; reflexivity. }
  rewrite !Z, alpha_in_still. unfold surface_temp. cbn [b_ua b_ainf buf0].
  replace (Tamb + (T - Tamb) * 0 / (3.122 * g_As g)) with Tamb by (unfold Rdiv; ring). reflexivity.
Qed.

Lemma ua_cyl_scale g ai ainf : ua_cyl g ai ainf =
  g_Ai g * / (1 / ai + g_rlw g / g_lw g + g_rli g / g_li g + g_rr g / ainf).
Proof. reflexivity. Qed.

(** A well-formed storage. *)
Definition tes_wf (a : tes_arg) : Prop := 0 < ta_vol a /\ 2 * ta_shell a < ta_do a /\
  0 < ta_lins a /\ 0 < ta_lam a.

Lemma tes_loss_grows a p n1 n2 g1 g2 ai Ts Tinf : tes_wf a -> (n1 < n2)%nat ->
  tes_new (tes_cells a n1) p = Some g1 -> tes_new (tes_cells a n2) p = Some g2 ->
  0 < ai -> 0 <= (Tinf + Ts) / 2 <= 100 -> - 273.15 < Tinf ->
  rsum n1 (fun _ => ua_cyl g1 ai (cyl_alpha_inf Ts Tinf (g_L g1) (g_vert g1) (g_rt g1))) <
  rsum n2 (fun _ => ua_cyl g2 ai (cyl_alpha_inf Ts Tinf (g_L g2) (g_vert g2) (g_rt g2))).
Proof.
  intros (Hv & Hs & Hl & Hw) Hn E1 E2 Ha HT Hi. rewrite !rsum_const.
  destruct (tes_new_inv _ _ _ E1) as [Acc (di & len & Edi & Elen & G1)].
  destruct (tes_new_inv _ _ _ E2) as [_ (di2 & len2 & Edi2 & Elen2 & G2)].
  unfold tes_acc in Acc.
  cbn [tes_cells ta_vol ta_gp ta_do ta_shell ta_sins ta_lins ta_cp ta_rho ta_lam] in *.
  rewrite <- Edi in Edi2. subst di2. rewrite <- Elen in Elen2. subst len2.
  rewrite <- INR_IZR_INZ in G1, G2.
  destruct Acc as (A1 & A2 & A3 & _ & A5 & _).
  assert (N1 : 0 < INR n1) by (apply lt_0_INR; lia).
  assert (N2 : INR n1 < INR n2) by (apply lt_INR; lia).
  pose proof PI_RGT_0 as HP. assert (D : 0 < di < ta_do a) by lra.
  assert (A : 0 < PI * di ^ 2 / 4) by (apply div_pos; [|lra]; apply Rmult_lt_0_compat; [lra|]; apply pow_lt; lra).
  assert (L : 0 < len) by (rewrite Elen; apply div_pos; lra). clear Elen.
  set (rt := ta_do a / 2 + ta_sins a) in *. assert (Rt : 0 < rt) by (unfold rt; lra).
  assert (Q : 0 < len / INR n2 < len / INR n1).
  { split; [apply div_pos; lra|]. unfold Rdiv. apply Rmult_lt_compat_l; [lra|].
    apply Rinv_lt_contravar; [|lra]. apply Rmult_lt_0_compat; lra. }
  rewrite G1, G2. cbn [g_L g_vert g_rt]. unfold ua_cyl.
  cbn [g_L g_vert g_rt g_Ai g_rlw g_lw g_rli g_li g_rr].
  pose proof (vert_alpha_decreasing Ts Tinf _ _ rt HT Hi Q Rt) as K.
  pose proof (cyl_alpha_pos Ts Tinf (len / INR n1) true rt HT ltac:(lra) Rt) as K1.
  set (a1 := cyl_alpha_inf Ts Tinf (len / INR n1) true rt) in *.
  set (a2 := cyl_alpha_inf Ts Tinf (len / INR n2) true rt) in *.
  set (W := 1 / ai + _ / ta_lam a + _ / ta_lins a).
  assert (HW : 0 < W).
  { unfold W. assert (0 < 1 / ai) by (apply div_pos; lra).
    assert (0 <= di / 2 * ln (ta_do a / 2 / (di / 2)) / ta_lam a).
    { apply Rmult_le_pos; [apply Rmult_le_pos; [lra|apply ln_ratio_nonneg; lra]|left; apply Rinv_0_lt_compat; lra]. }
    assert (0 <= di / 2 * ln (rt / (ta_do a / 2)) / ta_lins a).
    { apply Rmult_le_pos; [apply Rmult_le_pos; [lra|apply ln_ratio_nonneg; unfold rt; lra]|left; apply Rinv_0_lt_compat; lra]. }
    lra. }
  clearbody W a1 a2. assert (RR : 0 < di / 2 / rt) by (apply div_pos; lra).
  set (rr := di / 2 / rt) in *. clearbody rr.
  assert (I : rr / a2 < rr / a1).
  { unfold Rdiv. apply Rmult_lt_compat_l; [lra|]. apply Rinv_lt_contravar; [|lra]. apply Rmult_lt_0_compat; lra. }
  assert (I0 : 0 < rr / a2) by (apply div_pos; lra).
  replace (INR n1 * (PI * di * (len / INR n1) / (W + rr / a1))) with (PI * di * len * / (W + rr / a1)).
  2:{ set (X := rr / a1) in *. clearbody X. field. split; lra. }
  replace (INR n2 * (PI * di * (len / INR n2) / (W + rr / a2))) with (PI * di * len * / (W + rr / a2)).
  2:{ set (X := rr / a2) in *. clearbody X. field. split; lra. }
  apply Rmult_lt_compat_l; [repeat (apply Rmult_lt_0_compat; try lra)|].
  apply Rinv_lt_contravar; [|lra]. apply Rmult_lt_0_compat; lra.
Qed.
