(** A thin tube in a plastic jacket, C189. *)
From Coq Require Import Reals List Arith ZArith Bool Lra Lia.
From Verif Require Import MFlow MWater MDiff MGeom SFlow SDiff SGeom LFlow LWater LDiff LDiff2 LDiff4 LGeom LGeom2 LAlpha LAlpha2 SInsul LInsul.
Open Scope R_scope.

(** Tube of 2 mm with a jacket of thickness [s]. *)
Definition tube (s : R) : pipe_arg :=
  {| pa_len := 1; pa_gp := 2%Z; pa_sins := s; pa_lins := 0.4; pa_di := 0.001; pa_do := 0.002; pa_A := 0.0000007;
     pa_cp := 500; pa_rho := 7900; pa_lam := 50 |}.
Definition tube_ports : prts :=
  {| p_np := 2; p_own := fun i => match i with O => 0 | _ => 1 end%nat; p_gsp := fun _ => 0.1; p_sub := fun _ => 0.1; p_A := fun _ => 0.0000007; p_w := fun _ => 0 |}.
Lemma tube_ports_ok : ports_ok 2 tube_ports.
Proof. split; [intros [|i] _; cbn; lia|]. intro i. cbn. lra. Qed.

Lemma npow6 x : 0 <= x -> npow x (1 / 6) ^ 6 = x.
Proof.
  intro H. rewrite npow_sixth by exact H. unfold cbrt_abs. rewrite Rabs_pos_eq by exact H.
  replace (sqrt (npow x (1 / 3)) ^ 6) with ((sqrt (npow x (1 / 3)) * sqrt (npow x (1 / 3))) ^ 3) by ring.
  rewrite sqrt_sqrt by apply npow_nonneg. apply npow_cbrt, H.
Qed.
Lemma pow6_lt x y : 0 <= x -> 0 <= y -> x ^ 6 < y ^ 6 -> x < y.
Proof.
  intros Hx Hy H. destruct (Rlt_le_dec x y) as [L|L]; [exact L|]. pose proof (pow_incr y x 6 ltac:(lra)). lra.
Qed.
Lemma PI_between : 3 < PI <= 4.
Proof. pose proof PI2_3_2. pose proof PI_4. unfold PI2 in *. lra. Qed.

(** The small tube gives little heat to the air ... *)
Lemma thin_low t : 0 <= t <= 60 -> 0.001 * cyl_alpha_inf (20 + t) 20 (0.001 * PI) false 1 <= 0.0242.
Proof.
  intros Ht. pose proof PI_between as HP.
  assert (M : cyl_alpha_inf (20 + t) 20 (0.001 * PI) false 1 <= cyl_alpha_inf 80 20 (0.001 * PI) false 1) by (apply hor_alpha_warm; lra).
  apply Rle_trans with (0.001 * cyl_alpha_inf 80 20 (0.001 * PI) false 1); [apply Rmult_le_compat_l; lra|]. clear M t Ht.
  unfold cyl_alpha_inf. cbv zeta. replace ((20 + 80) / 2) with 50 by lra.
  set (x := rayleigh 80 20 (0.001 * PI) (ny_dryair 50) * 0.3269207911296459).
  assert (N' : 1.82e-05 < ny_dryair 50 < 1.823e-05) by (unfold ny_dryair; lra).
  assert (B : 0 <= x <= 90).
  { unfold x, rayleigh. replace (Rabs (80 - 20)) with 60 by (rewrite Rabs_pos_eq; lra). set (n := ny_dryair 50) in *. clearbody n.
    assert (C : 0 <= (0.001 * PI) ^ 3 <= 0.004 ^ 3) by (split; [apply pow_le; lra|apply pow_incr; lra]).
    assert (E : 3.31e-10 < n ^ 2) by nra.
    assert (Dn : 0 < (20 + 273.15) * n ^ 2) by lra.
    split.
    - apply Rmult_le_pos; [|lra]. apply Rmult_le_pos; [lra|]. left. apply Rinv_0_lt_compat, Dn.
    - apply Rmult_le_reg_r with ((20 + 273.15) * n ^ 2); [exact Dn|].
      replace (60 * 9.81 * (0.001 * PI) ^ 3 * 0.708 / ((20 + 273.15) * n ^ 2) * 0.3269207911296459 * ((20 + 273.15) * n ^ 2))
        with (60 * 9.81 * (0.001 * PI) ^ 3 * 0.708 * 0.3269207911296459) by (field; lra). lra. }
  pose proof (npow6 x ltac:(lra)) as E6. pose proof (npow_nonneg x (1 / 6)) as P6. set (u := npow x (1 / 6)) in *.
  assert (U : u < 2.2) by (apply pow6_lt; lra).
  assert (Lm : 0 < lam_dryair 50 < 0.0281) by (unfold lam_dryair; lra). set (lm := lam_dryair 50) in *. clearbody lm u.
  replace (0.001 * ((0.752 + 0.387 * u) ^ 2 * lm / (0.001 * PI))) with ((0.752 + 0.387 * u) ^ 2 * lm / PI) by (field; lra).
  assert (Q : (0.752 + 0.387 * u) ^ 2 <= 1.6034 ^ 2) by (apply pow_incr; lra).
  assert (0 <= (0.752 + 0.387 * u) ^ 2) by (apply pow_le; lra).
  assert (Q2 : (0.752 + 0.387 * u) ^ 2 * lm <= 1.6034 ^ 2 * 0.0281) by (apply Rmult_le_compat; lra).
  apply Rmult_le_reg_r with PI; [lra|]. unfold Rdiv. rewrite Rmult_assoc, Rinv_l by lra. lra.
Qed.
(** ... the jacket more. *)
Lemma thick_high t : 42 <= t <= 60 -> 0.049 <= 0.01 * cyl_alpha_inf (20 + t) 20 (0.01 * PI) false 1.
Proof.
  intros Ht. pose proof PI_between as HP.
  assert (M : cyl_alpha_inf 62 20 (0.01 * PI) false 1 <= cyl_alpha_inf (20 + t) 20 (0.01 * PI) false 1) by (apply hor_alpha_warm; lra).
  apply Rle_trans with (0.01 * cyl_alpha_inf 62 20 (0.01 * PI) false 1); [|apply Rmult_le_compat_l; lra]. clear M t Ht.
  unfold cyl_alpha_inf. cbv zeta. replace ((20 + 62) / 2) with 41 by lra.
  set (x := rayleigh 62 20 (0.01 * PI) (ny_dryair 41) * 0.3269207911296459).
  assert (N' : 1.72e-05 < ny_dryair 41 < 1.74e-05) by (unfold ny_dryair; lra).
  assert (B : 20000 <= x).
  { unfold x, rayleigh. replace (Rabs (62 - 20)) with 42 by (rewrite Rabs_pos_eq; lra). set (n := ny_dryair 41) in *. clearbody n.
    assert (C : 0.03 ^ 3 <= (0.01 * PI) ^ 3) by (apply pow_incr; lra).
    assert (E : 0 < n ^ 2 < 3.03e-10) by nra.
    assert (Dn : 0 < (20 + 273.15) * n ^ 2) by lra.
    apply Rmult_le_reg_r with ((20 + 273.15) * n ^ 2); [exact Dn|].
    replace (42 * 9.81 * (0.01 * PI) ^ 3 * 0.708 / ((20 + 273.15) * n ^ 2) * 0.3269207911296459 * ((20 + 273.15) * n ^ 2))
      with (42 * 9.81 * (0.01 * PI) ^ 3 * 0.708 * 0.3269207911296459) by (field; lra). lra. }
  pose proof (npow6 x ltac:(lra)) as E6. pose proof (npow_nonneg x (1 / 6)) as P6. set (u := npow x (1 / 6)) in *.
  assert (U : 5 < u) by (apply pow6_lt; lra).
  assert (Lm : 0.0273 < lam_dryair 41) by (unfold lam_dryair; lra). set (lm := lam_dryair 41) in *. clearbody lm u.
  replace (0.01 * ((0.752 + 0.387 * u) ^ 2 * lm / (0.01 * PI))) with ((0.752 + 0.387 * u) ^ 2 * lm / PI) by (field; lra).
  assert (Q : 2.687 ^ 2 <= (0.752 + 0.387 * u) ^ 2) by (apply pow_incr; lra).
  assert (Q2 : 2.687 ^ 2 * 0.0273 <= (0.752 + 0.387 * u) ^ 2 * lm) by (apply Rmult_le_compat; lra).
  apply Rmult_le_reg_r with PI; [lra|]. unfold Rdiv. rewrite Rmult_assoc, Rinv_l by lra. lra.
Qed.

Lemma ln_le_m1 x : 0 < x -> ln x <= x - 1.
Proof.
  intro H. destruct (Req_dec (ln x) 0) as [E|N].
  - rewrite E. assert (x = 1) by (rewrite <- (exp_ln x H), E; apply exp_0). lra.
  - pose proof (exp_ineq1 (ln x) N) as Q. rewrite exp_ln in Q by exact H. lra.
Qed.
Lemma ln_10 : ln 10 <= 3.5.
Proof.
  replace 10 with (2.5 * (2 * 2)) by lra. rewrite !ln_mult by lra. pose proof (ln_le_m1 2.5 ltac:(lra)). pose proof (ln_le_m1 2 ltac:(lra)). lra.
Qed.

Lemma tube_worse g g' f f' Tx Tp Tp' b b' : pipe_new (tube 0) tube_ports = Some g -> pipe_new (tube 0.009) tube_ports = Some g' ->
  Tx 1%nat = 80 -> buf_ok g b -> buf_ok g' b' ->
  let r := pipe_diff g 0 f Tx Tp 20 b in let r' := pipe_diff g' 0 f' Tx Tp' 20 b' in
  settled r b 0%nat -> settled r' b' 0%nat -> r_ua r 0%nat < r_ua r' 0%nat.
Proof.
  intros Hn Hn' HT Bk Bk'. cbv zeta. intros St St'.
  assert (Hd : forall s, pipe_dims (tube s)) by (intro s; unfold pipe_dims; cbn; lra).
  assert (Hs : forall s, solid (pa_cp (tube s)) (pa_rho (tube s)) (pa_lam (tube s))) by (intro s; unfold solid; cbn; lra).
  destruct (settled_cell (tube 0) tube_ports g 0 f Tx Tp 20 b 0%nat Hn (Hd 0) (Hs 0) ltac:(cbn; lra) ltac:(cbn; lia) tube_ports_ok
    ltac:(cbn; lia) ltac:(lra) ltac:(lra) Bk St) as (t & Bt & _ & Et & Eu).
  destruct (settled_cell (tube 0.009) tube_ports g' 0 f' Tx Tp' 20 b' 0%nat Hn' (Hd 0.009) (Hs 0.009) ltac:(cbn; lra) ltac:(cbn; lia) tube_ports_ok
    ltac:(cbn; lia) ltac:(lra) ltac:(lra) Bk' St') as (t' & Bt' & _ & Et' & Eu').
  rewrite Eu, Eu'. clear Eu Eu' Et. rewrite HT in *.
  assert (EK : r_ai (pipe_diff g' 0 f' Tx Tp' 20 b') 0%nat = r_ai (pipe_diff g 0 f Tx Tp 20 b) 0%nat).
  { change (alpha_i g' (fun _ => 0) (fun i => Tx (S i)) 0%nat = alpha_i g (fun _ => 0) (fun i => Tx (S i)) 0%nat).
    unfold alpha_i. destruct (pipe_new_inv _ _ _ Hn) as [_ ->]. destruct (pipe_new_inv _ _ _ Hn') as [_ ->]. reflexivity. }
  rewrite EK in *. clear EK.
  assert (Ai : 2000 <= r_ai (pipe_diff g 0 f Tx Tp 20 b) 0%nat).
  { change (2000 <= alpha_in 0 (Tx 1%nat) (g_A g) (g_di g) (if Rlt_dec 0 0 then g_x g (g_n g - 1 - 0)%nat else g_x g 0%nat)).
    set (xx := if Rlt_dec 0 0 then _ else _). clearbody xx.
    destruct (pipe_new_inv _ _ _ Hn) as [_ ->]. cbn [g_A g_di pa_A pa_di tube]. rewrite HT. unfold alpha_in. cbv zeta.
    assert (RE : reynolds 0 (rho_water 80) 0.0000007 0.001 (ny_water 80) = 0) by (unfold reynolds, Rdiv; rewrite Rmult_0_l, Rabs_R0; ring).
    rewrite RE. destruct (Rlt_dec 2300 0) as [Z|_]; [lra|].
    pose proof (nu_laminar_min (0 * Pr_water 80) 0.001 xx) as NM. set (nn := nu_laminar _ _ _) in *. clearbody nn.
    pose proof (lambda_bounds 80 ltac:(lra)) as LB. set (lw := lambda_water 80) in *. clearbody lw.
    assert (3.65 * (569 / 1000) <= nn * lw) by (apply Rmult_le_compat; lra). unfold Rdiv. lra. }
  set (ai := r_ai (pipe_diff g 0 f Tx Tp 20 b) 0%nat) in *. clearbody ai.
  change (pa_di (tube 0.009)) with 0.001 in *. change (pa_di (tube 0)) with 0.001 in *.
  change (pa_do (tube 0.009)) with 0.002 in *. change (pa_do (tube 0)) with 0.002 in *.
  change (pa_lins (tube 0.009)) with 0.4 in *. change (pa_lins (tube 0)) with 0.4 in *.
  change (gsp_of (tube 0.009)) with (gsp_of (tube 0)) in *. change (kin (tube 0.009) ai) with (kin (tube 0) ai) in *.
  replace (outer_radius (tube 0)) with 0.001 in * by (unfold outer_radius; cbn; lra).
  replace (outer_radius (tube 0.009)) with 0.01 in * by (unfold outer_radius; cbn; lra).
  pose proof PI_between as HP.
  pose proof (thin_low t ltac:(lra)) as L1.
  assert (P1 : 0 < cyl_alpha_inf (20 + t) 20 (0.001 * PI) false 1) by (apply cyl_alpha_pos; lra).
  assert (P2 : 0 < cyl_alpha_inf (20 + t') 20 (0.01 * PI) false 1) by (apply cyl_alpha_pos; lra).
  assert (L2 : 42 <= t' -> 0.049 <= 0.01 * cyl_alpha_inf (20 + t') 20 (0.01 * PI) false 1) by (intro; apply thick_high; lra).
  set (al := cyl_alpha_inf (20 + t) 20 _ false 1) in *. set (al' := cyl_alpha_inf (20 + t') 20 _ false 1) in *. clearbody al al'.
  assert (KB : 0 < kin (tube 0) ai <= 0.00052).
  { split; [apply kin_pos; [apply Hd|cbn; lra|lra]|]. unfold kin. cbn [tube pa_di pa_do pa_lam].
    assert (1 / ai <= / 2000) by (unfold Rdiv; rewrite Rmult_1_l; apply Rinv_le_contravar; lra).
    replace (0.002 / 2 / (0.001 / 2)) with 2 by lra. pose proof (ln_le_m1 2 ltac:(lra)). lra. }
  set (K := kin (tube 0) ai) in *. clearbody K.
  assert (G0 : gsp_of (tube 0) = 0.5) by (unfold gsp_of; cbn; lra). rewrite G0.
  assert (I1 : rins (0.001 / 2) (0.002 / 2) 0.001 0.4 = 0).
  { unfold rins. replace (0.001 / (0.002 / 2)) with 1 by lra. rewrite ln_1. lra. }
  assert (I2 : 0 <= rins (0.001 / 2) (0.002 / 2) 0.01 0.4 <= 0.004375).
  { unfold rins. replace (0.01 / (0.002 / 2)) with 10 by lra. pose proof ln_10. assert (0 < ln 10) by (rewrite <- ln_1; apply ln_increasing; lra). lra. }
  assert (O1 : 0.02 < rout (0.001 / 2) 0.001 al).
  { unfold rout. apply Rmult_lt_reg_r with (0.001 * al); [lra|].
    assert (E5 : 0.001 / 2 / 0.001 / al * (0.001 * al) = 0.0005) by (apply Rmult_eq_reg_r with 2000; [|lra]; field_simplify; lra). rewrite E5. lra. }
  unfold rtot in *. rewrite I1. set (i2 := rins _ _ 0.01 _) in *. clearbody i2. set (o1 := rout _ 0.001 _) in *.
  assert (Po2 : 0 < rout (0.001 / 2) 0.01 al') by (unfold rout; apply Rdiv_lt_0_compat; lra).
  assert (O2 : 42 <= t' -> rout (0.001 / 2) 0.01 al' <= 0.0103).
  { intro Q. specialize (L2 Q). unfold rout. apply Rmult_le_reg_r with (0.01 * al'); [lra|].
    assert (E5 : 0.001 / 2 / 0.01 / al' * (0.01 * al') = 0.0005) by (apply Rmult_eq_reg_r with 2000; [|lra]; field_simplify; lra). rewrite E5. lra. }
  set (o2 := rout _ 0.01 _) in *. clearbody o1 o2. clear L1 L2 P1 P2.
  assert (F : K + i2 + o2 < K + 0 + o1).
  { destruct (Rlt_le_dec (K + i2 + o2) (K + 0 + o1)) as [Q|Q]; [exact Q|].
    assert (T42 : 42 <= t').
    { rewrite Et'. apply Rmult_le_reg_r with (K + i2 + o2); [lra|]. unfold Rdiv. rewrite Rmult_assoc, Rinv_l by lra. lra. }
    specialize (O2 T42). lra. }
  unfold Rdiv. apply Rmult_lt_compat_l; [lra|]. apply Rinv_lt_contravar; [apply Rmult_lt_0_compat; lra|exact F].
Qed.

(** A pipe DN 50 with 20 mm of mineral wool, and with 50 mm. *)
Definition dn50 (s l : R) : pipe_arg :=
  {| pa_len := 10; pa_gp := 5%Z; pa_sins := s; pa_lins := l; pa_di := 0.0545; pa_do := 0.0603; pa_A := 0.0023;
     pa_cp := 500; pa_rho := 7900; pa_lam := 50 |}.
Definition dn50_ports : prts :=
  {| p_np := 2; p_own := fun i => match i with O => 0 | _ => 4 end%nat; p_gsp := fun _ => 1; p_sub := fun _ => 1; p_A := fun _ => 0.0023; p_w := fun _ => 0 |}.

Lemma still_low T A x : 0 <= T <= 100 -> 38 <= alpha_in 0 T A 0.0545 x.
Proof.
  intro HT. unfold alpha_in. cbv zeta.
  assert (RE : reynolds 0 (rho_water T) A 0.0545 (ny_water T) = 0) by (unfold reynolds, Rdiv; rewrite Rmult_0_l, Rabs_R0; ring).
  rewrite RE. destruct (Rlt_dec 2300 0) as [Z|_]; [lra|].
  pose proof (nu_laminar_min (0 * Pr_water T) 0.0545 x) as NM. set (nn := nu_laminar _ _ _) in *. clearbody nn.
  pose proof (lambda_bounds T HT) as LB. set (lw := lambda_water T) in *. clearbody lw.
  assert (3.65 * (569 / 1000) <= nn * lw) by (apply Rmult_le_compat; lra). unfold Rdiv. lra.
Qed.
(** Outer coefficient of the thinner insulation at a small and at a smaller excess. *)
Lemma dn_high t : 1 <= t <= 55 -> 0.035 <= 0.05015 * cyl_alpha_inf (15 + t) 15 (0.05015 * PI) false 1.
Proof.
  intros Ht. pose proof PI_between as HP.
  assert (M : cyl_alpha_inf 16 15 (0.05015 * PI) false 1 <= cyl_alpha_inf (15 + t) 15 (0.05015 * PI) false 1) by (apply hor_alpha_warm; lra).
  apply Rle_trans with (0.05015 * cyl_alpha_inf 16 15 (0.05015 * PI) false 1); [|apply Rmult_le_compat_l; lra]. clear M t Ht.
  unfold cyl_alpha_inf. cbv zeta. replace ((15 + 16) / 2) with 15.5 by lra.
  set (x := rayleigh 16 15 (0.05015 * PI) (ny_dryair 15.5) * 0.3269207911296459).
  assert (N' : 1.48e-05 < ny_dryair 15.5 < 1.5e-05) by (unfold ny_dryair; lra).
  assert (B : 50000 <= x).
  { unfold x, rayleigh. replace (Rabs (16 - 15)) with 1 by (rewrite Rabs_pos_eq; lra). set (n := ny_dryair 15.5) in *. clearbody n.
    assert (C : 0.15 ^ 3 <= (0.05015 * PI) ^ 3) by (apply pow_incr; lra).
    assert (E : 0 < n ^ 2 < 2.251e-10) by nra.
    assert (Dn : 0 < (15 + 273.15) * n ^ 2) by lra.
    apply Rmult_le_reg_r with ((15 + 273.15) * n ^ 2); [exact Dn|].
    replace (1 * 9.81 * (0.05015 * PI) ^ 3 * 0.708 / ((15 + 273.15) * n ^ 2) * 0.3269207911296459 * ((15 + 273.15) * n ^ 2))
      with (1 * 9.81 * (0.05015 * PI) ^ 3 * 0.708 * 0.3269207911296459) by (field; lra). lra. }
  pose proof (npow6 x ltac:(lra)) as E6. pose proof (npow_nonneg x (1 / 6)) as P6. set (u := npow x (1 / 6)) in *.
  assert (U : 5 < u) by (apply pow6_lt; lra).
  assert (Lm : 0.024 < lam_dryair 15.5) by (unfold lam_dryair; lra). set (lm := lam_dryair 15.5) in *. clearbody lm u.
  replace (0.05015 * ((0.752 + 0.387 * u) ^ 2 * lm / (0.05015 * PI))) with ((0.752 + 0.387 * u) ^ 2 * lm / PI) by (field; lra).
  assert (Q : 2.687 ^ 2 <= (0.752 + 0.387 * u) ^ 2) by (apply pow_incr; lra).
  assert (Q2 : 2.687 ^ 2 * 0.024 <= (0.752 + 0.387 * u) ^ 2 * lm) by (apply Rmult_le_compat; lra).
  apply Rmult_le_reg_r with PI; [lra|]. unfold Rdiv. rewrite Rmult_assoc, Rinv_l by lra. lra.
Qed.
Lemma dn_low t : 0 <= t <= 1 -> 0.05015 * cyl_alpha_inf (15 + t) 15 (0.05015 * PI) false 1 <= 0.3.
Proof.
  intros Ht. pose proof PI_between as HP.
  assert (M : cyl_alpha_inf (15 + t) 15 (0.05015 * PI) false 1 <= cyl_alpha_inf 16 15 (0.05015 * PI) false 1) by (apply hor_alpha_warm; lra).
  apply Rle_trans with (0.05015 * cyl_alpha_inf 16 15 (0.05015 * PI) false 1); [apply Rmult_le_compat_l; lra|]. clear M t Ht.
  unfold cyl_alpha_inf. cbv zeta. replace ((15 + 16) / 2) with 15.5 by lra.
  set (x := rayleigh 16 15 (0.05015 * PI) (ny_dryair 15.5) * 0.3269207911296459).
  assert (N' : 1.48e-05 < ny_dryair 15.5 < 1.5e-05) by (unfold ny_dryair; lra).
  assert (B : 0 <= x <= 400000).
  { unfold x, rayleigh. replace (Rabs (16 - 15)) with 1 by (rewrite Rabs_pos_eq; lra). set (n := ny_dryair 15.5) in *. clearbody n.
    assert (C : 0 <= (0.05015 * PI) ^ 3 <= 0.201 ^ 3) by (split; [apply pow_le; lra|apply pow_incr; lra]).
    assert (E : 2.19e-10 < n ^ 2) by nra.
    assert (Dn : 0 < (15 + 273.15) * n ^ 2) by lra.
    split.
    - apply Rmult_le_pos; [|lra]. apply Rmult_le_pos; [lra|]. left. apply Rinv_0_lt_compat, Dn.
    - apply Rmult_le_reg_r with ((15 + 273.15) * n ^ 2); [exact Dn|].
      replace (1 * 9.81 * (0.05015 * PI) ^ 3 * 0.708 / ((15 + 273.15) * n ^ 2) * 0.3269207911296459 * ((15 + 273.15) * n ^ 2))
        with (1 * 9.81 * (0.05015 * PI) ^ 3 * 0.708 * 0.3269207911296459) by (field; lra). lra. }
  pose proof (npow6 x ltac:(lra)) as E6. pose proof (npow_nonneg x (1 / 6)) as P6. set (u := npow x (1 / 6)) in *.
  assert (U : u < 9) by (apply pow6_lt; lra).
  assert (Lm : 0 < lam_dryair 15.5 < 0.0257) by (unfold lam_dryair; lra). set (lm := lam_dryair 15.5) in *. clearbody lm u.
  replace (0.05015 * ((0.752 + 0.387 * u) ^ 2 * lm / (0.05015 * PI))) with ((0.752 + 0.387 * u) ^ 2 * lm / PI) by (field; lra).
  assert (Q : (0.752 + 0.387 * u) ^ 2 <= 4.235 ^ 2) by (apply pow_incr; lra).
  assert (0 <= (0.752 + 0.387 * u) ^ 2) by (apply pow_le; lra).
  assert (Q2 : (0.752 + 0.387 * u) ^ 2 * lm <= 4.235 ^ 2 * 0.0257) by (apply Rmult_le_compat; lra).
  apply Rmult_le_reg_r with PI; [lra|]. unfold Rdiv. rewrite Rmult_assoc, Rinv_l by lra. lra.
Qed.
Lemma dn_critical g f Tx Tp b : pipe_new (dn50 0.02 0.035) dn50_ports = Some g -> ports_ok 5 dn50_ports -> Tx 3%nat = 70 -> buf_ok g b ->
  settled (pipe_diff g 0 f Tx Tp 15 b) b 2%nat -> 0.035 <= r_ainf (pipe_diff g 0 f Tx Tp 15 b) 2%nat * 0.05015.
Proof.
  intros Hn Po HT Bk St.
  assert (Hd : pipe_dims (dn50 0.02 0.035)) by (unfold pipe_dims; cbn; lra).
  assert (Hs : solid (pa_cp (dn50 0.02 0.035)) (pa_rho (dn50 0.02 0.035)) (pa_lam (dn50 0.02 0.035))) by (unfold solid; cbn; lra).
  destruct (settled_cell (dn50 0.02 0.035) dn50_ports g 0 f Tx Tp 15 b 2%nat Hn Hd Hs ltac:(cbn; lra) ltac:(cbn; lia) Po
    ltac:(cbn; lia) ltac:(lra) ltac:(lra) Bk St) as (t & Bt & Ea & Et & _).
  rewrite Ea. rewrite HT in *. clear Ea.
  assert (Ai : 38 <= r_ai (pipe_diff g 0 f Tx Tp 15 b) 2%nat).
  { change (38 <= alpha_in 0 (Tx 3%nat) (g_A g) (g_di g) (if Rlt_dec 0 0 then g_x g (g_n g - 1 - 2)%nat else g_x g 2%nat)).
    set (xx := if Rlt_dec 0 0 then _ else _). clearbody xx.
    destruct (pipe_new_inv _ _ _ Hn) as [_ ->]. cbn [g_A g_di pa_A pa_di dn50]. rewrite HT. apply still_low. lra. }
  set (ai := r_ai (pipe_diff g 0 f Tx Tp 15 b) 2%nat) in *. clearbody ai.
  change (pa_di (dn50 0.02 0.035)) with 0.0545 in *. change (pa_do (dn50 0.02 0.035)) with 0.0603 in *. change (pa_lins (dn50 0.02 0.035)) with 0.035 in *.
  replace (outer_radius (dn50 0.02 0.035)) with 0.05015 in * by (unfold outer_radius; cbn; lra).
  assert (KB : 0 < kin (dn50 0.02 0.035) ai <= 0.03).
  { split; [apply kin_pos; [exact Hd|cbn; lra|lra]|]. unfold kin. cbn [dn50 pa_di pa_do pa_lam].
    assert (1 / ai <= / 38) by (unfold Rdiv; rewrite Rmult_1_l; apply Rinv_le_contravar; lra).
    pose proof (ln_le_m1 (0.0603 / 2 / (0.0545 / 2)) ltac:(lra)). lra. }
  set (K := kin (dn50 0.02 0.035) ai) in *. clearbody K. pose proof PI_between as HP.
  assert (P1 : 0 < cyl_alpha_inf (15 + t) 15 (0.05015 * PI) false 1) by (apply cyl_alpha_pos; lra).
  rewrite Rmult_comm.
  destruct (Rle_lt_dec 1 t) as [Q|Q]; [apply dn_high; lra|]. exfalso.
  pose proof (dn_low t ltac:(lra)) as L. set (al := cyl_alpha_inf (15 + t) 15 _ false 1) in *. clearbody al.
  assert (O : 0.09 <= rout (0.0545 / 2) 0.05015 al).
  { unfold rout. apply Rmult_le_reg_r with (0.05015 * al); [lra|].
    assert (E5 : 0.0545 / 2 / 0.05015 / al * (0.05015 * al) = 0.0545 / 2) by (field; lra). rewrite E5. lra. }
  assert (I : 0 <= rins (0.0545 / 2) (0.0603 / 2) 0.05015 0.035 <= 0.6).
  { unfold rins. pose proof (ln_le_m1 (0.05015 / (0.0603 / 2)) ltac:(lra)).
    assert (0 < ln (0.05015 / (0.0603 / 2))) by (rewrite <- ln_1; apply ln_increasing; lra). lra. }
  unfold rtot in Et. set (o := rout _ _ _) in *. set (i := rins _ _ _ _) in *. clearbody o i.
  assert (E : t * (K + i + o) = (70 - 15) * o) by (rewrite Et; field; lra).
  assert (t * (K + i + o) <= 1 * (K + i + o)) by (apply Rmult_le_compat_r; lra). lra.
Qed.
