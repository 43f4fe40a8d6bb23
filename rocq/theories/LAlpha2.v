(** Proofs about free convection on the outside of parts (C108). *)
From Coq Require Import Reals List Arith ZArith Bool Lra Lia.
From Verif Require Import MFlow MWater MDiff SFlow LFlow LWater LDiff LDiff2 LAlpha.
Open Scope R_scope.

(** Hotter air is more viscous, but the driving difference wins. *)
Lemma ny_air_diff x y : ny_dryair y - ny_dryair x
  = (y - x) * (8.8810389610389459e-08 + 1.0974025974025443e-10 * (x + y)).
Proof. unfold ny_dryair. ring. Qed.
Lemma ny_air_low T : 0 <= T <= 100 -> 1.35e-5 <= ny_dryair T <= 2.4e-5.
Proof. intros H. pose proof (ny_air_bounds T H). unfold ny_dryair in *. split; nra. Qed.

Lemma drive_mono a d1 d2 : 0 <= a -> 0 <= d1 < d2 -> a + d2 <= 100 ->
  d1 / ny_dryair (a + d1 / 2) ^ 2 < d2 / ny_dryair (a + d2 / 2) ^ 2.
Proof.
  intros Ha [H1 H2] H3.
  pose proof (ny_air_low (a + d1 / 2) ltac:(lra)) as N1. pose proof (ny_air_low (a + d2 / 2) ltac:(lra)) as N2.
  pose proof (ny_air_diff (a + d1 / 2) (a + d2 / 2)) as D.
  set (n1 := ny_dryair (a + d1 / 2)) in *. set (n2 := ny_dryair (a + d2 / 2)) in *.
  set (s := 8.8810389610389459e-08 + 1.0974025974025443e-10 * (a + d1 / 2 + (a + d2 / 2))) in D.
  assert (S : 0 < s <= 1.108e-7) by (unfold s; lra). clearbody s n1 n2.
  set (e := d2 - d1). assert (E : n2 = n1 + e / 2 * s) by (unfold e; lra). assert (He : 0 < e) by (unfold e; lra).
  assert (Hd : d2 = d1 + e) by (unfold e; lra). clearbody e. subst n2 d2.
  set (m1 := n1 * 100000). set (t := s * 10000000).
  assert (M1 : 1.35 <= m1) by (unfold m1; lra). assert (T1 : 0 < t <= 1.108) by (unfold t; lra).
  assert (En1 : n1 = m1 / 100000) by (unfold m1; field). assert (Es : s = t / 10000000) by (unfold t; field).
  clearbody m1 t. subst n1 s.
  assert (P1 : 0 < (m1 / 100000) ^ 2) by (apply pow_lt; lra).
  assert (P2 : 0 < (m1 / 100000 + e / 2 * (t / 10000000)) ^ 2).
  { apply pow_lt. assert (0 < e / 2 * (t / 10000000)) by (apply Rmult_lt_0_compat; lra). lra. }
  set (p1 := (m1 / 100000) ^ 2) in *. set (p2 := (m1 / 100000 + e / 2 * (t / 10000000)) ^ 2) in *.
  apply Rmult_lt_reg_r with (p1 * p2); [apply Rmult_lt_0_compat; lra|].
  replace (d1 / p1 * (p1 * p2)) with (d1 * p2) by (field; lra).
  replace ((d1 + e) / p2 * (p1 * p2)) with ((d1 + e) * p1) by (field; lra).
  replace (d1 * p2) with (d1 * (m1 + e * t / 200) ^ 2 / 10000000000) by (unfold p2; field).
  replace ((d1 + e) * p1) with ((d1 + e) * m1 ^ 2 / 10000000000) by (unfold p1; field).
  clear P1 P2 p1 p2.
  assert (K : d1 * (m1 * t / 100 + e * t ^ 2 / 40000) < m1 ^ 2).
  { assert (Q1 : d1 * (m1 * t / 100) <= 1.108 * m1).
    { replace (d1 * (m1 * t / 100)) with ((d1 * t / 100) * m1) by field. apply Rmult_le_compat_r; [lra|]. nra. }
    assert (Q2 : d1 * e <= 2500).
    { pose proof (Rle_0_sqr (d1 - e)) as Sq. unfold Rsqr in Sq.
      assert ((d1 + e) * (d1 + e) <= 100 * 100) by (apply Rmult_le_compat; lra). lra. }
    assert (Q3 : t ^ 2 <= 1.228) by nra.
    assert (Q0 : 0 <= d1 * e) by (apply Rmult_le_pos; lra).
    assert (Q4 : d1 * (e * t ^ 2 / 40000) <= 0.0768).
    { replace (d1 * (e * t ^ 2 / 40000)) with (d1 * e * t ^ 2 / 40000) by field.
      assert (0 <= t ^ 2) by nra. assert (d1 * e * t ^ 2 <= 2500 * 1.228) by (apply Rmult_le_compat; lra). lra. }
    assert (0 <= m1 * (m1 - 1.35)) by (apply Rmult_le_pos; lra). lra. }
  assert (G : d1 * (m1 + e * t / 200) ^ 2 < (d1 + e) * m1 ^ 2); [|lra].
  replace (d1 * (m1 + e * t / 200) ^ 2) with (d1 * m1 ^ 2 + e * (d1 * (m1 * t / 100 + e * t ^ 2 / 40000))) by field.
  replace ((d1 + e) * m1 ^ 2) with (d1 * m1 ^ 2 + e * m1 ^ 2) by ring.
  apply Rplus_lt_compat_l, Rmult_lt_compat_l; assumption.
Qed.

Lemma rayleigh_is a d L : rayleigh (a + d) a L (ny_dryair ((a + (a + d)) / 2))
  = 9.81 * 0.708 * L ^ 3 / (a + 273.15) * (Rabs d / ny_dryair (a + d / 2) ^ 2).
Proof.
  unfold rayleigh. replace (a + d - a) with d by ring. replace ((a + (a + d)) / 2) with (a + d / 2) by field.
  unfold Rdiv. rewrite Rinv_mult. ring.
Qed.
Lemma rayleigh_mono Tinf T1 T2 L : 0 <= Tinf -> Tinf <= T1 < T2 -> T2 <= 100 -> 0 < L ->
  0 <= rayleigh T1 Tinf L (ny_dryair ((Tinf + T1) / 2)) < rayleigh T2 Tinf L (ny_dryair ((Tinf + T2) / 2)).
Proof.
  intros Ha H1 H2 HL. pose proof (drive_mono Tinf (T1 - Tinf) (T2 - Tinf) Ha ltac:(lra) ltac:(lra)) as D.
  replace T1 with (Tinf + (T1 - Tinf)) by ring. replace T2 with (Tinf + (T2 - Tinf)) by ring.
  rewrite !rayleigh_is. rewrite !Rabs_pos_eq by lra.
  assert (C : 0 < 9.81 * 0.708 * L ^ 3 / (Tinf + 273.15)).
  { apply Rdiv_lt_0_compat; [|lra]. apply Rmult_lt_0_compat; [lra|apply pow_lt; lra]. }
  pose proof (ny_air_low (Tinf + (T1 - Tinf) / 2) ltac:(lra)) as N1.
  split; [|apply Rmult_lt_compat_l; assumption].
  apply Rmult_le_pos; [lra|]. unfold Rdiv. apply Rmult_le_pos; [lra|]. left. apply Rinv_0_lt_compat, pow_lt. lra.
Qed.

(** A coefficient [N * lam / L] whose Nusselt number does not fall gives a rising heat flow. *)
Lemma flux_mono N1 N2 Tinf T1 T2 L : 0 <= Tinf -> Tinf <= T1 < T2 -> T2 <= 100 -> 0 < L -> 0 < N2 -> 0 <= N1 <= N2 ->
  N1 * lam_dryair ((Tinf + T1) / 2) / L * (T1 - Tinf) < N2 * lam_dryair ((Tinf + T2) / 2) / L * (T2 - Tinf).
Proof.
  intros Ha H1 H2 HL H0 HN.
  pose proof (lam_air_increasing ((Tinf + T1) / 2) ((Tinf + T2) / 2) ltac:(lra) ltac:(lra) ltac:(lra)) as LI.
  pose proof (lam_air_bounds ((Tinf + T1) / 2) ltac:(lra)) as B.
  set (l1 := lam_dryair _) in *. set (l2 := lam_dryair ((Tinf + T2) / 2)) in *. clearbody l1 l2.
  assert (HI : 0 < / L) by (apply Rinv_0_lt_compat; lra).
  assert (N1 * l1 <= N2 * l2) by (apply Rmult_le_compat; lra).
  assert (0 < N2 * l2) by (apply Rmult_lt_0_compat; lra).
  assert (0 <= N1 * l1) by (apply Rmult_le_pos; lra).
  unfold Rdiv. apply Rle_lt_trans with (N2 * l2 * / L * (T1 - Tinf)).
  - apply Rmult_le_compat_r; [lra|]. apply Rmult_le_compat_r; lra.
  - apply Rmult_lt_compat_l; [|lra]. apply Rmult_lt_0_compat; lra.
Qed.

Lemma nu_ch_mono c k r1 r2 : 0 < c -> 0 < k -> 0 <= r1 <= r2 ->
  0 < (c + 0.387 * npow (r1 * k) (1 / 6)) ^ 2 <= (c + 0.387 * npow (r2 * k) (1 / 6)) ^ 2.
Proof.
  intros Hc Hk H. pose proof (npow_nonneg (r1 * k) (1/6)).
  assert (npow (r1 * k) (1 / 6) <= npow (r2 * k) (1 / 6)).
  { apply npow_mono; [apply Rmult_le_pos; lra|apply Rmult_le_compat_r; lra|lra]. }
  split; [apply pow_lt; lra|apply pow_incr; lra].
Qed.

Lemma npow_pow5 x : 0 <= x -> npow x (1 / 5) ^ 5 = x.
Proof.
  intros Hx. unfold npow. destruct (Req_EM_T x 0) as [->|Nx]; [lra|].
  rewrite <- (Rpower_pow 5) by (unfold Rpower; apply exp_pos). rewrite Rpower_mult.
  replace (1 / 5 * INR 5) with 1 by (cbn [INR]; lra). apply Rpower_1. lra.
Qed.
Lemma fifth_low : 9.3 <= npow 70000 (1 / 5).
Proof.
  pose proof (npow_pow5 70000 ltac:(lra)) as E. pose proof (npow_nonneg 70000 (1/5)) as N.
  destruct (Rle_dec 9.3 (npow 70000 (1/5))) as [L|L]; [exact L|exfalso].
  assert (npow 70000 (1 / 5) ^ 5 <= 9.3 ^ 5) by (apply pow_incr; lra). lra.
Qed.
