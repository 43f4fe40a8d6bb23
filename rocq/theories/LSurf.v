(** Proofs for C190. *)
From Coq Require Import Reals Ranalysis5 List Arith ZArith Bool Lra Lia.
From Verif Require Import MFlow MWater MDiff MGeom SFlow SDiff SGeom LFlow LWater LDiff LDiff2 LDiff4 LGeom LGeom2 LAlpha LAlpha2 SInsul LInsul LInsul2 SSurf.
Open Scope R_scope.

(** ** The outer coefficient rises less than in proportion to the excess of the surface *)
Lemma lam_slow Tamb s t : 0 <= Tamb -> 0 < s <= t -> Tamb + t <= 100 ->
  lam_dryair ((Tamb + (Tamb + t)) / 2) ^ 2 * s <= lam_dryair ((Tamb + (Tamb + s)) / 2) ^ 2 * t.
Proof.
  intros HT Hs Ht.
  pose proof (lam_air_bounds ((Tamb + (Tamb + s)) / 2) ltac:(lra)) as LB.
  pose proof (lam_air_bounds ((Tamb + (Tamb + t)) / 2) ltac:(lra)) as LB2.
  assert (U : lam_dryair ((Tamb + (Tamb + t)) / 2) <= lam_dryair ((Tamb + (Tamb + s)) / 2) + 4e-05 * (t - s)) by (unfold lam_dryair; nra).
  set (l1 := lam_dryair ((Tamb + (Tamb + s)) / 2)) in *. set (l2 := lam_dryair ((Tamb + (Tamb + t)) / 2)) in *. clearbody l1 l2.
  set (d := t - s) in *. assert (Hd : 0 <= d <= 100) by (unfold d; lra). replace t with (s + d) by (unfold d; ring). clearbody d.
  apply Rle_trans with ((l1 + 4e-05 * d) ^ 2 * s).
  - apply Rmult_le_compat_r; [lra|]. apply pow_incr. lra.
  - assert (Q : 2 * l1 * 4e-05 * s + 4e-05 * 4e-05 * d * s <= l1 * l1).
    { assert (8e-05 * s <= 0.008) by lra. assert (d * s <= 10000) by nra. assert (l1 * (8e-05 * s) <= l1 * 0.008) by (apply Rmult_le_compat_l; lra). nra. }
    assert (d * (2 * l1 * 4e-05 * s + 4e-05 * 4e-05 * d * s) <= d * (l1 * l1)) by (apply Rmult_le_compat_l; lra).
    replace ((l1 + 4e-05 * d) ^ 2 * s) with (l1 * l1 * s + d * (2 * l1 * 4e-05 * s + 4e-05 * 4e-05 * d * s)) by ring. 
    replace (l1 ^ 2 * (s + d)) with (l1 * l1 * s + d * (l1 * l1)) by ring. lra.
Qed.
(** [ray t / ray s <= t / s]. *)
Lemma ray_slow Tamb L s t : 0 <= Tamb -> 0 < s <= t -> Tamb + t <= 100 -> 0 < L ->
  rayleigh (Tamb + t) Tamb L (ny_dryair ((Tamb + (Tamb + t)) / 2)) <= rayleigh (Tamb + s) Tamb L (ny_dryair ((Tamb + (Tamb + s)) / 2)) * (t / s).
Proof.
  intros HT Hs Ht HL.
  pose proof (ny_air_bounds ((Tamb + (Tamb + s)) / 2) ltac:(lra)) as N1.
  pose proof (ny_air_bounds ((Tamb + (Tamb + t)) / 2) ltac:(lra)) as N2.
  assert (U : ny_dryair ((Tamb + (Tamb + s)) / 2) <= ny_dryair ((Tamb + (Tamb + t)) / 2)) by (unfold ny_dryair; nra).
  unfold rayleigh. set (n1 := ny_dryair ((Tamb + (Tamb + s)) / 2)) in *. set (n2 := ny_dryair ((Tamb + (Tamb + t)) / 2)) in *. clearbody n1 n2.
  rewrite (Rabs_pos_eq (Tamb + t - Tamb)), (Rabs_pos_eq (Tamb + s - Tamb)) by lra.
  assert (P1 : 0 < n1 ^ 2) by (apply pow_lt; lra). assert (P2 : n1 ^ 2 <= n2 ^ 2) by (apply pow_incr; lra).
  assert (PL : 0 < L ^ 3) by (apply pow_lt; lra).
  replace ((Tamb + s - Tamb) * 9.81 * L ^ 3 * 0.708 / ((Tamb + 273.15) * n1 ^ 2) * (t / s)) with (t * 9.81 * L ^ 3 * 0.708 * / ((Tamb + 273.15) * n1 ^ 2)) by (field; lra).
  replace (Tamb + t - Tamb) with t by ring. unfold Rdiv. apply Rmult_le_compat_l.
  - apply Rmult_le_pos; [|lra]. apply Rmult_le_pos; lra.
  - apply Rinv_le_contravar; [apply Rmult_lt_0_compat; lra|]. apply Rmult_le_compat_l; lra.
Qed.
Definition al_v (Tamb L : R) (v : bool) (rt t : R) : R := cyl_alpha_inf (Tamb + t) Tamb L v rt.
Lemma al_v_is Tamb L v rt : 0 < L -> 0 < rt -> exists c m k, 0 < c /\ 0 < m /\ 0 <= k /\ forall t,
  al_v Tamb L v rt t = ((c + 0.387 * npow (rayleigh (Tamb + t) Tamb L (ny_dryair ((Tamb + (Tamb + t)) / 2)) * m) (1 / 6)) ^ 2 + k)
    * lam_dryair ((Tamb + (Tamb + t)) / 2) / L.
Proof.
  intros HL Hr. destruct v.
  - exists 0.825, 0.3466023585520853, (0.435 * L / (2 * rt)).
    split; [lra|]. split; [lra|]. split; [left; apply Rdiv_lt_0_compat; lra|]. intro t. reflexivity.
  - exists 0.752, 0.3269207911296459, 0. split; [lra|]. split; [lra|]. split; [lra|]. intro t. unfold al_v, cyl_alpha_inf. cbv zeta. rewrite Rplus_0_r. reflexivity.
Qed.
Lemma al_slow Tamb L v rt s t : 0 <= Tamb -> 0 < s <= t -> Tamb + t <= 100 -> 0 < L -> 0 < rt ->
  0 < al_v Tamb L v rt s <= al_v Tamb L v rt t /\ ln (al_v Tamb L v rt t) - ln (al_v Tamb L v rt s) <= 5 / 6 * (ln t - ln s).
Proof.
  intros HT Hs Ht HL Hrt.
  assert (P : 0 < al_v Tamb L v rt s) by (apply cyl_alpha_pos; lra).
  assert (P' : 0 < al_v Tamb L v rt t) by (apply cyl_alpha_pos; lra).
  pose proof (lam_slow Tamb s t HT Hs Ht) as LS. pose proof (ray_slow Tamb L s t HT Hs Ht HL) as RS.
  pose proof (lam_air_bounds ((Tamb + (Tamb + s)) / 2) ltac:(lra)) as LB.
  pose proof (lam_air_bounds ((Tamb + (Tamb + t)) / 2) ltac:(lra)) as LB2.
  assert (LI : lam_dryair ((Tamb + (Tamb + s)) / 2) <= lam_dryair ((Tamb + (Tamb + t)) / 2)).
  { destruct (Req_dec s t) as [->|N]; [lra|]. left. apply lam_air_increasing; lra. }
  assert (R0 : forall u, 0 < u -> Tamb + u <= 100 -> 0 < rayleigh (Tamb + u) Tamb L (ny_dryair ((Tamb + (Tamb + u)) / 2))).
  { intros u Hu Hu2. unfold rayleigh. pose proof (ny_air_bounds ((Tamb + (Tamb + u)) / 2) ltac:(lra)) as N.
    rewrite Rabs_pos_eq by lra. assert (0 < L ^ 3) by (apply pow_lt; lra).
    apply Rdiv_lt_0_compat; [|apply Rmult_lt_0_compat; [lra|apply pow_lt; lra]].
    apply Rmult_lt_0_compat; [|lra]. apply Rmult_lt_0_compat; [lra|lra]. }
  pose proof (R0 s ltac:(lra) ltac:(lra)) as Rs. pose proof (R0 t ltac:(lra) ltac:(lra)) as Rt. clear R0.
  assert (RM : rayleigh (Tamb + s) Tamb L (ny_dryair ((Tamb + (Tamb + s)) / 2)) <= rayleigh (Tamb + t) Tamb L (ny_dryair ((Tamb + (Tamb + t)) / 2))).
  { destruct (Req_dec s t) as [->|N]; [lra|]. left. apply (rayleigh_mono Tamb (Tamb + s) (Tamb + t) L HT); lra. }
  destruct (al_v_is Tamb L v rt HL Hrt) as (c & m & k & Hc & Hm & Hk & Eal). rewrite (Eal s), (Eal t) in *. clear Eal.
  set (rs := rayleigh (Tamb + s) Tamb L _) in *. set (rt0 := rayleigh (Tamb + t) Tamb L _) in *.
  set (l1 := lam_dryair ((Tamb + (Tamb + s)) / 2)) in *. set (l2 := lam_dryair ((Tamb + (Tamb + t)) / 2)) in *. clearbody rs rt0 l1 l2.
  set (y := t / s) in *. assert (Ey : ln y = ln t - ln s) by (apply ln_ratio; lra).
  assert (Y1 : 1 <= y) by (unfold y; apply Rmult_le_reg_r with s; [lra|]; unfold Rdiv; rewrite Rmult_assoc, Rinv_l; lra).
  assert (PW : 1 <= npow y (1 / 6)).
  { destruct (Req_dec y 1) as [E|N].
    - rewrite E. unfold npow. destruct (Req_EM_T 1 0); [lra|]. unfold Rpower. rewrite ln_1, Rmult_0_r, exp_0. lra.
    - apply npow_ge1; lra. }
  assert (Pm : 0 < rs * m) by (apply Rmult_lt_0_compat; lra). assert (Pm2 : rs * m <= rt0 * m) by (apply Rmult_le_compat_r; lra).
  assert (NQ : npow (rt0 * m) (1 / 6) <= npow (rs * m) (1 / 6) * npow y (1 / 6)).
  { rewrite <- npow_mult by lra. apply npow_mono; [lra| |lra].
    replace (rs * m * y) with (rs * y * m) by ring. apply Rmult_le_compat_r; lra. }
  assert (NM : npow (rs * m) (1 / 6) <= npow (rt0 * m) (1 / 6)) by (apply npow_mono; lra).
  pose proof (npow_nonneg (rs * m) (1 / 6)) as Q1.
  set (qs := npow (rs * _) _) in *. set (qt := npow (rt0 * _) _) in *.
  assert (Ew : ln (npow y (1 / 6)) = 1 / 6 * ln y).
  { unfold npow. destruct (Req_EM_T y 0); [lra|]. unfold Rpower. apply ln_exp. }
  set (w := npow y (1 / 6)) in *. clearbody qs qt w.
  set (n1 := (c + 0.387 * qs) ^ 2 + k) in *. set (n2 := (c + 0.387 * qt) ^ 2 + k) in *.
  assert (Pn : 0 < n1) by (unfold n1; assert (0 < (c + 0.387 * qs) ^ 2) by (apply pow_lt; lra); lra).
  assert (Nn : n1 <= n2) by (unfold n1, n2; apply Rplus_le_compat_r; apply pow_incr; lra).
  assert (S1 : n2 <= n1 * (w * w)).
  { unfold n1, n2. assert (Z : c + 0.387 * qt <= (c + 0.387 * qs) * w) by nra.
    assert (Z2 : (c + 0.387 * qt) ^ 2 <= ((c + 0.387 * qs) * w) ^ 2) by (apply pow_incr; lra).
    assert (Z3 : k <= k * (w * w)) by (assert (1 <= w * w) by nra; nra). 
    replace (((c + 0.387 * qs) ^ 2 + k) * (w * w)) with (((c + 0.387 * qs) * w) ^ 2 + k * (w * w)) by ring. lra. }
  clearbody n1 n2.
  split.
  - split; [exact P|]. unfold Rdiv. apply Rmult_le_compat_r; [left; apply Rinv_0_lt_compat, HL|]. apply Rmult_le_compat; lra.
  - assert (L1 : ln n2 <= ln n1 + 2 * ln w).
    { assert (E2 : ln (n1 * (w * w)) = ln n1 + 2 * ln w) by (rewrite !ln_mult by (try apply Rmult_lt_0_compat; lra); ring).
      rewrite <- E2. destruct S1 as [S1|S1]; [left; apply ln_increasing; lra|rewrite S1; lra]. }
    assert (L2 : 2 * ln l2 + ln s <= 2 * ln l1 + ln t).
    { assert (E : forall l u, 0 < l -> 0 < u -> ln (l ^ 2 * u) = 2 * ln l + ln u).
      { intros l u Hl Hu. assert (0 < l ^ 2) by (apply pow_lt; lra). rewrite ln_mult by lra. replace (l ^ 2) with (l * l) by ring. rewrite ln_mult by lra. ring. }
      rewrite <- !E by lra. destruct LS as [LS|LS]; [left; apply ln_increasing; [apply Rmult_lt_0_compat; [apply pow_lt|]; lra|exact LS]|rewrite LS; lra]. }
    assert (E : forall n l, 0 < n -> 0 < l -> ln (n * l / L) = ln n + ln l - ln L).
    { intros n l Hn Hl. rewrite ln_ratio by (try apply Rmult_lt_0_compat; lra). rewrite ln_mult by lra. ring. }
    rewrite !E by lra. lra.
Qed.
(** The coefficient depends continuously on the excess. *)
Lemma al_v_cont Tamb L v rt t : 0 <= Tamb <= 100 -> 0 <= Tamb + t -> Tamb + t <= 100 -> 0 < L -> 0 < rt -> continuity_pt (al_v Tamb L v rt) t.
Proof.
  intros HT Ht HU HL Hrt. destruct (al_v_is Tamb L v rt HL Hrt) as (c & m0 & k & Hc & Hm & Hk & Eal).
  set (m := fun y => (Tamb + (Tamb + y)) * / 2).
  assert (Cm : continuity_pt m t) by (apply mul_cont; [apply add_cont; [apply const_cont|apply add_cont; [apply const_cont|apply id_cont]]|apply const_cont]).
  assert (Cny : continuity_pt (fun y => ny_dryair (m y)) t).
  { unfold ny_dryair. apply add_cont; [apply add_cont; [apply const_cont|apply mul_cont; [apply const_cont|exact Cm]]|apply mul_cont; [apply const_cont|apply pow_cont, Cm]]. }
  assert (Clam : continuity_pt (fun y => lam_dryair (m y)) t).
  { unfold lam_dryair. unfold Rminus. apply add_cont; [apply add_cont; [apply const_cont|apply mul_cont; [apply const_cont|exact Cm]]|].
    apply (continuity_pt_opp (fun y => 4.2099567099572201e-08 * m y ^ 2)). apply mul_cont; [apply const_cont|apply pow_cont, Cm]. }
  pose proof (ny_air_bounds (m t) ltac:(unfold m; lra)) as NB.
  set (ra := fun y => Rabs (Tamb + y - Tamb) * 9.81 * L ^ 3 * 0.708 * / ((Tamb + 273.15) * ny_dryair (m y) ^ 2) * m0).
  assert (Cra : continuity_pt ra t).
  { unfold ra. apply mul_cont; [|apply const_cont]. apply mul_cont.
    - apply mul_cont; [|apply const_cont]. apply mul_cont; [|apply const_cont]. apply mul_cont; [|apply const_cont].
      apply (comp_cont (fun y => Tamb + y - Tamb) Rabs).
      + apply add_cont; [apply add_cont; [apply const_cont|apply id_cont]|apply const_cont].
      + apply Rcontinuity_abs.
    - apply inv_cont; [apply mul_cont; [apply const_cont|apply pow_cont, Cny]|].
      assert (0 < ny_dryair (m t) ^ 2) by (apply pow_lt; lra). apply Rgt_not_eq. apply Rmult_lt_0_compat; lra. }
  assert (Pra : forall y, 0 <= ra y).
  { intro y. unfold ra. apply Rmult_le_pos; [|lra]. apply Rmult_le_pos.
    - apply Rmult_le_pos; [|lra]. apply Rmult_le_pos; [|apply pow_le; lra]. apply Rmult_le_pos; [apply Rabs_pos|lra].
    - destruct (Req_dec (ny_dryair (m y)) 0) as [Z|N].
      + rewrite Z. replace ((Tamb + 273.15) * 0 ^ 2) with 0 by ring. rewrite Rinv_0. lra.
      + left. apply Rinv_0_lt_compat. apply Rmult_lt_0_compat; [lra|]. rewrite <- Rsqr_pow2. apply Rsqr_pos_lt, N. }
  assert (E : forall y, al_v Tamb L v rt y = ((c + 0.387 * sqrt (cbrt_abs (ra y))) ^ 2 + k) * lam_dryair (m y) * / L).
  { intro y. rewrite Eal. unfold rayleigh. change ((Tamb + (Tamb + y)) / 2) with (m y).
    change (Rabs (Tamb + y - Tamb) * 9.81 * L ^ 3 * 0.708 / ((Tamb + 273.15) * ny_dryair (m y) ^ 2) * m0) with (ra y).
    rewrite npow_sixth by apply Pra. reflexivity. }
  assert (CC : continuity_pt (fun y => ((c + 0.387 * sqrt (cbrt_abs (ra y))) ^ 2 + k) * lam_dryair (m y) * / L) t).
  { apply mul_cont; [|apply const_cont]. apply mul_cont; [|exact Clam]. apply add_cont; [|apply const_cont]. apply pow_cont. apply add_cont; [apply const_cont|].
    apply mul_cont; [apply const_cont|]. apply (sqrt_cont (fun y => cbrt_abs (ra y))).
    - apply (comp_cont ra cbrt_abs t Cra). apply cbrt_abs_cont.
    - unfold cbrt_abs. apply npow_nonneg. }
  intros eps He. destruct (CC eps He) as (dl & Hdl & Hdd). exists dl. split; [exact Hdl|]. intros y Hy. rewrite !E. apply Hdd. exact Hy.
Qed.
Lemma fix_point_v Tamb L v rt D rin c : 0 <= Tamb -> 0 <= D -> Tamb + D <= 100 -> 0 < L -> 0 < rt -> 0 < rin -> 0 < c ->
  exists t, 0 <= t <= D /\ t * (rin * al_v Tamb L v rt t + c) = D * c.
Proof.
  intros HT HD HU HL Hrt Hr Hc. destruct (Req_dec D 0) as [->|N]; [exists 0; split; [lra|ring]|].
  assert (PA : forall t, 0 <= t <= D -> 0 < al_v Tamb L v rt t).
  { intros t Ht. apply cyl_alpha_pos; lra. }
  destruct (IVT_interv (fun t => t * (rin * al_v Tamb L v rt t + c) - D * c) 0 D) as (t & Bt & Et).
  - intros x Hx. apply add_cont; [|apply const_cont]. apply mul_cont; [apply id_cont|]. apply add_cont; [|apply const_cont].
    apply mul_cont; [apply const_cont|]. apply al_v_cont; lra.
  - lra.
  - assert (0 < D * c) by (apply Rmult_lt_0_compat; lra). lra.
  - specialize (PA D ltac:(lra)). assert (0 < D * (rin * al_v Tamb L v rt D)) by (apply Rmult_lt_0_compat; [lra|apply Rmult_lt_0_compat; lra]). lra.
  - exists t. split; [exact Bt|]. lra.
Qed.

(** ** Excess of the surface for a given outer coefficient *)
Definition exc (D rin c al : R) : R := D * c / (rin * al + c).
Lemma exc_range D rin c al : 0 < D -> 0 < rin -> 0 < c -> 0 < al -> 0 < exc D rin c al <= D.
Proof.
  intros HD Hr Hc Ha. assert (P : 0 < rin * al) by (apply Rmult_lt_0_compat; lra). unfold exc.
  split; [apply Rdiv_lt_0_compat; [apply Rmult_lt_0_compat|]; lra|].
  apply Rmult_le_reg_r with (rin * al + c); [lra|]. unfold Rdiv. rewrite Rmult_assoc, Rinv_l by lra.
  assert (0 < D * (rin * al)) by (apply Rmult_lt_0_compat; lra). lra.
Qed.
Lemma exc_ln D rin c a1 a2 : 0 < D -> 0 < rin -> 0 < c -> 0 < a1 <= a2 ->
  exc D rin c a2 <= exc D rin c a1 /\ ln (exc D rin c a1) - ln (exc D rin c a2) <= ln a2 - ln a1.
Proof.
  intros HD Hr Hc Ha. assert (P1 : 0 < rin * a1) by (apply Rmult_lt_0_compat; lra).
  assert (P2 : rin * a1 <= rin * a2) by (apply Rmult_le_compat_l; lra). assert (PD : 0 < D * c) by (apply Rmult_lt_0_compat; lra).
  unfold exc. split; [unfold Rdiv; apply Rmult_le_compat_l; [lra|]; apply Rinv_le_contravar; lra|].
  rewrite !ln_ratio by lra.
  assert (Q : ln (rin * a2 + c) + ln a1 <= ln (rin * a1 + c) + ln a2).
  { rewrite <- !ln_mult by lra. assert (K : (rin * a2 + c) * a1 <= (rin * a1 + c) * a2) by nra.
    destruct K as [K|K]; [left; apply ln_increasing; [apply Rmult_lt_0_compat; lra|exact K]|rewrite K; lra]. }
  lra.
Qed.
Definition nxt (Tamb L : R) (v : bool) (rt D rin c al : R) : R := al_v Tamb L v rt (exc D rin c al).
Lemma nxt_anti Tamb L v rt D rin c a1 a2 : 0 <= Tamb -> Tamb + D <= 100 -> 0 < L -> 0 < rt -> 0 < D -> 0 < rin -> 0 < c -> 0 < a1 <= a2 ->
  0 < nxt Tamb L v rt D rin c a2 <= nxt Tamb L v rt D rin c a1 /\
  ln (nxt Tamb L v rt D rin c a1) - ln (nxt Tamb L v rt D rin c a2) <= 5 / 6 * (ln a2 - ln a1).
Proof.
  intros HT HU HL Hrt HD Hr Hc Ha. destruct (exc_ln D rin c a1 a2 HD Hr Hc Ha) as [E1 E2].
  pose proof (exc_range D rin c a1 HD Hr Hc ltac:(lra)) as B1. pose proof (exc_range D rin c a2 HD Hr Hc ltac:(lra)) as B2.
  destruct (al_slow Tamb L v rt (exc D rin c a2) (exc D rin c a1) HT ltac:(lra) ltac:(lra) HL Hrt) as [S1 S2].
  unfold nxt. split; [exact S1|lra].
Qed.
Lemma ln_le x y : 0 < x -> x <= y -> ln x <= ln y.
Proof. intros Hx [H|<-]; [left; apply ln_increasing; lra|lra]. Qed.
Lemma nxt_contr Tamb L v rt D rin c al x : 0 <= Tamb -> Tamb + D <= 100 -> 0 < L -> 0 < rt -> 0 < D -> 0 < rin -> 0 < c -> 0 < al -> 0 < x ->
  nxt Tamb L v rt D rin c x = x ->
  0 < nxt Tamb L v rt D rin c al /\ Rabs (ln (nxt Tamb L v rt D rin c al) - ln x) <= 5 / 6 * Rabs (ln al - ln x) /\
  (al - x) * (nxt Tamb L v rt D rin c al - x) <= 0.
Proof.
  intros HT HU HL Hrt HD Hr Hc Ha Hx E.
  destruct (Rle_lt_dec al x) as [Q|Q].
  - destruct (nxt_anti Tamb L v rt D rin c al x HT HU HL Hrt HD Hr Hc ltac:(lra)) as [[S0 S1] S2]. rewrite E in S0, S1, S2.
    pose proof (ln_le al x Ha Q) as LQ. pose proof (ln_le x _ Hx S1) as LN.
    split; [lra|]. split; [|nra]. rewrite (Rabs_pos_eq (ln _ - ln x)) by lra. rewrite Rabs_minus_sym, Rabs_pos_eq by lra. lra.
  - destruct (nxt_anti Tamb L v rt D rin c x al HT HU HL Hrt HD Hr Hc ltac:(lra)) as [[S0 S1] S2]. rewrite E in S1, S2.
    pose proof (ln_le x al Hx ltac:(lra)) as LQ. pose proof (ln_le _ x S0 S1) as LN.
    split; [exact S0|]. split; [|nra]. rewrite (Rabs_minus_sym (ln _) (ln x)), (Rabs_pos_eq (ln x - _)) by lra. rewrite Rabs_pos_eq by lra. lra.
Qed.

(** ** Evaluations of a part *)
Section Evals.
Variables (g : geo) (lmean : arr -> arr) (dm : arr) (f : flows) (lids : bool) (heat : arr -> arr) (Tx Tp : arr) (Tamb : R) (j : nat).
Hypothesis G : geo_ok g.
Hypothesis Hj : (j < g_n g)%nat.
Hypothesis HT : 0 <= Tamb < Tx (S j).
Hypothesis HT2 : Tx (S j) <= 100.

Let ai := alpha_i g dm (fun i => Tx (S i)) j.
Let rin := 1 / ai + g_rlw g / g_lw g + g_rli g / g_li g.
Let D := Tx (S j) - Tamb.
Let P := part_diff g lmean dm f lids heat Tx Tp Tamb.
Let E := evals P.

Lemma ev_ai : 0 < ai.
Proof. apply alpha_in_pos; [lra|apply (ok_di g G)]. Qed.
Lemma ev_rin : 0 < rin.
Proof.
  pose proof ev_ai as Pai. unfold rin. destruct G. assert (0 < 1 / ai) by (apply Rdiv_lt_0_compat; lra).
  assert (0 <= g_rlw g / g_lw g) by (apply Rmult_le_pos; [lra|apply Rlt_le, Rinv_0_lt_compat; lra]).
  assert (0 <= g_rli g / g_li g) by (apply Rmult_le_pos; [lra|apply Rlt_le, Rinv_0_lt_compat; lra]). lra.
Qed.
(** An evaluation of a buffer that holds a coefficient and its conductance. *)
Lemma ev_next b : 0 < b_ainf b j -> b_ua b j = ua_cyl g ai (b_ainf b j) ->
  r_ainf (P b) j = nxt Tamb (g_L g) (g_vert g) (g_rt g) D rin (g_rr g) (b_ainf b j).
Proof.
  intros Pa Eu.
  change (cyl_alpha_inf (surface_temp (Tx (S j)) Tamb (g_As g) (b_ainf b j) (b_ua b j)) Tamb (g_L g) (g_vert g) (g_rt g) =
    nxt Tamb (g_L g) (g_vert g) (g_rt g) D rin (g_rr g) (b_ainf b j)).
  rewrite Eu. set (al := b_ainf b j) in *. clearbody al.
  assert (Ts : surface_temp (Tx (S j)) Tamb (g_As g) al (ua_cyl g ai al) = Tamb + exc D rin (g_rr g) al).
  { pose proof ev_rin as Pr. unfold surface_temp, ua_cyl, exc. fold rin. fold D. pose proof (ok_rr g G) as Prr. pose proof (ok_As g G) as PAs.
    rewrite (ok_AA g G). clearbody rin D. assert (Q : 0 < rin * al) by (apply Rmult_lt_0_compat; lra). field. repeat split; lra. }
  rewrite Ts. reflexivity.
Qed.
Lemma ev_ua b : r_ua (P b) j = ua_cyl g ai (r_ainf (P b) j).
Proof. reflexivity. Qed.
Lemma ev_first b : buf_ok g b -> 0 < r_ainf (P b) j.
Proof.
  intro Bk. destruct (Bk j Hj) as [B1 B2].
  destruct (between (Tx (S j)) Tamb (g_As g) (b_ainf b j) (b_ua b j) B1 (ok_As g G) B2) as (k & Hk & Ek).
  change (0 < cyl_alpha_inf (surface_temp (Tx (S j)) Tamb (g_As g) (b_ainf b j) (b_ua b j)) Tamb (g_L g) (g_vert g) (g_rt g)).
  apply cyl_alpha_pos; [rewrite Ek; nra|apply (ok_L g G)|apply (ok_rt g G)].
Qed.

(** The settled coefficient is reproduced. *)
Lemma ev_fix bs : buf_ok g bs -> settled (P bs) bs j ->
  0 < b_ainf bs j /\ nxt Tamb (g_L g) (g_vert g) (g_rt g) D rin (g_rr g) (b_ainf bs j) = b_ainf bs j /\ b_ua bs j = ua_cyl g ai (b_ainf bs j).
Proof.
  intros Bk [S1 S2]. destruct (Bk j Hj) as [B1 _].
  assert (Eu : b_ua bs j = ua_cyl g ai (b_ainf bs j)) by (rewrite <- S1, <- S2; apply ev_ua).
  split; [exact B1|]. split; [|exact Eu]. rewrite <- (ev_next bs B1 Eu). exact S1.
Qed.

Lemma ev_conv b bs n : buf_ok g b -> buf_ok g bs -> settled (P bs) bs j ->
  0 < b_ainf (E b (S n)) j /\ b_ua (E b (S n)) j = ua_cyl g ai (b_ainf (E b (S n)) j) /\
  Rabs (ln (b_ainf (E b (S n)) j) - ln (b_ainf bs j)) <= (5 / 6) ^ n * Rabs (ln (b_ainf (E b 1) j) - ln (b_ainf bs j)) /\
  (b_ainf (E b (S n)) j - b_ainf bs j) * (b_ainf (E b (S (S n))) j - b_ainf bs j) <= 0.
Proof.
  intros Bk Bs St. destruct (ev_fix bs Bs St) as (Px & Fx & _).
  assert (STEP : forall m, 0 < b_ainf (E b (S m)) j -> b_ainf (E b (S (S m))) j = nxt Tamb (g_L g) (g_vert g) (g_rt g) D rin (g_rr g) (b_ainf (E b (S m)) j)).
  { intros m Pm. change (r_ainf (P (E b (S m))) j = nxt Tamb (g_L g) (g_vert g) (g_rt g) D rin (g_rr g) (b_ainf (E b (S m)) j)).
    apply ev_next; [exact Pm|]. reflexivity. }
  assert (C : forall al, 0 < al -> 0 < nxt Tamb (g_L g) (g_vert g) (g_rt g) D rin (g_rr g) al /\
     Rabs (ln (nxt Tamb (g_L g) (g_vert g) (g_rt g) D rin (g_rr g) al) - ln (b_ainf bs j)) <= 5 / 6 * Rabs (ln al - ln (b_ainf bs j)) /\
     (al - b_ainf bs j) * (nxt Tamb (g_L g) (g_vert g) (g_rt g) D rin (g_rr g) al - b_ainf bs j) <= 0).
  { intros al Pal. apply nxt_contr; try assumption; try (unfold D; lra); [apply (ok_L g G)|apply (ok_rt g G)|apply ev_rin|apply (ok_rr g G)]. }
  assert (PP : forall m, 0 < b_ainf (E b (S m)) j).
  { induction m as [|m IH]; [apply ev_first, Bk|]. rewrite (STEP m IH). apply C, IH. }
  split; [apply PP|]. split; [reflexivity|]. split.
  - induction n as [|n IH]; [rewrite pow_O; lra|].
    rewrite (STEP n (PP n)). destruct (C _ (PP n)) as (_ & C2 & _). cbn [pow]. rewrite Rmult_assoc.
    apply Rle_trans with (1 := C2). apply Rmult_le_compat_l; [lra|exact IH].
  - rewrite (STEP n (PP n)). apply C, PP.
Qed.

(** The conductance follows the coefficient. *)
Lemma ua_ln a1 a2 : 0 < a1 <= a2 -> 0 < ua_cyl g ai a1 <= ua_cyl g ai a2 /\ ln (ua_cyl g ai a2) - ln (ua_cyl g ai a1) <= ln a2 - ln a1.
Proof.
  intro Ha. pose proof ev_rin as Pr. pose proof (ok_rr g G) as Prr. pose proof (ok_Ai g G) as PA.
  assert (F : forall x, 0 < x -> ua_cyl g ai x = g_Ai g * x / (rin * x + g_rr g)).
  { intros x Hx. unfold ua_cyl. fold rin. assert (0 < rin * x) by (apply Rmult_lt_0_compat; lra). clearbody rin. field. repeat split; lra. }
  rewrite !F by lra. clearbody rin.
  assert (P1 : 0 < rin * a1) by (apply Rmult_lt_0_compat; lra). assert (P2 : rin * a1 <= rin * a2) by (apply Rmult_le_compat_l; lra).
  assert (Q1 : 0 < g_Ai g * a1) by (apply Rmult_lt_0_compat; lra). assert (Q2 : g_Ai g * a1 <= g_Ai g * a2) by (apply Rmult_le_compat_l; lra).
  set (c := g_rr g) in *. set (A := g_Ai g) in *. clearbody c A.
  split; [split; [apply Rdiv_lt_0_compat; lra|]|].
  - apply Rmult_le_reg_r with (rin * a1 + c); [lra|]. unfold Rdiv at 1. rewrite Rmult_assoc, Rinv_l by lra. rewrite Rmult_1_r.
    apply Rmult_le_reg_r with (rin * a2 + c); [lra|].
    replace (A * a2 / (rin * a2 + c) * (rin * a1 + c) * (rin * a2 + c)) with (A * a2 * (rin * a1 + c)) by (field; lra). nra.
  - rewrite !ln_ratio by lra. rewrite !ln_mult by lra. pose proof (ln_le (rin * a1 + c) (rin * a2 + c) ltac:(lra) ltac:(lra)). lra.
Qed.
Lemma ua_ln_abs a1 a2 : 0 < a1 -> 0 < a2 -> Rabs (ln (ua_cyl g ai a1) - ln (ua_cyl g ai a2)) <= Rabs (ln a1 - ln a2).
Proof.
  intros P1 P2. destruct (Rle_lt_dec a1 a2) as [Q|Q].
  - destruct (ua_ln a1 a2 ltac:(lra)) as [[U0 U1] U2]. pose proof (ln_le _ _ U0 U1). pose proof (ln_le a1 a2 P1 Q).
    rewrite Rabs_minus_sym, (Rabs_pos_eq (ln (ua_cyl _ _ _) - _)) by lra. rewrite Rabs_minus_sym, Rabs_pos_eq by lra. lra.
  - destruct (ua_ln a2 a1 ltac:(lra)) as [[U0 U1] U2]. pose proof (ln_le _ _ U0 U1). pose proof (ln_le a2 a1 P2 ltac:(lra)).
    rewrite !Rabs_pos_eq by lra. lra.
Qed.
Lemma ua_side x y z : 0 < x -> 0 < y -> 0 < z -> (x - z) * (y - z) <= 0 ->
  (ua_cyl g ai x - ua_cyl g ai z) * (ua_cyl g ai y - ua_cyl g ai z) <= 0.
Proof.
  intros Px Py Pz H. assert (M : forall u v, 0 < u <= v -> ua_cyl g ai u <= ua_cyl g ai v) by (intros u v K; apply (ua_ln u v K)).
  destruct (Rle_lt_dec x z) as [A|A].
  - pose proof (M x z ltac:(lra)). destruct (Rle_lt_dec z y) as [B|B]; [pose proof (M z y ltac:(lra)); nra|].
    assert (x = z) by nra. subst. lra.
  - pose proof (M z x ltac:(lra)). destruct (Rle_lt_dec y z) as [B|B]; [pose proof (M y z ltac:(lra)); nra|]. nra.
Qed.

Lemma ev_settle b bs : buf_ok g b -> buf_ok g bs -> settled (P bs) bs j ->
  (forall n, 0 < b_ua (E b (S n)) j /\ 0 < b_ua bs j /\
    Rabs (ln (b_ua (E b (S n)) j / b_ua bs j)) <= (5 / 6) ^ n * Rabs (ln (b_ainf (E b 1) j / b_ainf bs j)) /\
    (b_ua (E b (S n)) j - b_ua bs j) * (b_ua (E b (S (S n))) j - b_ua bs j) <= 0) /\
  Un_cv (fun n => b_ua (E b n) j) (b_ua bs j).
Proof.
  intros Bk Bs St. destruct (ev_fix bs Bs St) as (Px & _ & Ux).
  assert (PU : forall x, 0 < x -> 0 < ua_cyl g ai x) by (intros x Hx; apply (ua_ln x x ltac:(lra))).
  assert (B1 : forall n, 0 < b_ua (E b (S n)) j /\ 0 < b_ua bs j /\
    Rabs (ln (b_ua (E b (S n)) j / b_ua bs j)) <= (5 / 6) ^ n * Rabs (ln (b_ainf (E b 1) j / b_ainf bs j)) /\
    (b_ua (E b (S n)) j - b_ua bs j) * (b_ua (E b (S (S n))) j - b_ua bs j) <= 0).
  { intro n. destruct (ev_conv b bs n Bk Bs St) as (P1 & U1 & C1 & D1). destruct (ev_conv b bs (S n) Bk Bs St) as (P2 & U2 & _).
    destruct (ev_conv b bs 0 Bk Bs St) as (P0 & _).
    rewrite U1, U2, Ux. split; [apply PU, P1|]. split; [apply PU, Px|]. split.
    - pose proof (PU _ P1) as Q1. pose proof (PU _ Px) as Q2. rewrite !ln_ratio by assumption.
      apply Rle_trans with (2 := C1). apply ua_ln_abs; assumption.
    - apply ua_side; assumption. }
  split; [exact B1|].
  assert (LC : Un_cv (fun n => ln (b_ua (E b (S n)) j)) (ln (b_ua bs j))).
  { intros eps He. set (M := Rabs (ln (b_ainf (E b 1) j / b_ainf bs j))) in *. pose proof (Rabs_pos (ln (b_ainf (E b 1) j / b_ainf bs j))) as HM. fold M in HM.
    destruct (pow_lt_1_zero (5 / 6) ltac:(rewrite Rabs_pos_eq; lra) (eps / (M + 1)) ltac:(apply Rdiv_lt_0_compat; lra)) as [N HN].
    exists N. intros n Hge. destruct (B1 n) as (P1 & P2 & C & _). specialize (HN n Hge). rewrite ln_ratio in C by assumption.
    unfold R_dist. apply Rle_lt_trans with (1 := C). fold M. assert (W : 0 <= (5 / 6) ^ n) by (apply pow_le; lra). rewrite Rabs_pos_eq in HN by exact W.
    apply Rle_lt_trans with ((5 / 6) ^ n * (M + 1)); [apply Rmult_le_compat_l; lra|].
    apply Rmult_lt_reg_r with (/ (M + 1)); [apply Rinv_0_lt_compat; lra|]. rewrite Rmult_assoc, Rinv_r by lra. unfold Rdiv in HN. lra. }
  assert (XC : Un_cv (fun n => exp (ln (b_ua (E b (S n)) j))) (exp (ln (b_ua bs j)))).
  { apply (continuity_seq exp (fun n => ln (b_ua (E b (S n)) j)) (ln (b_ua bs j))); [apply derivable_continuous_pt, derivable_pt_exp|exact LC]. }
  intros eps He. destruct (XC eps He) as [N HN]. exists (S N). intros [|n] Hge; [lia|]. specialize (HN n ltac:(lia)).
  destruct (B1 n) as (P1 & P2 & _). rewrite !exp_ln in HN by assumption. exact HN.
Qed.

Lemma ev_exists : exists bs, buf_ok g bs /\ settled (P bs) bs j.
Proof.
  destruct (fix_point_v Tamb (g_L g) (g_vert g) (g_rt g) D rin (g_rr g)) as (t & Bt & Et);
    try (unfold D; lra); try apply (ok_L g G); try apply (ok_rt g G); try apply ev_rin; try apply (ok_rr g G).
  pose proof ev_rin as Pr. pose proof (ok_rr g G) as Prr.
  assert (Pa : 0 < al_v Tamb (g_L g) (g_vert g) (g_rt g) t) by (apply cyl_alpha_pos; [unfold D in Bt; lra|apply (ok_L g G)|apply (ok_rt g G)]).
  set (al := al_v Tamb (g_L g) (g_vert g) (g_rt g) t) in *.
  set (bs := {| b_ainf := fun _ : nat => al; b_ua := fun _ : nat => ua_cyl g ai al |}). exists bs.
  pose proof (ua_cyl_bounds g ai al G ev_ai Pa) as (U1 & U2 & _).
  split; [intros i _; cbn; split; [exact Pa|lra]|].
  assert (Ea : r_ainf (P bs) j = al).
  { rewrite (ev_next bs Pa eq_refl). change (b_ainf bs j) with al. unfold nxt.
    assert (Q : 0 < rin * al) by (apply Rmult_lt_0_compat; lra).
    assert (Et2 : exc D rin (g_rr g) al = t).
    { unfold exc. apply Rmult_eq_reg_r with (rin * al + g_rr g); [|lra]. rewrite Et. field. lra. }
    rewrite Et2. reflexivity. }
  split; [exact Ea|]. change (r_ua (P bs) j = ua_cyl g ai al). rewrite ev_ua, Ea. reflexivity.
Qed.
Lemma ev_unique b bs : buf_ok g b -> buf_ok g bs -> settled (P b) b j -> settled (P bs) bs j ->
  b_ainf b j = b_ainf bs j /\ b_ua b j = b_ua bs j.
Proof.
  intros Bk Bs St' St. destruct (ev_fix b Bk St') as (F1 & F2 & F3). destruct (ev_fix bs Bs St) as (F4 & F5 & F6).
  destruct (nxt_contr Tamb (g_L g) (g_vert g) (g_rt g) D rin (g_rr g) (b_ainf b j) (b_ainf bs j)) as (_ & C & _);
    try assumption; try (unfold D; lra); try apply (ok_L g G); try apply (ok_rt g G); try apply ev_rin; try apply (ok_rr g G).
  rewrite F2 in C. assert (Eq : b_ainf b j = b_ainf bs j).
  { apply ln_inv; [exact F1|exact F4|]. destruct (Req_dec (ln (b_ainf b j) - ln (b_ainf bs j)) 0) as [Y|N]; [lra|].
    apply Rabs_pos_lt in N. lra. }
  split; [exact Eq|]. rewrite F3, F6, Eq. reflexivity.
Qed.
Theorem ev_all : exists alim ulim, 0 < alim /\ 0 < ulim /\
  (exists bs, buf_ok g bs /\ settled (P bs) bs j /\ b_ua bs j = ulim /\ b_ainf bs j = alim) /\ forall b, buf_ok g b ->
    Un_cv (fun n => b_ua (E b n) j) ulim /\
    (forall n, 0 < b_ua (E b (S n)) j /\
      Rabs (ln (b_ua (E b (S n)) j / ulim)) <= (5 / 6) ^ n * Rabs (ln (b_ainf (E b 1%nat) j / alim)) /\
      (b_ua (E b (S n)) j - ulim) * (b_ua (E b (S (S n))) j - ulim) <= 0) /\
    (settled (P b) b j -> b_ua b j = ulim /\ b_ainf b j = alim).
Proof.
  destruct ev_exists as (bs & Bs & St). destruct (ev_fix bs Bs St) as (F1 & _ & _).
  exists (b_ainf bs j), (b_ua bs j). split; [exact F1|]. destruct (ev_settle bs bs Bs Bs St) as [EVb _]. split; [apply (EVb 0%nat)|].
  split; [exists bs; split; [exact Bs|]; split; [exact St|]; split; reflexivity|].
  intros b Bk. destruct (ev_settle b bs Bk Bs St) as [E1 E2]. split; [exact E2|]. split.
  - intro n. destruct (E1 n) as (A1 & _ & A3 & A4). split; [exact A1|]. split; [exact A3|exact A4].
  - intros St'. destruct (ev_unique b bs Bk Bs St' St) as [U1 U2]. split; [exact U2|exact U1].
Qed.
End Evals.
