(** Proofs for C190: cells at any temperature. *)
From Coq Require Import Reals Ranalysis5 List Arith ZArith Bool Lra Lia.
From Verif Require Import MFlow MWater MDiff MGeom SFlow SDiff SGeom LFlow LWater LDiff LDiff2 LDiff4 LGeom LGeom2 LAlpha LAlpha2 SInsul LInsul LInsul2 SSurf LSurf.
Open Scope R_scope.

(** ** A surface colder than the air *)
Lemma lam_slow_c Tamb s t : 0 < s <= t -> t <= Tamb <= 100 ->
  lam_dryair ((Tamb + (Tamb + - t)) / 2) <= lam_dryair ((Tamb + (Tamb + - s)) / 2) /\
  lam_dryair ((Tamb + (Tamb + - s)) / 2) ^ 2 * s <= lam_dryair ((Tamb + (Tamb + - t)) / 2) ^ 2 * t.
Proof.
  intros Hs Ht.
  pose proof (lam_air_bounds ((Tamb + (Tamb + - s)) / 2) ltac:(lra)) as LB.
  pose proof (lam_air_bounds ((Tamb + (Tamb + - t)) / 2) ltac:(lra)) as LB2.
  split; [destruct (Req_dec s t) as [->|N]; [lra|left; apply lam_air_increasing; lra]|].
  assert (U : lam_dryair ((Tamb + (Tamb + - s)) / 2) <= lam_dryair ((Tamb + (Tamb + - t)) / 2) + 4e-05 * (t - s)) by (unfold lam_dryair; nra).
  set (l2 := lam_dryair ((Tamb + (Tamb + - s)) / 2)) in *. set (l1 := lam_dryair ((Tamb + (Tamb + - t)) / 2)) in *. clearbody l1 l2.
  set (d := t - s) in *. assert (Hd : 0 <= d <= 100) by (unfold d; lra). replace t with (s + d) by (unfold d; ring). clearbody d.
  apply Rle_trans with ((l1 + 4e-05 * d) ^ 2 * s).
  - apply Rmult_le_compat_r; [lra|]. apply pow_incr. lra.
  - assert (Q : 2 * l1 * 4e-05 * s + 4e-05 * 4e-05 * d * s <= l1 * l1).
    { assert (8e-05 * s <= 0.008) by lra. assert (d * s <= 10000) by nra. assert (l1 * (8e-05 * s) <= l1 * 0.008) by (apply Rmult_le_compat_l; lra). nra. }
    assert (d * (2 * l1 * 4e-05 * s + 4e-05 * 4e-05 * d * s) <= d * (l1 * l1)) by (apply Rmult_le_compat_l; lra).
    replace ((l1 + 4e-05 * d) ^ 2 * s) with (l1 * l1 * s + d * (2 * l1 * 4e-05 * s + 4e-05 * 4e-05 * d * s)) by ring.
    replace (l1 ^ 2 * (s + d)) with (l1 * l1 * s + d * (l1 * l1)) by ring. lra.
Qed.
Lemma ny_slow_c Tamb s t : 0 < s <= t -> t <= Tamb <= 100 ->
  ny_dryair ((Tamb + (Tamb + - t)) / 2) <= ny_dryair ((Tamb + (Tamb + - s)) / 2) /\
  ny_dryair ((Tamb + (Tamb + - s)) / 2) ^ 2 * s <= ny_dryair ((Tamb + (Tamb + - t)) / 2) ^ 2 * t.
Proof.
  intros Hs Ht.
  pose proof (ny_air_bounds ((Tamb + (Tamb + - s)) / 2) ltac:(lra)) as LB.
  pose proof (ny_air_bounds ((Tamb + (Tamb + - t)) / 2) ltac:(lra)) as LB2.
  split; [unfold ny_dryair; nra|].
  assert (V : 1.35e-05 + 4.4e-08 * t <= ny_dryair ((Tamb + (Tamb + - t)) / 2)) by (unfold ny_dryair; nra).
  assert (U : ny_dryair ((Tamb + (Tamb + - s)) / 2) <= ny_dryair ((Tamb + (Tamb + - t)) / 2) + 5.6e-08 * (t - s)) by (unfold ny_dryair; nra).
  set (l2 := ny_dryair ((Tamb + (Tamb + - s)) / 2)) in *. set (l1 := ny_dryair ((Tamb + (Tamb + - t)) / 2)) in *. clearbody l1 l2.
  set (d := t - s) in *. assert (Hd : 0 <= d <= 100 - s) by (unfold d; lra). replace t with (s + d) in * by (unfold d; ring). clearbody d.
  apply Rle_trans with ((l1 + 5.6e-08 * d) ^ 2 * s).
  - apply Rmult_le_compat_r; [lra|]. apply pow_incr. lra.
  - assert (Q : 2 * l1 * 5.6e-08 * s + 5.6e-08 * 5.6e-08 * d * s <= l1 * l1).
    { assert (A1 : 11.2e-08 * s <= 1.12e-05) by lra. assert (A2 : d * s <= 2500).
      { pose proof (Rle_0_sqr (d - s)) as SQ. unfold Rsqr in SQ. assert ((d + s) * (d + s) <= 100 * 100) by (apply Rmult_le_compat; lra). lra. }
      assert (A3 : l1 * (11.2e-08 * s) <= l1 * 1.12e-05) by (apply Rmult_le_compat_l; lra).
      assert (A4 : 1.35e-05 * 2.3e-06 <= l1 * (l1 - 1.12e-05)) by (apply Rmult_le_compat; lra). lra. }
    assert (d * (2 * l1 * 5.6e-08 * s + 5.6e-08 * 5.6e-08 * d * s) <= d * (l1 * l1)) by (apply Rmult_le_compat_l; lra).
    replace ((l1 + 5.6e-08 * d) ^ 2 * s) with (l1 * l1 * s + d * (2 * l1 * 5.6e-08 * s + 5.6e-08 * 5.6e-08 * d * s)) by ring.
    replace (l1 ^ 2 * (s + d)) with (l1 * l1 * s + d * (l1 * l1)) by ring. lra.
Qed.
Lemma ray_slow_c Tamb L s t : 0 < s <= t -> t <= Tamb <= 100 -> 0 < L ->
  let ra u := rayleigh (Tamb + - u) Tamb L (ny_dryair ((Tamb + (Tamb + - u)) / 2)) in
  0 < ra s <= ra t /\ ra t <= ra s * ((t / s) * (t / s)).
Proof.
  intros Hs Ht HL. cbv zeta. destruct (ny_slow_c Tamb s t Hs Ht) as [M1 M2].
  pose proof (ny_air_bounds ((Tamb + (Tamb + - s)) / 2) ltac:(lra)) as N1.
  pose proof (ny_air_bounds ((Tamb + (Tamb + - t)) / 2) ltac:(lra)) as N2.
  unfold rayleigh. set (n1 := ny_dryair ((Tamb + (Tamb + - s)) / 2)) in *. set (n2 := ny_dryair ((Tamb + (Tamb + - t)) / 2)) in *. clearbody n1 n2.
  replace (Rabs (Tamb + - t - Tamb)) with t by (rewrite Rabs_left; lra). replace (Rabs (Tamb + - s - Tamb)) with s by (rewrite Rabs_left; lra).
  assert (P1 : 0 < n1 ^ 2) by (apply pow_lt; lra). assert (P2 : 0 < n2 ^ 2) by (apply pow_lt; lra).
  assert (P3 : n2 ^ 2 <= n1 ^ 2) by (apply pow_incr; lra). assert (PL : 0 < L ^ 3) by (apply pow_lt; lra).
  set (c := 9.81 * L ^ 3 * 0.708 / (Tamb + 273.15)). assert (Pc : 0 < c) by (unfold c; apply Rdiv_lt_0_compat; lra).
  replace (s * 9.81 * L ^ 3 * 0.708 / ((Tamb + 273.15) * n1 ^ 2)) with (c * (s / n1 ^ 2)) by (unfold c; field; split; lra).
  replace (t * 9.81 * L ^ 3 * 0.708 / ((Tamb + 273.15) * n2 ^ 2)) with (c * (t / n2 ^ 2)) by (unfold c; field; split; lra).
  clearbody c. set (q1 := n1 ^ 2) in *. set (q2 := n2 ^ 2) in *. clearbody q1 q2.
  split; [split|].
  - apply Rmult_lt_0_compat; [exact Pc|apply Rdiv_lt_0_compat; lra].
  - apply Rmult_le_compat_l; [lra|]. unfold Rdiv. apply Rmult_le_compat; try lra; [left; apply Rinv_0_lt_compat; lra|apply Rinv_le_contravar; lra].
  - rewrite Rmult_assoc. apply Rmult_le_compat_l; [lra|].
    replace (s / q1 * (t / s * (t / s))) with (t * (t / (q1 * s))) by (field; split; lra).
    unfold Rdiv at 1. apply Rmult_le_compat_l; [lra|].
    apply Rmult_le_reg_r with (q1 * s); [apply Rmult_lt_0_compat; lra|].
    replace (t / (q1 * s) * (q1 * s)) with t by (field; split; lra).
    apply Rmult_le_reg_r with q2; [lra|]. replace (/ q2 * (q1 * s) * q2) with (q1 * s) by (field; lra). lra.
Qed.
Lemma al_slow_c Tamb L v rt s t : 0 < s <= t -> t <= Tamb <= 100 -> 0 < L -> 0 < rt ->
  Rabs (ln (al_v Tamb L v rt (- t)) - ln (al_v Tamb L v rt (- s))) <= 5 / 6 * (ln t - ln s).
Proof.
  intros Hs Ht HL Hrt.
  destruct (lam_slow_c Tamb s t Hs Ht) as [LI LS]. destruct (ray_slow_c Tamb L s t Hs Ht HL) as [[Rs RM] RS].
  pose proof (lam_air_bounds ((Tamb + (Tamb + - s)) / 2) ltac:(lra)) as LB.
  pose proof (lam_air_bounds ((Tamb + (Tamb + - t)) / 2) ltac:(lra)) as LB2.
  destruct (al_v_is Tamb L v rt HL Hrt) as (c & m & k & Hc & Hm & Hk & Eal). rewrite (Eal (- s)), (Eal (- t)) in *. clear Eal.
  set (rs := rayleigh (Tamb + - s) Tamb L _) in *. set (rt0 := rayleigh (Tamb + - t) Tamb L _) in *.
  set (l1 := lam_dryair ((Tamb + (Tamb + - s)) / 2)) in *. set (l2 := lam_dryair ((Tamb + (Tamb + - t)) / 2)) in *. clearbody rs rt0 l1 l2.
  set (y := t / s) in *. assert (Ey : ln y = ln t - ln s) by (apply ln_ratio; lra).
  assert (Y1 : 1 <= y) by (unfold y; apply Rmult_le_reg_r with s; [lra|]; unfold Rdiv; rewrite Rmult_assoc, Rinv_l; lra).
  assert (Y2 : 1 <= y * y) by nra.
  assert (PW : 1 <= npow (y * y) (1 / 6)).
  { destruct (Req_dec (y * y) 1) as [E|N].
    - rewrite E. unfold npow. destruct (Req_EM_T 1 0); [lra|]. unfold Rpower. rewrite ln_1, Rmult_0_r, exp_0. lra.
    - apply npow_ge1; lra. }
  assert (Pm : 0 < rs * m) by (apply Rmult_lt_0_compat; lra). assert (Pm2 : rs * m <= rt0 * m) by (apply Rmult_le_compat_r; lra).
  assert (NQ : npow (rt0 * m) (1 / 6) <= npow (rs * m) (1 / 6) * npow (y * y) (1 / 6)).
  { rewrite <- npow_mult by lra. apply npow_mono; [lra| |lra].
    replace (rs * m * (y * y)) with (rs * (y * y) * m) by ring. apply Rmult_le_compat_r; lra. }
  assert (NM : npow (rs * m) (1 / 6) <= npow (rt0 * m) (1 / 6)) by (apply npow_mono; lra).
  pose proof (npow_nonneg (rs * m) (1 / 6)) as Q1.
  set (qs := npow (rs * _) _) in *. set (qt := npow (rt0 * _) _) in *.
  assert (Ew : ln (npow (y * y) (1 / 6)) = 1 / 3 * ln y).
  { unfold npow. destruct (Req_EM_T (y * y) 0); [lra|]. unfold Rpower. rewrite ln_exp, ln_mult by lra. field. }
  set (w := npow (y * y) (1 / 6)) in *. clearbody qs qt w.
  set (n1 := (c + 0.387 * qs) ^ 2 + k) in *. set (n2 := (c + 0.387 * qt) ^ 2 + k) in *.
  assert (Pn : 0 < n1) by (unfold n1; assert (0 < (c + 0.387 * qs) ^ 2) by (apply pow_lt; lra); lra).
  assert (Nn : n1 <= n2) by (unfold n1, n2; apply Rplus_le_compat_r; apply pow_incr; lra).
  assert (S1 : n2 <= n1 * (w * w)).
  { unfold n1, n2. assert (Z : c + 0.387 * qt <= (c + 0.387 * qs) * w) by nra.
    assert (Z2 : (c + 0.387 * qt) ^ 2 <= ((c + 0.387 * qs) * w) ^ 2) by (apply pow_incr; lra).
    assert (Z3 : k <= k * (w * w)) by (assert (1 <= w * w) by nra; nra).
    replace (((c + 0.387 * qs) ^ 2 + k) * (w * w)) with (((c + 0.387 * qs) * w) ^ 2 + k * (w * w)) by ring. lra. }
  clearbody n1 n2.
  assert (L1 : ln n2 <= ln n1 + 2 * ln w).
  { assert (E2 : ln (n1 * (w * w)) = ln n1 + 2 * ln w) by (rewrite !ln_mult by (try apply Rmult_lt_0_compat; lra); ring).
    rewrite <- E2. destruct S1 as [S1|S1]; [left; apply ln_increasing; lra|rewrite S1; lra]. }
  assert (L3 : ln n1 <= ln n2) by (apply ln_le; lra). assert (L4 : ln l2 <= ln l1) by (apply ln_le; lra).
  assert (L2 : 2 * ln l1 + ln s <= 2 * ln l2 + ln t).
  { assert (E : forall l u, 0 < l -> 0 < u -> ln (l ^ 2 * u) = 2 * ln l + ln u).
    { intros l u Hl Hu. assert (0 < l ^ 2) by (apply pow_lt; lra). rewrite ln_mult by lra. replace (l ^ 2) with (l * l) by ring. rewrite ln_mult by lra. ring. }
    rewrite <- !E by lra. destruct LS as [LS|LS]; [left; apply ln_increasing; [apply Rmult_lt_0_compat; [apply pow_lt|]; lra|exact LS]|rewrite LS; lra]. }
  assert (E : forall n l, 0 < n -> 0 < l -> ln (n * l / L) = ln n + ln l - ln L).
  { intros n l Hn Hl. rewrite ln_ratio by (try apply Rmult_lt_0_compat; lra). rewrite ln_mult by lra. ring. }
  rewrite !E by lra. assert (0 <= ln y) by (rewrite <- ln_1; apply ln_le; lra).
  apply Rabs_le. lra.
Qed.

(** ** The iteration contracts at every temperature *)
Lemma exc_opp D rin c al : exc (- D) rin c al = - exc D rin c al.
Proof. unfold exc, Rdiv. ring. Qed.
Lemma exc_any D rin c al : 0 < rin -> 0 < c -> 0 < al -> exists k, 0 <= k <= 1 /\ exc D rin c al = k * D.
Proof.
  intros Hr Hc Ha. assert (P : 0 < rin * al) by (apply Rmult_lt_0_compat; lra). exists (c / (rin * al + c)). split; [|unfold exc; field; lra].
  split; [left; apply Rdiv_lt_0_compat; lra|]. apply Rmult_le_reg_r with (rin * al + c); [lra|]. unfold Rdiv. rewrite Rmult_assoc, Rinv_l by lra. lra.
Qed.
Lemma nxt_pos Tamb L v rt D rin c al : 0 <= Tamb <= 100 -> 0 <= Tamb + D <= 100 -> 0 < L -> 0 < rt -> 0 < rin -> 0 < c -> 0 < al ->
  0 < nxt Tamb L v rt D rin c al.
Proof.
  intros HT HU HL Hrt Hr Hc Ha. destruct (exc_any D rin c al Hr Hc Ha) as (k & Hk & E). unfold nxt. rewrite E.
  apply cyl_alpha_pos; [nra|exact HL|exact Hrt].
Qed.
Lemma nxt_lip Tamb L v rt D rin c a1 a2 : 0 <= Tamb <= 100 -> 0 <= Tamb + D <= 100 -> 0 < L -> 0 < rt -> 0 < rin -> 0 < c -> 0 < a1 <= a2 ->
  Rabs (ln (nxt Tamb L v rt D rin c a1) - ln (nxt Tamb L v rt D rin c a2)) <= 5 / 6 * (ln a2 - ln a1).
Proof.
  intros HT HU HL Hrt Hr Hc Ha. pose proof (ln_le a1 a2 ltac:(lra) ltac:(lra)) as LL.
  destruct (Rtotal_order D 0) as [Q|[Q|Q]].
  - destruct (exc_ln (- D) rin c a1 a2 ltac:(lra) Hr Hc Ha) as [E1 E2].
    pose proof (exc_range (- D) rin c a1 ltac:(lra) Hr Hc ltac:(lra)) as B1. pose proof (exc_range (- D) rin c a2 ltac:(lra) Hr Hc ltac:(lra)) as B2.
    pose proof (al_slow_c Tamb L v rt (exc (- D) rin c a2) (exc (- D) rin c a1) ltac:(lra) ltac:(lra) HL Hrt) as S1.
    rewrite <- !exc_opp, Ropp_involutive in S1. unfold nxt. lra.
  - subst D. unfold nxt, exc, Rdiv. rewrite !Rmult_0_l. rewrite Rminus_diag_eq by reflexivity. rewrite Rabs_R0. lra.
  - destruct (nxt_anti Tamb L v rt D rin c a1 a2) as [[A1 A2] A3]; try lra. pose proof (ln_le _ _ A1 A2). rewrite Rabs_pos_eq by lra. exact A3.
Qed.
Lemma nxt_lip2 Tamb L v rt D rin c a1 a2 : 0 <= Tamb <= 100 -> 0 <= Tamb + D <= 100 -> 0 < L -> 0 < rt -> 0 < rin -> 0 < c -> 0 < a1 -> 0 < a2 ->
  Rabs (ln (nxt Tamb L v rt D rin c a1) - ln (nxt Tamb L v rt D rin c a2)) <= 5 / 6 * Rabs (ln a1 - ln a2).
Proof.
  intros HT HU HL Hrt Hr Hc H1 H2. destruct (Rle_lt_dec a1 a2) as [Q|Q].
  - pose proof (ln_le a1 a2 H1 Q). rewrite (Rabs_minus_sym (ln a1)), (Rabs_pos_eq (ln a2 - ln a1)) by lra. apply nxt_lip; try assumption; lra.
  - pose proof (ln_le a2 a1 H2 ltac:(lra)). rewrite (Rabs_pos_eq (ln a1 - ln a2)) by lra. rewrite Rabs_minus_sym. apply nxt_lip; try assumption; lra.
Qed.
Lemma fix_any Tamb L v rt D rin c : 0 <= Tamb <= 100 -> 0 <= Tamb + D <= 100 -> 0 < L -> 0 < rt -> 0 < rin -> 0 < c ->
  exists t, 0 <= Tamb + t <= 100 /\ t * (rin * al_v Tamb L v rt t + c) = D * c.
Proof.
  intros HT HU HL Hrt Hr Hc. destruct (Rle_lt_dec 0 D) as [Q|Q].
  - destruct (fix_point_v Tamb L v rt D rin c) as (t & Bt & Et); try lra. exists t. split; [lra|exact Et].
  - assert (PA : 0 < al_v Tamb L v rt D) by (apply cyl_alpha_pos; lra).
    destruct (IVT_interv (fun t => t * (rin * al_v Tamb L v rt t + c) - D * c) D 0) as (t & Bt & Et).
    + intros x Hx. apply add_cont; [|apply const_cont]. apply mul_cont; [apply id_cont|]. apply add_cont; [|apply const_cont].
      apply mul_cont; [apply const_cont|]. apply al_v_cont; lra.
    + lra.
    + assert (0 < - D * (rin * al_v Tamb L v rt D)) by (apply Rmult_lt_0_compat; [lra|apply Rmult_lt_0_compat; lra]). lra.
    + assert (0 < - D * c) by (apply Rmult_lt_0_compat; lra). lra.
    + exists t. split; lra.
Qed.

(** ** Evaluations of a part at any temperature *)
Section Any.
Variables (g : geo) (lmean : arr -> arr) (dm : arr) (f : flows) (lids : bool) (heat : arr -> arr) (Tx Tp : arr) (Tamb : R) (j : nat).
Hypothesis G : geo_ok g.
Hypothesis Hj : (j < g_n g)%nat.
Hypothesis HT : 0 <= Tamb <= 100.
Hypothesis HT2 : 0 <= Tx (S j) <= 100.

Let ai := alpha_i g dm (fun i => Tx (S i)) j.
Let rin := 1 / ai + g_rlw g / g_lw g + g_rli g / g_li g.
Let D := Tx (S j) - Tamb.
Let P := part_diff g lmean dm f lids heat Tx Tp Tamb.
Let E := evals P.

Lemma any_ai : 0 < ai.
Proof. apply alpha_in_pos; [lra|apply (ok_di g G)]. Qed.
Lemma any_rin : 0 < rin.
Proof.
  pose proof any_ai as Pai. unfold rin. destruct G. assert (0 < 1 / ai) by (apply Rdiv_lt_0_compat; lra).
  assert (0 <= g_rlw g / g_lw g) by (apply Rmult_le_pos; [lra|apply Rlt_le, Rinv_0_lt_compat; lra]).
  assert (0 <= g_rli g / g_li g) by (apply Rmult_le_pos; [lra|apply Rlt_le, Rinv_0_lt_compat; lra]). lra.
Qed.
(** An evaluation of a buffer that holds a coefficient and its conductance. *)
Lemma any_next b : 0 < b_ainf b j -> b_ua b j = ua_cyl g ai (b_ainf b j) ->
  r_ainf (P b) j = nxt Tamb (g_L g) (g_vert g) (g_rt g) D rin (g_rr g) (b_ainf b j).
Proof.
  intros Pa Eu.
  change (cyl_alpha_inf (surface_temp (Tx (S j)) Tamb (g_As g) (b_ainf b j) (b_ua b j)) Tamb (g_L g) (g_vert g) (g_rt g) =
    nxt Tamb (g_L g) (g_vert g) (g_rt g) D rin (g_rr g) (b_ainf b j)).
  rewrite Eu. set (al := b_ainf b j) in *. clearbody al.
  assert (Ts : surface_temp (Tx (S j)) Tamb (g_As g) al (ua_cyl g ai al) = Tamb + exc D rin (g_rr g) al).
  { pose proof any_rin as Pr. unfold surface_temp, ua_cyl, exc. fold rin. fold D. pose proof (ok_rr g G) as Prr. pose proof (ok_As g G) as PAs.
    rewrite (ok_AA g G). clearbody rin D. assert (Q : 0 < rin * al) by (apply Rmult_lt_0_compat; lra). field. repeat split; lra. }
  rewrite Ts. reflexivity.
Qed.
Lemma any_ua b : r_ua (P b) j = ua_cyl g ai (r_ainf (P b) j).
Proof. reflexivity. Qed.
Lemma any_first b : buf_ok g b -> 0 < r_ainf (P b) j.
Proof.
  intro Bk. destruct (Bk j Hj) as [B1 B2].
  destruct (between (Tx (S j)) Tamb (g_As g) (b_ainf b j) (b_ua b j) B1 (ok_As g G) B2) as (k & Hk & Ek).
  change (0 < cyl_alpha_inf (surface_temp (Tx (S j)) Tamb (g_As g) (b_ainf b j) (b_ua b j)) Tamb (g_L g) (g_vert g) (g_rt g)).
  apply cyl_alpha_pos; [rewrite Ek; nra|apply (ok_L g G)|apply (ok_rt g G)].
Qed.

(** The settled coefficient is reproduced. *)
Lemma any_fix bs : buf_ok g bs -> settled (P bs) bs j ->
  0 < b_ainf bs j /\ nxt Tamb (g_L g) (g_vert g) (g_rt g) D rin (g_rr g) (b_ainf bs j) = b_ainf bs j /\ b_ua bs j = ua_cyl g ai (b_ainf bs j).
Proof.
  intros Bk [S1 S2]. destruct (Bk j Hj) as [B1 _].
  assert (Eu : b_ua bs j = ua_cyl g ai (b_ainf bs j)) by (rewrite <- S1, <- S2; apply any_ua).
  split; [exact B1|]. split; [|exact Eu]. rewrite <- (any_next bs B1 Eu). exact S1.
Qed.

Lemma any_conv b bs n : buf_ok g b -> buf_ok g bs -> settled (P bs) bs j ->
  0 < b_ainf (E b (S n)) j /\ b_ua (E b (S n)) j = ua_cyl g ai (b_ainf (E b (S n)) j) /\
  Rabs (ln (b_ainf (E b (S n)) j) - ln (b_ainf bs j)) <= (5 / 6) ^ n * Rabs (ln (b_ainf (E b 1) j) - ln (b_ainf bs j)).
Proof.
  intros Bk Bs St. destruct (any_fix bs Bs St) as (Px & Fx & _).
  assert (STEP : forall m, 0 < b_ainf (E b (S m)) j -> b_ainf (E b (S (S m))) j = nxt Tamb (g_L g) (g_vert g) (g_rt g) D rin (g_rr g) (b_ainf (E b (S m)) j)).
  { intros m Pm. change (r_ainf (P (E b (S m))) j = nxt Tamb (g_L g) (g_vert g) (g_rt g) D rin (g_rr g) (b_ainf (E b (S m)) j)).
    apply any_next; [exact Pm|]. reflexivity. }
  assert (C : forall al, 0 < al -> 0 < nxt Tamb (g_L g) (g_vert g) (g_rt g) D rin (g_rr g) al /\
     Rabs (ln (nxt Tamb (g_L g) (g_vert g) (g_rt g) D rin (g_rr g) al) - ln (b_ainf bs j)) <= 5 / 6 * Rabs (ln al - ln (b_ainf bs j))).
  { intros al Pal. split; [apply nxt_pos; try assumption; try (unfold D; lra); [apply (ok_L g G)|apply (ok_rt g G)|apply any_rin|apply (ok_rr g G)]|].
    rewrite <- Fx at 1. apply nxt_lip2; try assumption; try (unfold D; lra); [apply (ok_L g G)|apply (ok_rt g G)|apply any_rin|apply (ok_rr g G)]. }
  assert (PP : forall m, 0 < b_ainf (E b (S m)) j).
  { induction m as [|m IH]; [apply any_first, Bk|]. rewrite (STEP m IH). apply C, IH. }
  split; [apply PP|]. split; [reflexivity|].
  induction n as [|n IH]; [rewrite pow_O; lra|].
    rewrite (STEP n (PP n)). destruct (C _ (PP n)) as (_ & C2). cbn [pow]. rewrite Rmult_assoc.
    apply Rle_trans with (1 := C2). apply Rmult_le_compat_l; [lra|exact IH].
Qed.

(** The conductance follows the coefficient. *)
Lemma any_ln a1 a2 : 0 < a1 <= a2 -> 0 < ua_cyl g ai a1 <= ua_cyl g ai a2 /\ ln (ua_cyl g ai a2) - ln (ua_cyl g ai a1) <= ln a2 - ln a1.
Proof.
  intro Ha. pose proof any_rin as Pr. pose proof (ok_rr g G) as Prr. pose proof (ok_Ai g G) as PA.
  assert (F : forall x, 0 < x -> ua_cyl g ai x = g_Ai g * x / (rin * x + g_rr g)).
  { intros x Hx. unfold ua_cyl. fold rin. assert (0 < rin * x) by (apply Rmult_lt_0_compat; lra). clearbody rin. field. repeat split; lra. }
  rewrite !F by lra. clearbody rin.
  assert (P1 : 0 < rin * a1) by (apply Rmult_lt_0_compat; lra). assert (P2 : rin * a1 <= rin * a2) by (apply Rmult_le_compat_l; lra).
  assert (Q1 : 0 < g_Ai g * a1) by (apply Rmult_lt_0_compat; lra). assert (Q2 : g_Ai g * a1 <= g_Ai g * a2) by (apply Rmult_le_compat_l; lra).
  set (c := g_rr g) in *. set (A := g_Ai g) in *. clearbody c A.
  split; [split; [apply Rdiv_lt_0_compat; lra|]|].
  - apply Rmult_le_reg_r with (rin * a1 + c); [lra|]. unfold Rdiv at 1. rewrite Rmult_assoc, Rinv_l by lra. rewrite Rmult_1_r.
    apply Rmult_le_reg_r with (rin * a2 + c); [lra|].
    replace (A * a2 / (rin * a2 + c) * (rin * a1 + c) * (rin * a2 + c)) with (A * a2 * (rin * a1 + c)) by (field; lra). nra.
  - rewrite !ln_ratio by lra. rewrite !ln_mult by lra. pose proof (ln_le (rin * a1 + c) (rin * a2 + c) ltac:(lra) ltac:(lra)). lra.
Qed.
Lemma any_ln_abs a1 a2 : 0 < a1 -> 0 < a2 -> Rabs (ln (ua_cyl g ai a1) - ln (ua_cyl g ai a2)) <= Rabs (ln a1 - ln a2).
Proof.
  intros P1 P2. destruct (Rle_lt_dec a1 a2) as [Q|Q].
  - destruct (any_ln a1 a2 ltac:(lra)) as [[U0 U1] U2]. pose proof (ln_le _ _ U0 U1). pose proof (ln_le a1 a2 P1 Q).
    rewrite Rabs_minus_sym, (Rabs_pos_eq (ln (ua_cyl _ _ _) - _)) by lra. rewrite Rabs_minus_sym, Rabs_pos_eq by lra. lra.
  - destruct (any_ln a2 a1 ltac:(lra)) as [[U0 U1] U2]. pose proof (ln_le _ _ U0 U1). pose proof (ln_le a2 a1 P2 ltac:(lra)).
    rewrite !Rabs_pos_eq by lra. lra.
Qed.
Lemma any_settle b bs : buf_ok g b -> buf_ok g bs -> settled (P bs) bs j ->
  (forall n, 0 < b_ua (E b (S n)) j /\ 0 < b_ua bs j /\
    Rabs (ln (b_ua (E b (S n)) j / b_ua bs j)) <= (5 / 6) ^ n * Rabs (ln (b_ainf (E b 1) j / b_ainf bs j))) /\
  Un_cv (fun n => b_ua (E b n) j) (b_ua bs j).
Proof.
  intros Bk Bs St. destruct (any_fix bs Bs St) as (Px & _ & Ux).
  assert (PU : forall x, 0 < x -> 0 < ua_cyl g ai x) by (intros x Hx; apply (any_ln x x ltac:(lra))).
  assert (B1 : forall n, 0 < b_ua (E b (S n)) j /\ 0 < b_ua bs j /\
    Rabs (ln (b_ua (E b (S n)) j / b_ua bs j)) <= (5 / 6) ^ n * Rabs (ln (b_ainf (E b 1) j / b_ainf bs j))).
  { intro n. destruct (any_conv b bs n Bk Bs St) as (P1 & U1 & C1).
    destruct (any_conv b bs 0 Bk Bs St) as (P0 & _).
    rewrite U1, Ux. split; [apply PU, P1|]. split; [apply PU, Px|].
    pose proof (PU _ P1) as Q1. pose proof (PU _ Px) as Q2. rewrite !ln_ratio by assumption.
      apply Rle_trans with (2 := C1). apply any_ln_abs; assumption. }
  split; [exact B1|].
  assert (LC : Un_cv (fun n => ln (b_ua (E b (S n)) j)) (ln (b_ua bs j))).
  { intros eps He. set (M := Rabs (ln (b_ainf (E b 1) j / b_ainf bs j))) in *. pose proof (Rabs_pos (ln (b_ainf (E b 1) j / b_ainf bs j))) as HM. fold M in HM.
    destruct (pow_lt_1_zero (5 / 6) ltac:(rewrite Rabs_pos_eq; lra) (eps / (M + 1)) ltac:(apply Rdiv_lt_0_compat; lra)) as [N HN].
    exists N. intros n Hge. destruct (B1 n) as (P1 & P2 & C). specialize (HN n Hge). rewrite ln_ratio in C by assumption.
    unfold R_dist. apply Rle_lt_trans with (1 := C). fold M. assert (W : 0 <= (5 / 6) ^ n) by (apply pow_le; lra). rewrite Rabs_pos_eq in HN by exact W.
    apply Rle_lt_trans with ((5 / 6) ^ n * (M + 1)); [apply Rmult_le_compat_l; lra|].
    apply Rmult_lt_reg_r with (/ (M + 1)); [apply Rinv_0_lt_compat; lra|]. rewrite Rmult_assoc, Rinv_r by lra. unfold Rdiv in HN. lra. }
  assert (XC : Un_cv (fun n => exp (ln (b_ua (E b (S n)) j))) (exp (ln (b_ua bs j)))).
  { apply (continuity_seq exp (fun n => ln (b_ua (E b (S n)) j)) (ln (b_ua bs j))); [apply derivable_continuous_pt, derivable_pt_exp|exact LC]. }
  intros eps He. destruct (XC eps He) as [N HN]. exists (S N). intros [|n] Hge; [lia|]. specialize (HN n ltac:(lia)).
  destruct (B1 n) as (P1 & P2 & _). rewrite !exp_ln in HN by assumption. exact HN.
Qed.

Lemma any_exists : exists bs, buf_ok g bs /\ settled (P bs) bs j.
Proof.
  destruct (fix_any Tamb (g_L g) (g_vert g) (g_rt g) D rin (g_rr g)) as (t & Bt & Et);
    try (unfold D; lra); try apply (ok_L g G); try apply (ok_rt g G); try apply any_rin; try apply (ok_rr g G).
  pose proof any_rin as Pr. pose proof (ok_rr g G) as Prr.
  assert (Pa : 0 < al_v Tamb (g_L g) (g_vert g) (g_rt g) t) by (apply cyl_alpha_pos; [lra|apply (ok_L g G)|apply (ok_rt g G)]).
  set (al := al_v Tamb (g_L g) (g_vert g) (g_rt g) t) in *.
  set (bs := {| b_ainf := fun _ : nat => al; b_ua := fun _ : nat => ua_cyl g ai al |}). exists bs.
  pose proof (ua_cyl_bounds g ai al G any_ai Pa) as (U1 & U2 & _).
  split; [intros i _; cbn; split; [exact Pa|lra]|].
  assert (Ea : r_ainf (P bs) j = al).
  { rewrite (any_next bs Pa eq_refl). change (b_ainf bs j) with al. unfold nxt.
    assert (Q : 0 < rin * al) by (apply Rmult_lt_0_compat; lra).
    assert (Et2 : exc D rin (g_rr g) al = t).
    { unfold exc. apply Rmult_eq_reg_r with (rin * al + g_rr g); [|lra]. rewrite Et. field. lra. }
    rewrite Et2. reflexivity. }
  split; [exact Ea|]. change (r_ua (P bs) j = ua_cyl g ai al). rewrite any_ua, Ea. reflexivity.
Qed.
Lemma any_unique b bs : buf_ok g b -> buf_ok g bs -> settled (P b) b j -> settled (P bs) bs j ->
  b_ainf b j = b_ainf bs j /\ b_ua b j = b_ua bs j.
Proof.
  intros Bk Bs St' St. destruct (any_fix b Bk St') as (F1 & F2 & F3). destruct (any_fix bs Bs St) as (F4 & F5 & F6).
  pose proof (nxt_lip2 Tamb (g_L g) (g_vert g) (g_rt g) D rin (g_rr g) (b_ainf b j) (b_ainf bs j)) as C.
  do 8 (specialize (C ltac:(first [assumption|unfold D; lra|apply (ok_L g G)|apply (ok_rt g G)|apply any_rin|apply (ok_rr g G)]))).
  rewrite F2, F5 in C. assert (Eq : b_ainf b j = b_ainf bs j).
  { apply ln_inv; [exact F1|exact F4|]. destruct (Req_dec (ln (b_ainf b j) - ln (b_ainf bs j)) 0) as [Y|N]; [lra|].
    apply Rabs_pos_lt in N. lra. }
  split; [exact Eq|]. rewrite F3, F6, Eq. reflexivity.
Qed.
Theorem any_all : exists alim ulim, 0 < alim /\ 0 < ulim /\
  (exists bs, buf_ok g bs /\ settled (P bs) bs j /\ b_ua bs j = ulim /\ b_ainf bs j = alim) /\ forall b, buf_ok g b ->
    Un_cv (fun n => b_ua (E b n) j) ulim /\
    (forall n, 0 < b_ua (E b (S n)) j /\
      Rabs (ln (b_ua (E b (S n)) j / ulim)) <= (5 / 6) ^ n * Rabs (ln (b_ainf (E b 1%nat) j / alim))) /\
    (settled (P b) b j -> b_ua b j = ulim /\ b_ainf b j = alim).
Proof.
  destruct any_exists as (bs & Bs & St). destruct (any_fix bs Bs St) as (F1 & _ & _).
  exists (b_ainf bs j), (b_ua bs j). split; [exact F1|]. destruct (any_settle bs bs Bs Bs St) as [EVb _]. split; [apply (EVb 0%nat)|].
  split; [exists bs; split; [exact Bs|]; split; [exact St|]; split; reflexivity|].
  intros b Bk. destruct (any_settle b bs Bk Bs St) as [E1 E2]. split; [exact E2|]. split.
  - intro n. destruct (E1 n) as (A1 & _ & A3). split; [exact A1|exact A3].
  - intros St'. destruct (any_unique b bs Bk Bs St' St) as [U1 U2]. split; [exact U2|exact U1].
Qed.
End Any.
