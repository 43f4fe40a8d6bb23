(** Insulation of storages, C189. *)
From Coq Require Import Reals List Arith ZArith Bool Lra Lia.
From Verif Require Import MFlow MWater MDiff MGeom SFlow SDiff SGeom LFlow LWater LDiff LDiff2 LDiff4 LGeom LGeom2 LAlpha LAlpha2 SInsul LInsul LInsul2 SSurf LSurf.
Open Scope R_scope.

Lemma ver_alpha_warm T1 T2 Tinf l rt : 0 <= Tinf -> Tinf <= T1 <= T2 -> T2 <= 100 -> 0 < l -> 0 < rt ->
  cyl_alpha_inf T1 Tinf l true rt <= cyl_alpha_inf T2 Tinf l true rt.
Proof.
  intros Ha H1 H2 HL Hrt. destruct (Req_dec T1 T2) as [->|N]; [lra|].
  pose proof (rayleigh_mono Tinf T1 T2 l Ha ltac:(lra) H2 HL) as RM. unfold cyl_alpha_inf. cbv zeta.
  set (r1 := rayleigh T1 _ _ _) in *. set (r2 := rayleigh T2 _ _ _) in *. clearbody r1 r2.
  pose proof (nu_ch_mono 0.825 0.3466023585520853 r1 r2 ltac:(lra) ltac:(lra) ltac:(lra)) as NM.
  pose proof (lam_air_increasing ((Tinf + T1) / 2) ((Tinf + T2) / 2) ltac:(lra) ltac:(lra) ltac:(lra)) as LI.
  pose proof (lam_air_bounds ((Tinf + T1) / 2) ltac:(lra)) as B.
  assert (K : 0 < 0.435 * l / (2 * rt)) by (apply Rdiv_lt_0_compat; lra). set (k := 0.435 * l / (2 * rt)) in *. clearbody k.
  set (n1 := (0.825 + _) ^ 2) in *. set (n2 := (0.825 + 0.387 * npow (r2 * _) _) ^ 2) in *. clearbody n1 n2.
  unfold Rdiv. apply Rmult_le_compat_r; [left; apply Rinv_0_lt_compat, HL|]. apply Rmult_le_compat; lra.
Qed.
Lemma ver_alpha_falls Ts Tinf l r1 r2 : 0 <= (Tinf + Ts) / 2 <= 100 -> 0 < l -> 0 < r1 <= r2 ->
  cyl_alpha_inf Ts Tinf l true r2 <= cyl_alpha_inf Ts Tinf l true r1.
Proof.
  intros HT HL Hr. unfold cyl_alpha_inf. cbv zeta. pose proof (lam_air_bounds _ HT) as B.
  unfold Rdiv at 1 5. apply Rmult_le_compat_r; [left; apply Rinv_0_lt_compat, HL|]. apply Rmult_le_compat_r; [lra|]. apply Rplus_le_compat_l.
  unfold Rdiv. apply Rmult_le_compat_l; [lra|]. apply Rinv_le_contravar; lra.
Qed.

Lemma tes_settled_less a a' p g g' io f Tx Tx' Tp Tp' Tamb b b' j : tes_reinsulated a a' ->
  tes_new a p = Some g -> tes_new a' p = Some g' -> solid (ta_cp a) (ta_rho a) (ta_lam a) ->
  0 < ta_vol a -> 2 * ta_shell a < ta_do a -> ports_ok (Z.to_nat (ta_gp a)) p -> (j < Z.to_nat (ta_gp a))%nat ->
  0 <= Tamb < Tx (S j) -> Tx (S j) <= 100 -> Tx' (S j) = Tx (S j) -> buf_ok g b -> buf_ok g' b' ->
  let r := tes_diff g io f Tx Tp Tamb b in let r' := tes_diff g' io f Tx' Tp' Tamb b' in
  settled r b j -> settled r' b' j ->
  (ta_sins a < ta_sins a' -> ta_lins a / r_ainf r j <= ta_do a / 2 + ta_sins a) ->
  0 < r_ua r' j <= r_ua r j /\
  (ta_sins a < ta_sins a' \/ ta_lins a' < ta_lins a /\ 0 < ta_sins a' -> r_ua r' j < r_ua r j).
Proof.
  intros (I1 & I2 & I3 & I4 & I5 & I6 & I7 & I8 & I9) Hn Hn' Hs Hv Hd Hp Hj HT HT2 ET Bk Bk' r r' St St' Hc.
  pose proof (tes_geo_ok a p g Hn Hs Hv Hd ltac:(lra) Hp) as G.
  assert (G' : geo_ok g').
  { apply (tes_geo_ok a' p g' Hn'); unfold solid in *; rewrite ?I1, ?I2, ?I3, ?I4, ?I5, ?I6, ?I7; try assumption; lra. }
  destruct (tes_new_inv a p g Hn) as [(A1 & A2 & A3 & _) (di & len & Edi & Elen & Eg)].
  destruct (tes_new_inv a' p g' Hn') as [_ (di' & len' & Edi' & Elen' & Eg')].
  assert (Ed : di' = di) by (rewrite Edi, Edi', I3, I4; reflexivity). clear Edi'. subst di'.
  assert (El : len' = len) by (rewrite Elen, Elen', I1; reflexivity). clear Elen'. subst len'.
  assert (Ej : (j < g_n g)%nat) by (rewrite Eg; exact Hj). assert (Ej' : (j < g_n g')%nat) by (rewrite Eg'; cbn; rewrite I2; exact Hj).
  pose (pf := process_flow_var (g_n g) (g_np g) (g_own g) io f). pose (pf' := process_flow_var (g_n g') (g_np g') (g_own g') io f).
  assert (Epf : pf' = pf) by (unfold pf, pf'; rewrite Eg, Eg'; cbn [g_n g_np g_own]; rewrite I2; reflexivity).
  destruct (ev_fix g (fun lam => buoyancy (g_n g) (g_di g) (fun j => Tx (S j)) (lam_mean lam)) (snd pf) (fst pf) true no_heat Tx Tp Tamb j G Ej HT HT2 b Bk St)
    as (P1 & F1 & U1).
  destruct (ev_fix g' (fun lam => buoyancy (g_n g') (g_di g') (fun j => Tx' (S j)) (lam_mean lam)) (snd pf') (fst pf') true no_heat Tx' Tp' Tamb j G' Ej'
    ltac:(lra) ltac:(lra) b' Bk' St') as (P2 & F2 & U2).
  destruct St as [S1 S2]. destruct St' as [S1' S2']. rewrite S1 in Hc. rewrite S2, S2'. rewrite U1, U2. clear S1 S2 S1' S2' U1 U2.
  assert (X : alpha_i g' (snd pf') (fun i => Tx' (S i)) j = alpha_i g (snd pf) (fun i => Tx (S i)) j).
  { rewrite Epf. unfold alpha_i. rewrite ET, Eg, Eg'. cbn [g_A g_di g_x g_n]. rewrite ?I2. reflexivity. }
  rewrite X, ET in *. clear X.
  assert (Pai : 0 < alpha_i g (snd pf) (fun i => Tx (S i)) j) by (apply alpha_in_pos; [lra|apply (ok_di g G)]).
  set (ai := alpha_i g (snd pf) (fun i => Tx (S i)) j) in *. clearbody ai. clear Epf pf pf' Bk Bk' r r'.
  set (a1 := b_ainf b j) in *. set (a2 := b_ainf b' j) in *. clearbody a1 a2.
  pose proof (ok_gsp g G) as Pg. pose proof (ok_L g G) as PL. pose proof (ok_lw g G) as Pl. pose proof (ok_rlw g G) as Prw.
  assert (Pd : 0 < di) by lra. pose proof PI_RGT_0 as HP.
  set (K := 1 / ai + g_rlw g / g_lw g).
  assert (PK : 0 < K).
  { unfold K. assert (0 < 1 / ai) by (apply Rdiv_lt_0_compat; lra).
    assert (0 <= g_rlw g / g_lw g) by (apply Rmult_le_pos; [lra|apply Rlt_le, Rinv_0_lt_compat; lra]). lra. }
  set (gs := len / IZR (ta_gp a)) in *.
  assert (EL : g_L g = gs) by (rewrite Eg; reflexivity). assert (EL' : g_L g' = gs) by (rewrite Eg'; cbn; rewrite I2; reflexivity).
  assert (V : g_vert g = true /\ g_vert g' = true) by (rewrite Eg, Eg'; split; reflexivity). destruct V as [V V'].
  set (r1 := ta_do a / 2 + ta_sins a) in *. set (r2 := ta_do a / 2 + ta_sins a').
  assert (ER : g_rt g = r1 /\ g_rt g' = r2) by (rewrite Eg, Eg'; cbn; rewrite I3; split; reflexivity). destruct ER as [ER ER'].
  assert (RI : 1 / ai + g_rlw g / g_lw g + g_rli g / g_li g = K + rins (di / 2) (ta_do a / 2) r1 (ta_lins a)) by (unfold K, rins; rewrite Eg; reflexivity).
  assert (RI' : 1 / ai + g_rlw g' / g_lw g' + g_rli g' / g_li g' = K + rins (di / 2) (ta_do a / 2) r2 (ta_lins a')) by (unfold K, rins; rewrite Eg, Eg'; cbn; rewrite I3, I7; reflexivity).
  assert (RR : g_rr g = di / 2 / r1) by (rewrite Eg; reflexivity). assert (RR' : g_rr g' = di / 2 / r2) by (rewrite Eg'; cbn; rewrite I3; reflexivity).
  assert (UA : forall al, 0 < al -> ua_cyl g ai al = PI * di * gs / rtot K (di / 2) (ta_do a / 2) r1 (ta_lins a) al).
  { intros al _. unfold ua_cyl, rtot, rout. rewrite RI, RR. rewrite Eg. reflexivity. }
  assert (UA' : forall al, 0 < al -> ua_cyl g' ai al = PI * di * gs / rtot K (di / 2) (ta_do a / 2) r2 (ta_lins a') al).
  { intros al _. unfold ua_cyl, rtot, rout. rewrite RI', RR'. rewrite Eg'. cbn. rewrite I2. reflexivity. }
  rewrite UA, UA' by assumption.
  rewrite RI, RR, EL, V, ER in F1. rewrite RI', RR', EL', V', ER' in F2. rewrite EL in PL.
  assert (HN : forall rr ll, ta_do a / 2 <= rr -> 0 < ll -> 0 <= rins (di / 2) (ta_do a / 2) rr ll).
  { intros rr ll H1 H2. pose proof (rins_le (di / 2) (ta_do a / 2) (ta_do a / 2) rr ll ll ltac:(lra) ltac:(lra) ltac:(lra) ltac:(lra)) as Q.
    unfold rins at 1 in Q. replace (ta_do a / 2 / (ta_do a / 2)) with 1 in Q by (field; lra). rewrite ln_1 in Q. unfold Rdiv in Q at 1. lra. }
  pose proof (HN r1 (ta_lins a) ltac:(unfold r1; lra) ltac:(lra)) as N1. pose proof (HN r2 (ta_lins a') ltac:(unfold r2; lra) ltac:(lra)) as N2.
  assert (Pr1 : 0 < r1) by (unfold r1; lra). assert (Pr2 : 0 < r2) by (unfold r2; lra).
  assert (Hc' : r1 < r2 -> ta_lins a <= a1 * r1).
  { intro Q. specialize (Hc ltac:(unfold r1, r2 in Q; lra)). apply Rmult_le_reg_r with (/ a1); [apply Rinv_0_lt_compat, P1|].
    replace (a1 * r1 * / a1) with r1 by (field; lra). exact Hc. }
  assert (Br : r1 <= r2) by (unfold r1, r2; lra). assert (Bo : ta_do a / 2 <= r1) by (unfold r1; lra).
  assert (Q1 : r1 < r2 <-> ta_sins a < ta_sins a') by (unfold r1, r2; split; lra).
  assert (Q2 : ta_do a / 2 < r2 <-> 0 < ta_sins a') by (unfold r2; split; lra).
  clear Hc UA UA' RI RI' RR RR' HN Eg Eg'. set (D := Tx (S j) - Tamb) in *.
  assert (PD : 0 < D /\ Tamb + D <= 100) by (unfold D; lra). clearbody r1 r2 gs K D.
  pose proof (exc_range D (K + rins (di / 2) (ta_do a / 2) r1 (ta_lins a)) (di / 2 / r1) a1 ltac:(lra) ltac:(lra) ltac:(apply Rdiv_lt_0_compat; lra) P1) as B1.
  pose proof (exc_range D (K + rins (di / 2) (ta_do a / 2) r2 (ta_lins a')) (di / 2 / r2) a2 ltac:(lra) ltac:(lra) ltac:(apply Rdiv_lt_0_compat; lra) P2) as B2.
  unfold nxt, al_v in F1, F2.
  assert (T1 : exc D (K + rins (di / 2) (ta_do a / 2) r1 (ta_lins a)) (di / 2 / r1) a1 = D * rout (di / 2) r1 a1 / rtot K (di / 2) (ta_do a / 2) r1 (ta_lins a) a1).
  { unfold exc, rtot, rout. set (i := rins _ _ _ _) in *. clearbody i. assert (0 < (K + i) * a1) by (apply Rmult_lt_0_compat; lra).
    assert (0 < (K + i) * a1 * r1) by (apply Rmult_lt_0_compat; lra).
    field. repeat split; try lra; apply Rgt_not_eq; nra. }
  assert (T2 : exc D (K + rins (di / 2) (ta_do a / 2) r2 (ta_lins a')) (di / 2 / r2) a2 = D * rout (di / 2) r2 a2 / rtot K (di / 2) (ta_do a / 2) r2 (ta_lins a') a2).
  { unfold exc, rtot, rout. set (i := rins _ _ _ _) in *. clearbody i. assert (0 < (K + i) * a2) by (apply Rmult_lt_0_compat; lra).
    assert (0 < (K + i) * a2 * r2) by (apply Rmult_lt_0_compat; lra).
    field. repeat split; try lra; apply Rgt_not_eq; nra. }
  set (t1 := exc _ _ _ a1) in *. set (t2 := exc _ _ _ a2) in *. clearbody t1 t2.
  destruct (cell_R (fun r t => cyl_alpha_inf (Tamb + t) Tamb gs true r) D K (di / 2) (ta_do a / 2) r1 r2 (ta_lins a) (ta_lins a') t1 t2) as [C1 C2];
    cbv beta; rewrite ?F1, ?F2; try lra; try assumption.
  - intros r s u Hr Hsu Hu. apply ver_alpha_warm; lra.
  - intros r r0 u Hr Hu. apply ver_alpha_falls; lra.
  - intros r u Hr Hu. apply cyl_alpha_pos; lra.
  - cbv beta in C1, C2. rewrite F1, F2 in C1, C2.
    assert (PR : 0 < rtot K (di / 2) (ta_do a / 2) r1 (ta_lins a) a1).
    { unfold rtot. assert (0 < rout (di / 2) r1 a1) by (unfold rout; apply Rdiv_lt_0_compat; [apply Rdiv_lt_0_compat; lra|lra]). lra. }
    set (R1 := rtot K _ _ r1 _ _) in *. set (R2 := rtot K _ _ r2 _ _) in *. clearbody R1 R2.
    assert (PA : 0 < PI * di * gs) by (apply Rmult_lt_0_compat; [apply Rmult_lt_0_compat|]; lra).
    split; [split; [apply Rdiv_lt_0_compat; lra|]|].
    + unfold Rdiv. apply Rmult_le_compat_l; [lra|]. apply Rinv_le_contravar; lra.
    + intro Q. assert (Q' : R1 < R2) by (apply C2; destruct Q as [Q|[Qa Qb]]; [left; apply Q1, Q|right; split; [exact Qa|apply Q2, Qb]]).
      unfold Rdiv. apply Rmult_lt_compat_l; [lra|]. apply Rinv_lt_contravar; [apply Rmult_lt_0_compat; lra|exact Q'].
Qed.
