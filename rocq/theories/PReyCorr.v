(** C182: a Reynolds correction reproduces the given heat transfer coefficients. *)
From Coq Require Import Reals List Bool Arith Lra Lia.
From Verif Require Import MWater MMix MReyCorr LWater SReyCorr LReyCorr.
Import ListNotations.
Local Open Scope R_scope.

Lemma channels_is g s : side_channels g s = channels g s.
Proof. destruct s; reflexivity. Qed.
Lemma dm_is p m : point_ok p -> carries p m -> hp_dm p = m.
Proof.
  intros [W N] [M E]. unfold hp_dm. fold (hp_Tm p) in *. pose proof (cp_bounds _ W).
  assert (D : 0 < Rabs (hp_Tin p - hp_Tout p)) by (apply Rabs_pos_lt; lra).
  unfold Rdiv. rewrite Rabs_mult, E, Rabs_inv, Rabs_mult, (Rabs_right (cp_water _)) by lra.
  field. lra.
Qed.
Lemma Re_is g s m T : plate_ok g s -> 0 <= T <= 100 -> 0 <= m ->
  chan_Re g 0 (m / channels g s) T = side_Re g s m T.
Proof.
  intros (D & X & A & N) W M. pose proof (rho_bounds T W). pose proof (ny_bounds T W).
  unfold chan_Re, side_Re.
  assert (RA : 0 < rho_water T * hg_A_chan g) by (apply Rmult_lt_0_compat; lra).
  assert (0 <= m / channels g s / (rho_water T * hg_A_chan g)).
  { unfold Rdiv. repeat apply Rmult_le_pos; auto; left; apply Rinv_0_lt_compat; assumption. }
  rewrite Rabs_right by lra. field. repeat split; lra.
Qed.
Lemma ratio_ok g s : plate_ok g s -> 0 < hg_x g /\ hg_dh g / hg_x g <= 1 / 74.
Proof.
  intros (D & X & _). split; [lra|]. apply (Rmult_le_reg_r (hg_x g)); [lra|].
  replace (hg_dh g / hg_x g * hg_x g) with (hg_dh g) by (field; lra). lra.
Qed.
Lemma side_alpha_nu g s x m T : plate_ok g s -> 0 <= T <= 100 -> 0 <= m ->
  side_Re g s m T + x <> 0 ->
  side_alpha g s x m T = nu_full g T (side_Re g s m T + x) * (lambda_water T / hg_dh g).
Proof.
  intros G W M N. unfold side_alpha. rewrite hex_alpha_nu by exact W.
  rewrite chan_Re_split, (Re_is g s m T G W M). unfold nu_full.
  destruct (Req_EM_T (side_Re g s m T + x) 0); [contradiction|]. reflexivity.
Qed.
Lemma palpha_nu g s x p m : plate_ok g s -> point_ok p -> carries p m ->
  palpha g s x p = if Rlt_dec (side_Re g s m (hp_Tm p) + x) 0 then None
    else Some (nu_full g (hp_Tm p) (side_Re g s m (hp_Tm p) + x) * (lambda_water (hp_Tm p) / hg_dh g)).
Proof.
  intros G P C. unfold palpha. rewrite channels_is, (dm_is p m P C). destruct P as [W N]. fold (hp_Tm p) in W.
  rewrite chan_alpha_nu by exact W. rewrite chan_Re_split, (Re_is g s m _ G W (proj1 C)). reflexivity.
Qed.

(** The number that is printed bounds the deviation of every point: the exchanger with the
    correction that was stored transfers, at the massflow of the point, the given coefficient up to
    that share. *)
Theorem C182_reported : forall g s pts x g' v, plate_ok g s -> Forall point_ok pts ->
  find_plate g s pts x = Some (g', Val v) ->
  g' = with_corr g x /\ 0 <= v /\
  forall p m, In p pts -> carries p m ->
    let T := (hp_Tin p + hp_Tout p) / 2 in
    0 <= side_Re g s m T + x /\
    (side_Re g s m T + x <> 0 ->
     Rabs (hex_alpha g' (m / channels g s) T / hp_target p - 1) <= v /\
     (v = 0 -> hex_alpha g' (m / channels g s) T = hp_target p)).
Proof.
  intros g s pts x g' v G F H. apply find_plate_inv in H. destruct H as [-> H].
  destruct (deviation pts (map (palpha g s x) pts)) as [w|] eqn:D; [|discriminate].
  injection H as ->. apply deviation_inv in D. destruct D as [V D].
  split; [reflexivity|]. split; [exact V|]. intros p m I C T.
  assert (P : point_ok p) by (rewrite Forall_forall in F; apply F, I).
  destruct (D p I) as (a & A & N1 & N2 & B). rewrite (palpha_nu g s x p m G P C) in A.
  change (hp_Tm p) with T in A.
  destruct (Rlt_dec (side_Re g s m T + x) 0) as [|L]; [discriminate|]. injection A as A.
  split; [lra|]. intro N. change (hex_alpha (with_corr g x) (m / channels g s) T) with (side_alpha g s x m T).
  rewrite (side_alpha_nu g s x m T G (proj1 P) (proj1 C) N), A. split; [exact B|].
  intros ->. pose proof (Rabs_pos (a / hp_target p - 1)) as Q.
  assert (Z : Rabs (a / hp_target p - 1) = 0) by lra.
  destruct (Req_dec (a / hp_target p - 1) 0) as [E|E]; [|apply Rabs_no_R0 in E; contradiction].
  replace a with (a / hp_target p * hp_target p) by (field; exact N2).
  replace (a / hp_target p) with 1 by lra. ring.
Qed.
Print Assumptions C182_reported.

(** Points measured at an exchanger with the correction [c] are fitted without deviation by [c] and
    by no other number. *)
Theorem C182_recovers_partial : forall g s c pts, plate_ok g s -> pts <> [] ->
  Forall (measured g s c) pts ->
  forall x, find_plate g s pts x = Some (with_corr g x, Val 0) <-> x = c.
Proof.
  intros g s c pts G N F. destruct (ratio_ok g s G) as [X E].
  rewrite Forall_forall in F. intro x. split.
  - intro H. apply find_plate_inv in H. destruct H as [_ H].
    destruct (deviation pts (map (palpha g s x) pts)) as [w|] eqn:D; [|discriminate].
    injection H as <-. apply deviation_inv in D. destruct D as [_ D].
    destruct pts as [|p pts]; [contradiction|].
    destruct (F p (or_introl eq_refl)) as (P & m & C & R0 & Tg).
    destruct (D p (or_introl eq_refl)) as (a & A & N1 & N2 & B).
    rewrite (palpha_nu g s x p m G P C) in A. fold (hp_Tm p) in R0, Tg.
    destruct (Rlt_dec (side_Re g s m (hp_Tm p) + x) 0) as [|L]; [discriminate|]. injection A as A.
    rewrite (side_alpha_nu g s c m (hp_Tm p) G (proj1 P) (proj1 C) ltac:(lra)) in Tg.
    pose proof (Rabs_pos (a / hp_target p - 1)) as Q.
    assert (Z : Rabs (a / hp_target p - 1) = 0) by lra.
    destruct (Req_dec (a / hp_target p - 1) 0) as [Y|Y]; [|apply Rabs_no_R0 in Y; contradiction].
    assert (AE : a = hp_target p).
    { replace a with (a / hp_target p * hp_target p) by (field; exact N2).
      replace (a / hp_target p) with 1 by lra. ring. }
    rewrite Tg, <- A in AE. pose proof (lambda_bounds _ (proj1 P)) as LB. fold (hp_Tm p) in LB.
    apply Rmult_eq_reg_r in AE.
    + apply nu_full_inj in AE; try lra; [apply (proj1 G)|exact (proj1 P)].
    + apply Rgt_not_eq, Rdiv_lt_0_compat; [lra|apply (proj1 G)].
  - intros ->. apply find_plate_val, deviation_zero. intros p I.
    destruct (F p I) as (P & m & C & R0 & Tg). fold (hp_Tm p) in R0, Tg.
    rewrite (palpha_nu g s c p m G P C).
    destruct (Rlt_dec (side_Re g s m (hp_Tm p) + c) 0); [lra|].
    rewrite (side_alpha_nu g s c m (hp_Tm p) G (proj1 P) (proj1 C) ltac:(lra)) in Tg. rewrite Tg.
    split; [reflexivity|]. split; [apply (proj2 P)|].
    pose proof (lambda_bounds _ (proj1 P)) as LB. fold (hp_Tm p) in LB.
    pose proof (nu_full_pos g (hp_Tm p) (side_Re g s m (hp_Tm p) + c) (proj1 G) X E (proj1 P) ltac:(lra)).
    apply Rgt_not_eq, Rmult_lt_0_compat; [lra|]. apply Rdiv_lt_0_compat; [lra|apply (proj1 G)].
Qed.
Print Assumptions C182_recovers_partial.

(** The code violates C182 between laminar and turbulent flow: a coefficient there (Nusselt number
    14.1) is missed by more than 4.9 per cent whatever the correction. *)
Theorem C182_gap_refuted : forall g s p, plate_ok g s -> point_ok p ->
  hp_target p * hg_dh g = 14.1 * lambda_water ((hp_Tin p + hp_Tout p) / 2) ->
  forall x g' v, find_plate g s [p] x = Some (g', Val v) -> 0.049 < v.
Proof.
  intros g s p G P Tg x g' v H. destruct (ratio_ok g s G) as [X E]. fold (hp_Tm p) in Tg.
  apply find_plate_inv in H. destruct H as [_ H].
  destruct (deviation [p] (map (palpha g s x) [p])) as [w|] eqn:D; [|discriminate].
  injection H as ->. apply deviation_inv in D. destruct D as [_ D].
  destruct (D p (or_introl eq_refl)) as (a & A & N1 & N2 & B).
  pose proof (cp_bounds _ (proj1 P)) as CB. fold (hp_Tm p) in CB.
  assert (DT : 0 < Rabs (hp_Tin p - hp_Tout p)) by (apply Rabs_pos_lt; pose proof (proj2 P); lra).
  set (m := Rabs (hp_P p) / (cp_water (hp_Tm p) * Rabs (hp_Tin p - hp_Tout p))).
  assert (C : carries p m).
  { split.
    - unfold m. apply Rmult_le_pos; [apply Rabs_pos|].
      left. apply Rinv_0_lt_compat, Rmult_lt_0_compat; lra.
    - unfold m. fold (hp_Tm p). field. lra. }
  rewrite (palpha_nu g s x p m G P C) in A.
  destruct (Rlt_dec (side_Re g s m (hp_Tm p) + x) 0) as [|L]; [discriminate|]. injection A as A.
  pose proof (nu_full_gap g (hp_Tm p) (side_Re g s m (hp_Tm p) + x) (proj1 G) X E (proj1 P) ltac:(lra)) as GP.
  set (nu := nu_full g (hp_Tm p) (side_Re g s m (hp_Tm p) + x)) in *.
  pose proof (lambda_bounds _ (proj1 P)) as LB. fold (hp_Tm p) in LB. pose proof (proj1 G) as DH.
  assert (Q : a / hp_target p = nu / 14.1).
  { replace (hp_target p) with (14.1 * (lambda_water (hp_Tm p) / hg_dh g)).
    - rewrite <- A. field. lra.
    - replace (14.1 * (lambda_water (hp_Tm p) / hg_dh g)) with (14.1 * lambda_water (hp_Tm p) / hg_dh g)
        by (unfold Rdiv; ring).
      rewrite <- Tg. field. lra. }
  rewrite Q in B. eapply Rlt_le_trans; [|exact B].
  unfold Rabs. destruct (Rcase_abs (nu / 14.1 - 1)); destruct GP; lra.
Qed.
Print Assumptions C182_gap_refuted.

(** The code violates C182 for an exchanger that is worse than the formula: the only correction
    without deviation is negative, which the constructor refuses, and with it there is no
    coefficient (NaN) for the smaller massflows. *)
Theorem C182_negative_refuted : forall g s c p, plate_ok g s -> c < 0 -> measured g s c p ->
  (forall x, find_plate g s [p] x = Some (with_corr g x, Val 0) <-> x = c) /\
  forall m T, 0 <= m -> 0 <= T <= 100 -> side_Re g s m T < - c ->
    chan_alpha g c (hg_x g) (m / channels g s) T = None.
Proof.
  intros g s c p G N M. split.
  - apply C182_recovers_partial; [exact G|discriminate|]. constructor; [exact M|constructor].
  - intros m T H W R. rewrite chan_alpha_nu by exact W. rewrite chan_Re_split, (Re_is g s m T G W H).
    destruct (Rlt_dec (side_Re g s m T + c) 0); [reflexivity|lra].
Qed.
Print Assumptions C182_negative_refuted.

(** The code violates C182 for both sides: the correction found for the demand side replaces the
    one of the supply side, whose coefficients are all missed then. *)
Theorem C182_both_refuted : forall g c1 c2 ps pd, plate_ok g Supply -> plate_ok g Demand ->
  ps <> [] -> pd <> [] -> 0 < c1 -> 0 < c2 -> c1 <> c2 ->
  Forall (measured g Supply c1) ps -> Forall (measured g Demand c2) pd ->
  exists x1 g1 x2 g2, find_plate g Supply ps x1 = Some (g1, Val 0) /\
    find_plate g1 Demand pd x2 = Some (g2, Val 0) /\
    forall p m, In p ps -> carries p m ->
      hex_alpha g2 (m / hg_nsup g) ((hp_Tin p + hp_Tout p) / 2) <> hp_target p.
Proof.
  intros g c1 c2 ps pd G1 G2 N1 N2 P1 P2 NE F1 F2.
  exists c1, (with_corr g c1), c2, (with_corr g c2).
  split; [apply (C182_recovers_partial g Supply c1 ps G1 N1 F1 c1); reflexivity|]. split.
  - change (with_corr g c2) with (with_corr (with_corr g c1) c2).
    apply (C182_recovers_partial (with_corr g c1) Demand c2 pd G2 N2 F2 c2). reflexivity.
  - intros p m I C. rewrite Forall_forall in F1. destruct (F1 p I) as (P & m' & C' & R0 & Tg).
    destruct (ratio_ok g Supply G1) as [X E].
    assert (m' = m) as -> by (rewrite <- (dm_is p m P C); symmetry; apply dm_is; assumption).
    change (side_alpha g Supply c2 m ((hp_Tin p + hp_Tout p) / 2) <> hp_target p).
    rewrite Tg. clear Tg. set (T := (hp_Tin p + hp_Tout p) / 2) in *.
    pose proof (lambda_bounds T (proj1 P)) as LB.
    assert (R1 : 0 <= side_Re g Supply m T).
    { rewrite <- (Re_is g Supply m T G1 (proj1 P) (proj1 C)). unfold chan_Re.
      pose proof (ny_bounds T (proj1 P)). rewrite Rplus_0_r.
      pose proof (Rabs_pos (m / channels g Supply / (rho_water T * hg_A_chan g))).
      apply Rmult_le_pos; [apply Rmult_le_pos; [assumption|left; apply (proj1 G1)]|].
      left. apply Rinv_0_lt_compat. lra. }
    rewrite (side_alpha_nu g Supply c1 m T G1 (proj1 P) (proj1 C) ltac:(lra)).
    rewrite (side_alpha_nu g Supply c2 m T G1 (proj1 P) (proj1 C) ltac:(lra)). intro Q.
    apply Rmult_eq_reg_r in Q.
    + apply nu_full_inj in Q; try lra; [apply (proj1 G1)|exact (proj1 P)].
    + apply Rgt_not_eq, Rdiv_lt_0_compat; [lra|apply (proj1 G1)].
Qed.
Print Assumptions C182_both_refuted.

(** The code violates C182 for the exchanger with a grid: the search ends with an exception unless
    there are just twice as many points as cells. *)
Theorem C182_grid_refuted : forall g dist s pts x, (2 <= length dist)%nat ->
  length pts <> (2 * length dist)%nat -> find_num g dist s pts x = None.
Proof. exact find_num_fails. Qed.
Print Assumptions C182_grid_refuted.

(** Ten channels of 5 mm, half a metre long; 20 kW from 60 to 50 degrees. *)
Definition exG : hexgeo :=
  {| hg_A_plate := 0.05; hg_A_chan := 0.00025; hg_dh := 0.005; hg_s := 0.001; hg_x := 0.5;
     hg_lam := 15; hg_numA := 18; hg_nsup := 10; hg_ndmd := 10; hg_corr := 1 |}.
Definition exM : R := 20000 / (cp_water 55 * 10).
Definition exP (s : hside) (c : R) : hpoint :=
  {| hp_Tin := 60; hp_Tout := 50; hp_P := 20000; hp_target := side_alpha exG s c exM 55 |}.
Lemma exG_ok s : plate_ok exG s.
Proof. unfold plate_ok, exG. destruct s; cbn; lra. Qed.
Lemma exM_Re s : 200 < side_Re exG s exM 55.
Proof.
  pose proof (cp_bounds 55 ltac:(lra)). pose proof (rho_bounds 55 ltac:(lra)).
  assert (ny_water 55 < 6/10000000) by (unfold ny_water; lra).
  pose proof (ny_bounds 55 ltac:(lra)).
  assert (M : 0.473 < exM).
  { unfold exM. apply (Rmult_lt_reg_r (cp_water 55 * 10)); [lra|].
    replace (20000 / (cp_water 55 * 10) * (cp_water 55 * 10)) with 20000 by (field; lra). lra. }
  unfold side_Re. assert (E : channels exG s * hg_A_chan exG = 0.0025) by (destruct s; cbn; lra).
  rewrite E. cbn [exG hg_dh].
  assert (RN : 0 < rho_water 55 * ny_water 55 <= 1000 * (6/10000000))
    by (split; [apply Rmult_lt_0_compat; lra|apply Rmult_le_compat; lra]).
  apply (Rmult_lt_reg_r (0.0025 * rho_water 55 * ny_water 55)); [nra|].
  replace (exM * 0.005 / (0.0025 * rho_water 55 * ny_water 55) * (0.0025 * rho_water 55 * ny_water 55))
    with (exM * 0.005) by (field; lra). nra.
Qed.
Lemma exP_measured s c : - 200 < c -> measured exG s c (exP s c).
Proof.
  intro H. unfold measured, point_ok, exP. cbn [hp_Tin hp_Tout hp_P hp_target].
  replace ((60 + 50) / 2) with 55 by lra. split; [split; lra|]. exists exM.
  pose proof (exM_Re s). pose proof (cp_bounds 55 ltac:(lra)).
  split; [|split; [lra|reflexivity]]. unfold carries. cbn [hp_Tin hp_Tout hp_P].
  replace ((60 + 50) / 2) with 55 by lra. split.
  - unfold exM. left. apply Rdiv_lt_0_compat; lra.
  - rewrite !Rabs_right by lra. unfold exM. field. lra.
Qed.
Example C182_recovers_ex : find_plate exG Supply [exP Supply 800] 800
  = Some (with_corr exG 800, Val 0).
Proof.
  apply (C182_recovers_partial exG Supply 800); [apply exG_ok|discriminate| |reflexivity].
  constructor; [apply exP_measured; lra|constructor].
Qed.
Example C182_negative_ex :
  chan_alpha exG (-100) (hg_x exG) 0 55 = None /\
  find_plate exG Supply [exP Supply (-100)] (-100) = Some (with_corr exG (-100), Val 0).
Proof.
  destruct (C182_negative_refuted exG Supply (-100) (exP Supply (-100)) (exG_ok _) ltac:(lra)
              (exP_measured Supply (-100) ltac:(lra))) as [A B].
  split; [|apply A; reflexivity].
  replace 0 with (0 / channels exG Supply) at 1 by (cbn; lra). apply B; try lra.
  unfold side_Re. unfold Rdiv. rewrite !Rmult_0_l. lra.
Qed.
Example C182_both_ex : Forall (measured exG Supply 800) [exP Supply 800]
  /\ Forall (measured exG Demand 300) [exP Demand 300].
Proof. split; (constructor; [apply exP_measured; lra|constructor]). Qed.
