(** Pieces of a pipe against the whole pipe (C187): the inner heat transfer and the heat losses. *)
From Coq Require Import Reals List Arith ZArith Bool Lra Lia.
From Verif Require Import MFlow MWater MDiff MGeom SFlow LFlow LPoly LWater LDiff LDiff2 LDiff5 LGeom LAlpha SMirror LMirror SPiece LPiece LPiece2 LPiece3.
Open Scope R_scope.

(** The inner coefficient falls with the distance from the inlet. *)
Lemma nu_laminar_x Pe di x y : 0 < Pe -> 0 < di -> 0 < x < y -> nu_laminar Pe di y < nu_laminar Pe di x.
Proof.
  intros HP Hd H. unfold nu_laminar.
  assert (I : / y < / x) by (apply Rinv_lt_contravar; [apply Rmult_lt_0_compat; lra|lra]).
  assert (I0 : 0 < / y) by (apply Rinv_0_lt_compat; lra).
  assert (PD : 0 < Pe * di) by (apply Rmult_lt_0_compat; lra).
  assert (Q : Pe * di / y < Pe * di / x) by (apply Rmult_lt_compat_l; assumption).
  assert (Q0 : 0 <= Pe * di / y) by (apply Rmult_le_pos; lra).
  pose proof (npow_lt _ _ (1/3) Q0 Q ltac:(lra)) as N. pose proof (npow_nonneg (Pe * di / y) (1/3)) as N0.
  set (u := npow (Pe * di / y) (1/3)) in *. set (v := npow (Pe * di / x) (1/3)) in *. clearbody u v.
  pose proof (nu_laminar_arg u N0).
  apply npow_lt; [lra| |lra]. apply Rplus_lt_compat_l.
  set (s := 1.077 * u - 0.7). set (t := 1.077 * v - 0.7). assert (ST : s < t) by (unfold s, t; lra). clearbody s t.
  assert (0 < (t - s) * (t * t + t * s + s * s)); [|nra]. apply Rmult_lt_0_compat; [lra|].
  destruct (Rle_dec s 0), (Rle_dec t 0); try nra. assert (0 < t * t) by nra. nra.
Qed.
Lemma nu_turbulent_x Re Pr di x y : 2300 < Re -> 1 < Pr -> 0 < di -> 0 < x < y ->
  nu_turbulent Re Pr di y < nu_turbulent Re Pr di x.
Proof.
  intros HR HP Hd H. unfold nu_turbulent. fold (fric Re). pose proof (fric_pos Re HR) as F.
  assert (I : / y < / x) by (apply Rinv_lt_contravar; [apply Rmult_lt_0_compat; lra|lra]).
  assert (I0 : 0 < / y) by (apply Rinv_0_lt_compat; lra).
  assert (Q : di / y < di / x) by (apply Rmult_lt_compat_l; assumption).
  assert (Q0 : 0 <= di / y) by (apply Rmult_le_pos; lra).
  pose proof (npow_lt _ _ (2/3) Q0 Q ltac:(lra)) as N.
  pose proof (npow_ge1 Pr (2/3) HP ltac:(lra)) as P1. pose proof (sqrt_pos (fric Re / 8)) as S0.
  apply Rmult_lt_compat_l; [|lra]. apply Rdiv_lt_0_compat.
  - apply Rmult_lt_0_compat; [lra|]. apply Rmult_lt_0_compat; lra.
  - assert (0 <= 12.7 * (npow Pr (2/3) - 1) * sqrt (fric Re / 8)) by (apply Rmult_le_pos; [apply Rmult_le_pos|]; lra). lra.
Qed.
Lemma alpha_in_x dm T A di x y : dm <> 0 -> 0 <= T <= 100 -> 0 < A -> 0 < di -> 0 < x < y ->
  alpha_in dm T A di y < alpha_in dm T A di x.
Proof.
  intros D0 HT HA Hd H. unfold alpha_in. cbv zeta. pose proof (Pr_bounds T HT) as HP. pose proof (lambda_bounds T HT) as HL.
  pose proof (ny_bounds T HT) as NY. pose proof (rho_bounds T HT) as RH.
  assert (RE : 0 < reynolds dm (rho_water T) A di (ny_water T)).
  { unfold reynolds. apply Rdiv_lt_0_compat; [|lra]. apply Rmult_lt_0_compat; [|lra]. apply Rabs_pos_lt.
    unfold Rdiv. apply Rmult_integral_contrapositive_currified; [exact D0|]. apply Rinv_neq_0_compat.
    assert (0 < rho_water T * A) by (apply Rmult_lt_0_compat; lra). lra. }
  set (Re := reynolds dm _ _ _ _) in *. clearbody Re. unfold Rdiv.
  apply Rmult_lt_compat_r; [apply Rinv_0_lt_compat; lra|]. apply Rmult_lt_compat_r; [lra|].
  destruct (Rlt_dec 2300 Re).
  - apply nu_turbulent_x; lra.
  - apply nu_laminar_x; [apply Rmult_lt_0_compat; lra|lra|lra].
Qed.
Lemma ua_cyl_inner g a1 a2 ai : geo_ok g -> 0 < a1 < a2 -> 0 < ai -> ua_cyl g a1 ai < ua_cyl g a2 ai.
Proof.
  intros G Ha Hi. destruct G. unfold ua_cyl.
  assert (P0 : 0 < 1 / a2) by (apply Rdiv_lt_0_compat; lra).
  assert (P1 : 1 / a2 < 1 / a1).
  { unfold Rdiv. rewrite !Rmult_1_l. apply Rinv_lt_contravar; [apply Rmult_lt_0_compat; lra|lra]. }
  assert (P2 : 0 <= g_rlw g / g_lw g) by (apply Rmult_le_pos; [lra|apply Rlt_le, Rinv_0_lt_compat; lra]).
  assert (P3 : 0 <= g_rli g / g_li g) by (apply Rmult_le_pos; [lra|apply Rlt_le, Rinv_0_lt_compat; lra]).
  assert (P4 : 0 < g_rr g / ai) by (apply Rdiv_lt_0_compat; lra).
  unfold Rdiv at 1 6. apply Rmult_lt_compat_l; [lra|]. apply Rinv_lt_contravar; [apply Rmult_lt_0_compat; lra|lra].
Qed.

Section Cut.
Variables (a : pipe_arg) (k m : nat) (p : prts) (g g1 g2 : geo).
Hypothesis C : cut a k m p g g1 g2.
Hypothesis HD : 0 < pa_di a < pa_do a.
Hypothesis HL : 0 < pa_lam a.
Variables (io Ta : R) (f f1 f2 : flows) (T T1 T2 Tp P1 P2 : arr) (b b1 b2 : buf).
Hypothesis HT1 : front_T k T T1.
Hypothesis HT2 : back_T k m T T2.
Hypothesis HB1 : same_at k 0 b b1.
Hypothesis HB2 : same_at m k b b2.
Let r := pipe_diff g io f T Tp Ta b.
Let r1 := pipe_diff g1 io f1 T1 P1 Ta b1.
Let r2 := pipe_diff g2 io f2 T2 P2 Ta b2.
Let Geo := cut_geo a k m p g g1 g2 C HD HL.

Lemma front_ainf j : (j < k)%nat -> r_ainf r1 j = r_ainf r j.
Proof.
  intro H. destruct Geo as (_ & N1 & _ & _ & LK & _).
  apply (w_ainf g g1 0 io f f1 T T1 Tp P1 Ta b b1 LK); [intros i Hi; rewrite N1 in Hi; apply (HT1 i Hi)|intros i Hi; rewrite N1 in Hi; apply (HB1 i Hi)|rewrite N1; exact H].
Qed.
Lemma back_ainf j : (j < m)%nat -> r_ainf r2 j = r_ainf r (k + j)%nat.
Proof.
  intro H. destruct Geo as (_ & _ & N2 & _ & _ & LK & _).
  apply (w_ainf g g2 k io f f2 T T2 Tp P2 Ta b b2 LK); [intros i Hi; rewrite N2 in Hi; apply (HT2 i Hi)|intros i Hi; rewrite N2 in Hi; apply (HB2 i Hi)|rewrite N2; exact H].
Qed.
Lemma front_ua j : (j < k)%nat -> r_ua r1 j = ua_cyl g (r_ai r1 j) (r_ainf r j).
Proof.
  intro H. destruct Geo as (_ & N1 & _ & _ & LK & _).
  apply (w_ua g g1 0 io f f1 T T1 Tp P1 Ta b b1 LK); [intros i Hi; rewrite N1 in Hi; apply (HT1 i Hi)|intros i Hi; rewrite N1 in Hi; apply (HB1 i Hi)|rewrite N1; exact H].
Qed.
Lemma back_ua j : (j < m)%nat -> r_ua r2 j = ua_cyl g (r_ai r2 j) (r_ainf r (k + j)%nat).
Proof.
  intro H. destruct Geo as (_ & _ & N2 & _ & _ & LK & _).
  apply (w_ua g g2 k io f f2 T T2 Tp P2 Ta b b2 LK); [intros i Hi; rewrite N2 in Hi; apply (HT2 i Hi)|intros i Hi; rewrite N2 in Hi; apply (HB2 i Hi)|rewrite N2; exact H].
Qed.
(** Distances from the inlet. *)
Definition dist (n j : nat) : R := (INR (if Rlt_dec io 0 then n - 1 - j else j)%nat + 1 / 2) * g_gsp g.
Lemma whole_ai j : (j < k + m)%nat -> r_ai r j = alpha_in io (T (S j)) (g_A g) (g_di g) (dist (k + m) j).
Proof.
  intro H. destruct Geo as (N & _ & _ & _ & _ & _ & _ & _ & _ & _ & _ & _ & X & _).
  unfold r, pipe_diff. cbn [part_diff r_ai]. unfold alpha_i, dist. rewrite N. f_equal.
  destruct (Rlt_dec io 0); apply X; lia.
Qed.
Lemma front_ai j : (j < k)%nat -> r_ai r1 j = alpha_in io (T (S j)) (g_A g) (g_di g) (dist k j).
Proof.
  intro H. destruct Geo as (_ & N1 & _ & _ & LK & _ & _ & _ & _ & _ & _ & _ & _ & X & _).
  unfold r1, pipe_diff. cbn [part_diff r_ai]. unfold alpha_i, dist. rewrite N1, (lk_A _ _ LK), (lk_di _ _ LK), (HT1 j H). f_equal.
  destruct (Rlt_dec io 0); apply X; lia.
Qed.
Lemma back_ai j : (j < m)%nat -> r_ai r2 j = alpha_in io (T (S (k + j))) (g_A g) (g_di g) (dist m j).
Proof.
  intro H. destruct Geo as (_ & _ & N2 & _ & _ & LK & _ & _ & _ & _ & _ & _ & _ & _ & X).
  unfold r2, pipe_diff. cbn [part_diff r_ai]. unfold alpha_i, dist. rewrite N2, (lk_A _ _ LK), (lk_di _ _ LK), (HT2 j H). f_equal.
  destruct (Rlt_dec io 0); apply X; lia.
Qed.
Lemma front_same_ua j : 0 <= io -> (j < k)%nat -> r_ua r1 j = r_ua r j.
Proof.
  intros Hi H. rewrite (front_ua j H), (front_ai j H). change (r_ua r j) with (ua_cyl g (r_ai r j) (r_ainf r j)).
  rewrite whole_ai by lia. unfold dist. destruct (Rlt_dec io 0); [lra|]. reflexivity.
Qed.
Lemma back_same_ua j : io <= 0 -> (j < m)%nat -> r_ua r2 j = r_ua r (k + j)%nat.
Proof.
  intros Hi H. rewrite (back_ua j H), (back_ai j H). change (r_ua r (k + j)%nat) with (ua_cyl g (r_ai r (k + j)%nat) (r_ainf r (k + j)%nat)).
  rewrite whole_ai by lia. f_equal. destruct (Req_dec io 0) as [->|N]; [apply alpha_rest|].
  unfold dist. destruct (Rlt_dec io 0); [|lra]. replace (k + m - 1 - (k + j))%nat with (m - 1 - j)%nat by lia. reflexivity.
Qed.

Hypothesis G : geo_ok g.
Hypothesis B : buf_ok g b.
Hypothesis RG : range_ok g T Tp Ta.
Lemma back_more_ua j : 0 < io -> (j < m)%nat -> r_ua r (k + j)%nat < r_ua r2 j.
Proof.
  intros Hi H. destruct Geo as (N & _ & _ & _ & _ & _ & _ & _ & _ & _ & GS & _). pose proof (proj1 C) as Ck.
  rewrite (back_ua j H). change (r_ua r (k + j)%nat) with (ua_cyl g (r_ai r (k + j)%nat) (r_ainf r (k + j)%nat)).
  apply ua_cyl_inner; [exact G| |].
  - split; [apply (ai_pos g lam_mean _ _ false no_heat T Tp Ta b G RG); rewrite N; lia|].
    rewrite (back_ai j H), whole_ai by lia. apply alpha_in_x; [lra|apply RG; rewrite N; lia|apply (ok_A g G)|apply (ok_di g G)|].
    unfold dist. destruct (Rlt_dec io 0); [lra|]. pose proof (pos_INR j). rewrite plus_INR. assert (1 <= INR k) by (apply (le_INR 1); exact Ck).
    split; [apply Rmult_lt_0_compat; lra|apply Rmult_lt_compat_r; lra].
  - apply (ainf_pos g lam_mean _ _ false no_heat T Tp Ta b G B RG). rewrite N. lia.
Qed.
Lemma front_more_ua j : io < 0 -> (j < k)%nat -> r_ua r j < r_ua r1 j.
Proof.
  intros Hi H. destruct Geo as (N & _ & _ & _ & _ & _ & _ & _ & _ & _ & GS & _). pose proof (proj1 (proj2 C)) as Cm.
  rewrite (front_ua j H). change (r_ua r j) with (ua_cyl g (r_ai r j) (r_ainf r j)).
  apply ua_cyl_inner; [exact G| |].
  - split; [apply (ai_pos g lam_mean _ _ false no_heat T Tp Ta b G RG); rewrite N; lia|].
    rewrite (front_ai j H), whole_ai by lia. apply alpha_in_x; [lra|apply RG; rewrite N; lia|apply (ok_A g G)|apply (ok_di g G)|].
    unfold dist. destruct (Rlt_dec io 0); [|lra]. pose proof (pos_INR (k - 1 - j)).
    assert (INR (k - 1 - j) < INR (k + m - 1 - j)) by (apply lt_INR; lia).
    split; [apply Rmult_lt_0_compat; lra|apply Rmult_lt_compat_r; lra].
  - apply (ainf_pos g lam_mean _ _ false no_heat T Tp Ta b G B RG). rewrite N. lia.
Qed.
End Cut.
