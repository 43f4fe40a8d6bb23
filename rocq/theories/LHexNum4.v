(** Numeric heat exchanger: resolution of the plate and step check (C89, C91). *)
From Coq Require Import Reals List Bool Arith Lra Lia.
From Verif Require Import MFlow MWater MDiff MMix MHexNum SFlow LFlow LDiff LWater LHex SMix SHexNum LHexNum LHexNum2 LHexNum3.
Open Scope R_scope.

Lemma cube_le x y : x <= y -> x ^ 3 <= y ^ 3.
Proof.
  intros H.
  assert (0 <= (y - x) * (x * x + x * y + y * y)).
  { apply Rmult_le_pos; [lra|]. nra. }
  replace (y ^ 3) with (x ^ 3 + (y - x) * (x * x + x * y + y * y)) by ring. lra.
Qed.
(** Laminar flow: the Nusselt number is at least 3. *)
Lemma nusselt_laminar dh x Re Pr : Re <= 2300 -> 3 <= hex_nusselt dh x Re Pr.
Proof.
  intros H. unfold hex_nusselt. destruct (Rlt_dec 2300 Re); [lra|].
  set (P := Re * Pr * dh / x).
  assert (A : -0.343 <= (1.615 * Rpower P (1/3) - 0.7) ^ 3).
  { pose proof (Rpower_pos P (1/3)). replace (-0.343) with ((-0.7) ^ 3) by lra. apply cube_le. lra. }
  assert (B : 0 <= (Rpower (2 / (1 + 22 * Pr)) (1/6) * Rpower P 0.5) ^ 3).
  { apply pow_le. left. apply Rmult_lt_0_compat; apply Rpower_pos. }
  replace 3 with (Rpower 27 (1/3)) at 1.
  - apply Rle_Rpower_l; lra.
  - replace 27 with (Rpower 3 3).
    + rewrite Rpower_mult. replace (3 * (1/3)) with 1 by field. apply Rpower_1. lra.
    + replace 3 with (INR 3) at 2 by (cbn; lra). rewrite Rpower_pow by lra. lra.
Qed.
(** Still water: the heat transfer coefficient is at least [1.7 / d_h]. *)
Lemma alpha_still g T x : 0 < hn_dh g -> hn_corr g <= 2300 -> 0 <= T <= 100 ->
  1.7 / hn_dh g <= hexn_alpha g 0 T x.
Proof.
  intros D C W. unfold hexn_alpha, hex_alpha. cbn [hg_A_chan hg_dh hg_corr hg_x].
  pose proof (lambda_bounds T W). pose proof (Pr_bounds T W).
  set (Re := Rabs (0 / (rho_water T * hn_Ach g)) * hn_dh g / ny_water T + hn_corr g).
  assert (E : Re = hn_corr g).
  { unfold Re. replace (0 / (rho_water T * hn_Ach g)) with 0 by (unfold Rdiv; ring).
    rewrite Rabs_R0. unfold Rdiv. ring. }
  rewrite E. pose proof (nusselt_laminar (hn_dh g) x (hn_corr g) (Pr_water T) C) as N.
  replace (Pr_water T / Pr_water T) with 1 by (field; lra).
  replace (Rpower 1 0.11) with 1 by (unfold Rpower; rewrite ln_1, Rmult_0_r, exp_0; reflexivity).
  unfold Rdiv. apply Rmult_le_compat_r; [left; apply Rinv_0_lt_compat, D|].
  rewrite Rmult_1_r. nra.
Qed.

(** ** Exchange area *)
Section Area.
Variables (n : nat) (L W dp rc sch sp lamw mpp cpw corr : R) (pA pgsp psub pw : arr) (nch : nat * nat).
Let A := plate_area L W dp rc.
Let g := hexn_of n 1 nch L W dp rc sch sp lamw mpp cpw corr pA pgsp psub pw.
Variables (lamT : nat -> R) (f : hflows) (Tx : grid) (Tp : arr) (Ts Tw : R).
Hypothesis HA : 0 < A. Hypothesis Hs : 0 < sch. Hypothesis Hp : 0 < sp. Hypothesis Hl : 0 < lamw.
Hypothesis Hc : 0 < corr <= 2300. Hypothesis HT : 0 <= Ts <= 100. Hypothesis Hd : Tw < Ts.
Hypothesis HX : forall i, (i < n)%nat -> Tx (S i) 1%nat = Ts.
Let io : arr := fun _ => 0.
Let r := hexn_body g lamT io (hexn_flows n io f) Tx Tp.

Lemma area_cell i : (i < n)%nat ->
  hr_ua2 r i 1%nat = A / (1 / hr_alpha r i 0%nat + sp / 2 / lamw) /\
  0 < hr_alpha r i 0%nat /\ 1 / hr_alpha r i 0%nat <= 2 * sch / 1.7.
Proof.
  intros Hi.
  assert (E : hr_alpha r i 0%nat = hexn_alpha g 0 Ts (hn_x g i)).
  { unfold r. cbn [hexn_body hr_alpha Nat.mul Nat.add]. rewrite HX by exact Hi.
    unfold io. f_equal. unfold Rdiv. ring. }
  assert (LB : 1.7 / (sch * 2) <= hr_alpha r i 0%nat).
  { rewrite E. apply (alpha_still g); cbn [g hexn_of hn_dh hn_corr]; lra. }
  assert (P : 0 < 1.7 / (sch * 2)) by (apply Rdiv_lt_0_compat; lra).
  split; [|split; [lra|]].
  - unfold r. cbn [hexn_body hr_ua2 Nat.eqb orb Nat.sub g hexn_of hn_A hn_s hn_lamw].
    fold A. replace (A * INR 1) with A by (cbn; ring). reflexivity.
  - replace (2 * sch / 1.7) with (1 / (1.7 / (sch * 2))) by (field; lra).
    apply Rmult_le_compat_l; [lra|]. apply Rinv_le_contravar; lra.
Qed.

(** Heat leaving the supply water of one channel through its plate. *)
Lemma area_many : (2 * sch / 1.7 + sp / 2 / lamw) * (lamw / (sp / 2)) < INR n ->
  lamw * A / (sp / 2) * (Ts - Tw) < rsum n (fun i => hr_ua2 r i 1%nat * (Ts - Tw)).
Proof.
  intros Hn. set (Rr := 2 * sch / 1.7 + sp / 2 / lamw) in *.
  assert (0 < sp / 2 / lamw) by (apply Rdiv_lt_0_compat; lra).
  assert (0 < 2 * sch / 1.7) by (apply Rdiv_lt_0_compat; lra).
  assert (PR : 0 < Rr) by (unfold Rr; lra).
  assert (B : rsum n (fun _ => A / Rr * (Ts - Tw)) <= rsum n (fun i => hr_ua2 r i 1%nat * (Ts - Tw))).
  { apply rsum_le. intros i Hi. destruct (area_cell i Hi) as (E & P & Q).
    apply Rmult_le_compat_r; [lra|]. rewrite E. unfold Rdiv. apply Rmult_le_compat_l; [lra|].
    pose proof (inv_pos _ P). apply Rinv_le_contravar; unfold Rr; [lra|].
    unfold Rdiv in *. lra. }
  assert (S : forall c, rsum n (fun _ => c) = INR n * c).
  { intros c. clear. induction n as [|m IH]; [cbn; ring|]. cbn [rsum]. rewrite IH, S_INR. ring. }
  rewrite S in B. eapply Rlt_le_trans; [|exact B].
  replace (lamw * A / (sp / 2) * (Ts - Tw)) with (Rr * (lamw / (sp / 2)) * (A / Rr * (Ts - Tw)))
    by (field; split; lra).
  apply Rmult_lt_compat_r; [|exact Hn].
  apply Rmult_lt_0_compat; [apply Rdiv_lt_0_compat; lra|lra].
Qed.
(** With a single row the plate's own resistance is the limit. *)
Lemma area_one : n = 1%nat ->
  rsum n (fun i => hr_ua2 r i 1%nat * (Ts - Tw)) <= lamw * A / (sp / 2) * (Ts - Tw).
Proof.
  intros E1. rewrite E1. cbn [rsum]. rewrite Rplus_0_l.
  destruct (area_cell 0 ltac:(lia)) as (E & P & _).
  apply Rmult_le_compat_r; [lra|]. rewrite E.
  assert (0 < sp / 2 / lamw) by (apply Rdiv_lt_0_compat; lra). pose proof (inv_pos _ P).
  replace (lamw * A / (sp / 2)) with (A / (sp / 2 / lamw)) by (field; split; lra).
  unfold Rdiv at 1 4. apply Rmult_le_compat_l; [lra|]. apply Rinv_le_contravar; lra.
Qed.
End Area.
