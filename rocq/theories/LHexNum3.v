(** Numeric heat exchanger: examples and counterexamples (C88-C91). *)
From Coq Require Import Reals List Bool Arith Lra Lia.
From Verif Require Import MFlow MWater MDiff MMix MHexNum SFlow LFlow LDiff LWater LHex SMix SHexNum LHexNum LHexNum2.
Open Scope R_scope.

Lemma hexn_alpha_pos g dm T x : 0 < hn_Ach g -> 0 < hn_dh g -> 0 < hn_corr g -> 0 <= T <= 100 ->
  0 < hexn_alpha g dm T x.
Proof.
  intros A D C W. unfold hexn_alpha, hex_alpha. cbn [hg_A_chan hg_dh hg_corr hg_x].
  pose proof (rho_bounds T W). pose proof (ny_bounds T W). pose proof (Pr_bounds T W).
  pose proof (lambda_bounds T W).
  apply Rdiv_lt_0_compat; [|exact D].
  apply Rmult_lt_0_compat; [|lra].
  apply Rmult_lt_0_compat; [|apply Rpower_pos].
  apply hex_nusselt_pos; [|lra].
  apply Rplus_le_lt_0_compat; [|exact C].
  unfold Rdiv. apply Rmult_le_pos; [|left; apply Rinv_0_lt_compat; lra].
  apply Rmult_le_pos; [apply Rabs_pos|lra].
Qed.

(** ** C88: one row, water at 60 and 40 degrees *)
Definition gw (N0 N1 : nat) (A : R) : hexn :=
  {| hn_n := 1; hn_div := fun s => match s with O => N0 | _ => N1 end;
     hn_Ach := 3/10000; hn_gsp := 1/2; hn_dh := 4/1000; hn_s := 5/10000; hn_x := fun _ => 1/4;
     hn_corr := 1/1000000; hn_A := A; hn_V := 2/1000 * A; hn_lamw := 15; hn_mcpw := 100;
     hn_uaw := 1/1000; hn_pA := fun _ => 5/10000; hn_pgsp := fun _ => 1/10;
     hn_psub := fun _ => 3/10; hn_pw := fun _ => 0 |}.
Definition Txw (Tw : R) : grid := fun i c =>
  match i with 1%nat => match c with 1%nat => 60 | 2%nat => Tw | 3%nat => 40 | _ => 0 end | _ => 0 end.
Definition Tpw : arr := fun p => match p with 0%nat => 70 | 1%nat => 60 | 2%nat => 40 | _ => 30 end.
Definition iow (a b : R) : arr := fun s => match s with O => a | _ => - b end.

Lemma gw_ok N0 N1 A : (1 <= N0)%nat -> (1 <= N1)%nat -> 0 < A -> hn_ok (gw N0 N1 A).
Proof.
  intros H0 H1 HA. unfold hn_ok. cbn [gw hn_n hn_div hn_Ach hn_gsp hn_dh hn_s hn_corr hn_A hn_V hn_lamw hn_mcpw hn_uaw hn_x hn_pA hn_pgsp hn_psub hn_pw].
  repeat (split; [lia || lra|]). split; [intros; lra|]. intros p _. lra.
Qed.
Lemma Txw_range N0 N1 A Tw : 0 <= Tw <= 100 -> hn_range (gw N0 N1 A) (Txw Tw) Tpw.
Proof.
  intros H. split.
  - intros i c Hi Hc. cbn [gw hn_n] in Hi. destruct i as [|i]; [|lia].
    destruct c as [|[|[|c]]]; cbn [Txw]; try lra; lia.
  - intros p Hp. destruct p as [|[|[|[|p]]]]; cbn [Tpw]; try lra; lia.
Qed.

Lemma henth_gap a b : 0 <= a <= 100 -> 0 <= b <= 100 -> a * 4225 < b * 4170 -> henth a < henth b.
Proof.
  intros A B H. unfold henth. pose proof (cp_bounds a A). pose proof (cp_bounds b B). nra.
Qed.

Lemma no_balance junk N0 N1 : (1 <= N0)%nat -> (1 <= N1)%nat -> N0 <> N1 ->
  exists A a b Tw, 0 < A /\ 0 < a /\ 0 < b /\ 40 < Tw < 60 /\
  let g := gw N0 N1 A in let io := iow a b in
  let r := hexn_diff g junk io hflows0 (Txw Tw) Tpw in
  steady g r /\
  side_heat g io (Txw Tw) Tpw 0 + side_heat g io (Txw Tw) Tpw 1
    + port_heat g (hr_uap r) (Txw Tw) Tpw <> 0.
Proof.
  intros H0 H1 Hne.
  pose proof (henth_gap 60 70 ltac:(lra) ltac:(lra) ltac:(lra)) as G0.
  pose proof (henth_gap 30 40 ltac:(lra) ltac:(lra) ltac:(lra)) as G1.
  set (D0 := henth 70 - henth 60) in *. set (D1 := henth 40 - henth 30) in *.
  assert (P0 : 0 < D0) by (unfold D0; lra). assert (P1 : 0 < D1) by (unfold D1; lra).
  (* port conductances: independent of flows, plate and wall temperature *)
  set (u := hr_uap (hexn_diff (gw N0 N1 1) junk (iow 0 0) hflows0 (Txw 0) Tpw)).
  assert (Nat1 : 1 <= INR N0 /\ 1 <= INR N1).
  { split; [change 1 with (INR 1)|change 1 with (INR 1)]; apply le_INR; assumption. }
  destruct Nat1 as [NA NB].
  set (U := Rabs (u 0%nat) + Rabs (u 3%nat)).
  set (q := 1 + 20 * (INR N0 + INR N1 + 1) * U).
  pose proof (Rabs_pos (u 0%nat)) as U0. pose proof (Rabs_pos (u 3%nat)) as U3.
  pose proof (Rle_abs (u 0%nat)) as V0. pose proof (Rle_abs (u 3%nat)) as V3.
  pose proof (Rle_abs (- u 0%nat)) as W0. rewrite Rabs_Ropp in W0.
  pose proof (Rle_abs (- u 3%nat)) as W3. rewrite Rabs_Ropp in W3.
  assert (Q : 1 + 60 * U <= q) by (unfold q; assert (0 <= U) by (unfold U; lra); nra).
  assert (QA : 0 < q - 10 * u 0%nat) by (unfold U in *; lra).
  assert (QB : 0 < q - 10 * u 3%nat) by (unfold U in *; lra).
  assert (Q0 : 0 < q) by (unfold U in *; lra).
  set (a := INR N0 * (q - 10 * u 0%nat) / D0).
  set (b := INR N1 * (q - 10 * u 3%nat) / D1).
  assert (Ha : 0 < a) by (apply Rdiv_lt_0_compat; [apply Rmult_lt_0_compat; lra|exact P0]).
  assert (Hb : 0 < b) by (apply Rdiv_lt_0_compat; [apply Rmult_lt_0_compat; lra|exact P1]).
  set (as_ := hexn_alpha (gw N0 N1 1) (a / INR N0) 60 (1/4)).
  set (ad_ := hexn_alpha (gw N0 N1 1) (- b / INR N1) 40 (1/4)).
  assert (Pas : 0 < as_) by (apply hexn_alpha_pos; cbn; lra).
  assert (Pad : 0 < ad_) by (apply hexn_alpha_pos; cbn; lra).
  set (rs := 1 / as_ + 5/10000 / 2 / 15). set (rd := 1 / ad_ + 5/10000 / 2 / 15).
  assert (Rs : 0 < rs) by (unfold rs; pose proof (inv_pos _ Pas); lra).
  assert (Rd : 0 < rd) by (unfold rd; pose proof (inv_pos _ Pad); lra).
  set (A := q * (rs + rd) / 20).
  assert (PA : 0 < A) by (unfold A; apply Rdiv_lt_0_compat; [apply Rmult_lt_0_compat; lra|lra]).
  set (Tw := 60 - 20 * rs / (rs + rd)).
  assert (T1 : 0 < 20 * rs / (rs + rd)) by (apply Rdiv_lt_0_compat; lra).
  assert (T2 : 0 < 20 * rd / (rs + rd)) by (apply Rdiv_lt_0_compat; lra).
  assert (TS : 20 * rs / (rs + rd) + 20 * rd / (rs + rd) = 20) by (field; lra).
  assert (HTw : 40 < Tw < 60) by (unfold Tw; lra).
  exists A, a, b, Tw. split; [exact PA|]. split; [exact Ha|]. split; [exact Hb|]. split; [exact HTw|].
  intros g io r.
  assert (G : hn_ok g) by (apply gw_ok; assumption).
  assert (W : hn_range g (Txw Tw) Tpw) by (apply Txw_range; lra).
  pose proof (one_row g (flat_lam 1 junk (hexn_lam (Txw Tw))) io hflows0 (Txw Tw) Tpw G W (hf_new _) eq_refl)
    as O. cbv zeta in O.
  change (hexn_body g (flat_lam 1 junk (hexn_lam (Txw Tw))) io (hexn_flows (hn_n g) io hflows0) (Txw Tw) Tpw)
    with r in O. destruct O as (O0 & O1 & O2).
  assert (E1 : hr_ua2 r 0%nat 1%nat = A / rs) by reflexivity.
  assert (E2 : hr_ua2 r 0%nat 2%nat = A / rd) by reflexivity.
  assert (EU : forall p, (p < 4)%nat -> hr_uap r p = u p).
  { intros p Hp. destruct p as [|[|[|[|p]]]]; try lia; reflexivity. }
  assert (S0 : side_heat g io (Txw Tw) Tpw 0 = a * D0).
  { unfold side_heat. cbn [io iow Nat.mul Nat.add Tpw g gw hn_n Txw]. unfold D0.
    rewrite (Rmax_right 0 a), (Rmax_left 0 (- a)) by lra. ring. }
  assert (S1 : side_heat g io (Txw Tw) Tpw 1 = - (b * D1)).
  { unfold side_heat. cbn [io iow Nat.mul Nat.add Tpw g gw hn_n Txw]. unfold D1.
    rewrite (Rmax_left 0 (- b)), (Rmax_right 0 (- - b)) by lra. ring. }
  assert (K0 : a * D0 / INR N0 = q - 10 * u 0%nat) by (unfold a; field; lra).
  assert (K1 : b * D1 / INR N1 = q - 10 * u 3%nat) by (unfold b; field; lra).
  assert (F0 : A / rs * (Tw - 60) = - q) by (unfold A, Tw; field; lra).
  assert (F1 : A / rd * (Tw - 40) = q) by (unfold A, Tw; field; lra).
  change (hn_div g 0) with N0 in O0. change (hn_div g 1) with N1 in O2.
  rewrite E1, E2 in *. rewrite !EU in * by lia. rewrite S0 in O0. rewrite S1 in O2.
  cbn [Txw Tpw] in O0, O1, O2.
  assert (Cp : forall c, (c < 3)%nat -> 0 < hcap g (Txw Tw) 0 c)
    by (intros c Hc; apply (hcap_pos g _ Tpw); (assumption || (cbn; lia))).
  assert (Z0 : hr_tot r 0%nat 0%nat = 0).
  { pose proof (Cp 0%nat ltac:(lia)). apply (Rmult_eq_reg_l (hcap g (Txw Tw) 0 0)); [|lra].
    rewrite <- O0, F0, K0. ring. }
  assert (Z1 : hr_tot r 0%nat 1%nat = 0).
  { pose proof (Cp 1%nat ltac:(lia)). apply (Rmult_eq_reg_l (hcap g (Txw Tw) 0 1)); [|lra].
    rewrite <- O1. lra. }
  assert (Z2 : hr_tot r 0%nat 2%nat = 0).
  { pose proof (Cp 2%nat ltac:(lia)). apply (Rmult_eq_reg_l (hcap g (Txw Tw) 0 2)); [|lra].
    rewrite <- O2, F1. replace (- (b * D1) / INR N1) with (- (b * D1 / INR N1)) by (unfold Rdiv; ring).
    rewrite K1. ring. }
  split.
  - intros i c Hi Hc. cbn [g gw hn_n] in Hi. destruct i as [|i]; [|lia].
    destruct c as [|[|[|c]]]; assumption || lia.
  - rewrite S0, S1. unfold port_heat. cbn [rsum port_row port_col g gw hn_n Nat.sub].
    rewrite !EU by lia. cbn [Txw Tpw].
    replace (a * D0) with (INR N0 * (q - 10 * u 0%nat)) by (rewrite <- K0; field; lra).
    replace (b * D1) with (INR N1 * (q - 10 * u 3%nat)) by (rewrite <- K1; field; lra).
    intro Z.
    assert (Z' : (INR N0 - INR N1) * q = 10 * u 0%nat * (INR N0 - 1) - 10 * u 3%nat * (INR N1 - 1)) by lra.
    assert (QQ : 10 * u 0%nat * (INR N0 - 1) - 10 * u 3%nat * (INR N1 - 1) < q
      /\ - (10 * u 0%nat * (INR N0 - 1) - 10 * u 3%nat * (INR N1 - 1)) < q).
    { unfold q, U. split; nra. }
    destruct (Nat.lt_total N0 N1) as [L|[L|L]]; [|contradiction|].
    + assert (INR N0 + 1 <= INR N1) by (rewrite <- S_INR; apply le_INR; lia). nra.
    + assert (INR N1 + 1 <= INR N0) by (rewrite <- S_INR; apply le_INR; lia). nra.
Qed.
