(** Numeric heat exchanger: step check and port conductances (C90, C91). *)
From Coq Require Import Reals List Bool Arith Lra Lia.
From Verif Require Import MFlow MWater MDiff MMix MHexNum SFlow LFlow LDiff LDiff4 LWater LHex SMix SHexNum LHexNum LHexNum2 LHexNum3 LHexNum4.
Open Scope R_scope.

Lemma gmax_ge m w a i c : (i < m)%nat -> (c < w)%nat -> a i c <= gmax m w a.
Proof.
  intros Hi Hc. unfold gmax.
  eapply Rle_trans; [apply (amax_ge w (fun c => a i c) c Hc)|].
  apply (amax_ge m (fun i => amax w (fun c => a i c)) i Hi).
Qed.
Lemma gmax_le m w a b : (1 <= m)%nat -> (1 <= w)%nat ->
  (forall i c, (i < m)%nat -> (c < w)%nat -> a i c <= b) -> gmax m w a <= b.
Proof.
  intros Hm Hw H. unfold gmax. apply amax_le; [exact Hm|]. intros i Hi.
  apply amax_le; [exact Hw|]. intros c Hc. apply H; assumption.
Qed.

Section Check.
Variables (g : hexn) (lamT : nat -> R) (io : arr) (f : hflows) (Tx : grid) (Tp : arr) (dt : R).
Hypothesis G : hn_ok g.
Hypothesis W : hn_range g Tx Tp.
Let r := hexn_body g lamT io f Tx Tp.
Hypothesis Hdt : 0 < dt.
Hypothesis Hok : hexn_vn_div g io r dt <= 1.

Lemma rc_cell i c : (i < hn_n g)%nat -> (c < 3)%nat -> 0 <= hr_rhocp r i c <= 1000 * 4225.
Proof.
  intros Hi Hc. destruct W as [WT _].
  pose proof (WT i c Hi Hc) as T. pose proof (rho_bounds _ T). pose proof (cp_bounds _ T).
  destruct c as [|[|[|c]]]; [| | |lia]; unfold r; cbn [hexn_body hr_rhocp Nat.eqb].
  - change (0 / 2)%nat with 0%nat. cbn [Nat.mul Nat.add]. split; nra.
  - lra.
  - change (2 / 2)%nat with 1%nat. cbn [Nat.mul Nat.add]. split; nra.
Qed.
Lemma rc_max : 0 < gmax (hn_n g) 3 (hr_rhocp r) <= 1000 * 4225.
Proof.
  pose proof G as (Hn & _). split.
  - eapply Rlt_le_trans; [|apply (gmax_ge _ _ _ 0 0); lia].
    destruct W as [WT _]. pose proof (WT 0%nat 0%nat ltac:(lia) ltac:(lia)) as T.
    pose proof (rho_bounds _ T). pose proof (cp_bounds _ T).
    unfold r. cbn [hexn_body hr_rhocp Nat.eqb]. change (0 / 2)%nat with 0%nat. cbn [Nat.mul Nat.add].
    apply Rmult_lt_0_compat; lra.
  - apply gmax_le; try lia. intros i c Hi Hc. apply rc_cell; assumption.
Qed.

Lemma check_diff i c : (i < hn_n g)%nat -> (c < 4)%nat ->
  hr_ua2 r i c * dt <= 0.5 * (1000 * 4225) * (hn_A g * hn_gsp g).
Proof.
  intros Hi Hc. pose proof rc_max as [R0 R1].
  pose proof G as (Hn & _ & _ & _ & Pg & _ & _ & _ & PA & _).
  unfold hexn_vn_div in Hok. cbv zeta in Hok.
  set (rc := gmax (hn_n g) 3 (hr_rhocp r)) in *.
  match type of Hok with Rmax (Rmax (Rmax ?d0 ?d1) ?d2 / 0.5) ?m <= 1 =>
    pose proof (Rmax_l (Rmax (Rmax d0 d1) d2 / 0.5) m) as X;
    pose proof (Rmax_l (Rmax d0 d1) d2) as Y; pose proof (Rmax_r d0 d1) as Z;
    assert (D : d1 <= 0.5) by lra end.
  set (M := gmax (hn_n g) 4 (hr_ua2 r)) in *.
  assert (U : hr_ua2 r i c <= M) by (apply gmax_ge; assumption).
  assert (P : 0 < hn_A g * hn_gsp g) by (apply Rmult_lt_0_compat; assumption).
  assert (E : M * dt <= 0.5 * rc * (hn_A g * hn_gsp g)).
  { replace (M * dt) with (M / rc * dt / (hn_A g * hn_gsp g) * (rc * (hn_A g * hn_gsp g)))
      by (field; split; [|split]; lra).
    replace (0.5 * rc * (hn_A g * hn_gsp g)) with (0.5 * (rc * (hn_A g * hn_gsp g))) by ring.
    apply Rmult_le_compat_r; [apply Rlt_le, Rmult_lt_0_compat; lra|exact D]. }
  apply Rle_trans with (M * dt); [apply Rmult_le_compat_r; lra|].
  apply Rle_trans with (0.5 * rc * (hn_A g * hn_gsp g)); [exact E|].
  apply Rmult_le_compat_r; lra.
Qed.
Lemma check_flow s : (s < 2)%nat -> Rabs (io s) / INR (hn_div g s) * dt <= hn_V g * 1000.
Proof.
  intros Hs. pose proof G as (Hn & D0 & D1 & _ & _ & _ & _ & _ & _ & PV & _).
  assert (Rm : 0 < gmax (hn_n g) 2 (hr_rho r) <= 1000).
  { destruct W as [WT _]. split.
    - eapply Rlt_le_trans; [|apply (gmax_ge _ _ _ 0 0); lia].
      pose proof (rho_bounds _ (WT 0%nat 0%nat ltac:(lia) ltac:(lia))).
      unfold r. cbn [hexn_body hr_rho Nat.mul Nat.add]. lra.
    - apply gmax_le; try lia. intros i c Hi Hc. unfold r. cbn [hexn_body hr_rho].
      destruct c as [|[|c]]; [| |lia]; cbn [Nat.mul Nat.add].
      + pose proof (rho_bounds _ (WT i 0%nat Hi ltac:(lia))). lra.
      + pose proof (rho_bounds _ (WT i 2%nat Hi ltac:(lia))). lra. }
  unfold hexn_vn_div in Hok. cbv zeta in Hok. set (rm := gmax (hn_n g) 2 (hr_rho r)) in *.
  set (M := amax 2 (fun s => Rabs (Rabs (io s / INR (hn_div g s))))) in *.
  match type of Hok with Rmax ?a ?m <= 1 => pose proof (Rmax_r a m) as X;
    assert (D : m <= 1) by lra end.
  assert (U : Rabs (io s) / INR (hn_div g s) <= M).
  { eapply Rle_trans; [|apply (amax_ge 2 (fun s => Rabs (Rabs (io s / INR (hn_div g s)))) s Hs)].
    cbv beta. rewrite Rabs_Rabsolu. unfold Rdiv. rewrite Rabs_mult, (Rabs_pos_eq (/ INR (hn_div g s))); [lra|].
    left. apply Rinv_0_lt_compat. apply lt_0_INR. destruct s as [|[|s]]; lia. }
  assert (E : M * dt <= hn_V g * rm).
  { replace (M * dt) with (M * dt / (hn_V g * rm) / 1 * (hn_V g * rm)) by (field; split; lra).
    apply Rle_trans with (1 * (hn_V g * rm)); [|lra].
    apply Rmult_le_compat_r; [apply Rlt_le, Rmult_lt_0_compat; lra|exact D]. }
  apply Rle_trans with (M * dt); [apply Rmult_le_compat_r; lra|].
  apply Rle_trans with (hn_V g * rm); [exact E|]. apply Rmult_le_compat_l; lra.
Qed.
End Check.

(** ** An accepted step that overshoots *)
Definition gv : hexn :=
  hexn_of 1 1 (2, 1)%nat (1/2) (1/10) (1/50) 0 (1/500) (1/2000) 15 (1/5) 500 (1/1000000)
    (fun _ => 5/10000) (fun _ => 1/2) (fun _ => 1/2) (fun _ => 0).
Definition Txv : grid := fun i c =>
  match i with 1%nat => match c with 1%nat => 60 | 2%nat => 40 | 3%nat => 60 | _ => 0 end | _ => 0 end.
Definition Tpv : arr := fun _ => 60.
Definition iov : arr := fun _ => 0.

Lemma area_v : 0 < plate_area (1/2) (1/10) (1/50) 0.
Proof. unfold plate_area. pose proof PI_4. lra. Qed.
Lemma gv_ok : hn_ok gv.
Proof.
  pose proof area_v as A. unfold hn_ok, gv, hexn_of.
  cbn [hn_n hn_div fst snd hn_Ach hn_gsp hn_dh hn_s hn_corr hn_A hn_V hn_lamw hn_mcpw hn_uaw hn_x hn_pA hn_pgsp hn_psub hn_pw INR].
  repeat (split; [lia || lra|]). split; [intros; cbn [INR]|intros; lra].
  destruct i as [|i]; [cbn; lra|lia].
Qed.
Lemma gv_range : hn_range gv Txv Tpv.
Proof.
  split.
  - intros i c Hi Hc. unfold gv, hexn_of in Hi; cbn [hn_n] in Hi. destruct i as [|i]; [|lia].
    destruct c as [|[|[|c]]]; cbn [Txv]; try lra; lia.
  - intros p _. unfold Tpv. lra.
Qed.

Lemma overshoot junk : (forall k, 0 <= junk k) ->
  let r := hexn_diff gv junk iov hflows0 Txv Tpv in
  exists dt, 0 < dt /\ hexn_vn_div gv iov r dt <= 1 /\
    Txv 1%nat 1%nat + dt * hr_tot r 0%nat 0%nat = - 2440.
Proof.
  intros HJ r. pose proof area_v as PA. set (A := plate_area (1/2) (1/10) (1/50) 0) in *.
  set (al := hexn_alpha gv 0 60 (hn_x gv 0%nat)).
  assert (AL : 1.7 / (1/500 * 2) <= al).
  { unfold al. apply (alpha_still gv 60 (hn_x gv 0%nat)); unfold gv, hexn_of; cbn [hn_dh hn_corr]; lra. }
  assert (AP : 425 <= al) by lra.
  set (R0 := 1 / al + 1/2000 / 2 / 15).
  assert (IA : 0 < 1 / al <= 1 / 425).
  { split; [apply Rdiv_lt_0_compat; lra|]. unfold Rdiv. apply Rmult_le_compat_l; [lra|].
    apply Rinv_le_contravar; lra. }
  assert (RB : 0 < R0 <= 24 / 10000) by (unfold R0; lra).
  set (ua := A * 1 / R0).
  assert (PU : 0 < ua) by (apply Rdiv_lt_0_compat; lra).
  set (rc := rho_water 60 * cp_water 60).
  pose proof (rho_bounds 60 ltac:(lra)) as BR. pose proof (cp_bounds 60 ltac:(lra)) as BC.
  assert (PC : 0 < rc) by (apply Rmult_lt_0_compat; lra).
  assert (Z : forall k, 0 / INR (hn_div gv k) = 0) by (intros; unfold Rdiv; ring).
  assert (E1 : hr_ua2 r 0%nat 1%nat = ua).
  { unfold r, hexn_diff. cbn [hexn_body hr_ua2 Nat.eqb orb Nat.sub]. unfold iov. rewrite Z. reflexivity. }
  assert (E2 : hr_ua2 r 0%nat 2%nat = ua).
  { unfold r, hexn_diff. cbn [hexn_body hr_ua2 Nat.eqb orb Nat.sub]. unfold iov. rewrite Z. reflexivity. }
  assert (G0 : gmax 1 4 (hr_ua2 r) = ua).
  { unfold gmax, amax. cbn [rmax Nat.sub]. rewrite E1, E2.
    change (hr_ua2 r 0%nat 0%nat) with 0. change (hr_ua2 r 0%nat 3%nat) with 0.
    rewrite (Rmax_right 0 ua), (Rmax_left ua ua), (Rmax_left ua 0); lra. }
  assert (G1 : gmax 1 3 (hr_rhocp r) = rc).
  { unfold gmax, amax. cbn [rmax Nat.sub]. change (hr_rhocp r 0%nat 0%nat) with rc.
    change (hr_rhocp r 0%nat 1%nat) with 0. change (hr_rhocp r 0%nat 2%nat) with rc.
    rewrite (Rmax_left rc 0), (Rmax_left rc rc); lra. }
  assert (G2 : gmax 2 3 (hr_ua1 r) = 0).
  { unfold gmax, amax. cbn [rmax Nat.sub].
    change (hr_ua1 r 0%nat 0%nat) with 0. change (hr_ua1 r 0%nat 1%nat) with 0.
    change (hr_ua1 r 0%nat 2%nat) with 0. change (hr_ua1 r 1%nat 0%nat) with 0.
    change (hr_ua1 r 1%nat 1%nat) with 0. change (hr_ua1 r 1%nat 2%nat) with 0.
    rewrite !(Rmax_left 0 0) by lra. reflexivity. }
  pose proof (lambda_bounds 60 ltac:(lra)) as BL.
  assert (UP : forall p, (p < 4)%nat -> hr_uap r p / (hn_pA gv p * hn_psub gv p) <= 6).
  { intros p Hp.
    assert (E : exists l, 0 <= l /\ hr_uap r p = 5/10000 / (1/2 / (2 * lambda_water 60) + 1/2/1 / (2 * l)) + 0).
    { destruct p as [|[|[|[|p]]]]; [exists (lambda_water 60)|exists (lambda_water 60)|exists (junk 2%nat)|exists (junk 2%nat)|lia];
        (split; [lra || apply HJ|reflexivity]). }
    destruct E as (l & Hl & E). rewrite E.
    change (hn_pA gv p) with (5/10000). change (hn_psub gv p) with (1/2).
    assert (L1 : 0 <= 1/2/1 / (2 * l)).
    { destruct (Req_dec l 0) as [->|N]; [rewrite Rmult_0_r; unfold Rdiv; rewrite Rinv_0; lra|].
      left. apply Rdiv_lt_0_compat; lra. }
    assert (L2 : 1/3 <= 1/2 / (2 * lambda_water 60)).
    { replace (1/2 / (2 * lambda_water 60)) with (1/4 * / lambda_water 60) by (field; lra).
      assert (/ (681/1000) <= / lambda_water 60) by (apply Rinv_le_contravar; lra). lra. }
    set (D := 1/2 / (2 * lambda_water 60) + 1/2/1 / (2 * l)) in *.
    assert (ID : / D <= / (1/3)) by (apply Rinv_le_contravar; unfold D; lra).
    unfold Rdiv at 1 2. lra. }
  set (K := ua / rc / (A * 1 * (1/2/1))).
  assert (KP : 0 < K) by (unfold K; repeat apply Rdiv_lt_0_compat; lra).
  exists (1/2 / K). assert (PD : 0 < 1/2 / K) by (apply Rdiv_lt_0_compat; lra).
  split; [exact PD|]. split.
  - unfold hexn_vn_div. change (hn_n gv) with 1%nat. cbn [Nat.add]. rewrite G0, G1, G2.
    change (hn_A gv) with (A * 1). change (hn_gsp gv) with (1/2/1).
    set (dt := 1/2 / K) in *.
    assert (D1 : ua / rc * dt / (A * 1 * (1/2/1)) = 1/2).
    { unfold dt, K. field. repeat split; lra. }
    assert (D0 : forall x, 0 / rc * dt / x = 0) by (intros; unfold Rdiv; ring).
    assert (M2 : amax 4 (fun p => hr_uap r p / (hn_pA gv p * hn_psub gv p)) <= 6)
      by (apply amax_le; [lia|exact UP]).
    set (m2 := amax 4 (fun p => hr_uap r p / (hn_pA gv p * hn_psub gv p))) in *.
    assert (D2 : m2 / rc * dt <= 1/2).
    { rewrite <- D1. replace (ua / rc * dt / (A * 1 * (1/2/1))) with (ua / (A * 1 * (1/2/1)) / rc * dt)
        by (field; split; lra).
      apply Rmult_le_compat_r; [lra|]. unfold Rdiv at 1 2. apply Rmult_le_compat_r; [left; apply Rinv_0_lt_compat; lra|].
      apply Rle_trans with 6; [exact M2|].
      replace (ua / (A * 1 * (1/2/1))) with (2 / R0) by (unfold ua; field; split; lra).
      assert (/ (24/10000) <= / R0) by (apply Rinv_le_contravar; lra). unfold Rdiv in *. lra. }
    assert (F : amax 2 (fun s => Rabs (Rabs (iov s / INR (hn_div gv s)))) = 0).
    { unfold amax. cbn [rmax Nat.sub]. unfold iov. rewrite !Z, Rabs_R0, Rabs_R0. apply Rmax_left. lra. }
    rewrite F, D0, D1. apply Rmax_lub.
    + assert (Rmax (Rmax 0 (1/2)) (m2 / rc * dt) <= 1/2) by (apply Rmax_lub; [apply Rmax_lub|]; lra). lra.
    + unfold Rdiv. rewrite !Rmult_0_l. lra.
  - pose proof (one_row gv (flat_lam 1 junk (hexn_lam Txv)) iov hflows0 Txv Tpv gv_ok gv_range (hf_new _) eq_refl) as O.
    cbv zeta in O. fold r in O. change (hn_n gv) with 1%nat in O.
    change (hexn_body gv (flat_lam 1 junk (hexn_lam Txv)) iov (hexn_flows 1 iov hflows0) Txv Tpv) with r in O.
    destruct O as (O & _ & _). rewrite E1 in O.
    assert (S : side_heat gv iov Txv Tpv 0 = 0).
    { unfold side_heat, iov. rewrite Ropp_0, (Rmax_left 0 0) by lra. ring. }
    rewrite S in O. unfold Tpv in O. cbn [Txv] in O.
    change (hcap gv Txv 0 0) with (1/500 * A / 1 * rc) in O.
    assert (T : hr_tot r 0%nat 0%nat = -20 * ua / (1/500 * A / 1 * rc)).
    { apply (Rmult_eq_reg_l (1/500 * A / 1 * rc)); [|assert (0 < 1/500 * A / 1 * rc) by (apply Rmult_lt_0_compat; lra); lra].
      rewrite <- O, Z. field. split; lra. }
    rewrite T. cbn [Txv]. unfold K. field. repeat split; lra.
Qed.

(** ** Port conductances *)
Lemma uap_top g junk io f Tx Tp : (2 <= hn_n g)%nat ->
  hr_uap (hexn_diff g junk io f Tx Tp) 2%nat =
    hn_pA g 2%nat / (hn_pgsp g 2%nat / (2 * lambda_water (Tp 2%nat))
      + hn_gsp g / (2 * lambda_water (Tx 2%nat 1%nat))) + hn_pw g 2%nat.
Proof.
  intros Hn. unfold hexn_diff. cbn [hexn_body hr_uap hexn_own]. unfold flat_lam.
  replace (2 <? hn_n g * 2)%nat with true by (symmetry; apply Nat.ltb_lt; lia). reflexivity.
Qed.
Lemma uap_first g junk io f Tx Tp : (1 <= hn_n g)%nat ->
  hr_uap (hexn_diff g junk io f Tx Tp) 0%nat =
    hn_pA g 0%nat / (hn_pgsp g 0%nat / (2 * lambda_water (Tp 0%nat))
      + hn_gsp g / (2 * lambda_water (Tx 1%nat 1%nat))) + hn_pw g 0%nat.
Proof.
  intros Hn. unfold hexn_diff. cbn [hexn_body hr_uap hexn_own]. unfold flat_lam.
  replace (0 <? hn_n g * 2)%nat with true by (symmetry; apply Nat.ltb_lt; lia). reflexivity.
Qed.
Lemma uap_last g junk io f Tx Tp : (1 <= hn_n g)%nat ->
  hr_uap (hexn_diff g junk io f Tx Tp) 3%nat =
    hn_pA g 3%nat / (hn_pgsp g 3%nat / (2 * lambda_water (Tp 3%nat))
      + hn_gsp g / (2 * junk (hn_n g * 3 - 1)%nat)) + hn_pw g 3%nat.
Proof.
  intros Hn. unfold hexn_diff. cbn [hexn_body hr_uap hexn_own]. unfold flat_lam.
  replace (hn_n g * 3 - 1 <? hn_n g * 2)%nat with false by (symmetry; apply Nat.ltb_ge; lia). reflexivity.
Qed.
Lemma uap_method g io f Tx Tp p : (1 <= hn_n g)%nat -> (p < 4)%nat ->
  hr_uap (hexn_diff_method g io f Tx Tp) p =
    hn_pA g p / (hn_pgsp g p / (2 * lambda_water (Tp p))
      + hn_gsp g / (2 * lambda_water (Tx (S (port_row (hn_n g) p)) (S (port_col p))))) + hn_pw g p.
Proof.
  intros Hn Hp. unfold hexn_diff_method. cbn [hexn_body hr_uap].
  rewrite flat_own by assumption. destruct p as [|[|[|[|p]]]]; try lia; reflexivity.
Qed.
