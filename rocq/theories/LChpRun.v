(** Lemmas on the CHP plant: factors, outputs, steady operation and concrete histories. *)
From Coq Require Import Reals List Arith Bool Lia Lra Psatz.
From Verif Require Import MChp SChp LChp LChpCurve.
Import ListNotations.
Open Scope R_scope.

Lemma cool_spec i : cool i <-> overtemp (i_T i) = false.
Proof.
  unfold cool. pose proof (overtemp_spec i) as H. destruct (overtemp (i_T i)).
  - split; [|discriminate]. intros [A B]. destruct (proj1 H eq_refl); contradiction.
  - split; [reflexivity|]. intros _. split; intros A; assert (false = true) by (apply H; auto);
      discriminate.
Qed.

(** Forward lemmas: what a step does when its conditions hold. *)
Lemma start_fwd P s i : h_row s = 0 -> p_low P <= asked s i ->
  p_off P <= i_t i + i_dt i - h_down s -> cool i ->
  let s' := chp_step P s i in
  h_row s' = asked s i /\ h_mod s' = asked s i /\ h_bin s' = 1 /\ h_up s' = i_t i + i_dt i /\
  h_down s' = h_down s.
Proof.
  intros Z A O C. apply cool_spec in C. cbv zeta.
  destruct (step_keeps P s i) as (K1&K2&K3&K4&K5&K6&K7). rewrite K7, K1, K2, K4, K5.
  assert (D : decide P i s = chp_protect i
     (set_sw s (asked s i) 1 true (i_t i + i_dt i) (h_down s) true (h_stopping s))).
  { unfold decide, chp_switch. fold (asked s i).
    apply rlt_false in A. rewrite A. destruct (Req_EM_T (h_row s) 0); [|contradiction].
    apply rlt_false in O. rewrite O, C. reflexivity. }
  rewrite D. unfold chp_protect. rewrite C. cbn. split; [ring|]. repeat split.
Qed.

Lemma stop_fwd P s i : h_row s <> 0 -> asked s i < p_low P ->
  p_on P <= i_t i + i_dt i - h_up s ->
  let s' := chp_step P s i in
  h_row s' = 0 /\ h_mod s' = asked s i /\ h_bin s' = 0 /\ h_up s' = h_up s /\
  h_down s' = i_t i + i_dt i.
Proof.
  intros Z A O. cbv zeta.
  destruct (step_keeps P s i) as (K1&K2&K3&K4&K5&K6&K7). rewrite K7, K1, K2, K4, K5.
  assert (D : decide P i s = chp_protect i
     (set_sw s (asked s i) 0 false (h_up s) (i_t i + i_dt i) (h_starting s) true)).
  { unfold decide, chp_switch. fold (asked s i).
    apply rlt_true in A. rewrite A. destruct (Req_EM_T (h_row s) 0); [contradiction|].
    apply rlt_false in O. rewrite O. reflexivity. }
  rewrite D. unfold chp_protect. cbn. split; [ring|]. repeat split.
Qed.

Lemma hold_fwd P s i : h_row s <> 0 -> asked s i < p_low P ->
  i_t i + i_dt i - h_up s < p_on P -> cool i ->
  let s' := chp_step P s i in
  h_row s' = p_low P /\ h_mod s' = p_low P /\ h_bin s' = 1 /\ h_up s' = h_up s /\
  h_down s' = h_down s.
Proof.
  intros Z A O C. apply cool_spec in C. cbv zeta.
  destruct (step_keeps P s i) as (K1&K2&K3&K4&K5&K6&K7). rewrite K7, K1, K2, K4, K5.
  assert (D : decide P i s = chp_protect i
     (set_sw s (p_low P) 1 true (h_up s) (h_down s) (h_starting s) (h_stopping s))).
  { unfold decide, chp_switch. fold (asked s i).
    apply rlt_true in A. rewrite A. destruct (Req_EM_T (h_row s) 0); [contradiction|].
    apply rlt_true in O. rewrite O. reflexivity. }
  rewrite D. unfold chp_protect. rewrite C. cbn. split; [ring|]. repeat split.
Qed.

Lemma stay_fwd P s i : h_row s <> 0 -> p_low P <= asked s i ->
  Rabs (h_row s - asked s i) / i_dt i <= p_ramp P -> cool i ->
  let s' := chp_step P s i in
  h_row s' = asked s i /\ h_mod s' = asked s i /\ h_bin s' = 1 /\ h_up s' = h_up s /\
  h_down s' = h_down s.
Proof.
  intros Z A O C. apply cool_spec in C. cbv zeta.
  destruct (step_keeps P s i) as (K1&K2&K3&K4&K5&K6&K7). rewrite K7, K1, K2, K4, K5.
  assert (D : decide P i s = chp_protect i
     (set_sw s (asked s i) 1 true (h_up s) (h_down s) (h_starting s) (h_stopping s))).
  { unfold decide, chp_switch. fold (asked s i).
    apply rlt_false in A. rewrite A. destruct (Req_EM_T (h_row s) 0); [contradiction|].
    apply rlt_false in O. rewrite O. reflexivity. }
  rewrite D. unfold chp_protect. rewrite C. cbn. split; [ring|]. repeat split.
Qed.

(** Factors and outputs. *)
Definition fac (s : chp) : Prop :=
  0 <= h_fth s <= 1 /\ 0 <= h_fel s <= h_fgas s /\ h_fgas s <= 1 /\ 0 <= h_fdown s <= 1.

Lemma decide_facs P i s :
  let d := decide P i s in
  h_fth d = h_fth s /\ h_fel d = h_fel s /\ h_fgas d = h_fgas s /\ h_fdown d = h_fdown s /\
  h_last d = h_last s /\ h_rem d = h_rem s.
Proof.
  unfold decide, chp_protect, chp_switch.
  destruct (rlt _ (p_low P)); destruct (Req_EM_T (h_row s) 0);
  repeat match goal with |- context [if ?b then _ else _] => destruct b end;
    cbn; repeat split.
Qed.

Lemma process_fac P i s : fac s -> h_down s <= i_t i + i_dt i -> fac (chp_process P i s).
Proof.
  intros (F1&F2&F3&F4) D. unfold chp_process.
  set (rem := if rlt off_perc (h_fdown s) then _ else _).
  assert (G : forall dur, fac (set_fac s true false (clip01 (chp_startup_th dur))
     (clip01 (chp_startup_el dur)) (clip01 (chp_startup_gas dur)) 0 0)).
  { intros dur. unfold fac. cbn. pose proof (clip01_range (chp_startup_th dur)).
    pose proof (clip01_range (chp_startup_el dur)).
    pose proof (clip01_range (chp_startup_gas dur)). pose proof (clip_el_gas dur).
    repeat split; lra. }
  specialize (G (i_t i + i_dt i - h_up s + rem)). destruct G as (G1&G2&G3&G4). cbn in G1, G2, G3.
  destruct (rlt (h_down s) (h_up s)).
  - assert (Hd : 0 <= (if rlt off_perc (h_fdown s) then 0 else h_fdown s) <= 1)
      by (destruct (rlt off_perc (h_fdown s)); lra).
    destruct (h_starting s); [|unfold fac; cbn; auto].
    destruct (rlt on_perc _); unfold fac; cbn; auto.
    repeat split; try lra; apply Hd.
  - destruct (h_stopping s); [|unfold fac; auto].
    assert (Hs : chp_shutdown_th (i_t i + i_dt i - h_down s) < 1).
    { pose proof down_0. destruct D as [D|D].
      - pose proof (down_decr 0 (i_t i + i_dt i - h_down s) ltac:(lra)). lra.
      - replace (i_t i + i_dt i - h_down s) with 0 by lra. lra. }
    destruct (rlt _ off_perc) eqn:E; unfold fac; cbn.
    + repeat split; try apply F1; try apply F2; lra.
    + apply rlt_false in E. unfold off_perc in E. repeat split; try apply F1; try apply F2; lra.
Qed.

Lemma outputs_facs P s :
  let s' := chp_outputs P s in
  h_fth s' = h_fth s /\ h_fel s' = h_fel s /\ h_fgas s' = h_fgas s /\ h_fdown s' = h_fdown s /\
  h_stopping s' = h_stopping s /\ h_starting s' = h_starting s /\ h_rem s' = h_rem s.
Proof. cbn. repeat split. Qed.

Section R.
Variable P : chp_par.
Hypothesis HP : chp_par_ok P.

Local Lemma Plow : 0 < p_low P. Proof. destruct HP as (_&_&_&_&?&_). lra. Qed.
Local Lemma Pramp : 0 < p_ramp P. Proof. destruct HP as (_&_&_&_&_&_&?&_). lra. Qed.
Local Lemma Ppow : 0 < p_pow P. Proof. apply HP. Qed.
Local Lemma Pp2h : 0 < p_p2h P. Proof. apply HP. Qed.
Local Lemma Peta : 0 < p_eta P. Proof. destruct HP as (_&_&?&_). lra. Qed.

(** Factor forms of the outputs. *)
Definition rel_th (m : R) : R := chp_thermal_power m / chp_thermal_power 1.
Definition rel_gas (m : R) : R := chp_gas_power m / chp_gas_power 1.

Lemma rel_th_range m : 0 <= m <= 1 -> 0 < rel_th m <= 1.
Proof.
  intros M. unfold rel_th. pose proof (thermal_pos m ltac:(lra)).
  pose proof (thermal_pos 1 ltac:(lra)).
  assert (chp_thermal_power m <= chp_thermal_power 1).
  { destruct (Rle_lt_or_eq_dec m 1 (proj2 M)) as [L| ->]; [apply Rlt_le, thermal_incr, L|lra]. }
  split; [apply Rdiv_lt_0_compat; lra|].
  apply Rmult_le_reg_r with (chp_thermal_power 1); [lra|]. unfold Rdiv.
  rewrite Rmult_assoc, Rinv_l by lra. lra.
Qed.

Lemma rel_gas_range m : 0 <= m <= 1 -> m <= rel_gas m <= 1.
Proof.
  intros M. unfold rel_gas. pose proof (gaspow_pos m ltac:(lra)).
  pose proof (gaspow_pos 1 ltac:(lra)).
  assert (chp_gas_power m <= chp_gas_power 1).
  { destruct (Rle_lt_or_eq_dec m 1 (proj2 M)) as [L| ->]; [apply Rlt_le, gaspow_incr, L|lra]. }
  pose proof (gaspow_line m (proj2 M)).
  split; (apply Rmult_le_reg_r with (chp_gas_power 1); [lra|]); unfold Rdiv;
    rewrite Rmult_assoc, Rinv_l by lra; lra.
Qed.

Lemma rel_gas_0 : 0 < rel_gas 0.
Proof. unfold rel_gas. apply Rdiv_lt_0_compat; apply gaspow_pos; lra. Qed.

Lemma out_forms s :
  let s' := chp_outputs P s in
  (h_stopping s = false ->
   h_dQ s' = h_bin s * h_fth s * rel_th (h_mod s) * (p_pow P / p_p2h P) /\ h_last s' = h_dQ s') /\
  (h_stopping s = true -> h_dQ s' = h_last s * h_fdown s /\ h_last s' = h_last s) /\
  h_Pel s' = h_bin s * h_fel s * h_mod s * p_pow P /\
  h_Pgas s' = h_bin s * h_fgas s * rel_gas (h_mod s) * (p_pow P / p_eta P).
Proof.
  pose proof Pp2h. pose proof Peta. pose proof (thermal_pos 1 ltac:(lra)).
  pose proof (gaspow_pos 1 ltac:(lra)).
  cbv zeta. unfold chp_outputs. cbn. split; [|split; [|split]].
  - intros ->. split; [unfold rel_th; field; lra|reflexivity].
  - intros ->. auto.
  - ring.
  - unfold rel_gas. field. lra.
Qed.

(** Invariant of all reachable states when controls stay at most one. *)
Definition good (now : R) (s : chp) : Prop :=
  sane P s /\ fac s /\ h_down s <= now /\ h_mod s <= 1 /\
  0 <= h_last s <= p_pow P / p_p2h P.

Definition within_plate (s : chp) : Prop :=
  0 <= h_Pel s <= p_pow P /\ 0 <= h_dQ s <= p_pow P / p_p2h P /\
  0 <= h_Pgas s <= p_pow P / p_eta P /\ h_Pel s <= p_eta P * h_Pgas s.

Lemma switch_mod i s : sane P s -> 0 < i_dt i -> h_mod s <= 1 ->
  (forall c, i_ctl i = Some c -> c <= 1) -> h_mod (decide P i s) <= 1.
Proof.
  intros Hs Hdt Hm Hc.
  assert (Hl : p_low P <= 1) by (destruct HP as (_&_&_&_&?&?&_); lra).
  pose proof Pramp as Hr. pose proof Plow as Hlow.
  assert (A : asked s i <= 1) by (unfold asked; destruct (i_ctl i); auto).
  assert (Hrow : h_row s <= 1).
  { destruct Hs as [[Z|Z] M]; [lra|]. rewrite <- M by lra. exact Hm. }
  unfold decide, chp_protect.
  assert (M' : h_mod (chp_switch P i s) <= 1).
  { unfold chp_switch. fold (asked s i). set (m := asked s i) in *.
    destruct (rlt m (p_low P)); destruct (Req_EM_T (h_row s) 0);
      try (repeat match goal with |- context [if ?b then _ else _] => destruct b end;
           cbn; lra).
    cbn. destruct (rlt (p_ramp P) (Rabs (h_row s - m) / i_dt i)) eqn:E2; [|exact A].
    apply rlt_true in E2.
    assert (E3 : p_ramp P * i_dt i < Rabs (h_row s - m)).
    { apply Rmult_lt_reg_r with (/ i_dt i); [apply Rinv_0_lt_compat; exact Hdt|].
      rewrite Rmult_assoc, Rinv_r by lra. unfold Rdiv in E2. lra. }
    assert (0 < p_ramp P * i_dt i) by (apply Rmult_lt_0_compat; assumption).
    destruct (Rle_dec (h_row s - m) 0) as [L|L]; [|lra].
    rewrite Rabs_left1 in E3 by lra. lra. }
  destruct (_ && _)%bool; [destruct (_ || _)%bool|]; cbn; lra.
Qed.

Lemma decide_down i s : h_down (decide P i s) = h_down s \/
  h_down (decide P i s) = i_t i + i_dt i.
Proof.
  unfold decide, chp_protect, chp_switch.
  destruct (rlt _ (p_low P)); destruct (Req_EM_T (h_row s) 0);
  repeat match goal with |- context [if ?b then _ else _] => destruct b end; cbn; auto.
Qed.

Lemma out_bounds s : fac s -> h_bin s = 0 \/ h_bin s = 1 /\ 0 <= h_mod s <= 1 ->
  0 <= h_last s <= p_pow P / p_p2h P ->
  within_plate (chp_outputs P s) /\
  0 <= h_last (chp_outputs P s) <= p_pow P / p_p2h P.
Proof.
  intros (F1&F2&F3&F4) B L.
  destruct (out_forms s) as (O1&O2&O3&O4).
  pose proof Ppow as Hp. pose proof Pp2h as H1. pose proof Peta as H2.
  assert (T1 : 0 < p_pow P / p_p2h P) by (apply Rdiv_lt_0_compat; assumption).
  assert (T2 : 0 < p_pow P / p_eta P) by (apply Rdiv_lt_0_compat; assumption).
  assert (E : p_eta P * (p_pow P / p_eta P) = p_pow P) by (field; lra).
  set (A := p_pow P / p_p2h P) in *. set (C := p_pow P / p_eta P) in *.
  assert (dQ : 0 <= h_dQ (chp_outputs P s) <= A /\ 0 <= h_last (chp_outputs P s) <= A).
  { destruct (h_stopping s).
    - destruct (O2 eq_refl) as [-> ->]. split; [|exact L].
      split; [apply Rmult_le_pos; lra|]. nra.
    - destruct (O1 eq_refl) as [Q1 Q2]. rewrite Q2, Q1.
      destruct B as [->|[-> M]]; [rewrite !Rmult_0_l; lra|].
      pose proof (rel_th_range _ M) as RT. set (r := rel_th (h_mod s)) in *.
      assert (0 <= h_fth s * r <= 1) by nra.
      replace (1 * h_fth s * r * A) with ((h_fth s * r) * A) by ring.
      assert (0 <= (h_fth s * r) * A <= A) by nra. auto. }
  destruct dQ as [dQ1 dQ2]. split; [|exact dQ2]. unfold within_plate.
  rewrite O3, O4. destruct B as [->|[-> M]].
  - rewrite !Rmult_0_l, Rmult_0_r. fold A C. repeat split; try lra; apply dQ1.
  - pose proof (rel_gas_range _ M) as RG. set (r := rel_gas (h_mod s)) in *.
    set (m := h_mod s) in *. set (fe := h_fel s) in *. set (fg := h_fgas s) in *.
    fold A C.
    assert (M1 : 0 <= fe * m <= 1) by nra.
    assert (M2 : 0 <= fg * r <= 1) by nra.
    assert (M3 : fe * m <= fg * r) by nra.
    replace (1 * fe * m * p_pow P) with ((fe * m) * p_pow P) by ring.
    replace (1 * fg * r * C) with ((fg * r) * C) by ring.
    replace (p_eta P * (fg * r * C)) with ((fg * r) * p_pow P) by (rewrite <- E; ring).
    repeat split; try apply dQ1; nra.
Qed.

Lemma step_good i s now : good now s -> now <= i_t i -> 0 < i_dt i ->
  (forall c, i_ctl i = Some c -> c <= 1) ->
  good (i_t i + i_dt i) (chp_step P s i) /\ within_plate (chp_step P s i).
Proof.
  intros (G1&G2&G3&G4&G5) Ht Hdt Hc.
  pose proof (step_sane P Plow Pramp i s G1 Hdt) as S1.
  destruct (decide_facs P i s) as (D1&D2&D3&D4&D5&D6).
  pose proof (switch_mod i s G1 Hdt G4 Hc) as SM.
  assert (DD : h_down (decide P i s) <= i_t i + i_dt i) by (destruct (decide_down i s); lra).
  assert (FD : fac (decide P i s)) by (unfold fac; rewrite D1, D2, D3, D4; exact G2).
  pose proof (process_fac P i _ FD DD) as FP.
  destruct (process_keeps P i (decide P i s)) as (K1&K2&K3&K4&K5&K6&K7&K8).
  set (p := chp_process P i (decide P i s)) in *.
  assert (B : h_bin p = 0 \/ h_bin p = 1 /\ 0 <= h_mod p <= 1).
  { rewrite K3, K2. pose proof Plow.
    destruct (decide_sane P Plow Pramp i s G1 Hdt) as [(_&->&X)|(_&->)]; [right|left]; auto.
    split; [reflexivity|]. lra. }
  assert (L : 0 <= h_last p <= p_pow P / p_p2h P) by (rewrite K8, D5; exact G5).
  destruct (out_bounds p FP B L) as [W1 W2].
  split; [|exact W1]. unfold good.
  split; [exact S1|]. change (chp_step P s i) with (chp_outputs P p).
  destruct (outputs_facs P p) as (O1&O2&O3&O4&_). unfold fac. rewrite O1, O2, O3, O4.
  split; [exact FP|]. destruct (outputs_keeps P p) as (Q1&Q2&Q3&Q4&Q5&_).
  rewrite Q5, Q1, K6, K2. auto.
Qed.

Variable s0 : chp.
Variable ins : nat -> chp_in.
Hypothesis Hh : unrejected ins.
Hypothesis H0 : good (i_t (ins O)) s0.
Hypothesis Hc : forall k c, i_ctl (ins k) = Some c -> c <= 1.

Lemma at_good k : good (i_t (ins k)) (chp_at P s0 ins k).
Proof.
  induction k as [|k IH]; [exact H0|]. cbn [chp_at].
  destruct (proj2 Hh k) as [D E]. rewrite E.
  apply (step_good (ins k) _ (i_t (ins k)) IH); [lra|exact D|apply Hc].
Qed.

Lemma at_plate k : within_plate (chp_at P s0 ins (S k)).
Proof.
  cbn [chp_at]. destruct (proj2 Hh k) as [D E].
  apply (step_good (ins k) _ (i_t (ins k)) (at_good k)); [lra|exact D|apply Hc].
Qed.
End R.

Lemma init_good P b start now : chp_par_ok P -> 0 <= now -> start <= 1 ->
  good P now (chp_init P b start).
Proof.
  intros HP Hn Hs.
  assert (0 < p_pow P / p_p2h P) by (apply Rdiv_lt_0_compat; apply HP).
  assert (0 < p_off P /\ 0 < p_on P) by (split; apply HP).
  split; [apply init_sane|]. destruct b; unfold fac; cbn; repeat split; lra.
Qed.

(** Steady operation: constant request, cool, no rejected attempt. *)
Lemma exp_pow64 x : 0 <= x -> ((1 + x / 64) ^ 8) ^ 8 <= exp x.
Proof.
  intros X. replace (exp x) with ((exp (x / 64) ^ 8) ^ 8).
  - apply pow_incr. split; [apply pow_le; lra|]. apply pow_incr. split; [lra|].
    apply exp_ineq1_le.
  - cbn [pow]. rewrite !Rmult_1_r, <- !exp_plus. f_equal. lra.
Qed.

Lemma th_done t : 2000 <= t -> on_perc < chp_startup_th t.
Proof.
  intros T. apply Rlt_le_trans with (chp_startup_th 2000).
  2: { destruct T as [T|<-]; [apply Rlt_le, th_incr, T|lra]. }
  unfold chp_startup_th, on_perc.
  replace (- 8.61423130773867e-3 * 1 * 2000) with (- (17.22846261547734)) by lra.
  rewrite exp_Ropp.
  assert (E : 3000000 < exp 17.22846261547734).
  { eapply Rlt_le_trans; [|apply exp_pow64; lra].
    apply Rlt_le_trans with (6.7 ^ 8); [lra|].
    apply pow_incr. split; [lra|]. lra. }
  set (e := exp 17.22846261547734) in *.
  assert (I : 0 < / e < / 3000000).
  { split; [apply Rinv_0_lt_compat; lra|]. apply Rinv_lt_contravar; lra. }
  assert (D : 0 < 1 + (1 / 4.3715647889609857e-4 - 1) * / e < 1.001) by lra.
  set (d := 1 + (1 / 4.3715647889609857e-4 - 1) * / e) in *.
  apply Rmult_lt_reg_r with d; [lra|]. unfold Rdiv. rewrite Rmult_assoc, Rinv_l by lra. lra.
Qed.

Definition steady_state (P : chp_par) (up m : R) (s : chp) : Prop :=
  h_row s = m /\ h_mod s = m /\ h_bin s = 1 /\ h_up s = up /\ h_down s = - p_off P - 1 /\
  h_rem s = 0 /\ h_fdown s = 0 /\ h_stopping s = false /\
  (h_starting s = true \/ h_starting s = false /\ h_fth s = 1 /\ h_fel s = 1 /\ h_fgas s = 1).

Lemma decide_flags P i s :
  h_row s <> 0 -> p_low P <= asked s i -> cool i ->
  h_starting (decide P i s) = h_starting s /\ h_stopping (decide P i s) = h_stopping s.
Proof.
  intros Z A C. apply cool_spec in C. unfold decide, chp_switch. fold (asked s i).
  apply rlt_false in A. rewrite A. destruct (Req_EM_T (h_row s) 0); [contradiction|].
  unfold chp_protect. rewrite C. cbn. auto.
Qed.

Lemma decide_flags0 P i s :
  h_row s = 0 -> p_low P <= asked s i -> p_off P <= i_t i + i_dt i - h_down s -> cool i ->
  h_starting (decide P i s) = true /\ h_stopping (decide P i s) = h_stopping s.
Proof.
  intros Z A O C. apply cool_spec in C. unfold decide, chp_switch. fold (asked s i).
  apply rlt_false in A. rewrite A. destruct (Req_EM_T (h_row s) 0); [|contradiction].
  apply rlt_false in O. rewrite O, C. unfold chp_protect. rewrite C. cbn. auto.
Qed.

(** The procedure while running with nothing left of an earlier shut-down. *)
Lemma process_run P i d : h_down d < h_up d -> h_fdown d = 0 -> h_rem d = 0 ->
  h_stopping d = false ->
  (h_starting d = true \/ h_starting d = false /\ h_fth d = 1 /\ h_fel d = 1 /\ h_fgas d = 1) ->
  let p := chp_process P i d in
  h_rem p = 0 /\ h_fdown p = 0 /\ h_stopping p = false /\
  (h_starting p = true \/ h_starting p = false /\ h_fth p = 1 /\ h_fel p = 1 /\ h_fgas p = 1) /\
  (2000 <= i_t i + i_dt i - h_up d ->
   h_starting p = false /\ h_fth p = 1 /\ h_fel p = 1 /\ h_fgas p = 1).
Proof.
  intros U F R S C. cbv zeta. unfold chp_process.
  apply rlt_true in U. rewrite U.
  assert (E : rlt off_perc (h_fdown d) = false) by (apply rlt_false; rewrite F; unfold off_perc; lra).
  rewrite E, F, R, S.
  destruct C as [C|(C&C1&C2&C3)]; rewrite C.
  - destruct (rlt on_perc (clip01 (chp_startup_th (i_t i + i_dt i - h_up d + 0)))) eqn:D;
      cbn; repeat split; auto.
    + intros. exfalso. apply rlt_false in D.
      pose proof (th_range (i_t i + i_dt i - h_up d + 0)) as T.
      rewrite clip01_id in D by lra.
      pose proof (th_done (i_t i + i_dt i - h_up d + 0) ltac:(lra)). lra.
    + exfalso. apply rlt_false in D.
      pose proof (th_range (i_t i + i_dt i - h_up d + 0)) as T.
      rewrite clip01_id in D by lra.
      pose proof (th_done (i_t i + i_dt i - h_up d + 0) ltac:(lra)). lra.
    + exfalso. apply rlt_false in D.
      pose proof (th_range (i_t i + i_dt i - h_up d + 0)) as T.
      rewrite clip01_id in D by lra.
      pose proof (th_done (i_t i + i_dt i - h_up d + 0) ltac:(lra)). lra.
    + exfalso. apply rlt_false in D.
      pose proof (th_range (i_t i + i_dt i - h_up d + 0)) as T.
      rewrite clip01_id in D by lra.
      pose proof (th_done (i_t i + i_dt i - h_up d + 0) ltac:(lra)). lra.
  - cbn. repeat split; auto.
Qed.

Section Steady.
Variable P : chp_par.
Hypothesis HP : chp_par_ok P.
Variable m start : R.
Hypothesis Hm : p_low P <= m.
Variable ins : nat -> chp_in.
Hypothesis Hh : unrejected ins.
Hypothesis Hm' : forall k, i_ctl (ins k) = Some m.
Hypothesis Hcool : forall k, cool (ins k).

Lemma stamps k : stamp ins O <= stamp ins k.
Proof.
  induction k as [|k IH]; [lra|]. destruct (proj2 Hh k) as [D E].
  destruct (proj2 Hh (S k)) as [D' _]. unfold stamp at 2. rewrite E. lra.
Qed.

Lemma steady k :
  let s := chp_at P (chp_init P false start) ins (S k) in
  steady_state P (stamp ins O) m s /\
  (2000 <= stamp ins k - stamp ins O ->
   h_starting s = false /\ h_fth s = 1 /\ h_fel s = 1 /\ h_fgas s = 1).
Proof.
  assert (Hlow : 0 < p_low P) by (destruct HP as (_&_&_&_&?&_); lra).
  assert (Hramp : 0 < p_ramp P) by (destruct HP as (_&_&_&_&_&_&?&_); lra).
  assert (Hoff : 0 < p_off P) by apply HP.
  induction k as [|k IH].
  - set (s := chp_init P false start). set (i := ins O).
    assert (A : asked s i = m) by (unfold asked, i; rewrite Hm'; reflexivity).
    destruct (proj2 Hh O) as [D0 _]. pose proof (proj1 Hh) as T0. fold i in D0, T0.
    assert (Off : p_off P <= i_t i + i_dt i - h_down s) by (cbn; lra).
    destruct (start_fwd P s i eq_refl ltac:(rewrite A; exact Hm) Off (Hcool O))
      as (R1&R2&R3&R4&R5).
    destruct (decide_flags0 P i s eq_refl ltac:(rewrite A; exact Hm) Off (Hcool O)) as (F1&F2).
    destruct (decide_facs P i s) as (E1&E2&E3&E4&E5&E6).
    destruct (step_keeps P s i) as (K1&K2&K3&K4&K5&K6&K7).
    destruct (process_run P i (decide P i s)) as (Q1&Q2&Q3&Q4&Q5).
    { rewrite <- K4, <- K5, R4, R5. cbn. lra. }
    { rewrite E4. reflexivity. } { rewrite E6. reflexivity. } { rewrite F2. reflexivity. }
    { left. exact F1. }
    cbn [chp_at]. fold i s. cbv zeta. split.
    + unfold steady_state. rewrite R1, R2, R3, R4, R5, A.
      change (chp_step P s i) with (chp_outputs P (chp_process P i (decide P i s))).
      destruct (outputs_facs P (chp_process P i (decide P i s))) as (O1&O2&O3&O4&O5&O6&O7).
      rewrite O1, O2, O3, O4, O5, O6, O7. repeat split; auto.
    + intros T. exfalso. lra.
  - destruct IH as [(S1&S2&S3&S4&S5&S6&S7&S8&S9) _].
    set (s := chp_at P (chp_init P false start) ins (S k)) in *. set (i := ins (S k)).
    assert (A : asked s i = m) by (unfold asked, i; rewrite Hm'; reflexivity).
    destruct (proj2 Hh (S k)) as [D0 _]. fold i in D0.
    assert (Z : h_row s <> 0) by (rewrite S1; lra).
    destruct (stay_fwd P s i Z ltac:(rewrite A; exact Hm)) as (R1&R2&R3&R4&R5).
    { rewrite A, S1, Rminus_eq_0, Rabs_R0. unfold Rdiv. rewrite Rmult_0_l. lra. }
    { apply Hcool. }
    destruct (decide_flags P i s Z ltac:(rewrite A; exact Hm) (Hcool (S k))) as (F1&F2).
    destruct (decide_facs P i s) as (E1&E2&E3&E4&E5&E6).
    destruct (step_keeps P s i) as (K1&K2&K3&K4&K5&K6&K7).
    pose proof (proj1 Hh) as T0. destruct (proj2 Hh O) as [D1 _].
    destruct (process_run P i (decide P i s)) as (Q1&Q2&Q3&Q4&Q5).
    { rewrite <- K4, <- K5, R4, R5, S4, S5. unfold stamp. lra. }
    { rewrite E4. exact S7. } { rewrite E6. exact S6. } { rewrite F2. exact S8. }
    { rewrite F1, E1, E2, E3. exact S9. }
    change (chp_at P (chp_init P false start) ins (S (S k))) with (chp_step P s i).
    cbv zeta.
    change (chp_step P s i) with (chp_outputs P (chp_process P i (decide P i s))) in *.
    destruct (outputs_facs P (chp_process P i (decide P i s))) as (O1&O2&O3&O4&O5&O6&O7).
    split.
    + unfold steady_state. rewrite R1, R2, R3, R4, R5, A.
      rewrite O1, O2, O3, O4, O5, O6, O7. repeat split; auto.
    + rewrite O1, O2, O3, O6. intros T. apply Q5. rewrite <- K4, R4, S4.
      exact T.
Qed.

Lemma steady_outputs k : 2000 <= stamp ins k - stamp ins O ->
  let s := chp_at P (chp_init P false start) ins (S k) in
  h_Pel s = m * p_pow P /\ h_dQ s = rel_th m * (p_pow P / p_p2h P) /\
  h_Pgas s = rel_gas m * (p_pow P / p_eta P).
Proof.
  intros T. destruct (steady k) as [St F]. specialize (F T). cbv zeta.
  cbn [chp_at] in *. set (i := ins k) in *. set (s := chp_at P (chp_init P false start) ins k) in *.
  change (chp_step P s i) with (chp_outputs P (chp_process P i (decide P i s))) in *.
  set (p := chp_process P i (decide P i s)) in *.
  destruct (outputs_facs P p) as (O1&O2&O3&O4&O5&O6&O7).
  destruct (outputs_keeps P p) as (Q1&Q2&_).
  destruct St as (_&S2&S3&_&_&_&_&S8&_). destruct F as (_&F1&F2&F3).
  rewrite O1 in F1. rewrite O2 in F2. rewrite O3 in F3. rewrite O5 in S8. rewrite Q1 in S2.
  rewrite Q2 in S3.
  destruct (out_forms P HP p) as (U1&_&U3&U4). destruct (U1 S8) as [U5 _].
  rewrite U3, U4, U5, F1, F2, F3, S2, S3. repeat split; ring.
Qed.
End Steady.
