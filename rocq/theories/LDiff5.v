(** A sufficient distance to the stability limit for the maximum principle, and concrete parts
    for which the stability check lets a step pass that it should not (C15, C16). *)
From Coq Require Import Reals List Arith Bool Lra Lia QArith Qreals.
From Verif Require Import MFlow MWater MDiff SFlow LFlow LPoly LWater LDiff LDiff2 LDiff3 LDiff4.
Import ListNotations.
Open Scope R_scope.

Lemma rhocp_bounds T : 0 <= T <= 100 -> 3994860 <= rho_water T * cp_water T <= 4225000.
Proof. intros H. pose proof (rho_bounds T H). pose proof (cp_bounds T H). nra. Qed.

Lemma lam_mean_pos lam k : 0 < lam k -> 0 < lam (S k) -> 0 < lam_mean lam k.
Proof.
  intros H1 H2. unfold lam_mean. apply Rdiv_lt_0_compat; [|lra].
  apply Rmult_lt_0_compat; lra.
Qed.
Lemma lam_mean_between lam k a b : 0 < a -> a <= lam k <= b -> a <= lam (S k) <= b -> a <= lam_mean lam k <= b.
Proof.
  intros Ha H1 H2. destruct (lam_mean_laws (lam k) (lam (S k)) ltac:(lra) ltac:(lra)) as [[A B] _].
  unfold lam_mean. split.
  - eapply Rle_trans; [|exact A]. apply Rmin_glb; lra.
  - eapply Rle_trans; [exact B|]. apply Rmax_lub; lra.
Qed.

(** The port criterion of a passed check. *)
Lemma passes_port g r m dt : geo_ok g -> (1 <= g_np g)%nat ->
  (forall j, (j < g_n g)%nat -> 0 < r_rhocp r j) -> 0 <= dt -> vn_div g r m dt <= 1 ->
  exists k, (k < g_n g)%nat /\ forall i, (i < g_np g)%nat ->
    r_uap r i * dt <= 0.5 * (r_rhocp r k * g_pA g i * g_psub g i).
Proof.
  intros G Np Rc Hdt H. destruct G. unfold vn_div in H.
  assert (D : vn_diff g r dt <= 0.5).
  { pose proof (Rmax_l (vn_diff g r dt / 0.5) (m * dt / (g_V g * amax (g_n g) (r_rho r)) / 1)). lra. }
  destruct (amax_in (g_n g) (r_rhocp r) ltac:(lia)) as [k [Hk E]]. exists k. split; [exact Hk|].
  intros i Hi. unfold vn_diff in D.
  assert (Q : amax (g_np g) (fun i => r_uap r i / (g_pA g i * g_psub g i)) * dt / amax (g_n g) (r_rhocp r) <= 0.5).
  { eapply Rle_trans; [|exact D]. eapply Rle_trans; [|apply Rmax_l]. apply Rmax_r. }
  rewrite E in Q. apply div_mono in Q; [|apply Rc, Hk].
  pose proof (amax_ge (g_np g) (fun i => r_uap r i / (g_pA g i * g_psub g i)) i Hi) as A. cbn in A.
  set (am := amax _ _) in A; fold am in Q.
  pose proof (ok_pA i) as a1. pose proof (ok_psub i) as a2.
  assert (a3 : 0 < g_pA g i * g_psub g i) by (apply Rmult_lt_0_compat; lra).
  assert (U : r_uap r i <= am * (g_pA g i * g_psub g i)) by (apply div_mono; [exact a3|exact A]).
  assert (r_uap r i * dt <= am * (g_pA g i * g_psub g i) * dt) by (apply Rmult_le_compat_r; lra).
  assert (am * dt * (g_pA g i * g_psub g i) <= 0.5 * r_rhocp r k * (g_pA g i * g_psub g i)) by (apply Rmult_le_compat_r; lra).
  lra.
Qed.

(** One port at each end: at most one port per cell. *)
Lemma two_ports_cell n own c j x : (2 <= n)%nat -> two_ends n own ->
  (forall i, (i < 2)%nat -> 0 <= c i <= x) -> at_cell 2 own c j <= x.
Proof.
  intros Hn [E0 E1] H. unfold at_cell. cbn [rsum]. rewrite E0, E1.
  pose proof (H 0%nat ltac:(lia)). pose proof (H 1%nat ltac:(lia)).
  destruct (Nat.eqb_spec 0 j), (Nat.eqb_spec (n - 1) j); try lra; lia.
Qed.
Ltac nat_cases := repeat match goal with
  | |- context[Nat.eqb ?a ?b] => destruct (Nat.eqb_spec a b)
  | |- context[Nat.leb ?a ?b] => destruct (Nat.leb_spec a b)
  | |- context[Nat.ltb ?a ?b] => destruct (Nat.ltb_spec a b)
  end; cbn [andb].
Lemma invar_in n own io f j : (2 <= n)%nat -> two_ends n own -> ends0 n f -> (j < n)%nat ->
  let g := process_flow_invar n 2 io f in
  cell_in (f_top g) (f_bot g) 2 own (f_port g) j = Rabs io /\
  0 <= f_top g j /\ 0 <= f_bot g j /\ (forall i, (i < 2)%nat -> 0 <= f_port g i).
Proof.
  intros Hn [E0 E1] [H1 H2] Hj g.
  assert (X : (j = 0%nat -> f_top f j = 0) /\ (j = (n - 1)%nat -> f_bot f j = 0)) by (split; intros ->; assumption).
  destruct X as [X1 X2].
  unfold g, cell_in, at_cell, process_flow_invar. cbn [rsum].
  rewrite E0, E1. destruct (Rle_dec 0 io) as [P|P].
  - rewrite Rabs_right by lra. cbn [f_top f_bot f_port]. unfold fill, put.
    split; [|split; [|split]].
    + nat_cases; try lia; try rewrite X1 by lia; try rewrite X2 by lia; lra.
    + nat_cases; try lia; try rewrite X1 by lia; try lra.
    + nat_cases; try lia; try rewrite X2 by lia; try lra.
    + intros i Hi. nat_cases; try lia; lra.
  - rewrite Rabs_left by lra. cbn [f_top f_bot f_port]. unfold fill, put.
    split; [|split; [|split]].
    + nat_cases; try lia; try rewrite X1 by lia; try rewrite X2 by lia; lra.
    + nat_cases; try lia; try rewrite X1 by lia; try lra.
    + nat_cases; try lia; try rewrite X2 by lia; try lra.
    + intros i Hi. nat_cases; try lia; lra.
Qed.

(** A fixed distance to the limit of the check is enough; [c] is the ratio of outer surface
    times outer radius to the cell volume (2 for a pipe without wall). *)
Lemma kfold c K g io f Tx Tp Tamb b lo hi dt : 0 <= c -> 2.7 + 0.53 * c <= K -> geo_ok g -> buf_ok g b -> g_np g = 2%nat ->
  two_ends (g_n g) (g_own g) -> ends0 (g_n g) f ->
  g_V g = g_A g * g_gsp g -> g_As g * g_rt g <= c * g_V g ->
  (forall i, (i < 2)%nat -> g_pA g i * g_psub g i <= g_V g) ->
  0 <= lo -> hi <= 100 -> (forall j, (j < g_n g)%nat -> lo <= Tx (S j) <= hi) ->
  (forall i, (i < 2)%nat -> lo <= Tp i <= hi) -> lo <= Tamb <= hi -> 0 <= dt ->
  let r := pipe_diff g io f Tx Tp Tamb b in
  vn_div g r (flow_pipe io) (K * dt) <= 1 ->
  forall j, (j < g_n g)%nat -> lo <= Tx (S j) + dt * r_tot r j <= hi.
Proof.
  intros Hc HK G B Hnp Hown He HV HAs HpA Hlo Hhi HT HP HA Hdt r Hv j Hj.
  pose proof (ok_n g G) as Hn.
  assert (HKd : 0 <= K * dt) by (apply Rmult_le_pos; lra).
  assert (HP' : forall i, (i < g_np g)%nat -> lo <= Tp i <= hi) by (intros i Hi; apply HP; lia).
  assert (RG : range_ok g Tx Tp Tamb).
  { repeat split; try lra; intros; [destruct (HT j0 H)|destruct (HT j0 H)|destruct (HP' i H)|destruct (HP' i H)]; lra. }
  assert (RB : forall k, (k < g_n g)%nat -> 3994860 <= r_rhocp r k <= 4225000).
  { intros k Hk. apply (rhocp_bounds (Tx (S k))), RG, Hk. }
  assert (RR : forall k, (k < g_n g)%nat -> 958 < r_rho r k < 1000).
  { intros k Hk. apply (rho_bounds (Tx (S k))), RG, Hk. }
  destruct (passes_inv g r (flow_pipe io) (K * dt) G ltac:(lia)) as [D1 [[k [Hk [_ D2]]] D3]];
    [intros k Hk; specialize (RB k Hk); lra|intros k Hk; specialize (RR k Hk); lra|lra|exact Hv|].
  destruct (passes_port g r (flow_pipe io) (K * dt) G ltac:(lia)) as [kp [Hkp D4]];
    [intros k' Hk'; specialize (RB k' Hk'); lra|lra|exact Hv|].
  pose proof (invar_in (g_n g) (g_own g) io f) as IV.
  assert (PF : process_flow_invar (g_n g) (g_np g) io f = process_flow_invar (g_n g) 2 io f) by (rewrite Hnp; reflexivity).
  destruct (invar_ends (g_n g) 2 io f ltac:(lia) He) as [Z1 Z2].
  assert (LP : forall k', (k' < g_n g)%nat -> 0 < lambda_water (Tx (S k'))).
  { intros k' Hk'. pose proof (lambda_bounds _ (proj1 RG k' Hk')). lra. }
  unfold r, pipe_diff. apply max_principle; try assumption.
  - intros k' Hk'. apply Rlt_le, lam_mean_pos; apply LP; lia.
  - rewrite PF. exact Z1.
  - rewrite PF. exact Z2.
  - intros k' Hk'. rewrite PF. destruct (IV k' Hn Hown He Hk') as [_ [A1 [A2 _]]]. split; assumption.
  - intros i Hi. rewrite PF. destruct (IV 0%nat Hn Hown He ltac:(lia)) as [_ [_ [_ A]]]. apply A. lia.
  - unfold coupling. fold (pipe_diff g io f Tx Tp Tamb b). fold r.
    rewrite PF, Hnp. destruct (IV j Hn Hown He Hj) as [CI _]. rewrite CI.
    pose proof (ok_V g G) as PV.
    assert (M : g_V g * 3994860 <= r_mcp r j).
    { change (r_mcp r j) with (g_V g * r_rhocp r j + g_mw g). pose proof (ok_mw g G).
      specialize (RB j Hj). nra. }
    assert (TB : forall q, (q <= g_n g)%nat -> r_tb r q * (K * dt) <= 0.5 * 4225000 * g_V g).
    { intros q Hq. destruct q as [|q].
      - change (r_tb r 0%nat) with 0. nra.
      - destruct (Nat.eq_dec (S q) (g_n g)) as [E|E].
        + pose proof (tb_ends g lam_mean (fun _ => io) (process_flow_invar (g_n g) (g_np g) io f) false no_heat Tx Tp Tamb b) as [_ E2].
          fold (pipe_diff g io f Tx Tp Tamb b) in E2. fold r in E2. rewrite E, E2. nra.
        + specialize (D1 q ltac:(lia)). specialize (RB (S q) ltac:(lia)).
          rewrite Rmult_assoc, <- HV in D1. nra. }
    pose proof (TB j ltac:(lia)) as T1. pose proof (TB (S j) ltac:(lia)) as T2.
    assert (U1 : r_ua r j * (K * dt) <= 0.5 * c * 4225000 * g_V g).
    { specialize (D3 j Hj). specialize (RB j Hj). rewrite Rmult_assoc in D3.
      assert (0 < g_As g * g_rt g) by (apply Rmult_lt_0_compat; apply G). nra. }
    assert (P1 : at_cell 2 (g_own g) (r_uap r) j * (K * dt) <= 0.5 * 4225000 * g_V g).
    { rewrite Rmult_comm, at_cell_mult.
      apply two_ports_cell with (n := g_n g); try assumption. intros i Hi.
      specialize (D4 i ltac:(lia)). specialize (RB kp Hkp). specialize (HpA i Hi).
      assert (0 < g_pA g i * g_psub g i) by (apply Rmult_lt_0_compat; apply G).
      pose proof (uap_pos g lam_mean (fun _ => io) (process_flow_invar (g_n g) (g_np g) io f) false no_heat Tx Tp Tamb b G RG i ltac:(lia)) as UP.
      fold (pipe_diff g io f Tx Tp Tamb b) in UP. fold r in UP.
      rewrite Rmult_assoc in D4. split; nra. }
    assert (C1 : Rabs io * (K * dt) <= g_V g * 1000).
    { unfold flow_pipe in D2. specialize (RR k Hk). nra. }
    cbn [f_port].
    set (S := r_tb r j + r_tb r (Datatypes.S j) + r_ua r j + 0 + at_cell 2 (g_own g) (r_uap r) j + 4400 * Rabs io).
    assert (S * (K * dt) <= (6337500 + 4400000 + 2112500 * c) * g_V g) by (unfold S; lra).
    assert ((6337500 + 4400000 + 2112500 * c) * g_V g <= K * 3994860 * g_V g) by nra.
    assert (K * (dt * S) <= K * r_mcp r j) by nra.
    apply Rmult_le_reg_l with K; lra.
Qed.
