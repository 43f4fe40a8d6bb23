(** Signs and bounds of the heat transfer coefficients (C12, C15, C17, C22). *)
From Coq Require Import Reals List Arith Bool Lra Lia.
From Verif Require Import MFlow MWater MDiff SFlow LFlow LWater LDiff.
Import ListNotations.
Open Scope R_scope.

Lemma npow_nonneg x y : 0 <= npow x y.
Proof.
  unfold npow. destruct (Req_EM_T x 0); [lra|]. apply Rlt_le. unfold Rpower. apply exp_pos.
Qed.
Lemma npow_pos x y : 0 < x -> 0 < npow x y.
Proof.
  intros H. unfold npow. destruct (Req_EM_T x 0); [lra|]. unfold Rpower. apply exp_pos.
Qed.
Lemma npow_mono x y e : 0 <= x -> x <= y -> 0 < e -> npow x e <= npow y e.
Proof.
  intros H0 H He. unfold npow. destruct (Req_EM_T x 0) as [->|Nx].
  - destruct (Req_EM_T y 0); [lra|]. apply Rlt_le, exp_pos.
  - destruct (Req_EM_T y 0) as [E|Ny]; [lra|]. apply Rle_Rpower_l; lra.
Qed.
Lemma npow_lt x y e : 0 <= x -> x < y -> 0 < e -> npow x e < npow y e.
Proof.
  intros H0 H He. unfold npow. destruct (Req_EM_T x 0) as [->|Nx].
  - destruct (Req_EM_T y 0); [lra|]. apply exp_pos.
  - destruct (Req_EM_T y 0) as [E|Ny]; [lra|]. unfold Rpower. apply exp_increasing.
    apply Rmult_lt_compat_l; [lra|]. apply ln_increasing; lra.
Qed.
Lemma npow_ge1 x e : 1 < x -> 0 < e -> 1 <= npow x e.
Proof.
  intros H He. unfold npow. destruct (Req_EM_T x 0); [lra|]. unfold Rpower.
  rewrite <- exp_0. apply Rlt_le, exp_increasing. apply Rmult_lt_0_compat; [lra|].
  rewrite <- ln_1. apply ln_increasing; lra.
Qed.

Lemma reynolds_nonneg dm rho A di ny : 0 < di -> 0 < ny -> 0 <= reynolds dm rho A di ny.
Proof.
  intros H1 H2. unfold reynolds, Rdiv. apply Rmult_le_pos.
  - apply Rmult_le_pos; [apply Rabs_pos|lra].
  - apply Rlt_le, Rinv_0_lt_compat, H2.
Qed.

Lemma cube_ge z c : 0 < c -> - c <= z -> - (c * c * c) <= z ^ 3.
Proof.
  intros Hc Hz. assert (0 <= (z + c) * (z * z - c * z + c * c)); [|nra].
  apply Rmult_le_pos; [lra|]. nra.
Qed.
Lemma nu_laminar_pos Pe di x : 0 < nu_laminar Pe di x.
Proof.
  unfold nu_laminar. apply npow_pos.
  pose proof (npow_nonneg (Pe * di / x) (1/3)) as H. set (y := npow _ _) in *.
  assert (E7 : 0.7 = 7/10) by lra. rewrite E7.
  pose proof (cube_ge (1.077 * y - 7/10) (7/10) ltac:(lra) ltac:(lra)). lra.
Qed.

Lemma nu_turbulent_pos Re Pr di x : 2300 < Re -> 1 < Pr -> 0 < nu_turbulent Re Pr di x.
Proof.
  intros HR HP. unfold nu_turbulent.
  assert (L10 : 0 < ln 10) by (rewrite <- ln_1; apply ln_increasing; lra).
  assert (Hlog : 1 < log10 Re).
  { unfold log10. apply Rmult_lt_reg_r with (ln 10); [exact L10|].
    unfold Rdiv. rewrite Rmult_assoc, Rinv_l, Rmult_1_r, Rmult_1_l by lra.
    apply ln_increasing; lra. }
  assert (Hf : 0 < / ((1.8 * log10 Re - 1.5) ^ 2)).
  { apply Rinv_0_lt_compat, pow_lt. lra. }
  set (f := / _) in *.
  pose proof (npow_ge1 Pr (2/3) HP ltac:(lra)). pose proof (sqrt_pos (f/8)).
  pose proof (npow_nonneg (di / x) (2/3)).
  apply Rmult_lt_0_compat; [apply Rdiv_lt_0_compat|].
  - apply Rmult_lt_0_compat; [lra|]. apply Rmult_lt_0_compat; lra.
  - assert (0 <= 12.7 * (npow Pr (2/3) - 1) * sqrt (f/8)); [|lra].
    apply Rmult_le_pos; [|assumption]. apply Rmult_le_pos; lra.
  - lra.
Qed.

Lemma alpha_in_pos dm T A di x : 0 <= T <= 100 -> 0 < di -> 0 < alpha_in dm T A di x.
Proof.
  intros HT Hd. unfold alpha_in. pose proof (lambda_bounds T HT). pose proof (Pr_bounds T HT).
  apply Rdiv_lt_0_compat; [|exact Hd]. apply Rmult_lt_0_compat; [|lra].
  destruct (Rlt_dec 2300 _) as [H1|H1]; [apply nu_turbulent_pos; lra|apply nu_laminar_pos].
Qed.

Lemma cyl_alpha_pos Ts Tinf L v rt : 0 <= (Tinf + Ts) / 2 <= 100 -> 0 < L -> 0 < rt ->
  0 < cyl_alpha_inf Ts Tinf L v rt.
Proof.
  intros HT HL Hr. unfold cyl_alpha_inf. pose proof (lam_air_bounds _ HT).
  apply Rdiv_lt_0_compat; [|exact HL]. apply Rmult_lt_0_compat; [|lra].
  destruct v.
  - pose proof (npow_nonneg (rayleigh Ts Tinf L (ny_dryair ((Tinf + Ts) / 2)) * 0.3466023585520853) (1/6)).
    assert (0 < 0.435 * L / (2 * rt)) by (apply Rdiv_lt_0_compat; lra).
    apply Rplus_lt_0_compat; [|assumption]. apply pow_lt. lra.
  - apply pow_lt. pose proof (npow_nonneg (rayleigh Ts Tinf L (ny_dryair ((Tinf + Ts) / 2)) * 0.3269207911296459) (1/6)). lra.
Qed.

Lemma plane_alpha_nonneg Ts Tinf L v t : 0 <= (Tinf + Ts) / 2 <= 100 -> 0 < L ->
  0 <= plane_alpha_inf Ts Tinf L v t.
Proof.
  intros HT HL. unfold plane_alpha_inf. pose proof (lam_air_bounds _ HT).
  unfold Rdiv at 1. apply Rmult_le_pos; [|apply Rlt_le, Rinv_0_lt_compat, HL].
  apply Rmult_le_pos; [|lra]. destruct v; [apply pow2_ge_0|].
  cbv zeta. set (Ra := rayleigh _ _ _ _).
  destruct (if t then _ else _).
  - destruct (Rle_dec _ 70000); pose proof (npow_nonneg (Ra * 0.40306002707296223) (1/5));
      pose proof (npow_nonneg (Ra * 0.40306002707296223) (1/3)); lra.
  - pose proof (npow_nonneg (Ra * 0.3466023585520853) (1/5)). lra.
Qed.

(** What the constructors of the parts guarantee: positive lengths, areas and conductivities,
    and the outer surface being [1/r_rins] times the inner one (pipe.py 383-417, tes.py 453-472). *)
Record geo_ok (g : geo) : Prop := {
  ok_n : (2 <= g_n g)%nat;
  ok_own : ports_in g;
  ok_A : 0 < g_A g; ok_V : 0 < g_V g; ok_gsp : 0 < g_gsp g; ok_di : 0 < g_di g; ok_L : 0 < g_L g;
  ok_rt : 0 < g_rt g; ok_rlw : 0 <= g_rlw g; ok_rli : 0 <= g_rli g; ok_rr : 0 < g_rr g;
  ok_Ai : 0 < g_Ai g; ok_As : 0 < g_As g; ok_AA : g_Ai g = g_As g * g_rr g;
  ok_lw : 0 < g_lw g; ok_li : 0 < g_li g; ok_mw : 0 <= g_mw g; ok_tbw : 0 <= g_tbw g;
  ok_pgsp : forall i, 0 <= g_pgsp g i; ok_psub : forall i, 0 < g_psub g i;
  ok_pA : forall i, 0 < g_pA g i; ok_pw : forall i, 0 <= g_pw g i;
  ok_sw : 0 <= g_swll g; ok_si : 0 <= g_sins g; ok_Ll : 0 < g_Llid g }.

(** Persistent arrays as any sequence of evaluations leaves them. *)
Definition buf_ok (g : geo) (b : buf) : Prop := forall j, (j < g_n g)%nat ->
  0 < b_ainf b j /\ 0 <= b_ua b j <= b_ainf b j * g_As g.

Lemma buf0_ok g : geo_ok g -> buf_ok g buf0.
Proof.
  intros H j _. cbn. pose proof (ok_As g H). split; [lra|]. split; [lra|]. nra.
Qed.

Lemma between T Tinf As a u : 0 < a -> 0 < As -> 0 <= u <= a * As ->
  exists k, 0 <= k <= 1 /\ surface_temp T Tinf As a u = Tinf + k * (T - Tinf).
Proof.
  intros Ha HA Hu. exists (u / (a * As)). assert (0 < a * As) by (apply Rmult_lt_0_compat; lra).
  split; [|unfold surface_temp; field; lra].
  split; [apply Rmult_le_pos; [lra|apply Rlt_le, Rinv_0_lt_compat; lra]|].
  apply Rmult_le_reg_r with (a * As); [lra|]. unfold Rdiv. rewrite Rmult_assoc, Rinv_l by lra. lra.
Qed.

Lemma ua_cyl_bounds g ai ainf : geo_ok g -> 0 < ai -> 0 < ainf ->
  0 < ua_cyl g ai ainf /\ ua_cyl g ai ainf <= ainf * g_As g /\ ua_cyl g ai ainf <= ai * g_Ai g /\
  (0 < g_rli g -> ua_cyl g ai ainf <= g_Ai g * g_li g / g_rli g).
Proof.
  intros G Ha Hi. destruct G. unfold ua_cyl.
  assert (P1 : 0 < 1 / ai) by (apply Rdiv_lt_0_compat; lra).
  assert (P2 : 0 <= g_rlw g / g_lw g) by (apply Rmult_le_pos; [lra|apply Rlt_le, Rinv_0_lt_compat; lra]).
  assert (P3 : 0 <= g_rli g / g_li g) by (apply Rmult_le_pos; [lra|apply Rlt_le, Rinv_0_lt_compat; lra]).
  assert (P4 : 0 < g_rr g / ainf) by (apply Rdiv_lt_0_compat; lra).
  set (p1 := 1 / ai) in *. set (p2 := g_rlw g / g_lw g) in *. set (p3 := g_rli g / g_li g) in *.
  set (p4 := g_rr g / ainf) in *.
  assert (S : 0 < p1 + p2 + p3 + p4) by lra.
  assert (B : forall p c, 0 < p -> p <= p1 + p2 + p3 + p4 -> c * p = g_Ai g ->
    g_Ai g / (p1 + p2 + p3 + p4) <= c).
  { intros p c Hp Hle E. apply Rmult_le_reg_r with (p1 + p2 + p3 + p4); [exact S|].
    unfold Rdiv. rewrite Rmult_assoc, Rinv_l by lra. rewrite Rmult_1_r, <- E.
    assert (0 < c) by (apply Rmult_lt_reg_r with p; [lra|]; rewrite Rmult_0_l; rewrite E; lra).
    apply Rmult_le_compat_l; lra. }
  split; [apply Rdiv_lt_0_compat; lra|]. split; [|split].
  - apply (B p4); [lra|lra|]. rewrite ok_AA0. unfold p4. field. lra.
  - apply (B p1); [lra|lra|]. unfold p1. field. lra.
  - intros Hr. apply (B p3); [apply Rdiv_lt_0_compat; lra|lra|]. unfold p3. field. lra.
Qed.

Lemma ua_plate_nonneg g ai ainf : geo_ok g -> 0 < ai -> 0 <= ainf -> 0 <= ua_plate g ai ainf.
Proof.
  intros G Ha Hi. unfold ua_plate. destruct (Req_EM_T ainf 0); [lra|]. destruct G.
  apply Rmult_le_pos; [lra|]. apply Rlt_le, Rinv_0_lt_compat.
  assert (0 < 1 / ai) by (apply Rdiv_lt_0_compat; lra).
  assert (0 < 1 / ainf) by (apply Rdiv_lt_0_compat; lra).
  assert (0 <= g_swll g / g_lw g) by (apply Rmult_le_pos; [lra|apply Rlt_le, Rinv_0_lt_compat; lra]).
  assert (0 <= g_sins g / g_li g) by (apply Rmult_le_pos; [lra|apply Rlt_le, Rinv_0_lt_compat; lra]).
  lra.
Qed.

Lemma ua_port_pos g Tp T i : geo_ok g -> (i < g_np g)%nat -> 0 <= Tp i <= 100 ->
  (forall j, (j < g_n g)%nat -> 0 <= T j <= 100) -> 0 < ua_port g Tp T i.
Proof.
  intros G Hi HP HT. unfold ua_port. pose proof (lambda_bounds _ HP).
  pose proof (lambda_bounds _ (HT _ (ok_own g G i Hi))). destruct G.
  specialize (ok_pgsp0 i). specialize (ok_pA0 i). specialize (ok_pw0 i).
  assert (0 <= g_pgsp g i / (2 * lambda_water (Tp i)))
    by (apply Rmult_le_pos; [lra|apply Rlt_le, Rinv_0_lt_compat; lra]).
  assert (0 < g_gsp g / (2 * lambda_water (T (g_own g i)))) by (apply Rdiv_lt_0_compat; lra).
  assert (0 < g_pA g i / (g_pgsp g i / (2 * lambda_water (Tp i)) +
     g_gsp g / (2 * lambda_water (T (g_own g i))))) by (apply Rdiv_lt_0_compat; lra).
  lra.
Qed.

(** One evaluation with water temperatures and ambient between 0 and 100. *)
Definition range_ok (g : geo) (Tx Tp : arr) (Tamb : R) : Prop :=
  (forall j, (j < g_n g)%nat -> 0 <= Tx (S j) <= 100) /\
  (forall i, (i < g_np g)%nat -> 0 <= Tp i <= 100) /\ 0 <= Tamb <= 100.

Section Core.
Variables (g : geo) (lmean : arr -> arr) (dm : arr) (f : flows) (lids : bool)
  (heat : arr -> arr) (Tx Tp : arr) (Tamb : R) (b : buf).
Let r := part_diff g lmean dm f lids heat Tx Tp Tamb b.
Hypothesis G : geo_ok g.
Hypothesis B : buf_ok g b.
Hypothesis H : range_ok g Tx Tp Tamb.

Lemma ts_between j : (j < g_n g)%nat ->
  Rmin (Tx (S j)) Tamb <= r_ts r j <= Rmax (Tx (S j)) Tamb.
Proof.
  intros Hj. destruct (B j Hj) as [B1 B2].
  destruct (between (Tx (S j)) Tamb (g_As g) _ _ B1 (ok_As g G) B2) as [k [Hk E]].
  change (r_ts r j) with (surface_temp (Tx (S j)) Tamb (g_As g) (b_ainf b j) (b_ua b j)). rewrite E.
  unfold Rmin, Rmax. destruct (Rle_dec (Tx (S j)) Tamb); split; nra.
Qed.
Lemma tm_range j : (j < g_n g)%nat -> 0 <= (Tamb + r_ts r j) / 2 <= 100.
Proof.
  intros Hj. pose proof (ts_between j Hj) as T. destruct H as [HT [_ HA]]. specialize (HT j Hj).
  assert (0 <= Rmin (Tx (S j)) Tamb) by (apply Rmin_glb; lra).
  assert (Rmax (Tx (S j)) Tamb <= 100) by (apply Rmax_lub; lra). lra.
Qed.
Lemma ai_pos j : (j < g_n g)%nat -> 0 < r_ai r j.
Proof. intros Hj. apply alpha_in_pos; [apply H, Hj|apply (ok_di g G)]. Qed.
Lemma ainf_pos j : (j < g_n g)%nat -> 0 < r_ainf r j.
Proof. intros Hj. apply cyl_alpha_pos; [apply (tm_range j Hj)|apply (ok_L g G)|apply (ok_rt g G)]. Qed.
Lemma ua_bounds j : (j < g_n g)%nat ->
  0 < r_ua r j /\ r_ua r j <= r_ainf r j * g_As g /\ r_ua r j <= r_ai r j * g_Ai g /\
  (0 < g_rli g -> r_ua r j <= g_Ai g * g_li g / g_rli g).
Proof. intros Hj. apply ua_cyl_bounds; [exact G|apply ai_pos, Hj|apply ainf_pos, Hj]. Qed.
Lemma lid_nonneg k : 0 <= r_lid r k.
Proof.
  pose proof (ok_n g G).
  destruct k; apply ua_plate_nonneg; try exact G.
  - apply ai_pos. lia.
  - apply plane_alpha_nonneg; [apply (tm_range 0); lia|apply (ok_Ll g G)].
  - apply ai_pos. lia.
  - apply plane_alpha_nonneg; [apply (tm_range (g_n g - 1)); lia|apply (ok_Ll g G)].
Qed.
Lemma uap_pos i : (i < g_np g)%nat -> 0 < r_uap r i.
Proof. intros Hi. apply ua_port_pos; [exact G|exact Hi|apply H, Hi|]. intros j Hj. apply H, Hj. Qed.
Lemma mcp_pos j : (j < g_n g)%nat -> 0 < r_mcp r j.
Proof.
  intros Hj. unfold r. rewrite mcp_val. pose proof (proj1 H j Hj) as T.
  pose proof (rho_bounds _ T). pose proof (cp_bounds _ T). destruct G.
  assert (0 < g_V g * (rho_water (Tx (S j)) * cp_water (Tx (S j)))); [|lra].
  apply Rmult_lt_0_compat; [lra|]. apply Rmult_lt_0_compat; lra.
Qed.
Lemma buf_after_ok : buf_ok g (buf_after r).
Proof.
  intros j Hj. destruct (ua_bounds j Hj) as [U1 [U2 _]]. cbn [buf_after b_ainf b_ua].
  split; [apply ainf_pos, Hj|]. lra.
Qed.
End Core.
