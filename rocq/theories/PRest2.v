(** C185: near rest the steps the solver takes push away from the temperature of the surroundings. *)
From Coq Require Import Reals List Arith Bool Lra Lia.
From Verif Require Import MFlow MWater MDiff SFlow SDiff MSolver MHeun MMix MRange SRange SRest LFlow LPoly LWater LDiff LDiff2 LDiff3
  LDiff4 LDiff5 LDiff6 LDiff7 LSolver LHeun LRange LRange2 LMirror LRest LRest2 PRange PRest.
Import ListNotations.
Open Scope R_scope.

(** A plastic pipe of 4 mm inner diameter with 17.5 mm of insulation, two cells of one metre, in a room of 20
    degrees; no flow. *)
Definition gl : geo := {|
  g_n := 2; g_np := 2; g_own := fun i => match i with O => 0%nat | _ => 1%nat end;
  g_A := 1256/100000000; g_V := 1256/100000000; g_gsp := 1; g_di := 4/1000;
  g_x := fun j => INR j + 1/2; g_L := 628/10000;
  g_rt := 2/100; g_rlw := 45/100000; g_rli := 416/100000; g_rr := 1/10;
  g_Ai := 1256/100000; g_As := 1256/10000; g_vert := false;
  g_lw := 4/10; g_li := 4/100; g_mw := 14; g_tbw := 28/10000000;
  g_pgsp := fun _ => 1; g_psub := fun _ => 1; g_pA := fun _ => 1256/100000000;
  g_pw := fun _ => 28/10000000;
  g_swll := 1/1000; g_sins := 1/100; g_Llid := 1/10; g_vlid := false |}.
Lemma gl_ok : geo_ok gl.
Proof. constructor; cbn; intros; try lra; try lia. intros [|[|i]] Hi; cbn in *; lia. Qed.
Lemma gl_x k : (k < g_n gl)%nat -> 0 < g_x gl k.
Proof. intros _. cbn. pose proof (pos_INR k). lra. Qed.
Definition nl : node := mkNode gl (KPipe 0) 20 (fun i => i) [1; 1].

(** One evaluation with both cells at [t] and the ends at 20 degrees. *)
Section Eval.
Variables (t : R) (ports : vec) (b : buf) (f : flows).
Let Tx := ext [t; t].
Let Tp := fun i => nth (nd_ids nl i) ports 0.
Let r := node_res nl Tx Tp (b, f).
Hypothesis Ht : 19 <= t <= 21.
Hypothesis HP : ports = [20; 20].
Hypothesis B : buf_ok gl b.
Hypothesis B1 : b_ainf b 0%nat = b_ainf b 1%nat.
Hypothesis B2 : b_ua b 0%nat = b_ua b 1%nat.
Hypothesis F : ends0 2 f.
Lemma gl_T j : (j < 2)%nat -> Tx (S j) = t.
Proof. intros H. destruct j as [|[|j]]; [reflexivity|reflexivity|lia]. Qed.
Lemma gl_P i : (i < 2)%nat -> Tp i = 20.
Proof. intros H. unfold Tp. rewrite HP. destruct i as [|[|i]]; [reflexivity|reflexivity|lia]. Qed.
Lemma gl_range : range_ok gl Tx Tp 20.
Proof.
  split; [|split; [|lra]].
  - intros j Hj. rewrite gl_T by exact Hj. lra.
  - intros i Hi. rewrite gl_P by exact Hi. lra.
Qed.
Lemma gl_same : r_ua r 0%nat = r_ua r 1%nat /\ r_ainf r 0%nat = r_ainf r 1%nat /\
  r_uap r 0%nat = r_uap r 1%nat /\ r_mcp r 0%nat = r_mcp r 1%nat.
Proof.
  assert (A : r_ainf r 0%nat = r_ainf r 1%nat).
  { change (cyl_alpha_inf (surface_temp (Tx 1%nat) 20 (g_As gl) (b_ainf b 0%nat) (b_ua b 0%nat)) 20 (g_L gl) (g_vert gl) (g_rt gl)
     = cyl_alpha_inf (surface_temp (Tx 2%nat) 20 (g_As gl) (b_ainf b 1%nat) (b_ua b 1%nat)) 20 (g_L gl) (g_vert gl) (g_rt gl)).
    rewrite B1, B2. reflexivity. }
  split; [|split; [exact A|]].
  - change (ua_cyl gl (r_ai r 0%nat) (r_ainf r 0%nat) = ua_cyl gl (r_ai r 1%nat) (r_ainf r 1%nat)). rewrite A. f_equal.
    change (alpha_i gl (fun _ => 0) (fun j => Tx (S j)) 0%nat = alpha_i gl (fun _ => 0) (fun j => Tx (S j)) 1%nat).
    unfold alpha_i. destruct (Rlt_dec 0 0); [lra|]. rewrite (gl_T 0), (gl_T 1) by lia. apply alpha_rest.
  - split.
    + change (ua_port gl Tp (fun j => Tx (S j)) 0%nat = ua_port gl Tp (fun j => Tx (S j)) 1%nat).
      unfold ua_port. rewrite (gl_P 0), (gl_P 1) by lia. reflexivity.
    + reflexivity.
Qed.
Definition kl : R := r_ua r 0%nat + r_uap r 0%nat.
Lemma gl_bounds : 0.021 <= kl <= 0.1209 /\ 64 <= r_mcp r 0%nat <= 67.1 /\ r_uap r 0%nat <= 2/100000.
Proof.
  destruct (ua_bounds gl lam_mean (fun _ => 0) (process_flow_invar 2 2 0 f) false no_heat Tx Tp 20 b gl_ok B gl_range 0%nat ltac:(cbn; lia))
    as (U1 & _ & _ & U2).
  change (r_ua (part_diff gl lam_mean (fun _ => 0) (process_flow_invar 2 2 0 f) false no_heat Tx Tp 20 b) 0%nat) with (r_ua r 0%nat) in *.
  specialize (U2 ltac:(cbn; lra)). cbn [gl g_Ai g_li g_rli] in U2.
  pose proof (part_floor gl lam_mean (fun _ => 0) (process_flow_invar 2 2 0 f) false Tx Tp 20 b 0%nat gl_ok B gl_range gl_x ltac:(cbn; lia)) as U3.
  change (r_ua (part_diff gl lam_mean (fun _ => 0) (process_flow_invar 2 2 0 f) false no_heat Tx Tp 20 b) 0%nat) with (r_ua r 0%nat) in U3.
  unfold ua_floor in U3. cbn [gl g_Ai g_di g_rlw g_lw g_rli g_li g_rr g_L] in U3.
  assert (UP : 0 < r_uap r 0%nat <= 2/100000).
  { change (r_uap r 0%nat) with (ua_port gl Tp (fun j => Tx (S j)) 0%nat). unfold ua_port.
    change (g_own gl 0%nat) with 0%nat. cbv beta. rewrite (gl_P 0), (gl_T 0) by lia. cbn [gl g_pA g_pgsp g_gsp g_pw].
    pose proof (lambda_bounds 20 ltac:(lra)) as L1. pose proof (lambda_bounds t ltac:(lra)) as L2.
    assert (I1 : 0.7 <= 1 / (2 * lambda_water 20)).
    { apply Rmult_le_reg_r with (2 * lambda_water 20); [lra|]. unfold Rdiv. rewrite Rmult_assoc, Rinv_l by lra. lra. }
    assert (I2 : 0.7 <= 1 / (2 * lambda_water t)).
    { apply Rmult_le_reg_r with (2 * lambda_water t); [lra|]. unfold Rdiv. rewrite Rmult_assoc, Rinv_l by lra. lra. }
    set (q := 1 / (2 * lambda_water 20) + 1 / (2 * lambda_water t)). assert (Q : 1.4 <= q) by (unfold q; lra). clearbody q.
    assert (0 < 1256 / 100000000 / q <= 1256/100000000).
    { split; [apply Rdiv_lt_0_compat; lra|]. apply Rmult_le_reg_r with q; [lra|]. unfold Rdiv at 1. rewrite Rmult_assoc, Rinv_l by lra. nra. }
    lra. }
  assert (M : r_mcp r 0%nat = 1256/100000000 * (rho_water t * cp_water t) + 14).
  { unfold r, node_res. cbn [nl nd_kind nd_geo nd_amb fst snd]. unfold pipe_diff. rewrite mcp_val. cbn [gl g_V g_mw].
    rewrite (gl_T 0) by lia. reflexivity. }
  pose proof (rhocp_bounds t ltac:(lra)). split; [unfold kl; lra|]. rewrite M. lra.
Qed.
Lemma gl_tot j : (j < 2)%nat -> r_tot r j = - (kl / r_mcp r 0%nat) * (t - 20).
Proof.
  intros Hj. destruct gl_same as (S1 & _ & S3 & S4). destruct gl_bounds as (_ & M & _).
  destruct F as [F1 F2]. cbn in F2.
  assert (FX : r_mcp r j * r_tot r j = (r_ua r j + r_uap r j) * (20 - t)).
  { pose proof (flux gl lam_mean (fun _ => 0) (process_flow_invar 2 2 0 f) false Tx Tp 20 b gl_ok 0 100 ltac:(lra) ltac:(lra)
      (proj1 gl_range) (proj1 (proj2 gl_range)) ltac:(lra) j Hj) as Q.
    change (part_diff gl lam_mean (fun _ => 0) (process_flow_invar 2 2 0 f) false no_heat Tx Tp 20 b) with r in Q.
    rewrite Q. clear Q. destruct (tb_ends gl lam_mean (fun _ => 0) (process_flow_invar 2 2 0 f) false no_heat Tx Tp 20 b) as [E0 En].
    change (part_diff gl lam_mean (fun _ => 0) (process_flow_invar 2 2 0 f) false no_heat Tx Tp 20 b) with r in E0, En.
    unfold lid_at, at_cell. unfold process_flow_invar. destruct (Rle_dec 0 0); [|lra].
    change (r_tb r (g_n gl)) with (r_tb r 2%nat) in En.
    set (tb := r_tb r) in *. set (ua := r_ua r). set (up := r_uap r). clearbody tb ua up. clear S1 S3 S4 M.
    destruct j as [|[|j]]; [..|lia]; cbn [rsum gl g_n g_np g_own Nat.eqb f_top f_bot f_port];
      rewrite ?(gl_P 0), ?(gl_P 1), ?(gl_T 0), ?(gl_T 1) by lia; unfold fill, put; cbn; rewrite ?F1, ?F2, ?E0, ?En;
      unfold Tx, ext; cbn; ring. }
  assert (X : r_mcp r j = r_mcp r 0%nat /\ r_ua r j + r_uap r j = kl).
  { unfold kl. destruct j as [|[|j]]; [split; reflexivity| |lia]. rewrite S1, S3, S4. split; reflexivity. }
  destruct X as [X1 X2]. rewrite X1, X2 in FX. apply Rmult_eq_reg_l with (r_mcp r 0%nat); [|lra]. rewrite FX. field. lra.
Qed.
Lemma gl_pass : vn_div gl r 0 13000 <= 1.
Proof.
  destruct gl_same as (S1 & _ & S3 & S4). destruct gl_bounds as (K & M & UQ).
  assert (UP : 0 < r_uap r 0%nat) by apply (uap_pos gl lam_mean (fun _ => 0) (process_flow_invar 2 2 0 f) false no_heat Tx Tp 20 b gl_ok gl_range 0%nat ltac:(cbn; lia)).
  assert (UA : 0 < r_ua r 0%nat) by apply (ua_bounds gl lam_mean (fun _ => 0) (process_flow_invar 2 2 0 f) false no_heat Tx Tp 20 b gl_ok B gl_range 0%nat ltac:(cbn; lia)).
  assert (RC : forall j, (j < 2)%nat -> r_rhocp r j = rho_water t * cp_water t).
  { intros j Hj. change (r_rhocp r j) with (rho_water (Tx (S j)) * cp_water (Tx (S j))). rewrite gl_T by exact Hj. reflexivity. }
  pose proof (rhocp_bounds t ltac:(lra)) as RB.
  assert (TB : r_tb r 1%nat <= 2/100000).
  { change (r_tb r 1%nat) with (g_A gl / g_gsp gl * lam_mean (fun j => lambda_water (Tx (S j))) 0%nat + g_tbw gl).
    assert (L : lam_mean (fun j => lambda_water (Tx (S j))) 0%nat <= 681/1000).
    { unfold lam_mean. rewrite (gl_T 0), (gl_T 1) by lia. pose proof (lambda_bounds t ltac:(lra)). apply lam_mean_le0 || idtac.
      replace (2 * lambda_water t * lambda_water t / (lambda_water t + lambda_water t)) with (lambda_water t) by (field; lra). lra. }
    cbn [gl g_A g_gsp g_tbw]. lra. }
  assert (DV : forall a c, 0 < c -> a <= c -> a / c <= 1).
  { intros a c Hc Ha. apply Rmult_le_reg_r with c; [exact Hc|]. unfold Rdiv. rewrite Rmult_assoc, Rinv_l; lra. }
  set (w := rho_water t * cp_water t) in *.
  assert (IW : 0 < / w <= / 3994860).
  { split; [apply Rinv_0_lt_compat; lra|]. apply Rinv_le_contravar; lra. }
  unfold vn_div, vn_diff, amax. change (g_n gl) with 2%nat. change (g_np gl) with 2%nat.
  cbn [Nat.sub rmax]. rewrite !RC by lia. rewrite <- S1, <- S3.
  rewrite !(Rmax_left _ _ (Rle_refl _)). cbn [gl g_A g_gsp g_pA g_psub g_As g_rt g_V].
  unfold kl in K. unfold Rdiv. set (iw := / w) in *. clearbody iw.
  assert (Q : forall a B0, a <= B0 -> 0 <= B0 -> a * iw <= B0 * / 3994860).
  { intros a B0 H1 H2. apply Rle_trans with (B0 * iw); [apply Rmult_le_compat_r; lra|apply Rmult_le_compat_l; lra]. }
  pose proof (Q _ _ TB ltac:(lra)) as Q1. pose proof (Q (r_ua r 0%nat) 0.1209 ltac:(lra) ltac:(lra)) as Q2.
  assert (Q3 : r_uap r 0%nat * iw <= 2/100000 * / 3994860) by (apply Q; lra).
  apply Rmax_lub; [|lra].
  apply Rle_trans with (0.5 * / 0.5); [|lra].
  apply Rmult_le_compat_r; [lra|]. apply Rmax_lub; [apply Rmax_lub|].
  - lra.
  - replace (r_uap r 0%nat * / (1256 * / 100000000 * 1) * 13000 * iw) with (r_uap r 0%nat * iw * (13000 / (1256 / 100000000))) by field. lra.
  - lra.
Qed.
End Eval.

Definition moL : model (buf * flows) := mkModel [node_part nl] [] [] [] (1/1000) (1/100) 2.
Definition mL (d : R) : mem (buf * flows) :=
  mkMem [20; 20] [20; 20] [[20 + d; 20 + d]] [] [[20; 20]] [[0; 0]] [[0; 0]] [(buf0, flows0)] [[0; 0]] [] [] [] [].
(** Defaults of [set_solver] apart from the largest step, which is given. *)
Definition cfL : cfg := mkCfg 20000 1 5 (1/10) (9/10) (1/10).
Definition sL : sst := mkSst 13000 None 5 0 0.

Lemma gl_diff t b f : 19 <= t <= 21 -> buf_ok gl b -> b_ainf b 0%nat = b_ainf b 1%nat -> b_ua b 0%nat = b_ua b 1%nat ->
  ends0 2 f -> exists x b1, 4 <= x <= 24.6 /\ ep_diff (node_part nl) 13000 [20; 20] [t; t] (b, f) =
    ([- (x / 13000) * (t - 20); - (x / 13000) * (t - 20)], None, (b1, node_flows nl f)) /\
    buf_ok gl b1 /\ b_ainf b1 0%nat = b_ainf b1 1%nat /\ b_ua b1 0%nat = b_ua b1 1%nat.
Proof.
  intros Ht B B1 B2 F.
  set (r := node_res nl (ext [t; t]) (fun i => nth (nd_ids nl i) [20; 20] 0) (b, f)).
  pose proof (gl_bounds t [20; 20] b f Ht eq_refl B) as (K & M & _).
  pose proof (gl_same t [20; 20] b f eq_refl B1 B2) as (S1 & S2 & _ & _).
  pose proof (gl_pass t [20; 20] b f Ht eq_refl B B1 B2) as V.
  pose proof (gl_tot t [20; 20] b f Ht eq_refl B B1 B2 F) as D.
  fold r in M, S1, S2, V, D. set (k := kl t [20; 20] b f) in *.
  exists (13000 * (k / r_mcp r 0%nat)), (buf_after r). split; [|split; [|split; [|split]]].
  - assert (Q : k / r_mcp r 0%nat * r_mcp r 0%nat = k) by (field; lra).
    set (q := k / r_mcp r 0%nat) in *. clearbody q. clear V D. assert (0 < q) by nra. nra.
  - unfold node_part. cbn [ep_diff snd]. fold r. change (g_n (nd_geo nl)) with 2%nat. cbn [seq map].
    rewrite (D 0%nat), (D 1%nat) by lia. fold k.
    replace (13000 * (k / r_mcp r 0%nat) / 13000) with (k / r_mcp r 0%nat) by lra.
    assert (N : vn_div_nan (nd_geo nl) r (node_max nl (node_flows nl f)) 13000 = Some (vn_div gl r 0 13000)).
    { unfold vn_div_nan. cbn [nl nd_geo]. change (g_np gl) with 2%nat. cbn [seq existsb gl g_pA g_psub].
      destruct (Req_EM_T _ _) as [E|E]; [exfalso; lra|]. cbn [orb].
      f_equal. f_equal. unfold node_max, flow_pipe. cbn [nl nd_kind]. apply Rabs_R0. }
    rewrite N. destruct (Rlt_dec 1 _) as [L|L]; [exfalso; lra|]. reflexivity.
  - apply (buf_after_ok gl lam_mean (fun _ => 0) (process_flow_invar 2 2 0 f) false no_heat (ext [t; t])
      (fun i => nth (nd_ids nl i) [20; 20] 0) 20 b gl_ok B (gl_range t [20; 20] Ht eq_refl)).
  - exact S2.
  - exact S1.
Qed.

Lemma res_dev d x0 x1 : 0 < d -> 4 <= x0 <= 24.6 -> 4 <= x1 <= 24.6 ->
  let t1 := 20 + d + 13000 * (- (x0 / 13000) * (20 + d - 20)) in
  let t2 := 20 + d + 13000 / 2 * (- (x0 / 13000) * (20 + d - 20) + - (x1 / 13000) * (t1 - 20)) in
  t1 = 20 + d * (1 - x0) /\ 5 * d <= t2 - 20 /\ 0 <= t2 - t1 <= 303 * d.
Proof.
  intros Hd H0 H1 t1 t2. assert (E1 : t1 = 20 + d * (1 - x0)) by (unfold t1; field).
  split; [exact E1|].
  assert (E2 : t2 = 20 + d * (1 - x0 / 2 + x1 * (x0 - 1) / 2)) by (unfold t2; rewrite E1; field).
  assert (A : 4 * (x0 - 1) <= x1 * (x0 - 1) <= 24.6 * 23.6) by nra.
  assert (A1 : 5 <= 1 - x0 / 2 + x1 * (x0 - 1) / 2) by lra.
  rewrite E1, E2. split; [nra|].
  replace (20 + d * (1 - x0 / 2 + x1 * (x0 - 1) / 2) - (20 + d * (1 - x0))) with (d * (x0 / 2 + x1 * (x0 - 1) / 2)) by field.
  split; [apply Rmult_le_pos; lra|]. rewrite (Rmult_comm 303). apply Rmult_le_compat_l; lra.
Qed.

(** The pipe loses heat to the room, nothing flows, both ends and the room are at 20 degrees; the step
    passes the stability check and the error tolerance and is accepted.  Both cells are afterwards at
    least five times as far from 20 degrees as before. *)
Theorem C185_check_refuted : forall d, 0 < d <= 1/20000 ->
  node_ok geo_ok 20 20 2 gl nl /\ loses 19 21 (loss_rate gl) nl /\ 0 < loss_rate gl /\
  exists m1 s1 t1 t2, heun_adaptive moL cfL 1 (mL d) sL = FAccepted 13000 m1 s1 /\
    m_prevE (mL d) = [[20 + d; 20 + d]] /\ m_resE m1 = [[t1; t2]] /\ 5 * d <= t1 - 20 /\ 5 * d <= t2 - 20.
Proof.
  intros d Hd.
  assert (NO : forall lo hi, lo <= 20 <= hi -> node_ok geo_ok lo hi 2 gl nl).
  { intros lo hi H. split; [reflexivity|]. split; [exact gl_ok|]. split; [exact H|]. split; [intros i Hi; exact Hi|].
    repeat split; reflexivity. }
  destruct (C185_rate 19 21 2 gl nl (loss_rate gl) (NO 19 21 ltac:(lra)) ltac:(lra) ltac:(lra) gl_x) as [R1 R2].
  split; [apply NO; lra|]. split; [apply R2; lra|]. split; [exact R1|].
  { destruct (gl_diff (20 + d) buf0 flows0 ltac:(lra) (buf0_ok gl gl_ok) eq_refl eq_refl (flows0_ends 2)) as (x0 & b1 & X0 & E0 & B & B1 & B2).
    set (t1 := 20 + d + 13000 * (- (x0 / 13000) * (20 + d - 20))).
    assert (T1 : t1 = 20 + d * (1 - x0)) by (unfold t1; field).
    destruct (gl_diff t1 b1 (node_flows nl flows0)) as (x1 & b2 & X1 & E1 & _).
    { rewrite T1. nra. }
    { exact B. } { exact B1. } { exact B2. }
    { apply (invar_ends 2 2 0 flows0); [lia|apply flows0_ends]. }
    pose proof (res_dev d x0 x1 ltac:(lra) X0 X1) as W. cbv zeta in W. fold t1 in W.
    set (t2 := 20 + d + 13000 / 2 * (- (x0 / 13000) * (20 + d - 20) + - (x1 / 13000) * (t1 - 20))) in W.
    destruct W as (_ & W1 & W2).
    set (e := (t2 - t1) * 1 / (Rmax (20 + d) t2 * (1 / 1000) + 1 / 100)).
    assert (EE : 0 <= e <= 0.6).
    { unfold e. pose proof (Rmax_l (20 + d) t2). set (q := Rmax (20 + d) t2 * (1 / 1000) + 1 / 100).
      assert (Q : 0.03 <= q) by (unfold q; lra). clearbody q. split; [apply Rmult_le_pos; [lra|left; apply Rinv_0_lt_compat; lra]|].
      apply Rmult_le_reg_r with q; [lra|]. unfold Rdiv. rewrite Rmult_assoc, Rinv_l by lra. nra. }
    assert (A : exists mm, num_attempt moL 13000 (mkMem [20; 20] [20; 20] [[20 + d; 20 + d]] [] [[20; 20]] [[0; 0]] [[0; 0]]
        [(buf0, flows0)] [[0; 0]] [] [] [] []) = (mm, OStable [] (ENum (sqrt ((0 + (e ^ 2 + (e ^ 2 + 0))) / 2)))) /\ m_resE mm = [[t2; t2]]).
    { eexists. split.
      - unfold num_attempt. cbn [moL mo_e mo_n mo_i mo_ports mo_rtol mo_atol m_ports m_prevE m_T m_df0 m_buf m_prevI m_df1 m_resE predict].
        rewrite E0. cbv beta iota zeta.
        change (vadd [20 + d; 20 + d] (vscale 13000 [- (x0 / 13000) * (20 + d - 20); - (x0 / 13000) * (20 + d - 20)])) with [t1; t1].
        cbn [update_ports fold_left map correct imap]. rewrite E1. cbv beta iota zeta. reflexivity.
      - reflexivity. }
    destruct A as (mm & A1 & A2).
    assert (SQ : sqrt ((0 + (e ^ 2 + (e ^ 2 + 0))) / 2) = e).
    { replace ((0 + (e ^ 2 + (e ^ 2 + 0))) / 2) with (e ^ 2) by field. apply sqrt_pow2. lra. }
    rewrite SQ in A1.
    unfold heun_adaptive. cbn [full_loop mL m_ports m_prevE m_prevI m_T m_df0 m_df1 m_buf m_resE m_nT m_nres m_iT m_ires enter sL s_h].
    rewrite A1. cbn [attempt fold_left s_h].
    destruct (Rlt_dec 0 e) as [L|L].
    + destruct (Rlt_dec e 1) as [L1|L1]; [|exfalso; lra]. exists mm. eexists. exists t2, t2. repeat split; assumption.
    + destruct (Req_EM_T e 0) as [L1|L1]; [|exfalso; lra]. exists mm. eexists. exists t2, t2. repeat split; assumption. }
Qed.
Print Assumptions C185_check_refuted.
