(** C184: a pipe works the same in both directions: where it does not. *)
From Coq Require Import Reals List Arith Bool Lra Lia.
From Verif Require Import MFlow MWater MDiff SFlow LFlow LWater LDiff LDiff2 LDiff4 LRange3 PAlpha SMirror LMirror PMirror.
Import ListNotations.
Local Open Scope R_scope.

(** A pipe with water leaving at both ends, all of it at the same temperature: the last cell loses
    heat at another rate than the same cell counted from the other end, because the position of
    the cells is taken from the direction in the first cell (precomp_funs.py 4384-4387). *)
Theorem C184_branched_refuted : forall g io f f' T0 Tamb b,
  geo_ok g -> buf_ok g b -> (1 <= g_np g)%nat -> sorted_ports (g_n g) (g_np g) (g_own g) -> rsum (g_np g) io = 0 ->
  0 <= T0 <= 100 -> 0 <= Tamb <= 100 -> Tamb <> T0 ->
  at_cell (g_np g) (g_own g) io 0 < 0 -> at_cell (g_np g) (g_own g) io (g_n g - 1) < 0 ->
  - at_cell (g_np g) (g_own g) io (g_n g - 1) / (rho_water T0 * g_A g) * g_di g / ny_water T0 <= 2300 ->
  0 < g_x g 0%nat < g_x g (g_n g - 1)%nat ->
  r_tot (branched_diff (mirror_geo g) (mirror_io g io) f' (fun _ => T0) (fun _ => T0) Tamb (mirror_buf g b)) 0%nat
  <> r_tot (branched_diff g io f (fun _ => T0) (fun _ => T0) Tamb b) (g_n g - 1)%nat.
Proof.
  intros g io f f' T0 Tamb b G B Hp S0 Z H0 HA NE O1 O2 L X.
  pose proof G as []. pose proof (sorted_mirror _ _ _ S0) as S1.
  pose proof (dm_val (g_n g) (g_np g) (g_own g) io Hp S0 Z) as D.
  pose proof (dm_val (g_n g) (g_np g) _ (rev_arr (g_np g) io) Hp S1 (eq_trans (rev_sum _ _) Z)) as D'.
  set (d := - at_cell (g_np g) (g_own g) io (g_n g - 1)) in *.
  assert (DL : above (g_np g) (g_own g) io (g_n g - 2) = d).
  { pose proof (above_step (g_np g) (g_own g) io (g_n g - 2)) as Q. replace (S (g_n g - 2)) with (g_n g - 1)%nat in Q by lia.
    rewrite (above_last (g_n g) (g_np g) (g_own g) io ltac:(lia) S0 Z) in Q. unfold d. lra. }
  set (dm := snd (process_flow_var (g_n g) (g_np g) (g_own g) io f)).
  assert (F0 : dm 0%nat < 0).
  { unfold dm, process_flow_var. cbn [snd]. rewrite put_ne by lia. rewrite D, above_0. exact O1. }
  assert (FL : dm (g_n g - 1)%nat = d).
  { unfold dm, process_flow_var. cbn [snd]. rewrite put_eq, D. exact DL. }
  set (dm' := snd (process_flow_var (g_n g) (g_np g) (fun i => (g_n g - 1 - g_own g (g_np g - 1 - i))%nat) (rev_arr (g_np g) io) f')).
  assert (F0' : dm' 0%nat = - d).
  { unfold dm', process_flow_var. cbn [snd]. rewrite put_ne by lia. rewrite D'.
    rewrite above_mirror by (assumption || lia). rewrite Nat.sub_0_r, DL. reflexivity. }
  assert (Pd : 0 < d) by (unfold d; lra).
  (* the two coefficients *)
  assert (NA : alpha_i g dm (fun _ => T0) (g_n g - 1)%nat <> alpha_i (mirror_geo g) dm' (fun _ => T0) 0%nat).
  { pose proof (C109_branched_refuted g dm (fun _ => T0) (g_n g - 1)%nat G ltac:(lia) H0 F0 ltac:(lra)) as Q.
    rewrite FL in Q. specialize (Q L ltac:(lra)). replace (g_n g - 1 - (g_n g - 1))%nat with 0%nat in Q by lia.
    specialize (Q ltac:(lra) ltac:(lra)). intro EQ. apply Q. rewrite EQ. unfold alpha_i, dist_from_inlet.
    cbn [mirror_geo g_n g_x g_A g_di]. rewrite F0', FL. destruct (Rlt_dec (- d) 0); [|lra]. destruct (Rlt_dec d 0); [lra|].
    rewrite alpha_opp, Nat.sub_0_r. reflexivity. }
  assert (P1 : 0 < alpha_i g dm (fun _ => T0) (g_n g - 1)%nat) by (apply alpha_in_pos; assumption).
  assert (P2 : 0 < alpha_i (mirror_geo g) dm' (fun _ => T0) 0%nat) by (apply alpha_in_pos; assumption).
  unfold branched_diff. rewrite !tot_val.
  rewrite (cond_val g) by lia. rewrite (cond_val (mirror_geo g)) by (cbn [mirror_geo g_n]; lia). rewrite !adv_val.
  unfold lid_at. cbn [part_diff r_tb r_ua r_mcp r_heat]. unfold no_heat.
  assert (ZC : forall m own (c : nat -> R) j, (forall i, c i = 0) -> at_cell m own c j = 0).
  { intros m own c j HC. unfold at_cell. apply rsum_zero. intros i _. rewrite HC. destruct (_ =? _)%nat; reflexivity. }
  rewrite !ZC by (intro i; unfold Rdiv; ring). fold dm. cbn [mirror_geo g_n g_np g_own]. unfold mirror_io. fold dm'.
  change (g_V (mirror_geo g)) with (g_V g). change (g_mw (mirror_geo g)) with (g_mw g).
  pose proof (rho_bounds _ H0) as HR. pose proof (cp_bounds _ H0) as HC.
  set (mcp := g_V g * (rho_water T0 * cp_water T0) + g_mw g) in *.
  assert (PM : 0 < mcp).
  { unfold mcp. assert (0 < rho_water T0 * cp_water T0) by (apply Rmult_lt_0_compat; lra).
    assert (0 < g_V g * (rho_water T0 * cp_water T0)) by (apply Rmult_lt_0_compat; assumption). lra. }
  change (b_ainf (mirror_buf g b) 0%nat) with (b_ainf b (g_n g - 1 - 0)%nat).
  change (b_ua (mirror_buf g b) 0%nat) with (b_ua b (g_n g - 1 - 0)%nat). rewrite !Nat.sub_0_r.
  change (g_As (mirror_geo g)) with (g_As g). change (g_L (mirror_geo g)) with (g_L g).
  change (g_vert (mirror_geo g)) with (g_vert g). change (g_rt (mirror_geo g)) with (g_rt g).
  change (fun j : nat => T0) with (fun _ : nat => T0).
  set (ainf := cyl_alpha_inf (surface_temp T0 Tamb (g_As g) (b_ainf b (g_n g - 1)%nat) (b_ua b (g_n g - 1)%nat)) Tamb (g_L g)
    (g_vert g) (g_rt g)).
  assert (PI : 0 < ainf).
  { apply (ainf_pos g lam_mean dm (fst (process_flow_var (g_n g) (g_np g) (g_own g) io f)) false no_heat
      (fun _ => T0) (fun _ => T0) Tamb b G B ltac:(split; [|split]; intros; assumption) (g_n g - 1)%nat ltac:(lia)). }
  set (a1 := alpha_i g dm (fun _ => T0) (g_n g - 1)%nat) in *. set (a2 := alpha_i (mirror_geo g) dm' (fun _ => T0) 0%nat) in *.
  clearbody a1 a2 ainf mcp. intro EQ.
  assert (UE : ua_cyl (mirror_geo g) a2 ainf = ua_cyl g a1 ainf).
  { apply (Rmult_eq_reg_r ((Tamb - T0) * / mcp)).
    - match type of EQ with ?x = ?y => transitivity x; [unfold Rdiv; ring|rewrite EQ; unfold Rdiv; ring] end.
    - apply Rmult_integral_contrapositive_currified; [lra|]. apply Rinv_neq_0_compat. lra. }
  unfold ua_cyl in UE. cbn [mirror_geo g_Ai g_rlw g_lw g_rli g_li g_rr] in UE.
  assert (Q1 : 0 <= g_rlw g / g_lw g) by (apply Rmult_le_pos; [lra|left; apply Rinv_0_lt_compat; lra]).
  assert (Q2 : 0 <= g_rli g / g_li g) by (apply Rmult_le_pos; [lra|left; apply Rinv_0_lt_compat; lra]).
  assert (Q3 : 0 < g_rr g / ainf) by (apply Rdiv_lt_0_compat; lra).
  assert (V1 : 0 < 1 / a1) by (apply Rdiv_lt_0_compat; lra). assert (V2 : 0 < 1 / a2) by (apply Rdiv_lt_0_compat; lra).
  unfold Rdiv in UE at 1 5. apply Rmult_eq_reg_l in UE; [|lra].
  apply (f_equal Rinv) in UE. rewrite !Rinv_inv in UE.
  apply NA. assert (W : 1 / a2 = 1 / a1) by lra. unfold Rdiv in W. rewrite !Rmult_1_l in W.
  apply (f_equal Rinv) in W. rewrite !Rinv_inv in W. congruence.
Qed.
Print Assumptions C184_branched_refuted.

(** ** The stability check *)
Lemma mirror_ok g : geo_ok g -> geo_ok (mirror_geo g).
Proof.
  intros []. constructor; cbn [mirror_geo g_n g_np g_own g_A g_V g_gsp g_di g_x g_L g_rt g_rlw g_rli g_rr g_Ai g_As g_vert g_lw
    g_li g_mw g_tbw g_pgsp g_psub g_pA g_pw g_swll g_sins g_Llid g_vlid]; unfold rev_arr; auto.
  intros i Hi. cbn [mirror_geo g_n g_np g_own] in *. lia.
Qed.

(** Conduction between two cells is compared with the capacity of the later one only
    (precomp_funs.py 684-690): a step that the check lets pass is refused for the same pipe
    described from the other end, as soon as it would be refused with the capacity of the earlier
    one. *)
Theorem C184_check_refuted : forall g io f f' Tx Tp Tamb b dt s k, geo_ok g -> g_np g = 2%nat ->
  range_ok g Tx Tp Tamb -> 0 <= dt -> (S k < g_n g)%nat ->
  let r := pipe_diff g io f Tx Tp Tamb b in
  let r' := pipe_diff (mirror_geo g) (- io) f' (mirror_ext g Tx) (rev_arr (g_np g) Tp) Tamb (mirror_buf g b) in
  vn_div g r (flow_pipe io) dt <= 1 ->
  0.5 * (r_rhocp r k * g_A g * g_gsp g) < r_tb r (S k) * dt ->
  stability_check (vn_div g r (flow_pipe io) dt) dt s = s /\
  st_ok (stability_check (vn_div (mirror_geo g) r' (flow_pipe (- io)) dt) dt s) = false.
Proof.
  intros g io f f' Tx Tp Tamb b dt s k G Hp H Hdt Hk. cbv zeta.
  set (r := pipe_diff g io f Tx Tp Tamb b).
  set (r' := pipe_diff (mirror_geo g) (- io) f' (mirror_ext g Tx) (rev_arr (g_np g) Tp) Tamb (mirror_buf g b)).
  intros Q W. split.
  { unfold stability_check. destruct (Rlt_dec 1 _); [lra|reflexivity]. }
  assert (RP : forall j, (j < g_n g)%nat -> 0 < r_rho r j /\ 0 < r_rhocp r j).
  { intros j Hj. pose proof (rho_bounds _ (proj1 H j Hj)). pose proof (cp_bounds _ (proj1 H j Hj)).
    unfold r, pipe_diff. cbn [part_diff r_rho r_rhocp]. split; [lra|]. apply Rmult_lt_0_compat; lra. }
  assert (HT : forall j, (j < g_n g + 2)%nat -> mirror_ext g Tx j = Tx (g_n g + 1 - j)%nat).
  { intros j Hj. unfold mirror_ext, rev_arr. f_equal. lia. }
  assert (E1 : forall j, (j < g_n g)%nat -> r_rhocp r' j = r_rhocp r (g_n g - 1 - j)%nat).
  { intros j Hj. unfold r', r, pipe_diff. apply mir_rhocp; try exact HT; try exact Hj; destruct G; lia. }
  assert (E2 : forall j, (j < g_n g)%nat -> r_rho r' j = r_rho r (g_n g - 1 - j)%nat).
  { intros j Hj. unfold r', r, pipe_diff. apply mir_rho; try exact HT; try exact Hj; destruct G; lia. }
  assert (E3 : forall j, (j <= g_n g)%nat -> r_tb r' j = r_tb r (g_n g - j)%nat).
  { intros j Hj. unfold r', r, pipe_diff. apply mir_tb; try exact HT; try exact Hj; destruct G; lia. }
  unfold stability_check. destruct (Rlt_dec 1 (vn_div (mirror_geo g) r' (flow_pipe (- io)) dt)) as [V|V]; [reflexivity|exfalso].
  apply Rnot_lt_le in V.
  apply (passes_inv (mirror_geo g) r' (flow_pipe (- io)) dt (mirror_ok g G)) in V.
  - destruct V as [V _]. specialize (V (g_n g - 2 - k)%nat ltac:(cbn [mirror_geo g_n]; lia)).
    rewrite E1, E3 in V by lia. change (g_A (mirror_geo g)) with (g_A g) in V. change (g_gsp (mirror_geo g)) with (g_gsp g) in V.
    replace (g_n g - S (g_n g - 2 - k))%nat with (S k) in V by lia.
    replace (g_n g - 1 - S (g_n g - 2 - k))%nat with k in V by lia. lra.
  - cbn [mirror_geo g_np]. lia.
  - intros j Hj. cbn [mirror_geo g_n] in Hj. rewrite E1 by exact Hj. apply RP. lia.
  - intros j Hj. cbn [mirror_geo g_n] in Hj. rewrite E2 by exact Hj. apply RP. lia.
  - exact Hdt.
Qed.
Print Assumptions C184_check_refuted.

(** 1 l/min enters at the second cell and leaves half at each end. *)
Example C184_ex_branched :
  let g := mg 3 own3 in let io := fun i => match i with 1%nat => 1/60 | _ => - (1/120) end in
  r_tot (branched_diff (mirror_geo g) (mirror_io g io) flows0 (fun _ => 60) (fun _ => 60) 20 (mirror_buf g buf0)) 0%nat
  <> r_tot (branched_diff g io flows0 (fun _ => 60) (fun _ => 60) 20 buf0) 3%nat.
Proof.
  cbv zeta. apply C184_branched_refuted.
  - apply mg_ok, own3_in.
  - intros j Hj. cbn. lra.
  - cbn. lia.
  - split; [intros i Hi; destruct i as [|[|i]]; cbn in *; lia|intros i _; apply own3_in].
  - cbn. lra.
  - lra.
  - lra.
  - lra.
  - unfold at_cell. cbn. lra.
  - unfold at_cell. cbn. lra.
  - replace (- at_cell _ _ _ _) with (1/120) by (unfold at_cell; cbn; lra). cbn [mg g_A g_di].
    pose proof (rho_bounds 60 ltac:(lra)) as HR. pose proof (ny_bounds 60 ltac:(lra)) as HN.
    set (rh := rho_water 60) in *. set (nn := ny_water 60) in *. clearbody rh nn.
    assert (P2 : 0 < rh * (1/1000) * nn) by (repeat apply Rmult_lt_0_compat; lra).
    replace (1 / 120 / (rh * (1 / 1000)) * (36 / 1000) / nn) with (3 / 10000 / (rh * (1 / 1000) * nn)) by (field; split; lra).
    apply Rmult_le_reg_r with (rh * (1 / 1000) * nn); [exact P2|].
    unfold Rdiv at 1. rewrite Rmult_assoc, Rinv_l by lra.
    assert (900 * (1 / 1000) * (25 / 100000000) <= rh * (1 / 1000) * nn) by (apply Rmult_le_compat; lra). lra.
  - cbn. lra.
Qed.
(** A step passes the check with the hot cell first and is refused with the hot cell last. *)
Example C184_ex_check : exists dt, 0 < dt /\ forall s,
  let g := mg 2 own2 in
  let Tx := fun k => if (k <=? 1)%nat then 95 else 5 in
  let r := pipe_diff g 0 flows0 Tx (fun i => Tx (S (own2 i))) 20 buf0 in
  let r' := pipe_diff (mirror_geo g) (- 0) flows0 (mirror_ext g Tx) (rev_arr 2 (fun i => Tx (S (own2 i)))) 20 (mirror_buf g buf0) in
  stability_check (vn_div g r (flow_pipe 0) dt) dt s = s /\
  st_ok (stability_check (vn_div (mirror_geo g) r' (flow_pipe (- 0)) dt) dt s) = false.
Proof.
  set (g := mg 2 own2). set (Tx := fun k => if (k <=? 1)%nat then 95 else 5).
  set (r := pipe_diff g 0 flows0 Tx (fun i => Tx (S (own2 i))) 20 buf0).
  assert (G : geo_ok g) by apply mg_ok, own2_in.
  assert (HX : forall k, 0 <= Tx k <= 100) by (intro k; unfold Tx; destruct (k <=? 1)%nat; lra).
  assert (B : buf_ok g buf0) by (intros j Hj; cbn; lra).
  assert (H : range_ok g Tx (fun i => Tx (S (own2 i))) 20) by (split; [|split]; intros; try apply HX; lra).
  assert (R0 : r_rhocp r 0%nat < r_rhocp r 1%nat).
  { change (rho_water 95 * cp_water 95 < rho_water 5 * cp_water 5). unfold rho_water, cp_water. lra. }
  assert (RP : forall j, (j < 4)%nat -> 958 * 4170 < r_rhocp r j < 1000 * 4225 /\ 0 < r_rho r j).
  { intros j Hj. change (r_rhocp r j) with (rho_water (Tx (S j)) * cp_water (Tx (S j))). change (r_rho r j) with (rho_water (Tx (S j))).
    pose proof (rho_bounds _ (HX (S j))). pose proof (cp_bounds _ (HX (S j))). split; [|lra].
    split; apply Rmult_le_0_lt_compat; lra. }
  assert (LL : lambda_water 5 < lambda_water 95) by (unfold lambda_water; lra).
  assert (LP : 0 < lambda_water 5) by (unfold lambda_water; lra).
  set (u := lambda_water 95) in *. set (v := lambda_water 5) in *.
  assert (T1 : r_tb r 1%nat = 1/1000 / (1/10) * (2 * u * v / (u + v)) + 2) by reflexivity.
  assert (T2 : r_tb r 2%nat = 1/1000 / (1/10) * (2 * v * v / (v + v)) + 2) by reflexivity.
  assert (T3 : r_tb r 3%nat = 1/1000 / (1/10) * (2 * v * v / (v + v)) + 2) by reflexivity.
  clearbody u v.
  assert (V1 : 2 * v * v / (v + v) = v) by (field; lra).
  assert (V2 : v <= 2 * u * v / (u + v)).
  { apply Rmult_le_reg_r with (u + v); [lra|]. unfold Rdiv. rewrite Rmult_assoc, Rinv_l by lra. nra. }
  rewrite V1 in T2, T3.
  assert (TB : 2 < r_tb r 1%nat) by lra.
  destruct (RP 1%nat ltac:(lia)) as [RC _]. set (rc := r_rhocp r 1%nat) in *. set (tb := r_tb r 1%nat) in *.
  set (dt := 0.00005 * rc / tb).
  assert (Pdt : 0 < dt) by (unfold dt; apply Rdiv_lt_0_compat; lra).
  assert (Edt : tb * dt = 0.00005 * rc) by (unfold dt; field; lra).
  exists dt. split; [exact Pdt|]. intro s. cbv zeta.
  apply (C184_check_refuted g 0 flows0 flows0 Tx (fun i => Tx (S (own2 i))) 20 buf0 dt s 0%nat G eq_refl H);
    [lra|cbn; lia| |].
  - assert (CC : r_rhocp r 2%nat = rc /\ r_rhocp r 3%nat = rc) by (split; reflexivity). destruct CC as [C2 C3].
    fold r. apply passes; try exact G.
    + cbn; lia.
    + intros j Hj. destruct (RP j Hj). lra.
    + intros j Hj. destruct (RP j Hj). lra.
    + intros j Hj. cbn [g mg g_n] in Hj. cbn [g mg g_A g_gsp].
      destruct j as [|[|[|j]]]; [| | |lia]; fold tb rc; rewrite ?T2, ?T3, ?C2, ?C3; [lra| |];
        (assert ((1 / 1000 / (1 / 10) * v + 2) * dt <= tb * dt) by (apply Rmult_le_compat_r; lra); lra).
    + intros i Hi. exists 1%nat. split; [cbn; lia|]. fold rc.
      pose proof (ua_port_le g (fun i => Tx (S (own2 i))) (fun j => Tx (S j)) i G Hi (HX _) (fun j _ => HX (S j))) as U.
      change (ua_port g (fun i => Tx (S (own2 i))) (fun j => Tx (S j)) i) with (r_uap r i) in U.
      cbn [g mg g_pA g_gsp g_pw g_psub] in U |- *.
      assert (r_uap r i * dt <= tb * dt) by (apply Rmult_le_compat_r; lra). lra.
    + intros j Hj. pose proof (ua_bounds g lam_mean (fun _ => 0) (process_flow_invar (g_n g) (g_np g) 0 flows0) false no_heat
        Tx (fun i => Tx (S (own2 i))) 20 buf0 G B H j Hj) as (_ & _ & _ & U).
      specialize (U ltac:(cbn; lra)). change (r_ua (part_diff _ _ _ _ _ _ _ _ _ _) j) with (r_ua r j) in U.
      cbn [g mg g_Ai g_li g_rli g_As g_rt] in U |- *. destruct (RP j Hj) as [RJ _].
      assert (r_ua r j * dt <= 0.04 * dt) by (apply Rmult_le_compat_r; lra).
      assert (2 * dt <= tb * dt) by (apply Rmult_le_compat_r; lra). lra.
    + exists 0%nat. split; [cbn; lia|]. unfold flow_pipe. rewrite Rabs_R0, Rmult_0_l.
      destruct (RP 0%nat ltac:(lia)) as [_ RR]. cbn [g mg g_V]. lra.
  - fold r. fold tb. cbn [g mg g_A g_gsp]. lra.
Qed.
