(** Concrete parts for which the stability check lets a step pass that it should not
    (C15, C16). *)
From Coq Require Import Reals List Arith Bool Lra Lia QArith Qreals.
From Verif Require Import MFlow MWater MDiff SFlow SDiff LFlow LPoly LWater LDiff LDiff2 LDiff3 LDiff4 LDiff5.
Import ListNotations.
Open Scope R_scope.

(** A copper pipe of 1 cm diameter with three cells of 5 mm. *)
Definition gx (np : nat) (own : nat -> nat) : geo := {|
  g_n := 3; g_np := np; g_own := own;
  g_A := 8/100000; g_V := 4/10000000; g_gsp := 5/1000; g_di := 1/100;
  g_x := fun j => (INR j + 1/2) * (5/1000); g_L := 628/10000;
  g_rt := 2/100; g_rlw := 9/10000; g_rli := 6/1000; g_rr := 1/4;
  g_Ai := 16/100000; g_As := 64/100000; g_vert := true;
  g_lw := 400; g_li := 4/100; g_mw := 6/10; g_tbw := 28/10;
  g_pgsp := fun _ => 5/1000; g_psub := fun _ => 1/100; g_pA := fun _ => 8/100000;
  g_pw := fun _ => 28/10;
  g_swll := 1/1000; g_sins := 1/100; g_Llid := 1/10; g_vlid := false |}.
Definition own2 (i : nat) : nat := match i with O => 0%nat | _ => 2%nat end.

Lemma gx_ok np own : (forall i, (i < np)%nat -> (own i < 3)%nat) -> geo_ok (gx np own).
Proof. intros H. constructor; cbn; intros; try lra; try lia. exact H. Qed.

Lemma own2_in i : (i < 2)%nat -> (own2 i < 3)%nat.
Proof. destruct i; cbn; lia. Qed.

Section Gx.
Variables (np : nat) (own : nat -> nat) (dm : arr) (f : flows) (lids : bool) (Tx Tp : arr) (Tamb : R).
Hypothesis Hown : forall i, (i < np)%nat -> (own i < 3)%nat.
Hypothesis Np : (1 <= np)%nat.
Let g := gx np own.
Hypothesis Hr : range_ok g Tx Tp Tamb.
Variable lmean : arr -> arr.
Hypothesis Lm : forall j, (j < 2)%nat ->
  569/1000 <= lmean (fun k => lambda_water (Tx (S k))) j <= 681/1000.
Let r := part_diff g lmean dm f lids no_heat Tx Tp Tamb buf0.

Lemma gx_tb j : (S j < 3)%nat -> 2.809 <= r_tb r (S j) <= 2.811.
Proof.
  intros Hj. specialize (Lm j ltac:(lia)).
  unfold r; cbn [part_diff r_tb]. unfold ua_tb. change (g_n g) with 3%nat.
  destruct (Nat.leb_spec 1 (S j)); [|lia]. destruct (Nat.ltb_spec (S j) 3); [|lia]. cbn [andb].
  replace (S j - 1)%nat with j by lia. change (g_A g) with (8/100000). change (g_gsp g) with (5/1000).
  change (g_tbw g) with (28/10). set (l := lmean _ j) in *. lra.
Qed.
Lemma gx_uap i : (i < np)%nat -> 0 <= r_uap r i <= 2.812.
Proof.
  intros Hi. destruct Hr as [H1 [H2 H3]].
  unfold r; cbn [part_diff r_uap]. unfold ua_port.
  change (g_pA g i) with (8/100000). change (g_pgsp g i) with (5/1000). change (g_gsp g) with (5/1000).
  change (g_pw g i) with (28/10). change (g_own g i) with (own i).
  pose proof (lambda_bounds _ (H2 i Hi)). pose proof (lambda_bounds _ (H1 (own i) (Hown i Hi))).
  set (a := lambda_water (Tp i)) in *. set (c := lambda_water (Tx (S (own i)))) in *.
  assert (Q : forall x, 569/1000 < x < 681/1000 -> 36/10000 <= 5/1000 / (2 * x)).
  { intros x Hx. apply Rmult_le_reg_r with (2 * x); [lra|].
    replace (5/1000 / (2 * x) * (2 * x)) with (5/1000) by (field; lra). lra. }
  pose proof (Q a H). pose proof (Q c H0).
  set (d := 5/1000 / (2 * a) + 5/1000 / (2 * c)) in *.
  assert (0 < d) by (unfold d; lra).
  assert (0 <= 8/100000 / d) by (apply Rlt_le, Rdiv_lt_0_compat; lra).
  assert (8/100000 / d <= 0.0112).
  { apply div_mono'; [assumption|]. unfold d. lra. }
  lra.
Qed.
Lemma gx_rhocp j : (j < 3)%nat -> 3994860 <= r_rhocp r j <= 4225000.
Proof. intros Hj. apply (rhocp_bounds (Tx (S j))), Hr, Hj. Qed.
Lemma gx_rho j : (j < 3)%nat -> 958 < r_rho r j < 1000.
Proof. intros Hj. apply (rho_bounds (Tx (S j))), Hr, Hj. Qed.
Lemma gx_ua j : (j < 3)%nat -> 0 < r_ua r j <= 0.0011.
Proof.
  intros Hj. pose proof (gx_ok np own Hown) as G.
  destruct (ua_bounds g lmean dm f lids no_heat Tx Tp Tamb buf0 G (buf0_ok g G) Hr j Hj) as [U1 [_ [_ U]]].
  fold r in U, U1. cbn [g gx g_rli g_Ai g_li] in U. split; [exact U1|]. specialize (U ltac:(lra)). lra.
Qed.
(** When the check lets a step of at most 0.3 s pass. *)
Lemma gx_pass m dt k : 0 <= dt <= 0.3 -> (k < 3)%nat -> m * dt <= 4/10000000 * r_rho r k ->
  (forall j, (S j < 3)%nat -> r_tb r (S j) * dt <= 0.5 * (r_rhocp r (S j) * (8/100000) * (5/1000))) ->
  vn_div g r m dt <= 1.
Proof.
  intros Hdt Hk Hm Ht. pose proof (gx_ok np own Hown) as G.
  apply passes; try assumption; try lra.
  - intros j Hj. pose proof (gx_rhocp j Hj). lra.
  - intros j Hj. pose proof (gx_rho j Hj). lra.
  - intros i Hi. exists 0%nat. split; [cbn; lia|].
    pose proof (gx_uap i Hi). pose proof (gx_rhocp 0 ltac:(lia)).
    change (g_pA g i) with (8/100000). change (g_psub g i) with (1/100). nra.
  - intros j Hj. pose proof (gx_ua j Hj). pose proof (gx_rhocp j Hj).
    change (g_As g) with (64/100000). change (g_rt g) with (2/100). nra.
  - exists k. split; assumption.
Qed.
Lemma gx_pass_slow m dt k : 0 <= dt <= 0.28 -> (k < 3)%nat -> m * dt <= 4/10000000 * r_rho r k ->
  vn_div g r m dt <= 1.
Proof.
  intros Hdt Hk Hm. apply gx_pass with k; try lra; try assumption.
  intros j Hj. pose proof (gx_tb j Hj). pose proof (gx_rhocp (S j) Hj). nra.
Qed.
End Gx.

Lemma lam_mean_range Tx : (forall j, (j < 3)%nat -> 0 <= Tx (S j) <= 100) ->
  forall j, (j < 2)%nat -> 569/1000 <= lam_mean (fun k => lambda_water (Tx (S k))) j <= 681/1000.
Proof.
  intros H j Hj. pose proof (lambda_bounds _ (H j ltac:(lia))). pose proof (lambda_bounds _ (H (S j) ltac:(lia))).
  apply lam_mean_between; lra.
Qed.

(** Cell temperatures [a b c]. *)
Definition cells3 (a b c : R) : arr := fun k =>
  match k with 1%nat => a | 2%nat => b | 3%nat => c | _ => a end.
Lemma cells3_range a b c : 0 <= a <= 100 -> 0 <= b <= 100 -> 0 <= c <= 100 ->
  forall j, (j < 3)%nat -> 0 <= cells3 a b c (S j) <= 100.
Proof. intros A B C j Hj. destruct j as [|[|[|j]]]; cbn; try assumption; lia. Qed.
Lemma cells3_ok np own a b c p q : 0 <= a <= 100 -> 0 <= b <= 100 -> 0 <= c <= 100 ->
  0 <= p <= 100 -> 0 <= q <= 100 -> range_ok (gx np own) (cells3 a b c) (fun _ => p) q.
Proof. intros. split; [|split; intros; lra]. intros j Hj. apply cells3_range; assumption. Qed.

(** C15: hot middle cell. *)
Definition ex15 := pipe_diff (gx 2 own2) (15/10000) flows0 (cells3 20 60 20) (fun _ => 20) 20 buf0.
Lemma ex15_range : range_ok (gx 2 own2) (cells3 20 60 20) (fun _ => 20) 20.
Proof. apply cells3_ok; lra. Qed.
Lemma ex15_pass : vn_div (gx 2 own2) ex15 (flow_pipe (15/10000)) 0.25 <= 1.
Proof.
  apply gx_pass_slow with 0%nat; try lra; try lia.
  - exact own2_in.
  - exact ex15_range.
  - apply lam_mean_range. apply ex15_range.
  - unfold flow_pipe. rewrite Rabs_right by lra.
    assert (A : 958 < r_rho ex15 0%nat < 1000) by (apply (rho_bounds 20); lra).
    unfold ex15, pipe_diff in A. lra.
Qed.
Lemma ex15_low : cells3 20 60 20 2%nat + 0.25 * r_tot ex15 1%nat < 10.
Proof.
  assert (G : geo_ok (gx 2 own2)) by (apply gx_ok; exact own2_in).
  pose proof (flux (gx 2 own2) lam_mean (fun _ => 15/10000) (process_flow_invar 3 2 (15/10000) flows0) false
    (cells3 20 60 20) (fun _ => 20) 20 buf0 G 20 60 ltac:(lra) ltac:(lra)) as F.
  specialize (F ltac:(intros j Hj; destruct j as [|[|[|j]]]; cbn; try lra; cbn in Hj; lia) ltac:(intros; lra) ltac:(lra) 1%nat ltac:(cbn; lia)).
  change (part_diff (gx 2 own2) lam_mean (fun _ => 15 / 10000) (process_flow_invar 3 2 (15 / 10000) flows0)
    false no_heat (cells3 20 60 20) (fun _ => 20) 20 buf0) with ex15 in F.
  pose proof (gx_tb 2 own2 (fun _ => 15/10000) (process_flow_invar 3 2 (15/10000) flows0) false (cells3 20 60 20) (fun _ => 20) 20
    ltac:(lia) lam_mean (lam_mean_range _ (proj1 ex15_range))) as TB.
  pose proof (TB 0%nat ltac:(lia)) as T1. pose proof (TB 1%nat ltac:(lia)) as T2. clear TB.
  pose proof (gx_ua 2 own2 (fun _ => 15/10000) (process_flow_invar 3 2 (15/10000) flows0) false (cells3 20 60 20) (fun _ => 20) 20
    own2_in ex15_range lam_mean 1%nat ltac:(lia)) as UA.
  change (part_diff (gx 2 own2) lam_mean (fun _ => 15 / 10000) (process_flow_invar 3 2 (15 / 10000) flows0)
    false no_heat (cells3 20 60 20) (fun _ => 20) 20 buf0) with ex15 in T1, T2, UA.
  unfold at_cell in F. cbn [rsum gx g_np g_own own2 Nat.eqb lid_at cells3] in F.
  unfold lid_at in F.
  assert (FT : f_top (process_flow_invar 3 2 (15/10000) flows0) 1%nat = 15/10000 /\
               f_bot (process_flow_invar 3 2 (15/10000) flows0) 1%nat = 0).
  { unfold process_flow_invar. destruct (Rle_dec 0 (15/10000)); [split; reflexivity|lra]. }
  destruct FT as [FT FB]. rewrite FT, FB in F.
  pose proof (cp_bounds 20 ltac:(lra)). pose proof (cp_bounds 60 ltac:(lra)).
  assert (U : u_water 60 - u_water 20 >= 165000) by (unfold u_water; lra).
  pose proof (rhocp_bounds 60 ltac:(lra)) as RC.
  assert (M : 2.19 <= r_mcp ex15 1%nat <= 2.3).
  { change (r_mcp ex15 1%nat) with (4/10000000 * (rho_water 60 * cp_water 60) + 6/10). lra. }
  set (mc := r_mcp ex15 1%nat) in *. set (s := r_tot ex15 1%nat) in *. cbn [cells3].
  assert (mc * s <= - 471) by lra. nra.
Qed.

(** C16, Courant number: cold water flowing into a hot cell. *)
Lemma rho20 : 997 < rho_water 20.
Proof. rewrite rho_is. assert (H0 : 20 <= 20) by lra. use_lower rho_q 997%Q 20%Q 20%Q 0%Q 1%nat. Qed.
Lemma rho90 : rho_water 90 < 967.
Proof. rewrite rho_is. assert (H0 : 90 <= 90) by lra. use_upper rho_q 967%Q 90%Q 90%Q 0%Q 1%nat. Qed.
Lemma cp20 : 4180 < cp_water 20.
Proof. rewrite cp_is. assert (H0 : 20 <= 20) by lra. use_lower cp_q 4180%Q 20%Q 20%Q 0%Q 1%nat. Qed.
Lemma cp90 : cp_water 90 < 4215.
Proof. rewrite cp_is. assert (H0 : 90 <= 90) by lra. use_upper cp_q 4215%Q 90%Q 90%Q 0%Q 1%nat. Qed.

Lemma courant_low g f r dt j m c w : g_V g = 4/10000000 -> 958 < r_rho r j < w ->
  cell_in (f_top f) (f_bot f) (g_np g) (g_own g) (f_port f) j = m ->
  c * (4/10000000 * w) < m * dt -> 0 <= c -> c < courant g f r dt j.
Proof.
  intros EV Hr Em Hc H0. unfold courant. rewrite Em, EV.
  apply Rmult_lt_reg_r with (4/10000000 * r_rho r j); [lra|].
  unfold Rdiv at 2. rewrite (Rmult_assoc (m * dt)), Rinv_l by lra. nra.
Qed.

Definition io16 : R := 1595/1000000.
Definition ex16 := pipe_diff (gx 2 own2) io16 flows0 (cells3 20 90 90) (fun _ => 20) 20 buf0.
Lemma ex16_courant : vn_div (gx 2 own2) ex16 (flow_pipe io16) 0.25 <= 1 /\
  1.03 < courant (gx 2 own2) (process_flow_invar 3 2 io16 flows0) ex16 0.25 1.
Proof.
  assert (A : 997 < r_rho ex16 0%nat) by exact rho20. assert (Hr : range_ok (gx 2 own2) (cells3 20 90 90) (fun _ => 20) 20) by (apply cells3_ok; lra).
  split.
  - apply gx_pass_slow with 0%nat; try lra; try lia.
    + exact own2_in.
    + exact Hr.
    + apply lam_mean_range. apply Hr.
    + apply Rle_trans with (4/10000000 * 997); [unfold flow_pipe, io16; rewrite Rabs_right; lra|].
      apply Rmult_le_compat_l; [lra|apply Rlt_le, A].
  - apply courant_low with (m := io16) (w := 967); [reflexivity| | |unfold io16; lra|lra].
    + split; [apply (rho_bounds 90); lra|exact rho90].
    + destruct (invar_in 3 own2 io16 flows0 1 ltac:(lia) (conj eq_refl eq_refl) (flows0_ends 3) ltac:(lia)) as [E _].
      rewrite <- (Rabs_right io16) at 4 by (unfold io16; lra). exact E.
Qed.

(** C16, diffusion number of a warm cell above a cold one. *)
Definition ex16d := pipe_diff (gx 2 own2) 0 flows0 (cells3 90 20 20) (fun _ => 20) 20 buf0.
Lemma ex16_diffusion : vn_div (gx 2 own2) ex16d (flow_pipe 0) 0.2945 <= 1 /\
  0.5 < r_tb ex16d 1%nat * 0.2945 / (r_rhocp ex16d 0%nat * g_A (gx 2 own2) * g_gsp (gx 2 own2)).
Proof.
  assert (Hr : range_ok (gx 2 own2) (cells3 90 20 20) (fun _ => 20) 20) by (apply cells3_ok; lra).
  pose proof (gx_tb 2 own2 (fun _ => 0) (process_flow_invar 3 2 0 flows0) false (cells3 90 20 20) (fun _ => 20) 20
    ltac:(lia) lam_mean (lam_mean_range _ (proj1 Hr))) as TB.
  assert (TB' : forall j, (S j < 3)%nat -> 2.809 <= r_tb ex16d (S j) <= 2.811) by exact TB. clear TB.
  pose proof rho20. pose proof rho90. pose proof cp20. pose proof cp90.
  pose proof (rho_bounds 90 ltac:(lra)). pose proof (cp_bounds 90 ltac:(lra)).
  assert (P1 : 4167460 < rho_water 20 * cp_water 20) by nra.
  assert (P2 : 3994860 <= rho_water 90 * cp_water 90 < 4075905) by (split; [apply rhocp_bounds; lra|nra]).
  split.
  - apply gx_pass with 0%nat; try lra; try lia.
    + exact own2_in.
    + exact Hr.
    + unfold flow_pipe. rewrite Rabs_R0, Rmult_0_l. apply Rmult_le_pos; [lra|].
      apply Rlt_le, Rlt_trans with 958; [lra|]. apply (rho_bounds 90). lra.
    + intros j Hj. specialize (TB' j Hj).
      assert (C2 : r_rhocp ex16d (S j) = rho_water 20 * cp_water 20) by (destruct j as [|[|j]]; [reflexivity|reflexivity|lia]).
      change (part_diff (gx 2 own2) lam_mean (fun _ => 0) (process_flow_invar (g_n (gx 2 own2)) (g_np (gx 2 own2)) 0 flows0) false no_heat (cells3 90 20 20) (fun _ => 20) 20 buf0) with ex16d.
      rewrite C2. lra.
  - assert (C1 : r_rhocp ex16d 0%nat = rho_water 90 * cp_water 90) by reflexivity.
    rewrite C1. specialize (TB' 0%nat ltac:(lia)).
    change (g_A (gx 2 own2)) with (8/100000). change (g_gsp (gx 2 own2)) with (5/1000).
    set (w := rho_water 90 * cp_water 90) in *.
    apply Rmult_lt_reg_r with (w * (8/100000) * (5/1000)); [lra|].
    unfold Rdiv at 3. rewrite (Rmult_assoc (r_tb ex16d 1%nat * 0.2945)).
    rewrite Rinv_l by lra. lra.
Qed.

(** C16, branched pipe: two inlets at one end. *)
Definition own4 (i : nat) : nat := match i with 0%nat => 0%nat | 1%nat => 0%nat | _ => 2%nat end.
Definition io4 (m : R) : arr := fun i => match i with 0%nat => m | 1%nat => m | _ => - m end.
Definition ex16b := branched_diff (gx 4 own4) (io4 (15/10000)) flows0 (cells3 20 20 20) (fun _ => 20) 20 buf0.
Lemma own4_in i : (i < 4)%nat -> (own4 i < 3)%nat.
Proof. destruct i as [|[|i]]; cbn; lia. Qed.
Lemma ex16_branched :
  vn_div (gx 4 own4) ex16b (flow_branched 4 (io4 (15/10000))) 0.25 <= 1 /\
  rsum 4 (io4 (15/10000)) = 0 /\
  1.8 < courant (gx 4 own4) (fst (process_flow_var 3 4 own4 (io4 (15/10000)) flows0)) ex16b 0.25 1.
Proof.
  assert (Hr : range_ok (gx 4 own4) (cells3 20 20 20) (fun _ => 20) 20) by (apply cells3_ok; lra).
  split; [|split].
  - apply gx_pass_slow with 0%nat; try lra; try lia.
    + exact own4_in.
    + exact Hr.
    + apply lam_mean_range. apply Hr.
    + assert (A : 958 < r_rho ex16b 0%nat < 1000) by (apply (rho_bounds 20); lra).
      assert (F : flow_branched 4 (io4 (15/10000)) <= 15/10000).
      { apply amax_le; [lia|]. intros i _. destruct i as [|[|i]]; cbn; unfold Rabs; destruct (Rcase_abs _); lra. }
      apply Rle_trans with (4/10000000 * 958); [lra|].
      apply Rmult_le_compat_l; [lra|apply Rlt_le, A].
  - cbn. lra.
  - apply courant_low with (m := 3/1000) (w := 1000); try lra; [reflexivity|apply (rho_bounds 20); lra|].
    unfold cell_in, at_cell. cbn. unfold clip0, fill_add. cbn.
    destruct (Rlt_dec _ 0); [lra|]. destruct (Rlt_dec _ 0); lra.
Qed.

(** C16, storage: two inlets, one outlet between them. *)
Definition own3 (i : nat) : nat := i.
Definition io3 (m : R) : arr := fun i => match i with 1%nat => - (2 * m) | _ => m end.
Definition f3 := fst (process_flow_var 3 3 own3 (io3 (15/10000)) flows0).
Definition ex16t := tes_diff (gx 3 own3) (io3 (15/10000)) flows0 (cells3 20 20 20) (fun _ => 20) 20 buf0.
Lemma f3_val : (forall j, (j < 3)%nat -> 0 <= f_top f3 j <= 15/10000 /\ 0 <= f_bot f3 j <= 15/10000 /\ 0 <= f_port f3 j <= 15/10000)
  /\ f_top f3 1%nat = 15/10000 /\ f_bot f3 1%nat = 15/10000 /\ f_port f3 1%nat = 0.
Proof.
  split.
  - intros j Hj. destruct j as [|[|[|j]]]; [| | |lia]; cbn; unfold clip0, fill_add; cbn;
      repeat (match goal with |- context[Rlt_dec ?a ?b] => destruct (Rlt_dec a b) end); lra.
  - cbn; unfold clip0, fill_add; cbn;
      repeat (match goal with |- context[Rlt_dec ?a ?b] => destruct (Rlt_dec a b) end); lra.
Qed.
Lemma ex16_tes :
  vn_div (gx 3 own3) ex16t (flow_tes 3 3 f3) 0.25 <= 1 /\
  rsum 3 (io3 (15/10000)) = 0 /\
  1.8 < courant (gx 3 own3) f3 ex16t 0.25 1.
Proof.
  assert (Hr : range_ok (gx 3 own3) (cells3 20 20 20) (fun _ => 20) 20) by (apply cells3_ok; lra).
  destruct f3_val as [FB [F1 [F2 F3]]].
  split; [|split].
  - unfold ex16t, tes_diff. cbn zeta. apply gx_pass_slow with 0%nat; try lra; try lia.
    + unfold own3. intros; lia.
    + exact Hr.
    + intros j Hj. cbv beta.
      destruct (buoyancy_laws 3 (g_di (gx 3 own3)) (fun k => cells3 20 20 20 (S k)) (lam_mean (fun k => lambda_water (cells3 20 20 20 (S k))))) as [BL _].
      * intros k Hk. pose proof (lam_mean_range (cells3 20 20 20) (proj1 Hr) k ltac:(lia)). lra.
      * change (g_n (gx 3 own3)) with 3%nat. rewrite BL.
        -- apply lam_mean_range; [apply Hr|exact Hj].
        -- intros k Hk. destruct k as [|[|k]]; cbn; lra || lia.
    + assert (A : 958 < r_rho ex16t 0%nat < 1000) by (apply (rho_bounds 20); lra).
      assert (F : flow_tes 3 3 f3 <= 15/10000).
      { unfold flow_tes. apply Rmax_lub; [apply Rmax_lub|]; apply amax_le; try lia; intros i Hi; specialize (FB i Hi); try lra.
        rewrite Rabs_right; lra. }
      apply Rle_trans with (4/10000000 * 958); [lra|].
      apply Rmult_le_compat_l; [lra|apply Rlt_le, A].
  - cbn. lra.
  - apply courant_low with (m := 3/1000) (w := 1000); try lra; [reflexivity|apply (rho_bounds 20); lra|].
    unfold cell_in, at_cell. cbn [gx g_np g_own rsum own3 Nat.eqb]. rewrite F1, F2, F3. lra.
Qed.

(** C16, a port next to a part that does not conduct. *)
Lemma zero_port_disables g r m dt s i : (i < g_np g)%nat -> g_pA g i = 0 ->
  stability_check_nan (vn_div_nan g r m dt) dt s = s.
Proof.
  intros Hi H. unfold vn_div_nan.
  assert (E : existsb (fun i => if Req_EM_T (g_pA g i * g_psub g i) 0 then true else false) (seq 0 (g_np g)) = true).
  { apply existsb_exists. exists i. split; [apply in_seq; lia|].
    destruct (Req_EM_T (g_pA g i * g_psub g i) 0) as [|N]; [reflexivity|]. exfalso. apply N. rewrite H. ring. }
  rewrite E. reflexivity.
Qed.
