(** C04 (evaluation history), C12-C17, C22, C54, C55, C58: temperature differentials of pipes,
    branched pipes, heated pipes and storages, and their stability check. *)
From Coq Require Import Reals List Arith Bool Lra Lia Permutation.
From Verif Require Import MFlow MWater MDiff SFlow SDiff LFlow LWater LDiff LDiff2 LDiff3 LDiff4
  LDiff5 LDiff6 LDiff7.
Import ListNotations.
Open Scope R_scope.

(** ** C12: conduction *)
(** Whole-part conduction is exactly the exchange with the ports and the ambient. *)
Theorem C12_pipe : forall g io f Tx Tp Tamb b, geo_ok g -> in_range g Tx Tp Tamb ->
  let r := pipe_diff g io f Tx Tp Tamb b in
  heat_rate g Tx (r_cond r) =
    rsum (g_np g) (fun i => r_uap r i * (Tp i - Tx (S (g_own g i)))) +
    rsum (g_n g) (fun j => r_ua r j * (Tamb - Tx (S j))).
Proof. intros. unfold r, pipe_diff. rewrite cond_any by assumption. cbv iota. lra. Qed.
Theorem C12_branched : forall g io f Tx Tp Tamb b, geo_ok g -> in_range g Tx Tp Tamb ->
  let r := branched_diff g io f Tx Tp Tamb b in
  heat_rate g Tx (r_cond r) =
    rsum (g_np g) (fun i => r_uap r i * (Tp i - Tx (S (g_own g i)))) +
    rsum (g_n g) (fun j => r_ua r j * (Tamb - Tx (S j))).
Proof. intros. unfold r, branched_diff. cbv zeta. rewrite cond_any by assumption. cbv iota. lra. Qed.
Theorem C12_heated : forall g lo hi dQ io f Tx Tp Tamb b, geo_ok g -> in_range g Tx Tp Tamb ->
  let r := heated_diff g lo hi dQ io f Tx Tp Tamb b in
  heat_rate g Tx (r_cond r) =
    rsum (g_np g) (fun i => r_uap r i * (Tp i - Tx (S (g_own g i)))) +
    rsum (g_n g) (fun j => r_ua r j * (Tamb - Tx (S j))).
Proof. intros. unfold r, heated_diff. rewrite cond_any by assumption. cbv iota. lra. Qed.
(** Storage: additionally through the two lids. *)
Theorem C12_tes : forall g io f Tx Tp Tamb b, geo_ok g -> in_range g Tx Tp Tamb ->
  let r := tes_diff g io f Tx Tp Tamb b in
  heat_rate g Tx (r_cond r) =
    rsum (g_np g) (fun i => r_uap r i * (Tp i - Tx (S (g_own g i)))) +
    rsum (g_n g) (fun j => r_ua r j * (Tamb - Tx (S j))) +
    (r_lid r 0%nat * (Tamb - Tx 1%nat) + r_lid r 1%nat * (Tamb - Tx (g_n g))).
Proof. intros. unfold r, tes_diff. cbv zeta. rewrite cond_any by assumption. reflexivity. Qed.
(** A part that is nowhere colder than its surroundings never gains heat by conduction. *)
Theorem C12_second_law : forall g t Tx Tp Tamb b, geo_ok g -> bufs_at g b -> in_range g Tx Tp Tamb ->
  (forall i, (i < g_np g)%nat -> Tp i <= t) -> Tamb <= t ->
  (forall j, (j < g_n g)%nat -> t <= Tx (S j)) ->
  (forall io f, heat_rate g Tx (r_cond (pipe_diff g io f Tx Tp Tamb b)) <= 0) /\
  (forall io f, heat_rate g Tx (r_cond (branched_diff g io f Tx Tp Tamb b)) <= 0) /\
  (forall io f, heat_rate g Tx (r_cond (tes_diff g io f Tx Tp Tamb b)) <= 0).
Proof.
  intros g t Tx Tp Tamb b G B H HP HA HT. pose proof (bufs_at_ok g b G B) as B'.
  repeat split; intros io f; apply cond_second_law with t; assumption.
Qed.
Example C12_example : geo_ok (gx 2 own2) /\ in_range (gx 2 own2) (cells3 60 70 80) (fun _ => 20) 15 /\
  heat_rate (gx 2 own2) (cells3 60 70 80)
    (r_cond (pipe_diff (gx 2 own2) 1 flows0 (cells3 60 70 80) (fun _ => 20) 15 buf0)) <= 0.
Proof.
  assert (G : geo_ok (gx 2 own2)) by (apply gx_ok, own2_in).
  assert (H : in_range (gx 2 own2) (cells3 60 70 80) (fun _ => 20) 15) by (apply cells3_ok; lra).
  split; [exact G|]. split; [exact H|].
  refine (proj1 (C12_second_law _ 20 _ _ _ _ G (bf_new _) H _ _ _) 1 flows0); [intros; lra|lra|].
  intros j Hj. destruct j as [|[|[|j]]]; cbn in *; try lra; lia.
Qed.

(** ** C13: advection *)
Theorem C13_pipe : forall g io f Tx Tp Tamb b, geo_ok g -> pipe_ports g -> flows_at g f ->
  in_range g Tx Tp Tamb ->
  heat_rate g Tx (r_adv (pipe_diff g io f Tx Tp Tamb b)) = port_enthalpy g (through io) Tx Tp.
Proof.
  intros g io f Tx Tp Tamb b G P F H. apply pipe_adv; try assumption.
  apply flows_at_ends; [pose proof (ok_n g G); lia|exact F].
Qed.
Theorem C13_heated : forall g lo hi dQ io f Tx Tp Tamb b, geo_ok g -> pipe_ports g -> flows_at g f ->
  in_range g Tx Tp Tamb ->
  heat_rate g Tx (r_adv (heated_diff g lo hi dQ io f Tx Tp Tamb b)) = port_enthalpy g (through io) Tx Tp.
Proof.
  intros g lo hi dQ io f Tx Tp Tamb b G P F H. apply pipe_adv; try assumption.
  apply flows_at_ends; [pose proof (ok_n g G); lia|exact F].
Qed.
Theorem C13_branched : forall g io f Tx Tp Tamb b, geo_ok g -> branch_ports g -> flows_at g f ->
  in_range g Tx Tp Tamb -> rsum (g_np g) io = 0 ->
  heat_rate g Tx (r_adv (branched_diff g io f Tx Tp Tamb b)) = port_enthalpy g io Tx Tp.
Proof.
  intros g io f Tx Tp Tamb b G P F H H0. apply branch_adv; try assumption.
  apply flows_at_ends; [pose proof (ok_n g G); lia|exact F].
Qed.
Theorem C13_tes : forall g io f Tx Tp Tamb b, geo_ok g -> branch_ports g -> flows_at g f ->
  in_range g Tx Tp Tamb -> rsum (g_np g) io = 0 ->
  heat_rate g Tx (r_adv (tes_diff g io f Tx Tp Tamb b)) = port_enthalpy g io Tx Tp.
Proof.
  intros g io f Tx Tp Tamb b G P F H H0. apply branch_adv; try assumption.
  apply flows_at_ends; [pose proof (ok_n g G); lia|exact F].
Qed.
(** Storage with two inlets and one outlet between them, after an earlier flow reversal. *)
Example C13_example : let g := gx 3 own3 in
  let f := fst (process_flow_var 3 3 own3 (fun i => - io3 1 i) flows0) in
  geo_ok g /\ branch_ports g /\ flows_at g f /\ rsum (g_np g) (io3 1) = 0 /\
  heat_rate g (cells3 60 50 40) (r_adv (tes_diff g (io3 1) f (cells3 60 50 40) (fun _ => 70) 20 buf0))
    = 2 * enthalpy 70 - 2 * enthalpy 50.
Proof.
  intros g f.
  assert (G : geo_ok g) by (apply gx_ok; unfold own3; auto).
  assert (P : branch_ports g) by (split; cbn; unfold own3; [lia|intros; lia]).
  assert (F : flows_at g f) by (apply (fl_var g (fun i => - io3 1 i) flows0), fl_new).
  assert (Z : rsum (g_np g) (io3 1) = 0) by (cbn; lra).
  assert (IR : in_range g (cells3 60 50 40) (fun _ => 70) 20) by (apply cells3_ok; lra).
  split; [exact G|]. split; [exact P|]. split; [exact F|]. split; [exact Z|].
  rewrite C13_tes by assumption. unfold port_enthalpy. cbn [g gx g_np g_own rsum own3 io3 cells3].
  rewrite (Rmax_right 0 1), (Rmax_left 0 (- (1))), (Rmax_left 0 (- (2 * 1))), (Rmax_right 0 (- - (2 * 1))) by lra.
  ring.
Qed.

(** ** C14: uniform temperature *)
Theorem C14_uniform : forall g tau Tx Tp f b, (1 <= g_n g)%nat -> ports_in g -> flows_at g f ->
  (forall j, (j < g_n g)%nat -> Tx (S j) = tau) -> (forall i, (i < g_np g)%nat -> Tp i = tau) ->
  forall j, (j < g_n g)%nat ->
  (forall io, r_tot (pipe_diff g io f Tx Tp tau b) j = 0) /\
  (forall io, r_tot (branched_diff g io f Tx Tp tau b) j = 0) /\
  (forall io, r_tot (tes_diff g io f Tx Tp tau b) j = 0) /\
  (forall lo hi io, r_tot (heated_diff g lo hi 0 io f Tx Tp tau b) j = 0).
Proof.
  intros g tau Tx Tp f b Hn Hp F HT HP j Hj. pose proof (flows_at_ends g f Hn F) as E.
  repeat split; intros; apply uniform_any with tau; try assumption; try reflexivity;
    try (apply invar_ends; assumption); try (apply var_ends; assumption).
  intros mcp k. unfold heated, heat_power. destruct (existsb _ _); destruct (_ && _); unfold Rdiv; ring.
Qed.
(** The two dummy entries around the cell temperatures never matter. *)
Theorem C14_outer_cells : forall g Tx Tx' Tp Tamb f b, (1 <= g_n g)%nat -> ports_in g -> flows_at g f ->
  (forall j, (j < g_n g)%nat -> Tx (S j) = Tx' (S j)) ->
  forall j, (j < g_n g)%nat ->
  (forall io, r_tot (pipe_diff g io f Tx Tp Tamb b) j = r_tot (pipe_diff g io f Tx' Tp Tamb b) j) /\
  (forall io, r_tot (branched_diff g io f Tx Tp Tamb b) j = r_tot (branched_diff g io f Tx' Tp Tamb b) j) /\
  (forall io, r_tot (tes_diff g io f Tx Tp Tamb b) j = r_tot (tes_diff g io f Tx' Tp Tamb b) j).
Proof.
  intros g Tx Tx' Tp Tamb f b Hn Hp F HT j Hj. pose proof (flows_at_ends g f Hn F) as E.
  repeat split; intros io; apply dummy_any; try assumption; try reflexivity;
    try (apply invar_ends; assumption); try (apply var_ends; assumption);
    try (apply lam_mean_ext; assumption).
  apply buoyancy_ext; [exact HT|]. apply lam_mean_ext; assumption.
Qed.
Example C14_example : ports_in (gx 3 own3) /\
  r_tot (tes_diff (gx 3 own3) (io3 2) flows0 (fun k => match k with 0%nat => 7 | 4%nat => 99 | _ => 35 end)
    (fun _ => 35) 35 buf0) 1%nat = 0.
Proof.
  assert (P : ports_in (gx 3 own3)) by (intros i Hi; exact Hi). split; [exact P|].
  refine (proj1 (proj2 (proj2 (C14_uniform (gx 3 own3) 35 _ _ flows0 buf0 _ P (fl_new _) _ _ 1%nat _))) _).
  - cbn; lia.
  - intros j Hj. destruct j as [|[|[|j]]]; try reflexivity. cbn in Hj; lia.
  - reflexivity.
  - cbn; lia.
Qed.

(** ** C15: maximum principle *)
(** Missing for the full property: the check admits steps up to its own limit, which is too long
    (see [C15_refuted]).  A pipe whose step passes the check with a margin [K] cannot leave the
    temperature range; [c] compares outer surface times outer radius with the cell volume. *)
Theorem C15_pipe_partial : forall c K g io f Tx Tp Tamb b lo hi dt, 0 <= c -> 2.7 + 0.53 * c <= K ->
  geo_ok g -> bufs_at g b -> pipe_ports g -> flows_at g f ->
  g_V g = g_A g * g_gsp g -> g_As g * g_rt g <= c * g_V g ->
  (forall i, (i < 2)%nat -> g_pA g i * g_psub g i <= g_V g) ->
  0 <= lo -> hi <= 100 -> (forall j, (j < g_n g)%nat -> lo <= Tx (S j) <= hi) ->
  (forall i, (i < 2)%nat -> lo <= Tp i <= hi) -> lo <= Tamb <= hi -> 0 <= dt ->
  let r := pipe_diff g io f Tx Tp Tamb b in
  vn_div g r (flow_pipe io) (K * dt) <= 1 ->
  forall j, (j < g_n g)%nat -> lo <= Tx (S j) + dt * r_tot r j <= hi.
Proof.
  intros c K g io f Tx Tp Tamb b lo hi dt Hc HK G B [Np Ho] F. apply kfold; try assumption.
  - apply bufs_at_ok; assumption.
  - apply flows_at_ends; [pose proof (ok_n g G); lia|exact F].
Qed.
(** Any part: the step is short enough when it moves less heat per kelvin through a cell than
    the cell holds. *)
Theorem C15_tes_partial : forall g io f Tx Tp Tamb b lo hi dt,
  geo_ok g -> bufs_at g b -> branch_ports g -> flows_at g f -> rsum (g_np g) io = 0 ->
  0 <= lo -> hi <= 100 -> (forall j, (j < g_n g)%nat -> lo <= Tx (S j) <= hi) ->
  (forall i, (i < g_np g)%nat -> lo <= Tp i <= hi) -> lo <= Tamb <= hi -> 0 <= dt ->
  let r := tes_diff g io f Tx Tp Tamb b in
  let p := fst (process_flow_var (g_n g) (g_np g) (g_own g) io f) in
  forall j, (j < g_n g)%nat ->
  dt * (r_tb r j + r_tb r (S j) + r_ua r j
        + ((if (j =? 0)%nat then r_lid r 0%nat else 0)
           + (if (j =? g_n g - 1)%nat then r_lid r 1%nat else 0))
        + at_cell (g_np g) (g_own g) (r_uap r) j
        + 4400 * cell_in (f_top p) (f_bot p) (g_np g) (g_own g) (f_port p) j) <= capacity g Tx j ->
  lo <= Tx (S j) + dt * r_tot r j <= hi.
Proof.
  intros g io f Tx Tp Tamb b lo hi dt G B [Np Hs] F H0 Hlo Hhi HT HP HA Hdt r p j Hj HC.
  pose proof (ok_n g G) as Hn.
  assert (E : ends0 (g_n g) f) by (apply flows_at_ends; [lia|exact F]).
  assert (So : sorted_ports (g_n g) (g_np g) (g_own g)) by (split; [exact Hs|apply (ok_own g G)]).
  destruct (var_ends (g_n g) (g_np g) (g_own g) io f ltac:(lia) E) as [Z1 Z2].
  assert (LP : forall k, (k < g_n g - 1)%nat -> 0 <= lam_mean (fun j => lambda_water (Tx (S j))) k).
  { intros k Hk. apply Rlt_le, lam_mean_pos.
    - pose proof (HT k ltac:(lia)). pose proof (lambda_bounds (Tx (S k)) ltac:(lra)). lra.
    - pose proof (HT (S k) ltac:(lia)). pose proof (lambda_bounds (Tx (S (S k))) ltac:(lra)). lra. }
  unfold r, tes_diff. cbv zeta. apply max_principle; try assumption.
  - apply bufs_at_ok; assumption.
  - intros k Hk. destruct (buoyancy_laws (g_n g) (g_di g) (fun j => Tx (S j)) (lam_mean (fun j => lambda_water (Tx (S j))))) as [_ BL].
    + intros q Hq. apply LP. lia.
    + destruct (BL k ltac:(lia)) as [BL1 _]. specialize (LP k Hk). lra.
  - intros k Hk. destruct (var_balance (g_n g) (g_np g) (g_own g) io f ltac:(lia) Np So E H0 k Hk) as [_ [A1 [A2 _]]].
    split; assumption.
  - intros i Hi. cbn [process_flow_var fst f_port]. rewrite clip0_max. apply Rmax_l.
Qed.
(** The stability check lets this step pass, but the middle cell of a copper pipe falls below
    10 degrees although every cell, both ports and the ambient have 20 degrees or more. *)
Theorem C15_refuted : exists g io Tx Tp Tamb dt,
  geo_ok g /\ pipe_ports g /\ in_range g Tx Tp Tamb /\ 0 < dt /\
  (forall j, (j < g_n g)%nat -> 20 <= Tx (S j)) /\ (forall i, (i < 2)%nat -> 20 <= Tp i) /\ 20 <= Tamb /\
  let r := pipe_diff g io flows0 Tx Tp Tamb buf0 in
  (forall s, stability_check (vn_div g r (flow_pipe io) dt) dt s = s) /\
  exists j, (j < g_n g)%nat /\ Tx (S j) + dt * r_tot r j < 10.
Proof.
  exists (gx 2 own2), (15/10000), (cells3 20 60 20), (fun _ => 20), 20, 0.25.
  split; [apply gx_ok, own2_in|]. split; [repeat split; reflexivity|]. split; [apply ex15_range|].
  split; [lra|]. split; [intros j Hj; destruct j as [|[|[|j]]]; cbn in *; try lra; lia|].
  split; [intros; lra|]. split; [lra|]. cbv zeta. split.
  - intros s. unfold stability_check. pose proof ex15_pass as P. fold ex15.
    destruct (Rlt_dec 1 _) as [L|L]; [exfalso; apply (Rlt_not_le _ _ L), P|reflexivity].
  - exists 1%nat. split; [cbn; lia|apply ex15_low].
Qed.

(** ** C16: stability check *)
(** When the check objects it proposes a shorter, positive step that satisfies its criterion,
    and it never lengthens a step proposed by another part; otherwise it changes nothing. *)
Theorem C16_objection : forall g r m dt s, 0 < dt -> 0 < st_max s -> 1.05 <= st_fac s ->
  let s' := stability_check (vn_div g r m dt) dt s in
  (1 < vn_div g r m dt ->
     st_ok s' = false /\ 0 < st_max s' /\ st_max s' < dt /\ st_max s' <= st_max s /\
     vn_div g r m (st_max s') < 1 /\ 1.05 <= st_fac s' <= st_fac s) /\
  (vn_div g r m dt <= 1 -> s' = s).
Proof. exact check_objects. Qed.
(** What a passed check says about every cell of a pipe.  Full property: the Courant number is
    at most 1 and every diffusion number at most 1/2; what holds is this, within 5 and 6 per
    cent, for parts with one flow only (see the refutations below). *)
Theorem C16_pass_partial : forall g io f Tx Tp Tamb b dt, geo_ok g -> pipe_ports g -> flows_at g f ->
  g_V g = g_A g * g_gsp g -> in_range g Tx Tp Tamb -> 0 <= dt ->
  let r := pipe_diff g io f Tx Tp Tamb b in
  vn_div g r (flow_pipe io) dt <= 1 ->
  (forall j, (j < g_n g)%nat ->
     courant g (process_flow_invar (g_n g) (g_np g) io f) r dt j <= 1.05) /\
  (forall j, (S j < g_n g)%nat ->
     r_tb r (S j) * dt / (g_V g * r_rhocp r (S j)) <= 0.5 /\
     r_tb r (S j) * dt / (g_V g * r_rhocp r j) <= 0.53).
Proof.
  intros g io f Tx Tp Tamb b dt G [Np Ho] F HV H Hdt r P. pose proof (ok_n g G) as Hn.
  assert (E : ends0 (g_n g) f) by (apply flows_at_ends; [lia|exact F]).
  assert (RB : forall k, (k < g_n g)%nat -> 3994860 <= r_rhocp r k <= 4225000).
  { intros k Hk. apply (rhocp_bounds (Tx (S k))), H, Hk. }
  assert (RR : forall k, (k < g_n g)%nat -> 958 < r_rho r k < 1000).
  { intros k Hk. apply (rho_bounds (Tx (S k))), H, Hk. }
  destruct (passes_inv g r (flow_pipe io) dt G ltac:(lia)) as [D1 [[k [Hk [_ D2]]] _]];
    [intros k Hk; specialize (RB k Hk); lra|intros k Hk; specialize (RR k Hk); lra|lra|exact P|].
  pose proof (ok_V g G) as PV. split.
  - intros j Hj. unfold courant. rewrite Np.
    destruct (invar_in (g_n g) (g_own g) io f j Hn Ho E Hj) as [-> _].
    pose proof (RR j Hj) as Rj. pose proof (RR k Hk) as Rk.
    apply div_mono'; [apply Rmult_lt_0_compat; lra|]. unfold flow_pipe in D2. nra.
  - intros j Hj. specialize (D1 j Hj). rewrite Rmult_assoc, <- HV in D1.
    pose proof (RB j ltac:(lia)) as Rj. pose proof (RB (S j) Hj) as Rk.
    split; (apply div_mono'; [apply Rmult_lt_0_compat; lra|]); nra.
Qed.
(** Cold water entering hot cells: the check divides by the largest density of the part. *)
Theorem C16_courant_refuted : exists g io Tx Tp Tamb dt,
  geo_ok g /\ pipe_ports g /\ in_range g Tx Tp Tamb /\ 0 < dt /\
  let r := pipe_diff g io flows0 Tx Tp Tamb buf0 in
  vn_div g r (flow_pipe io) dt <= 1 /\
  exists j, (j < g_n g)%nat /\ 1.03 < courant g (process_flow_invar (g_n g) (g_np g) io flows0) r dt j.
Proof.
  exists (gx 2 own2), io16, (cells3 20 90 90), (fun _ => 20), 20, 0.25.
  split; [apply gx_ok, own2_in|]. split; [repeat split; reflexivity|]. split; [apply cells3_ok; lra|].
  split; [lra|]. cbv zeta. destruct ex16_courant as [A B]. split; [exact A|].
  exists 1%nat. split; [cbn; lia|exact B].
Qed.
(** A warm cell above a cold one: the check divides by the capacity of the lower cell only. *)
Theorem C16_diffusion_refuted : exists g Tx Tp Tamb dt,
  geo_ok g /\ pipe_ports g /\ g_V g = g_A g * g_gsp g /\ in_range g Tx Tp Tamb /\ 0 < dt /\
  let r := pipe_diff g 0 flows0 Tx Tp Tamb buf0 in
  vn_div g r (flow_pipe 0) dt <= 1 /\
  exists j, (S j < g_n g)%nat /\ 0.5 < r_tb r (S j) * dt / (g_V g * r_rhocp r j).
Proof.
  exists (gx 2 own2), (cells3 90 20 20), (fun _ => 20), 20, 0.2945.
  split; [apply gx_ok, own2_in|]. split; [repeat split; reflexivity|]. split; [cbn; lra|].
  split; [apply cells3_ok; lra|].
  split; [lra|]. cbv zeta. destruct ex16_diffusion as [A B]. split; [exact A|].
  exists 0%nat. split; [cbn; lia|].
  replace (g_V (gx 2 own2) * r_rhocp (pipe_diff (gx 2 own2) 0 flows0 (cells3 90 20 20) (fun _ => 20) 20 buf0) 0%nat)
    with (r_rhocp ex16d 0%nat * g_A (gx 2 own2) * g_gsp (gx 2 own2)); [exact B|].
  change (pipe_diff (gx 2 own2) 0 flows0 (cells3 90 20 20) (fun _ => 20) 20 buf0) with ex16d.
  change (g_V (gx 2 own2)) with (4/10000000). change (g_A (gx 2 own2)) with (8/100000).
  change (g_gsp (gx 2 own2)) with (5/1000). lra.
Qed.
(** Branched pipe: the check looks at the port flows, not at the flow between the cells. *)
Theorem C16_branched_refuted : exists g io Tx Tp Tamb dt,
  geo_ok g /\ branch_ports g /\ rsum (g_np g) io = 0 /\ in_range g Tx Tp Tamb /\ 0 < dt /\
  let r := branched_diff g io flows0 Tx Tp Tamb buf0 in
  vn_div g r (flow_branched (g_np g) io) dt <= 1 /\
  exists j, (j < g_n g)%nat /\
    1.8 < courant g (fst (process_flow_var (g_n g) (g_np g) (g_own g) io flows0)) r dt j.
Proof.
  exists (gx 4 own4), (io4 (15/10000)), (cells3 20 20 20), (fun _ => 20), 20, 0.25.
  destruct ex16_branched as [A [Z B]].
  split; [apply gx_ok, own4_in|]. split; [|split; [exact Z|]].
  { split; [cbn; lia|]. intros i Hi. destruct i as [|[|i]]; cbn; lia. }
  split; [apply cells3_ok; lra|]. split; [lra|]. cbv zeta. split; [exact A|].
  exists 1%nat. split; [cbn; lia|exact B].
Qed.
(** Storage: two streams meeting in one cell count as one. *)
Theorem C16_tes_refuted : exists g io Tx Tp Tamb dt,
  geo_ok g /\ branch_ports g /\ rsum (g_np g) io = 0 /\ in_range g Tx Tp Tamb /\ 0 < dt /\
  let r := tes_diff g io flows0 Tx Tp Tamb buf0 in
  let p := fst (process_flow_var (g_n g) (g_np g) (g_own g) io flows0) in
  vn_div g r (flow_tes (g_n g) (g_np g) p) dt <= 1 /\
  exists j, (j < g_n g)%nat /\ 1.8 < courant g p r dt j.
Proof.
  exists (gx 3 own3), (io3 (15/10000)), (cells3 20 20 20), (fun _ => 20), 20, 0.25.
  destruct ex16_tes as [A [Z B]].
  split; [apply gx_ok; unfold own3; auto|]. split; [|split; [exact Z|]].
  { split; [cbn; lia|]. intros i Hi. cbn. unfold own3. lia. }
  split; [apply cells3_ok; lra|]. split; [lra|]. cbv zeta. split; [exact A|].
  exists 1%nat. split; [cbn; lia|exact B].
Qed.
(** A port without cross-section (neighbour does not conduct) switches the check off: no step is
    too long. *)
Theorem C16_zero_port_refuted : forall g r m i, (i < g_np g)%nat -> g_pA g i = 0 ->
  forall dt s, stability_check_nan (vn_div_nan g r m dt) dt s = s.
Proof. intros g r m i Hi H dt s. apply zero_port_disables with i; assumption. Qed.
(** With cross-sections and paths all there, the check works: a step with a number above one is
    refused, and the step it asks for is shorter by at least that number. *)
Theorem C16_ports_checked : forall g r m dt s, 0 < dt ->
  (forall i, (i < g_np g)%nat -> g_pA g i <> 0 /\ g_psub g i <> 0) ->
  let s' := stability_check_nan (vn_div_nan g r m dt) dt s in
  (vn_div g r m dt <= 1 -> s' = s) /\
  (1 < vn_div g r m dt -> st_ok s' = false /\ st_max s' <= st_max s /\
     st_max s' * vn_div g r m dt <= 0.95 * dt /\
     (st_max s' = st_max s \/ st_max s' * vn_div g r m dt = 0.95 * dt)).
Proof.
  intros g r m dt s Hdt H. cbv zeta. unfold vn_div_nan.
  destruct (existsb _ _) eqn:E.
  { exfalso. apply existsb_exists in E. destruct E as (i & I & Q). apply in_seq in I.
    destruct (Req_EM_T (g_pA g i * g_psub g i) 0) as [Z|]; [|discriminate].
    destruct (H i ltac:(lia)) as [A B]. apply Rmult_integral in Z. tauto. }
  cbn [stability_check_nan]. unfold stability_check.
  destruct (Rlt_dec 1 (vn_div g r m dt)) as [L|L]; (split; [intro Q; try lra|intro Q; try lra]).
  - set (v := vn_div g r m dt) in *. cbn [st_ok st_max].
    assert (Ev : dt / v * 0.95 * v = 0.95 * dt) by (field; lra).
    split; [reflexivity|]. destruct (Rlt_dec (dt / v * 0.95) (st_max s)) as [M|M].
    + split; [lra|]. split; [lra|]. right; exact Ev.
    + split; [lra|]. split; [|left; reflexivity]. nra.
  - reflexivity.
Qed.
Example C16_ports_checked_ex : forall i, (i < g_np (gx 3 own3))%nat ->
  g_pA (gx 3 own3) i <> 0 /\ g_psub (gx 3 own3) i <> 0.
Proof. intros i Hi. cbn. split; lra. Qed.

(** ** C17: conductances *)
Theorem C17_series : forall a l, (forall x, In x (a :: l) -> 0 < x) ->
  0 < series_circuit a l /\
  (forall x, In x (a :: l) -> series_circuit a l <= x /\ (l <> [] -> series_circuit a l < x)) /\
  (forall a' l', Permutation (a :: l) (a' :: l') -> series_circuit a' l' = series_circuit a l) /\
  (l = [] -> series_circuit a l = a).
Proof. exact series_laws. Qed.
Theorem C17_parallel : forall a l, (forall x, In x (a :: l) -> 0 < x) ->
  (forall x, In x (a :: l) -> x <= parallel_circuit a l /\ (l <> [] -> x < parallel_circuit a l)) /\
  (forall a' l', Permutation (a :: l) (a' :: l') -> parallel_circuit a' l' = parallel_circuit a l).
Proof. exact parallel_laws. Qed.
Theorem C17_interface : forall lam lam' j, 0 < lam j -> 0 < lam (S j) ->
  Rmin (lam j) (lam (S j)) <= lam_mean lam j <= Rmax (lam j) (lam (S j)) /\
  (lam' j = lam (S j) -> lam' (S j) = lam j -> lam_mean lam' j = lam_mean lam j) /\
  (lam j = lam (S j) -> lam_mean lam j = lam j) /\
  1 / (lam_mean lam j / 2) = 1 / lam j + 1 / lam (S j).
Proof.
  intros lam lam' j H1 H2. destruct (lam_mean_laws _ _ H1 H2) as [A [B [C [D _]]]].
  unfold lam_mean. split; [exact A|]. split; [|split; [exact C|exact D]].
  intros -> ->. symmetry. exact B.
Qed.
Example C17_example : series_circuit 2 [3; 6] = 1 /\ parallel_circuit 2 [3; 6] = 11 /\
  (forall x, In x [2; 3; 6] -> 0 < x) /\ lam_mean (fun j => match j with O => 1 | _ => 3 end) 0%nat = 3/2.
Proof.
  unfold series_circuit, parallel_circuit, lam_mean. cbn. repeat split; try lra.
  intros x [<-|[<-|[<-|[]]]]; lra.
Qed.

(** ** C22: surface temperature *)
Theorem C22_surface : forall T Tinf As ainf ua, 0 < As -> 0 < ainf -> 0 <= ua <= ainf * As ->
  let ts := surface_temp T Tinf As ainf ua in
  Rmin T Tinf <= ts <= Rmax T Tinf /\ (ts - Tinf) * (ainf * As) = ua * (T - Tinf).
Proof.
  intros T Tinf As ainf ua HA Ha Hu ts. split.
  - destruct (between T Tinf As ainf ua Ha HA Hu) as [k [Hk E]]. unfold ts. rewrite E.
    unfold Rmin, Rmax. destruct (Rle_dec T Tinf); split; nra.
  - unfold ts, surface_temp. field. split; lra.
Qed.
(** The premise on the conductance holds in every reachable state of every part. *)
Theorem C22_parts : forall g b, geo_ok g -> bufs_at g b -> forall Tx Tp Tamb, in_range g Tx Tp Tamb ->
  forall j, (j < g_n g)%nat ->
  0 < b_ainf b j /\ 0 <= b_ua b j <= b_ainf b j * g_As g /\
  (forall io f, Rmin (Tx (S j)) Tamb <= r_ts (pipe_diff g io f Tx Tp Tamb b) j <= Rmax (Tx (S j)) Tamb) /\
  (forall io f, Rmin (Tx (S j)) Tamb <= r_ts (branched_diff g io f Tx Tp Tamb b) j <= Rmax (Tx (S j)) Tamb) /\
  (forall io f, Rmin (Tx (S j)) Tamb <= r_ts (tes_diff g io f Tx Tp Tamb b) j <= Rmax (Tx (S j)) Tamb) /\
  (forall lo hi dQ io f,
     Rmin (Tx (S j)) Tamb <= r_ts (heated_diff g lo hi dQ io f Tx Tp Tamb b) j <= Rmax (Tx (S j)) Tamb).
Proof.
  intros g b G B Tx Tp Tamb H j Hj. pose proof (bufs_at_ok g b G B) as B'.
  destruct (B' j Hj) as [P1 P2]. split; [exact P1|]. split; [exact P2|].
  repeat split; intros; apply ts_between; assumption.
Qed.
(** The coefficients are those of the previous evaluation; in the very first evaluation the
    surface is taken to have ambient temperature however hot the water is. *)
Theorem C22_first_evaluation : forall g io f Tx Tp Tamb j,
  r_ts (pipe_diff g io f Tx Tp Tamb buf0) j = Tamb.
Proof. intros. cbn [pipe_diff part_diff r_ts buf0 b_ainf b_ua]. unfold surface_temp, Rdiv. ring. Qed.
Example C22_example : let b := buf_after (pipe_diff (gx 2 own2) 1 flows0 (cells3 60 70 80) (fun _ => 20) 15 buf0) in
  bufs_at (gx 2 own2) b /\
  15 <= r_ts (pipe_diff (gx 2 own2) 1 flows0 (cells3 60 70 80) (fun _ => 20) 15 b) 1%nat <= 70.
Proof.
  intros b. assert (G : geo_ok (gx 2 own2)) by (apply gx_ok, own2_in).
  assert (H : in_range (gx 2 own2) (cells3 60 70 80) (fun _ => 20) 15) by (apply cells3_ok; lra).
  assert (B : bufs_at (gx 2 own2) b) by (apply bf_pipe; [apply bf_new|exact H]).
  split; [exact B|].
  destruct (C22_parts _ b G B _ _ _ H 1%nat ltac:(cbn; lia)) as [_ [_ [P _]]].
  specialize (P 1 flows0). cbn [cells3] in P. rewrite Rmin_right, Rmax_left in P by lra. exact P.
Qed.

(** ** C54, C58: buoyancy *)
Theorem C54_buoyancy : forall n di T lmean, (forall j, (S j < n)%nat -> 0 <= lmean j) ->
  ((forall j, (S j < n)%nat -> T (S j) <= T j) -> forall j, buoyancy n di T lmean j = lmean j) /\
  (forall j, (S j < n)%nat ->
     lmean j <= buoyancy n di T lmean j /\
     (T (S j) <= T j -> buoyancy n di T lmean j = lmean j) /\
     (buoyancy n di T lmean j <> lmean j -> 20 * lmean j <= buoyancy n di T lmean j)).
Proof. exact buoyancy_laws. Qed.
(** A stronger inversion can mix less: at the switch from the laminar to the turbulent formula
    the Nusselt number falls. *)
Theorem C58_mixing_refuted : forall di T, 0 < di -> 5 <= T <= 100 ->
  exists d1 d2, 0 < d1 < d2 /\
    let weak := buoyancy 2 di (fun j => match j with O => T - d1 | _ => T end) (fun _ => 1) 0%nat in
    let strong := buoyancy 2 di (fun j => match j with O => T - d2 | _ => T end) (fun _ => 1) 0%nat in
    20 <= strong < weak.
Proof.
  intros di T Hd HT. destruct (nu_drops di T Hd HT) as [d1 [d2 [Hd12 [H1 H2]]]].
  exists d1, d2. split; [exact Hd12|].
  assert (V : forall d, 0 < d -> 1 <= buoyancy_nu di T d ->
    buoyancy 2 di (fun j => match j with O => T - d | _ => T end) (fun _ => 1) 0%nat = 20 * buoyancy_nu di T d).
  { intros d Hdp Hnu. unfold buoyancy.
    destruct (no_inversion 2 _) eqn:E.
    - exfalso. pose proof (proj1 (no_inversion_iff 2 _) E 0%nat ltac:(lia)). cbn in H. lra.
    - cbv beta iota zeta. replace (T - (T - d)) with d by lra.
      destruct (Rlt_dec d 0); [lra|]. destruct (Rle_dec 1 (buoyancy_nu di T d)); [lra|contradiction]. }
  cbv zeta. rewrite !V by lra. lra.
Qed.
Example C54_example : let T := fun j => match j with 0%nat => 60 | 1%nat => 70 | _ => 40 end in
  buoyancy 3 (1/2) T (fun _ => 0.6) 1%nat = 0.6 /\ ~ (forall j, (S j < 3)%nat -> T (S j) <= T j).
Proof.
  intros T. split.
  - apply (proj2 (C54_buoyancy 3 (1/2) T (fun _ => 0.6) ltac:(intros; lra)) 1%nat ltac:(lia)).
    unfold T. lra.
  - intros H. specialize (H 0%nat ltac:(lia)). unfold T in H. lra.
Qed.

(** ** C55: heating *)
Theorem C55_delivered : forall g lo hi dQ io f Tx Tp Tamb b, geo_ok g -> in_range g Tx Tp Tamb ->
  Tx 0%nat < 110 -> Tx (S (g_n g)) < 110 -> (lo < hi)%nat -> (hi <= g_n g)%nat ->
  let r := heated_diff g lo hi dQ io f Tx Tp Tamb b in
  heat_rate g Tx (r_heat r) = dQ /\
  (forall j, (j < lo)%nat \/ (hi <= j)%nat -> r_heat r j = 0) /\
  (forall j, r_tot r j = r_cond r j + r_adv r j + r_heat r j).
Proof.
  intros g lo hi dQ io f Tx Tp Tamb b G H H0 Hn Hlh Hhi r.
  assert (P : heat_power (g_n g) Tx dQ = dQ).
  { apply heat_power_cold; try assumption. intros j Hj. destruct (proj1 H j Hj). lra. }
  split; [|split; [|reflexivity]].
  - unfold heat_rate. transitivity (rsum (g_n g) (fun j => r_mcp r j * heated lo hi dQ (r_mcp r) j)).
    + apply rsum_ext. intros j Hj. f_equal. unfold r, heated_diff. cbn [part_diff r_heat]. rewrite P. reflexivity.
    + apply heated_sum; try assumption. intros j Hj. apply cap_ne; assumption.
  - intros j Hj. change (r_heat r j) with (heated lo hi (heat_power (g_n g) Tx dQ) (r_mcp r) j).
    unfold heated. destruct (Nat.leb_spec lo j), (Nat.ltb_spec j hi); cbn [andb]; try reflexivity. lia.
Qed.
Theorem C55_shutdown : forall g lo hi dQ io f Tx Tp Tamb b k, (k < g_n g)%nat -> 110 <= Tx (S k) ->
  forall j, r_heat (heated_diff g lo hi dQ io f Tx Tp Tamb b) j = 0.
Proof.
  intros g lo hi dQ io f Tx Tp Tamb b k Hk H j. unfold heated_diff. cbn [part_diff r_heat].
  rewrite (heat_power_hot _ _ _ k Hk H). unfold heated. destruct (_ && _); unfold Rdiv; ring.
Qed.
Example C55_example : heat_rate (gx 2 own2) (cells3 60 70 80)
  (r_heat (heated_diff (gx 2 own2) 1 3 500 0 flows0 (cells3 60 70 80) (fun _ => 20) 15 buf0)) = 500.
Proof.
  apply C55_delivered; [apply gx_ok, own2_in|apply cells3_ok; lra|cbn; lra|cbn; lra|lia|cbn; lia].
Qed.

(** ** C04: evaluations depend on earlier, also rejected, evaluations *)
(** Evaluating the same state of a fresh pipe twice gives different slopes in every cell that is
    warmer than the ambient. *)
Theorem C04_pipe_slope_history_refuted : forall g io f Tx Tp Tamb, geo_ok g -> in_range g Tx Tp Tamb ->
  let r1 := pipe_diff g io f Tx Tp Tamb buf0 in
  let r2 := pipe_diff g io f Tx Tp Tamb (buf_after r1) in
  forall j, (j < g_n g)%nat -> Tamb < Tx (S j) -> r_tot r2 j < r_tot r1 j.
Proof. intros g io f Tx Tp Tamb G H. apply slope_history; auto. Qed.
(** An evaluation at temperatures of 110 degrees or more, as in a predictor of a step that is
    rejected afterwards, switches the heating off for all further evaluations until the
    controller sets it again. *)
Theorem C04_heating_history_refuted : forall g lo hi dQ io f Tx Thot Tp Tamb b, geo_ok g ->
  in_range g Tx Tp Tamb -> Tx 0%nat < 110 -> Tx (S (g_n g)) < 110 -> 0 < dQ ->
  (exists k, (k < g_n g)%nat /\ 110 <= Thot (S k)) ->
  let before := fst (heated_eval g lo hi io f Tx Tp Tamb (dQ, b)) in
  let st := snd (heated_eval g lo hi io f Thot Tp Tamb (dQ, b)) in
  let after := fst (heated_eval g lo hi io f Tx Tp Tamb st) in
  forall j, (lo <= j < hi)%nat -> (j < g_n g)%nat -> r_heat after j = 0 /\ 0 < r_heat before j.
Proof.
  intros g lo hi dQ io f Tx Thot Tp Tamb b G H H0 Hn HQ [k [Hk Hh]] before st after j Hj Hjn.
  assert (E : fst st = 0) by (apply heat_power_hot with k; assumption).
  split.
  - change (r_heat after j) with (heated lo hi (heat_power (g_n g) Tx (fst st)) (r_mcp after) j).
    rewrite E. unfold heated, heat_power. destruct (existsb _ _), (_ && _); unfold Rdiv; ring.
  - change (r_heat before j) with (heated lo hi (heat_power (g_n g) Tx dQ) (r_mcp before) j).
    rewrite heat_power_cold by (try assumption; intros q Hq; destruct (proj1 H q Hq); lra).
    unfold heated. destruct (Nat.leb_spec lo j), (Nat.ltb_spec j hi); try lia. cbn [andb].
    pose proof (mcp_pos g lam_mean (fun _ => io) (process_flow_invar (g_n g) (g_np g) io f) false
      (heated lo hi (heat_power (g_n g) Tx dQ)) Tx Tp Tamb b G H j Hjn) as M.
    assert (0 < INR (hi - lo)) by (apply lt_0_INR; lia).
    change (r_mcp before j) with (r_mcp (part_diff g lam_mean (fun _ => io) (process_flow_invar (g_n g) (g_np g) io f) false
      (heated lo hi (heat_power (g_n g) Tx dQ)) Tx Tp Tamb b) j).
    apply Rdiv_lt_0_compat; [|exact M]. apply Rmult_lt_0_compat; [exact HQ|]. apply Rdiv_lt_0_compat; lra.
Qed.
Example C04_history_example :
  r_tot (pipe_diff (gx 2 own2) 0 flows0 (cells3 60 70 80) (fun _ => 20) 15
    (buf_after (pipe_diff (gx 2 own2) 0 flows0 (cells3 60 70 80) (fun _ => 20) 15 buf0))) 0%nat
  < r_tot (pipe_diff (gx 2 own2) 0 flows0 (cells3 60 70 80) (fun _ => 20) 15 buf0) 0%nat.
Proof.
  apply C04_pipe_slope_history_refuted; [apply gx_ok, own2_in|apply cells3_ok; lra|cbn; lia|cbn; lra].
Qed.

Print Assumptions C12_pipe. Print Assumptions C12_branched. Print Assumptions C12_heated.
Print Assumptions C12_tes. Print Assumptions C12_second_law.
Print Assumptions C13_pipe. Print Assumptions C13_heated. Print Assumptions C13_branched.
Print Assumptions C13_tes. Print Assumptions C14_uniform. Print Assumptions C14_outer_cells.
Print Assumptions C15_pipe_partial. Print Assumptions C15_tes_partial. Print Assumptions C15_refuted.
Print Assumptions C16_objection. Print Assumptions C16_pass_partial. Print Assumptions C16_courant_refuted.
Print Assumptions C16_diffusion_refuted. Print Assumptions C16_branched_refuted.
Print Assumptions C16_tes_refuted. Print Assumptions C16_zero_port_refuted.
Print Assumptions C16_ports_checked.
Print Assumptions C17_series. Print Assumptions C17_parallel. Print Assumptions C17_interface.
Print Assumptions C22_surface. Print Assumptions C22_parts. Print Assumptions C22_first_evaluation.
Print Assumptions C54_buoyancy. Print Assumptions C58_mixing_refuted.
Print Assumptions C55_delivered. Print Assumptions C55_shutdown.
Print Assumptions C04_pipe_slope_history_refuted. Print Assumptions C04_heating_history_refuted.
