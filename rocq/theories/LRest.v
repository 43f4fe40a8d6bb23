(** Networks left to themselves (C185): one cell, one part. *)
From Coq Require Import Reals List Arith Bool Lra Lia.
From Verif Require Import MFlow MWater MDiff SFlow SDiff MSolver MHeun MRange SRange SRest LFlow LPoly LWater LDiff LDiff2 LDiff3
  LDiff4 LDiff5 LDiff7 LAlpha LRange LRange2 PDiff PAlpha.
Import ListNotations.
Open Scope R_scope.

(** ** The maximum principle with the loss to the ambient counted *)
Section Sharp.
Variables (g : geo) (lmean : arr -> arr) (dm : arr) (f : flows) (lids : bool)
  (Tx Tp : arr) (Tamb : R) (b : buf).
Let r := part_diff g lmean dm f lids no_heat Tx Tp Tamb b.
Hypothesis G : geo_ok g.
Hypothesis B : buf_ok g b.
Hypothesis L0 : forall k, (k < g_n g - 1)%nat -> 0 <= lmean (fun j => lambda_water (Tx (S j))) k.
Variables lo hi dt : R.
Hypothesis Hlo : 0 <= lo.
Hypothesis Hhi : hi <= 100.
Hypothesis HT : forall j, (j < g_n g)%nat -> lo <= Tx (S j) <= hi.
Hypothesis HP : forall i, (i < g_np g)%nat -> lo <= Tp i <= hi.
Hypothesis HA : lo <= Tamb <= hi.
Hypothesis Hdt : 0 <= dt.
Hypothesis Ft : f_top f 0%nat = 0.
Hypothesis Fb : f_bot f (g_n g - 1)%nat = 0.
Hypothesis F0 : forall j, (j < g_n g)%nat -> 0 <= f_top f j /\ 0 <= f_bot f j.
Hypothesis Fp : forall i, (i < g_np g)%nat -> 0 <= f_port f i.

Lemma max_sharp j : (j < g_n g)%nat ->
  dt * coupling g lmean dm f lids Tx Tp Tamb b j <= r_mcp r j ->
  r_mcp r j * lo + dt * r_ua r j * (Tamb - lo) <= r_mcp r j * (Tx (S j) + dt * r_tot r j)
    <= r_mcp r j * hi - dt * r_ua r j * (hi - Tamb).
Proof.
  intros Hj HK.
  pose proof (range g Tx Tp Tamb lo hi Hlo Hhi HT HP HA) as RG.
  pose proof (mcp_pos g lmean dm f lids no_heat Tx Tp Tamb b G RG j Hj) as M. fold r in M.
  pose proof (flux g lmean dm f lids Tx Tp Tamb b G lo hi Hlo Hhi HT HP HA j Hj) as FX. fold r in FX. pose proof (ok_n g G).
  set (T := Tx (S j)) in *. assert (HTj : lo <= T <= hi) by apply (HT j Hj).
  pose proof (tb_ends g lmean dm f lids no_heat Tx Tp Tamb b) as [E0 En]. fold r in E0, En.
  assert (Z1 : forall P : Prop, (j <> 0%nat -> P) -> (r_tb r j = 0 \/ P) /\ (f_top f j = 0 \/ P)).
  { intros P HPP. destruct (Nat.eq_dec j 0) as [->|N]; auto. }
  assert (Z2 : forall P : Prop, (S j <> g_n g -> P) -> (r_tb r (S j) = 0 \/ P) /\ (f_bot f j = 0 \/ P)).
  { intros P HPP. destruct (Nat.eq_dec (S j) (g_n g)) as [E|N]; auto.
    rewrite E. split; left; [exact En|]. replace j with (g_n g - 1)%nat by lia. exact Fb. }
  assert (R1 : j <> 0%nat -> lo <= Tx j <= hi).
  { intros N. destruct j as [|k]; [lia|]. apply (HT k). lia. }
  assert (R2 : S j <> g_n g -> lo <= Tx (S (S j)) <= hi).
  { intros N. apply (HT (S j)). lia. }
  pose proof (tb_nonneg g lmean dm f lids Tx Tp Tamb b G L0 j) as t1.
  pose proof (tb_nonneg g lmean dm f lids Tx Tp Tamb b G L0 (S j)) as t2. fold r in t1, t2.
  destruct (ua_bounds g lmean dm f lids no_heat Tx Tp Tamb b G B RG j Hj) as [u1 _]. fold r in u1.
  pose proof (F0 j Hj) as [f1 f2].
  assert (LD : 0 <= lid_at g lmean dm f lids no_heat Tx Tp Tamb b j).
  { unfold lid_at. pose proof (lid_nonneg g lmean dm f lids no_heat Tx Tp Tamb b G B RG 0).
    pose proof (lid_nonneg g lmean dm f lids no_heat Tx Tp Tamb b G B RG 1).
    apply if_nonneg, Rplus_le_le_0_compat; apply if_nonneg; assumption. }
  unfold coupling in HK. unfold cell_in in HK. fold r in HK.
  change (if lids then (if (j =? 0)%nat then r_lid r 0%nat else 0)
                + (if (j =? g_n g - 1)%nat then r_lid r 1%nat else 0) else 0)
    with (lid_at g lmean dm f lids no_heat Tx Tp Tamb b j) in HK.
  set (ld := lid_at g lmean dm f lids no_heat Tx Tp Tamb b j) in *.
  set (PU := at_cell (g_np g) (g_own g) (r_uap r) j) in *.
  set (PF := at_cell (g_np g) (g_own g) (f_port f) j) in *.
  assert (LOW : r_mcp r j * r_tot r j >= - ((r_tb r j + r_tb r (S j) + r_ua r j + ld + PU
      + 4400 * (f_top f j + f_bot f j + PF)) * (T - lo)) + r_ua r j * (Tamb - lo)).
  { rewrite FX.
    pose proof (term_lo (r_tb r j) (Tx j) T lo t1 (proj1 (Z1 _ (fun n => proj1 (R1 n))))).
    pose proof (term_lo (r_tb r (S j)) (Tx (S (S j))) T lo t2 (proj1 (Z2 _ (fun n => proj1 (R2 n))))).
    pose proof (term_lo ld Tamb T lo ltac:(lra) (or_intror (proj1 HA))).
    assert (C1 : at_cell (g_np g) (g_own g) (fun i => r_uap r i * (Tp i - Tx (S (g_own g i)))) j >= - (PU * (T - lo))).
    { assert (Q : - (PU * (T - lo)) = at_cell (g_np g) (g_own g) (fun i => (- (T - lo)) * r_uap r i) j)
        by (rewrite <- at_cell_mult; unfold PU; ring).
      rewrite Q. apply at_cell_ge. intros i Hi E. rewrite E. fold T.
      pose proof (uap_pos g lmean dm f lids no_heat Tx Tp Tamb b G RG i Hi) as UP. fold r in UP.
      pose proof (term_lo (r_uap r i) (Tp i) T lo ltac:(lra) (or_intror (proj1 (HP i Hi)))). lra. }
    assert (C2 : at_cell (g_np g) (g_own g) (fun i => f_port f i * (u_water (Tp i) - u_water (Tx (S (g_own g i))))) j >= - (4400 * PF * (T - lo))).
    { assert (Q : - (4400 * PF * (T - lo)) = at_cell (g_np g) (g_own g) (fun i => (- (4400 * (T - lo))) * f_port f i) j)
        by (rewrite <- at_cell_mult; unfold PF; ring).
      rewrite Q. apply at_cell_ge. intros i Hi E. rewrite E. fold T.
      assert (OR : f_port f i = 0 \/ lo <= Tp i <= 100) by (right; pose proof (HP i Hi); lra).
      pose proof (uterm_lo (f_port f i) (Tp i) T lo (Fp i Hi) Hlo ltac:(lra) OR). lra. }
    assert (OR1 : f_top f j = 0 \/ lo <= Tx j <= 100).
    { apply (Z1 (lo <= Tx j <= 100)). intros n. pose proof (R1 n). lra. }
    assert (OR2 : f_bot f j = 0 \/ lo <= Tx (S (S j)) <= 100).
    { apply (Z2 (lo <= Tx (S (S j)) <= 100)). intros n. pose proof (R2 n). lra. }
    pose proof (uterm_lo (f_top f j) (Tx j) T lo f1 Hlo ltac:(lra) OR1).
    pose proof (uterm_lo (f_bot f j) (Tx (S (S j))) T lo f2 Hlo ltac:(lra) OR2).
    lra. }
  assert (HIGH : r_mcp r j * r_tot r j <= (r_tb r j + r_tb r (S j) + r_ua r j + ld + PU
      + 4400 * (f_top f j + f_bot f j + PF)) * (hi - T) - r_ua r j * (hi - Tamb)).
  { rewrite FX.
    pose proof (term_hi (r_tb r j) (Tx j) T hi t1 (proj1 (Z1 _ (fun n => proj2 (R1 n))))).
    pose proof (term_hi (r_tb r (S j)) (Tx (S (S j))) T hi t2 (proj1 (Z2 _ (fun n => proj2 (R2 n))))).
    pose proof (term_hi ld Tamb T hi ltac:(lra) (or_intror (proj2 HA))).
    assert (C1 : PU * (hi - T) >= at_cell (g_np g) (g_own g) (fun i => r_uap r i * (Tp i - Tx (S (g_own g i)))) j).
    { assert (Q : PU * (hi - T) = at_cell (g_np g) (g_own g) (fun i => (hi - T) * r_uap r i) j)
        by (rewrite <- at_cell_mult; unfold PU; ring).
      rewrite Q. apply at_cell_ge. intros i Hi E. rewrite E. fold T.
      pose proof (uap_pos g lmean dm f lids no_heat Tx Tp Tamb b G RG i Hi) as UP. fold r in UP.
      pose proof (term_hi (r_uap r i) (Tp i) T hi ltac:(lra) (or_intror (proj2 (HP i Hi)))). lra. }
    assert (C2 : 4400 * PF * (hi - T) >= at_cell (g_np g) (g_own g) (fun i => f_port f i * (u_water (Tp i) - u_water (Tx (S (g_own g i))))) j).
    { assert (Q : 4400 * PF * (hi - T) = at_cell (g_np g) (g_own g) (fun i => (4400 * (hi - T)) * f_port f i) j)
        by (rewrite <- at_cell_mult; unfold PF; ring).
      rewrite Q. apply at_cell_ge. intros i Hi E. rewrite E. fold T.
      assert (OR : f_port f i = 0 \/ 0 <= Tp i <= hi) by (right; pose proof (HP i Hi); lra).
      pose proof (uterm_hi (f_port f i) (Tp i) T hi (Fp i Hi) Hhi ltac:(lra) OR). lra. }
    assert (OR1 : f_top f j = 0 \/ 0 <= Tx j <= hi).
    { apply (Z1 (0 <= Tx j <= hi)). intros n. pose proof (R1 n). lra. }
    assert (OR2 : f_bot f j = 0 \/ 0 <= Tx (S (S j)) <= hi).
    { apply (Z2 (0 <= Tx (S (S j)) <= hi)). intros n. pose proof (R2 n). lra. }
    pose proof (uterm_hi (f_top f j) (Tx j) T hi f1 Hhi ltac:(lra) OR1).
    pose proof (uterm_hi (f_bot f j) (Tx (S (S j))) T hi f2 Hhi ltac:(lra) OR2).
    lra. }
  set (K := r_tb r j + r_tb r (S j) + r_ua r j + ld + PU + 4400 * (f_top f j + f_bot f j + PF)) in *.
  set (mc := r_mcp r j) in *. set (s := r_tot r j) in *. set (u := r_ua r j) in *. clearbody mc s K T u.
  clear - LOW HIGH HK HTj Hdt M.
  split.
  - assert (dt * (mc * s) >= dt * (- (K * (T - lo)) + u * (Tamb - lo))) by (apply Rle_ge, Rmult_le_compat_l; lra).
    assert (dt * K * (T - lo) <= mc * (T - lo)) by (apply Rmult_le_compat_r; lra). nra.
  - assert (dt * (mc * s) <= dt * (K * (hi - T) - u * (hi - Tamb))) by (apply Rmult_le_compat_l; lra).
    assert (dt * K * (hi - T) <= mc * (hi - T)) by (apply Rmult_le_compat_r; lra). nra.
Qed.

Lemma max_shrink j c Ts dl dh : (j < g_n g)%nat -> lo = Ts - dl -> hi = Ts + dh -> Tamb = Ts ->
  dt * coupling g lmean dm f lids Tx Tp Tamb b j <= r_mcp r j -> c * r_mcp r j <= r_ua r j ->
  Ts - (1 - c * dt) * dl <= Tx (S j) + dt * r_tot r j <= Ts + (1 - c * dt) * dh.
Proof.
  intros Hj E1 E2 EA HK HC. pose proof (max_sharp j Hj HK) as SH.
  pose proof (range g Tx Tp Tamb lo hi Hlo Hhi HT HP HA) as RG.
  pose proof (mcp_pos g lmean dm f lids no_heat Tx Tp Tamb b G RG j Hj) as M. fold r in M.
  set (mc := r_mcp r j) in *. set (x := Tx (S j) + dt * r_tot r j) in *. set (u := r_ua r j) in *.
  clearbody mc x u. assert (0 <= dl /\ 0 <= dh) by lra.
  assert (X : dt * dl * (c * mc) <= dt * dl * u) by (apply Rmult_le_compat_l; [apply Rmult_le_pos; lra|lra]).
  assert (Y : dt * dh * (c * mc) <= dt * dh * u) by (apply Rmult_le_compat_l; [apply Rmult_le_pos; lra|lra]).
  subst lo hi Tamb. clear - SH X Y M.
  split; (apply Rmult_le_reg_l with mc; [exact M|]); nra.
Qed.
End Sharp.

(** ** One part of the network *)
Lemma node_shrinks Ts dl dh c hmax np g p : node_ok geo_ok Ts Ts np g p ->
  short (Ts - dl) (Ts + dh) hmax p -> loses (Ts - dl) (Ts + dh) c p ->
  0 <= dl -> 0 <= dh -> 0 <= Ts - dl -> Ts + dh <= 100 ->
  forall Tx Tp b f h, 0 <= h <= hmax -> bufs_at g b -> flows_at g f ->
  (forall j, (j < g_n g)%nat -> Ts - dl <= Tx (S j) <= Ts + dh) ->
  (forall i, (i < g_np g)%nat -> Ts - dl <= Tp i <= Ts + dh) ->
  forall j, (j < g_n g)%nat ->
  Ts - (1 - c * h) * dl <= Tx (S j) + h * r_tot (node_res p Tx Tp (b, f)) j <= Ts + (1 - c * h) * dh.
Proof.
  intros (Eg&G&HA&_&HK) HS HC HDl HDh Hlo Hhi Tx Tp b f h Hh B F HT HP j Hj.
  assert (EA : nd_amb p = Ts) by lra.
  assert (HA' : Ts - dl <= nd_amb p <= Ts + dh) by lra.
  unfold short in HS. unfold loses in HC. rewrite Eg in HS, HC. specialize (HS Tx Tp b f B F HT HP j Hj).
  specialize (HC Tx Tp b f B F HT HP j Hj).
  pose proof (ok_n g G) as Hn.
  assert (CP : 0 < capacity g Tx j).
  { unfold capacity. pose proof (HT j Hj). pose proof (rhocp_bounds (Tx (S j)) ltac:(lra)).
    destruct G. nra. }
  set (t := touch p (node_res p Tx Tp (b, f)) (node_flows p f) j) in HS.
  assert (HS' : h * t <= capacity g Tx j).
  { destruct (Rle_dec 0 t); [apply Rle_trans with (hmax * t); [apply Rmult_le_compat_r; lra|exact HS]|nra]. }
  clear HS. unfold t, touch in HS'. rewrite Eg in HS'. clear t.
  assert (E : ends0 (g_n g) f) by (apply flows_at_ends; [lia|exact F]).
  assert (LP : forall k, (k < g_n g - 1)%nat -> 0 <= lam_mean (fun j => lambda_water (Tx (S j))) k).
  { intros k Hk. apply Rlt_le, lam_mean_pos.
    - pose proof (HT k ltac:(lia)). pose proof (lambda_bounds (Tx (S k)) ltac:(lra)). lra.
    - pose proof (HT (S k) ltac:(lia)). pose proof (lambda_bounds (Tx (S (S k))) ltac:(lra)). lra. }
  unfold node_res, node_flows in *. rewrite Eg in *. cbn [fst snd] in *.
  destruct (nd_kind p) as [io|io|io].
  - destruct HK as [Np Ho]. destruct (invar_ends (g_n g) (g_np g) io f ltac:(lia) E) as [Z1 Z2].
    pose proof (fun j => invar_in (g_n g) (g_own g) io f j Hn Ho E) as IV. rewrite <- Np in IV.
    unfold pipe_diff in *. apply max_shrink with (lo := Ts - dl) (hi := Ts + dh); try assumption; try reflexivity; try lra.
    + apply bufs_at_ok; assumption.
    + intros k Hk. destruct (IV k Hk) as [_ [A1 [A2 _]]]. split; assumption.
    + intros i Hi. destruct (IV j Hj) as [_ [_ [_ A]]]. apply A, Hi.
  - destruct HK as [[Np Hs] H0].
    assert (So : sorted_ports (g_n g) (g_np g) (g_own g)) by (split; [exact Hs|apply (ok_own g G)]).
    destruct (var_ends (g_n g) (g_np g) (g_own g) io f ltac:(lia) E) as [Z1 Z2].
    unfold branched_diff in *. cbv zeta in *.
    apply max_shrink with (lo := Ts - dl) (hi := Ts + dh); try assumption; try reflexivity; try lra.
    + apply bufs_at_ok; assumption.
    + intros k Hk. destruct (var_balance (g_n g) (g_np g) (g_own g) io f ltac:(lia) Np So E H0 k Hk) as [_ [A1 [A2 _]]].
      split; assumption.
    + intros i Hi. cbn [process_flow_var fst f_port]. rewrite clip0_max. apply Rmax_l.
  - destruct HK as [[Np Hs] H0].
    assert (So : sorted_ports (g_n g) (g_np g) (g_own g)) by (split; [exact Hs|apply (ok_own g G)]).
    destruct (var_ends (g_n g) (g_np g) (g_own g) io f ltac:(lia) E) as [Z1 Z2].
    unfold tes_diff in *. cbv zeta in *.
    apply max_shrink with (lo := Ts - dl) (hi := Ts + dh); try assumption; try reflexivity; try lra.
    + apply bufs_at_ok; assumption.
    + intros k Hk. destruct (buoyancy_laws (g_n g) (g_di g) (fun j => Tx (S j)) (lam_mean (fun j => lambda_water (Tx (S j))))) as [_ BL].
      * intros q Hq. apply LP. lia.
      * destruct (BL k ltac:(lia)) as [BL1 _]. specialize (LP k Hk). lra.
    + intros k Hk. destruct (var_balance (g_n g) (g_np g) (g_own g) io f ltac:(lia) Np So E H0 k Hk) as [_ [A1 [A2 _]]].
      split; assumption.
    + intros i Hi. cbn [process_flow_var fst f_port]. rewrite clip0_max. apply Rmax_l.
Qed.

Lemma short_sub lo hi lo' hi' hmax p : short lo hi hmax p -> lo <= lo' -> hi' <= hi -> short lo' hi' hmax p.
Proof.
  intros S H1 H2 Tx Tp b f B F HT HP. apply S; try assumption.
  - intros k Hk. specialize (HT k Hk). lra.
  - intros i Hi. specialize (HP i Hi). lra.
Qed.
Lemma loses_sub lo hi lo' hi' c p : loses lo hi c p -> lo <= lo' -> hi' <= hi -> loses lo' hi' c p.
Proof.
  intros S H1 H2 Tx Tp b f B F HT HP. apply S; try assumption.
  - intros k Hk. specialize (HT k Hk). lra.
  - intros i Hi. specialize (HP i Hi). lra.
Qed.

(** ** Smallest loss of a cell *)
Lemma cyl_alpha_floor Ts Tinf L v rt : 0 <= (Tinf + Ts) / 2 <= 100 -> 0 < L -> 0 < rt ->
  0.0135 / L <= cyl_alpha_inf Ts Tinf L v rt.
Proof.
  intros HT HL Hr. unfold cyl_alpha_inf. cbv zeta. pose proof (lam_air_bounds _ HT) as LB.
  unfold Rdiv at 1. match goal with |- _ <= ?a / L => unfold Rdiv at 1 end.
  apply Rmult_le_compat_r; [left; apply Rinv_0_lt_compat, HL|].
  assert (X : forall q, 0 <= q -> 0.5655 <= (0.752 + 0.387 * q) ^ 2) by (intros; nra).
  assert (Y : forall q, 0 <= q -> 0.5655 <= (0.825 + 0.387 * q) ^ 2) by (intros; nra).
  destruct v.
  - pose proof (Y _ (npow_nonneg (rayleigh Ts Tinf L (ny_dryair ((Tinf + Ts) / 2)) * 0.3466023585520853) (1/6))).
    assert (0 < 0.435 * L / (2 * rt)) by (apply Rdiv_lt_0_compat; lra). nra.
  - pose proof (X _ (npow_nonneg (rayleigh Ts Tinf L (ny_dryair ((Tinf + Ts) / 2)) * 0.3269207911296459) (1/6))). nra.
Qed.
Lemma ua_cyl_floor g ai ainf : geo_ok g -> 2 / g_di g <= ai -> 0.0135 / g_L g <= ainf ->
  ua_floor g <= ua_cyl g ai ainf.
Proof.
  intros G H1 H2. pose proof G as []. unfold ua_floor, ua_cyl.
  assert (P1 : 0 < 2 / g_di g) by (apply Rdiv_lt_0_compat; lra).
  assert (P2 : 0 < 0.0135 / g_L g) by (apply Rdiv_lt_0_compat; lra).
  assert (Q1 : 1 / ai <= g_di g / 2).
  { replace (g_di g / 2) with (/ (2 / g_di g)) by (field; lra). unfold Rdiv at 1. rewrite Rmult_1_l. apply Rinv_le_contravar; assumption. }
  assert (Q2 : g_rr g / ainf <= g_rr g * g_L g / 0.0135).
  { replace (g_rr g * g_L g / 0.0135) with (g_rr g * / (0.0135 / g_L g)) by (field; lra).
    unfold Rdiv at 1. apply Rmult_le_compat_l; [lra|]. apply Rinv_le_contravar; assumption. }
  assert (Q3 : 0 < 1 / ai) by (apply Rdiv_lt_0_compat; lra).
  assert (Q4 : 0 <= g_rr g / ainf) by (left; apply Rdiv_lt_0_compat; lra).
  assert (Q5 : 0 <= g_rlw g / g_lw g) by (unfold Rdiv; apply Rmult_le_pos; [lra|left; apply Rinv_0_lt_compat; lra]).
  assert (Q6 : 0 <= g_rli g / g_li g) by (unfold Rdiv; apply Rmult_le_pos; [lra|left; apply Rinv_0_lt_compat; lra]).
  unfold Rdiv at 1 6. apply Rmult_le_compat_l; [lra|]. apply Rinv_le_contravar; lra.
Qed.
Lemma ua_floor_pos g : geo_ok g -> 0 < ua_floor g.
Proof.
  intros G. pose proof G as []. unfold ua_floor.
  assert (0 <= g_rlw g / g_lw g) by (unfold Rdiv; apply Rmult_le_pos; [lra|left; apply Rinv_0_lt_compat; lra]).
  assert (0 <= g_rli g / g_li g) by (unfold Rdiv; apply Rmult_le_pos; [lra|left; apply Rinv_0_lt_compat; lra]).
  assert (0 < g_rr g * g_L g / 0.0135) by (apply Rdiv_lt_0_compat; [apply Rmult_lt_0_compat; lra|lra]).
  apply Rdiv_lt_0_compat; lra.
Qed.

Section Floor.
Variables (g : geo) (lmean : arr -> arr) (dm : arr) (f : flows) (lids : bool) (Tx Tp : arr) (Tamb : R) (b : buf).
Let r := part_diff g lmean dm f lids no_heat Tx Tp Tamb b.
Lemma part_floor j : geo_ok g -> buf_ok g b -> range_ok g Tx Tp Tamb -> (forall k, (k < g_n g)%nat -> 0 < g_x g k) ->
  (j < g_n g)%nat -> ua_floor g <= r_ua r j.
Proof.
  intros G B H X Hj. change (r_ua r j) with (ua_cyl g (r_ai r j) (r_ainf r j)). apply ua_cyl_floor; [exact G|..].
  - change (r_ai r j) with (alpha_i g dm (fun j => Tx (S j)) j). unfold alpha_i.
    eapply Rle_trans; [|apply C107_floor; [apply (proj1 H j Hj)|apply (ok_A g G)|apply (ok_di g G)|]].
    + pose proof (lambda_bounds _ (proj1 H j Hj)). unfold Rdiv. apply Rmult_le_compat_r; [left; apply Rinv_0_lt_compat, (ok_di g G)|lra].
    + destruct (Rlt_dec (dm 0%nat) 0); apply X; lia.
  - change (r_ainf r j) with (cyl_alpha_inf (r_ts r j) Tamb (g_L g) (g_vert g) (g_rt g)).
    apply cyl_alpha_floor; [|apply (ok_L g G)|apply (ok_rt g G)].
    apply (tm_range g lmean dm f lids no_heat Tx Tp Tamb b G B H j Hj).
Qed.
End Floor.

Lemma node_loses lo hi np g p : node_ok geo_ok lo hi np g p -> 0 <= lo -> hi <= 100 ->
  (forall k, (k < g_n g)%nat -> 0 < g_x g k) -> loses lo hi (loss_rate g) p.
Proof.
  intros (Eg&G&HA&_) Hlo Hhi X. unfold loses. rewrite Eg. intros Tx Tp b f B F HT HP j Hj.
  assert (RG : range_ok g Tx Tp (nd_amb p)).
  { split; [|split]; [intros k Hk; specialize (HT k Hk); lra|intros i Hi; specialize (HP i Hi); lra|lra]. }
  assert (U : ua_floor g <= r_ua (node_res p Tx Tp (b, f)) j).
  { unfold node_res. rewrite Eg. cbn [fst snd]. pose proof (bufs_at_ok g b G B).
    destruct (nd_kind p); [unfold pipe_diff|unfold branched_diff|unfold tes_diff]; cbv zeta; apply part_floor; assumption. }
  eapply Rle_trans; [|exact U]. unfold loss_rate.
  pose proof (ua_floor_pos g G) as P. pose proof G as []. pose proof (rhocp_bounds (Tx (S j)) ltac:(specialize (HT j Hj); lra)).
  assert (C : capacity g Tx j <= 4225000 * g_V g + g_mw g) by (unfold capacity; nra).
  assert (M : 0 < 4225000 * g_V g + g_mw g) by nra.
  unfold Rdiv. rewrite Rmult_assoc. rewrite <- (Rmult_1_r (ua_floor g)) at 2. apply Rmult_le_compat_l; [lra|].
  apply Rmult_le_reg_l with (4225000 * g_V g + g_mw g); [exact M|].
  rewrite <- Rmult_assoc, Rinv_r, Rmult_1_l by lra. lra.
Qed.
