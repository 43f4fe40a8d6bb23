(** Maximum principle, stability check, conductance laws, buoyancy, heating (C15-C17, C54, C55). *)
From Coq Require Import Reals List Arith Bool Lra Lia QArith Qreals.
From Verif Require Import MFlow MWater MDiff SFlow LFlow LPoly LWater LDiff LDiff2.
Import ListNotations.
Open Scope R_scope.

(** ** Slope of the specific energy *)
Definition w_q : list Q := 0%Q :: qneg (qsub cp_q 4400%Q).
Lemma w_is T : 4400 * T - u_water T = qeval w_q T.
Proof.
  unfold u_water. rewrite cp_is. unfold w_q. unfold qeval at 2. cbn [map peval].
  fold (qeval (qneg (qsub cp_q 4400%Q)) T). rewrite qneg_eval, qsub_eval, RMicromega.Q2R_0.
  replace (Q2R 4400) with 4400 by (unfold Q2R; cbn; lra). ring.
Qed.
Lemma u_slope x y : 0 <= x -> x <= y -> y <= 100 ->
  0 <= u_water y - u_water x <= 4400 * (y - x).
Proof.
  intros A XY B. destruct XY as [XY| <-]; [|lra].
  pose proof (u_increasing x y A XY B).
  assert (4400 * x - u_water x < 4400 * y - u_water y); [|lra].
  rewrite !w_is. use_mono (qeval_increasing w_q) (qderiv w_q) 0%Q 100%Q (5#4) 80%nat.
Qed.

(** ** Discrete maximum principle *)
Lemma term_lo c X T lo : 0 <= c -> (c = 0 \/ lo <= X) -> c * (X - T) >= - (c * (T - lo)).
Proof. intros Hc [-> | H]; [lra|]. nra. Qed.
Lemma term_hi c X T hi : 0 <= c -> (c = 0 \/ X <= hi) -> c * (X - T) <= c * (hi - T).
Proof. intros Hc [-> | H]; [lra|]. nra. Qed.
Lemma uterm_lo m X T lo : 0 <= m -> 0 <= lo -> lo <= T <= 100 -> (m = 0 \/ lo <= X <= 100) ->
  m * (u_water X - u_water T) >= - (4400 * m * (T - lo)).
Proof.
  intros Hm H0 HT [-> | HX]; [lra|].
  pose proof (u_slope lo X H0 ltac:(lra) ltac:(lra)). pose proof (u_slope lo T H0 ltac:(lra) ltac:(lra)).
  assert (u_water X - u_water T >= - (4400 * (T - lo))) by lra. nra.
Qed.
Lemma uterm_hi m X T hi : 0 <= m -> hi <= 100 -> 0 <= T <= hi -> (m = 0 \/ 0 <= X <= hi) ->
  m * (u_water X - u_water T) <= 4400 * m * (hi - T).
Proof.
  intros Hm H0 HT [-> | HX]; [lra|].
  pose proof (u_slope X hi ltac:(lra) ltac:(lra) ltac:(lra)).
  pose proof (u_slope T hi ltac:(lra) ltac:(lra) ltac:(lra)).
  assert (u_water X - u_water T <= 4400 * (hi - T)) by lra. nra.
Qed.

Lemma if_nonneg (c : bool) x : 0 <= x -> 0 <= (if c then x else 0).
Proof. destruct c; lra. Qed.

Section Max.
Variables (g : geo) (lmean : arr -> arr) (dm : arr) (f : flows) (lids : bool)
  (Tx Tp : arr) (Tamb : R) (b : buf).
Let r := part_diff g lmean dm f lids no_heat Tx Tp Tamb b.
Hypothesis G : geo_ok g.
Hypothesis B : buf_ok g b.
Hypothesis L0 : forall k, (k < g_n g - 1)%nat -> 0 <= lmean (fun j => lambda_water (Tx (S j))) k.
Variables lo hi dt : R.
Hypothesis Hlo : 0 <= lo.
Hypothesis Hhi : hi <= 100.
Hypothesis HT : forall j, (j < g_n g)%nat -> lo <= Tx (S j) <= hi.
Hypothesis HP : forall i, (i < g_np g)%nat -> lo <= Tp i <= hi.
Hypothesis HA : lo <= Tamb <= hi.
Hypothesis Hdt : 0 <= dt.
Hypothesis Ft : f_top f 0%nat = 0.
Hypothesis Fb : f_bot f (g_n g - 1)%nat = 0.
Hypothesis F0 : forall j, (j < g_n g)%nat -> 0 <= f_top f j /\ 0 <= f_bot f j.
Hypothesis Fp : forall i, (i < g_np g)%nat -> 0 <= f_port f i.

(** Everything that couples cell [j] to its surroundings, W/K. *)
Definition coupling (j : nat) : R :=
  r_tb r j + r_tb r (S j) + r_ua r j
  + (if lids then (if (j =? 0)%nat then r_lid r 0%nat else 0)
                + (if (j =? g_n g - 1)%nat then r_lid r 1%nat else 0) else 0)
  + at_cell (g_np g) (g_own g) (r_uap r) j
  + 4400 * cell_in (f_top f) (f_bot f) (g_np g) (g_own g) (f_port f) j.

Lemma range : range_ok g Tx Tp Tamb.
Proof.
  repeat split; try lra.
  - destruct (HT j H); lra. - destruct (HT j H); lra.
  - destruct (HP i H); lra. - destruct (HP i H); lra.
Qed.
Lemma tb_nonneg k : 0 <= r_tb r k.
Proof.
  unfold r; cbn [part_diff r_tb]. unfold ua_tb.
  destruct ((1 <=? k)%nat && (k <? g_n g)%nat)%bool eqn:E; [|lra].
  apply andb_prop in E. destruct E as [E1 E2]. apply Nat.leb_le in E1. apply Nat.ltb_lt in E2.
  destruct G. specialize (L0 (k - 1)%nat ltac:(lia)).
  assert (0 <= g_A g / g_gsp g) by (apply Rlt_le, Rdiv_lt_0_compat; lra). nra.
Qed.
Lemma at_cell_ge (c d : arr) j : (forall i, (i < g_np g)%nat -> g_own g i = j -> c i >= d i) ->
  at_cell (g_np g) (g_own g) c j >= at_cell (g_np g) (g_own g) d j.
Proof.
  intros Hc. apply Rle_ge. unfold at_cell. apply rsum_le. intros i Hi.
  destruct (Nat.eqb_spec (g_own g i) j) as [E|E]; [apply Rge_le, Hc; assumption|lra].
Qed.

Lemma flux j : (j < g_n g)%nat ->
  r_mcp r j * r_tot r j =
    r_tb r j * (Tx j - Tx (S j)) + r_tb r (S j) * (Tx (S (S j)) - Tx (S j))
    + (r_ua r j + lid_at g lmean dm f lids no_heat Tx Tp Tamb b j) * (Tamb - Tx (S j))
    + at_cell (g_np g) (g_own g) (fun i => r_uap r i * (Tp i - Tx (S (g_own g i)))) j
    + (f_top f j * (u_water (Tx j) - u_water (Tx (S j)))
       + f_bot f j * (u_water (Tx (S (S j))) - u_water (Tx (S j))))
    + at_cell (g_np g) (g_own g) (fun i => f_port f i * (u_water (Tp i) - u_water (Tx (S (g_own g i))))) j.
Proof.
  intros Hj. pose proof (mcp_pos g lmean dm f lids no_heat Tx Tp Tamb b G range j Hj) as M.
  fold r in M. pose proof (ok_n g G).
  unfold r. rewrite tot_val, cond_val, adv_val by (try apply (ok_own g G); lia || assumption).
  fold r. change (r_heat r j) with 0. rewrite !Rmult_plus_distr_l.
  unfold r. rewrite !port_mcp by (fold r; lra). fold r. unfold u_water. field. lra.
Qed.

Lemma max_principle j : (j < g_n g)%nat ->
  dt * coupling j <= r_mcp r j -> lo <= Tx (S j) + dt * r_tot r j <= hi.
Proof.
  intros Hj HK.
  pose proof (mcp_pos g lmean dm f lids no_heat Tx Tp Tamb b G range j Hj) as M. fold r in M.
  pose proof (flux j Hj) as FX. pose proof (ok_n g G).
  set (T := Tx (S j)) in *. assert (HTj : lo <= T <= hi) by apply (HT j Hj).
  pose proof (tb_ends g lmean dm f lids no_heat Tx Tp Tamb b) as [E0 En]. fold r in E0, En.
  assert (Z1 : forall P : Prop, (j <> 0%nat -> P) -> (r_tb r j = 0 \/ P) /\ (f_top f j = 0 \/ P)).
  { intros P HPP. destruct (Nat.eq_dec j 0) as [->|N]; auto. }
  assert (Z2 : forall P : Prop, (S j <> g_n g -> P) -> (r_tb r (S j) = 0 \/ P) /\ (f_bot f j = 0 \/ P)).
  { intros P HPP. destruct (Nat.eq_dec (S j) (g_n g)) as [E|N]; auto.
    rewrite E. split; left; [exact En|]. replace j with (g_n g - 1)%nat by lia. exact Fb. }
  assert (R1 : j <> 0%nat -> lo <= Tx j <= hi).
  { intros N. destruct j as [|k]; [lia|]. apply (HT k). lia. }
  assert (R2 : S j <> g_n g -> lo <= Tx (S (S j)) <= hi).
  { intros N. apply (HT (S j)). lia. }
  pose proof (tb_nonneg j) as t1. pose proof (tb_nonneg (S j)) as t2.
  destruct (ua_bounds g lmean dm f lids no_heat Tx Tp Tamb b G B range j Hj) as [u1 _]. fold r in u1.
  pose proof (F0 j Hj) as [f1 f2].
  assert (LD : 0 <= lid_at g lmean dm f lids no_heat Tx Tp Tamb b j).
  { unfold lid_at. pose proof (lid_nonneg g lmean dm f lids no_heat Tx Tp Tamb b G B range 0).
    pose proof (lid_nonneg g lmean dm f lids no_heat Tx Tp Tamb b G B range 1).
    apply if_nonneg, Rplus_le_le_0_compat; apply if_nonneg; assumption. }
  unfold coupling in HK. unfold cell_in in HK.
  fold (lid_at g lmean dm f lids no_heat Tx Tp Tamb b j) in HK.
  change (if lids then (if (j =? 0)%nat then r_lid r 0%nat else 0)
                + (if (j =? g_n g - 1)%nat then r_lid r 1%nat else 0) else 0)
    with (lid_at g lmean dm f lids no_heat Tx Tp Tamb b j) in HK.
  set (ld := lid_at g lmean dm f lids no_heat Tx Tp Tamb b j) in *.
  set (PU := at_cell (g_np g) (g_own g) (r_uap r) j) in *.
  set (PF := at_cell (g_np g) (g_own g) (f_port f) j) in *.
  assert (LOW : r_mcp r j * r_tot r j >= - ((r_tb r j + r_tb r (S j) + r_ua r j + ld + PU
      + 4400 * (f_top f j + f_bot f j + PF)) * (T - lo))).
  { rewrite FX.
    pose proof (term_lo (r_tb r j) (Tx j) T lo t1 (proj1 (Z1 _ (fun n => proj1 (R1 n))))).
    pose proof (term_lo (r_tb r (S j)) (Tx (S (S j))) T lo t2 (proj1 (Z2 _ (fun n => proj1 (R2 n))))).
    pose proof (term_lo (r_ua r j + ld) Tamb T lo ltac:(lra) (or_intror (proj1 HA))).
    assert (C1 : at_cell (g_np g) (g_own g) (fun i => r_uap r i * (Tp i - Tx (S (g_own g i)))) j >= - (PU * (T - lo))).
    { assert (Q : - (PU * (T - lo)) = at_cell (g_np g) (g_own g) (fun i => (- (T - lo)) * r_uap r i) j)
        by (rewrite <- at_cell_mult; unfold PU; ring).
      rewrite Q. apply at_cell_ge. intros i Hi E. rewrite E. fold T.
      pose proof (uap_pos g lmean dm f lids no_heat Tx Tp Tamb b G range i Hi) as UP. fold r in UP.
      pose proof (term_lo (r_uap r i) (Tp i) T lo ltac:(lra) (or_intror (proj1 (HP i Hi)))). lra. }
    assert (C2 : at_cell (g_np g) (g_own g) (fun i => f_port f i * (u_water (Tp i) - u_water (Tx (S (g_own g i))))) j >= - (4400 * PF * (T - lo))).
    { assert (Q : - (4400 * PF * (T - lo)) = at_cell (g_np g) (g_own g) (fun i => (- (4400 * (T - lo))) * f_port f i) j)
        by (rewrite <- at_cell_mult; unfold PF; ring).
      rewrite Q. apply at_cell_ge. intros i Hi E. rewrite E. fold T.
      assert (OR : f_port f i = 0 \/ lo <= Tp i <= 100) by (right; pose proof (HP i Hi); lra).
      pose proof (uterm_lo (f_port f i) (Tp i) T lo (Fp i Hi) Hlo ltac:(lra) OR). lra. }
    assert (OR1 : f_top f j = 0 \/ lo <= Tx j <= 100).
    { apply (Z1 (lo <= Tx j <= 100)). intros n. pose proof (R1 n). lra. }
    assert (OR2 : f_bot f j = 0 \/ lo <= Tx (S (S j)) <= 100).
    { apply (Z2 (lo <= Tx (S (S j)) <= 100)). intros n. pose proof (R2 n). lra. }
    pose proof (uterm_lo (f_top f j) (Tx j) T lo f1 Hlo ltac:(lra) OR1).
    pose proof (uterm_lo (f_bot f j) (Tx (S (S j))) T lo f2 Hlo ltac:(lra) OR2).
    lra. }
  assert (HIGH : r_mcp r j * r_tot r j <= (r_tb r j + r_tb r (S j) + r_ua r j + ld + PU
      + 4400 * (f_top f j + f_bot f j + PF)) * (hi - T)).
  { rewrite FX.
    pose proof (term_hi (r_tb r j) (Tx j) T hi t1 (proj1 (Z1 _ (fun n => proj2 (R1 n))))).
    pose proof (term_hi (r_tb r (S j)) (Tx (S (S j))) T hi t2 (proj1 (Z2 _ (fun n => proj2 (R2 n))))).
    pose proof (term_hi (r_ua r j + ld) Tamb T hi ltac:(lra) (or_intror (proj2 HA))).
    assert (C1 : PU * (hi - T) >= at_cell (g_np g) (g_own g) (fun i => r_uap r i * (Tp i - Tx (S (g_own g i)))) j).
    { assert (Q : PU * (hi - T) = at_cell (g_np g) (g_own g) (fun i => (hi - T) * r_uap r i) j)
        by (rewrite <- at_cell_mult; unfold PU; ring).
      rewrite Q. apply at_cell_ge. intros i Hi E. rewrite E. fold T.
      pose proof (uap_pos g lmean dm f lids no_heat Tx Tp Tamb b G range i Hi) as UP. fold r in UP.
      pose proof (term_hi (r_uap r i) (Tp i) T hi ltac:(lra) (or_intror (proj2 (HP i Hi)))). lra. }
    assert (C2 : 4400 * PF * (hi - T) >= at_cell (g_np g) (g_own g) (fun i => f_port f i * (u_water (Tp i) - u_water (Tx (S (g_own g i))))) j).
    { assert (Q : 4400 * PF * (hi - T) = at_cell (g_np g) (g_own g) (fun i => (4400 * (hi - T)) * f_port f i) j)
        by (rewrite <- at_cell_mult; unfold PF; ring).
      rewrite Q. apply at_cell_ge. intros i Hi E. rewrite E. fold T.
      assert (OR : f_port f i = 0 \/ 0 <= Tp i <= hi) by (right; pose proof (HP i Hi); lra).
      pose proof (uterm_hi (f_port f i) (Tp i) T hi (Fp i Hi) Hhi ltac:(lra) OR). lra. }
    assert (OR1 : f_top f j = 0 \/ 0 <= Tx j <= hi).
    { apply (Z1 (0 <= Tx j <= hi)). intros n. pose proof (R1 n). lra. }
    assert (OR2 : f_bot f j = 0 \/ 0 <= Tx (S (S j)) <= hi).
    { apply (Z2 (0 <= Tx (S (S j)) <= hi)). intros n. pose proof (R2 n). lra. }
    pose proof (uterm_hi (f_top f j) (Tx j) T hi f1 Hhi ltac:(lra) OR1).
    pose proof (uterm_hi (f_bot f j) (Tx (S (S j))) T hi f2 Hhi ltac:(lra) OR2).
    lra. }
  set (K := r_tb r j + r_tb r (S j) + r_ua r j + ld + PU + 4400 * (f_top f j + f_bot f j + PF)) in *.
  set (mc := r_mcp r j) in *. set (s := r_tot r j) in *.
  split.
  - apply Rmult_le_reg_l with mc; [exact M|].
    assert (dt * (mc * s) >= dt * (- (K * (T - lo)))) by (apply Rle_ge, Rmult_le_compat_l; lra).
    assert (dt * K * (T - lo) <= mc * (T - lo)) by (apply Rmult_le_compat_r; lra). nra.
  - apply Rmult_le_reg_l with mc; [exact M|].
    assert (dt * (mc * s) <= dt * (K * (hi - T))) by (apply Rmult_le_compat_l; lra).
    assert (dt * K * (hi - T) <= mc * (hi - T)) by (apply Rmult_le_compat_r; lra). nra.
Qed.
End Max.
