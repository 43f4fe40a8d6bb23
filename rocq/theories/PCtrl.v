(** C29 - C35, C53, C64 - C68: controllers. *)
From Coq Require Import Reals List Arith Bool Lia Lra.
From Verif Require Import MCtrl SCtrl LDead LCtrl LCtrl2.
Import ListNotations.
Open Scope R_scope.

(** Inputs for the examples: step size, set point, process value. *)
Definition ex_inp (h sp pv : R) : inp := mkInp h sp pv 0 0 (fun _ => 0).
Definition ex_pi (aw : R) : kind := PID (mkGains 1 1 0 (Some aw) None).

(** ** C29 Saturation *)

(** Every PID controller without slope limit and master, in any state and on any input. *)
Theorem C29_pid : forall c g s i, cfg_ok c -> f_kind c = PID g -> f_slope c = None ->
  f_sub c = None -> f_min c <= s_cv (ctrl c s i) <= f_max c.
Proof.
  intros c g s i OK K SL SU. rewrite ctrl_cv, limit_none by exact SL. unfold core.
  rewrite K, (not_blocked c i SU). destruct OK as (L & _).
  pose proof (run_pid_in c g (seen c s i) (i_h i) L) as Q.
  destruct (run_pid c g (seen c s i) (i_h i)) as [[cv it] de]. exact Q.
Qed.
(** All controllers over all histories, with slope limits and masters, if the off state and the
    start value 0 lie within the limits and the controller is a PID or not inverted. *)
Theorem C29_saturation_partial : forall c ins act, cfg_ok c -> steps_ok ins ->
  f_min c <= f_off c <= f_max c -> f_min c <= 0 <= f_max c ->
  (is_pid (f_kind c) \/ f_inv c = false) ->
  forall k, f_min c <= s_cv (ctrl_at c (fresh c act) ins k) <= f_max c.
Proof.
  intros c ins act OK H O Z K. induction k as [|k IH]; [exact Z|]. cbn [ctrl_at].
  apply ctrl_in; auto.
Qed.
(** The actuator never gets a value outside its hardware limits, and none outside the
    saturation limits either if the two ranges overlap. *)
Theorem C29_actuator : forall c s i, cfg_ok c ->
  f_ll c <= s_act (ctrl c s i) <= f_ul c /\
  (f_ll c <= f_max c -> f_min c <= f_ul c -> f_min c <= s_cv (ctrl c s i) <= f_max c ->
   f_min c <= s_act (ctrl c s i) <= f_max c).
Proof.
  intros c s i (_ & H & _). rewrite ctrl_act. split; [apply clip_in, H|].
  intros A B V. apply clip_keeps; assumption.
Qed.
Definition c29_cfg : cfg := mkCfg (ex_pi 5) 0 1 None false None 0 0 1 false 0.
Example C29_ex :
  cfg_ok c29_cfg /\ steps_ok (fun _ => ex_inp 1 60 20) /\
  s_cv (ctrl c29_cfg (fresh c29_cfg 0) (ex_inp 1 60 20)) = 1.
Proof.
  split; [|split].
  - unfold cfg_ok, c29_cfg, ex_pi; cbn. lra.
  - intros k. cbn. lra.
  - unfold ctrl, c29_cfg, ex_pi, fresh, ex_inp, run_pid, blocked, limit, clip_aw, filtered, sgn.
    cbn [f_kind f_min f_max f_slope f_inv f_sub f_off f_ll f_ul f_disc f_dead i_h i_sp i_pv
         s_cv s_err s_err1 s_err2 s_i s_pi s_deriv g_kp g_ki g_kd g_aw g_rc].
    destruct (Req_EM_T 0 0) as [_|N]; [|lra].
    unfold clip at 1. match goal with |- context [Rlt_dec ?a ?b] => destruct (Rlt_dec a b) as [Q|Q] end.
    + exfalso. revert Q. pose proof (clip_in (- (5)) 5 (1 * (60 - 20) + 0) ltac:(lra)). lra.
    + match goal with |- context [Rlt_dec ?a ?b] => destruct (Rlt_dec a b) as [W|W] end;
        [reflexivity|].
      exfalso. apply W. pose proof (clip_in (- (5)) 5 (1 * (60 - 20) + 0) ltac:(lra)). lra.
Qed.
Print Assumptions C29_pid.
Print Assumptions C29_saturation_partial.
Print Assumptions C29_actuator.

(** Without these side conditions the claim is false.  A slope limit lets the value start at 0
    below the lower limit: *)
Theorem C29_slope_start_refuted : exists c s i, cfg_ok c /\ 0 < i_h i /\
  is_pid (f_kind c) /\ s = fresh c 0 /\ s_act (ctrl c s i) < f_min c.
Proof.
  set (c := mkCfg (PID (mkGains 1 0 0 None None)) (1 / 2) 1 (Some (- (1 / 10), 1 / 10))
                  false None (1 / 2) 0 1 false 0).
  exists c, (fresh c 0), (ex_inp 1 60 20).
  assert (OK : cfg_ok c) by (unfold cfg_ok, c; cbn; lra).
  split; [exact OK|]. split; [cbn; lra|]. split; [exact I|]. split; [reflexivity|].
  rewrite ctrl_act, ctrl_cv.
  rewrite (limit_spec c _ _ _ (- (1 / 10)) (1 / 10) eq_refl) by (cbn; lra).
  cbn [fresh s_cv ex_inp i_h].
  pose proof (clip_in (- (1 / 10) * 1) (1 / 10 * 1) (fst (fst (core c (fresh c 0) (ex_inp 1 60 20))) - 0) ltac:(lra)) as Q.
  unfold ex_inp in Q. set (x := clip _ _ (_ - 0)) in *. change (f_ll c) with 0. change (f_ul c) with 1.
  change (f_min c) with (1 / 2). unfold clip. destruct (Rlt_dec (0 + x) 0); [lra|].
  destruct (Rlt_dec 1 (0 + x)); lra.
Qed.
(** An inverted bang-bang controller leaves the limits as soon as it switches on: *)
Theorem C29_inverted_refuted : forall c s i rev hy, cfg_ok c -> f_kind c = BangBang rev hy ->
  f_inv c = true -> f_slope c = None -> f_sub c = None -> f_min c = 0 ->
  (if rev then i_sp i + hy / 2 < i_pv i else i_pv i < i_sp i - hy / 2) ->
  s_cv (ctrl c s i) = - f_max c /\ s_cv (ctrl c s i) < f_min c.
Proof.
  intros c s i rev hy OK K IN SL SU M W.
  assert (E : s_cv (ctrl c s i) = - f_max c).
  { rewrite ctrl_cv, limit_none by exact SL. unfold core.
    rewrite K, (not_blocked c i SU). cbn [fst]. unfold run_bb, sgn. rewrite IN.
    destruct OK as (_ & _ & _ & _ & OK). rewrite K in OK.
    destruct rev.
    - destruct (Rlt_dec (i_pv i) (i_sp i - hy / 2)); [lra|].
      destruct (Rlt_dec (i_sp i + hy / 2) (i_pv i)); lra.
    - destruct (Rlt_dec (i_pv i) (i_sp i - hy / 2)); lra. }
  split; [exact E|]. destruct OK as (L & _). lra.
Qed.
Definition c29_inv_cfg : cfg := mkCfg (BangBang false 4) 0 1 None true None 0 (-1) 1 false 0.
Example C29_inverted_ex : cfg_ok c29_inv_cfg /\
  s_cv (ctrl c29_inv_cfg (fresh c29_inv_cfg 0) (ex_inp 1 60 20)) = -1.
Proof.
  assert (OK : cfg_ok c29_inv_cfg) by (unfold cfg_ok; cbn; lra). split; [exact OK|].
  change (-1) with (- f_max c29_inv_cfg).
  apply (C29_inverted_refuted c29_inv_cfg _ _ false 4 OK); try reflexivity. cbn. lra.
Qed.
(** An off state outside the limits is passed on unchanged: *)
Theorem C29_off_state_refuted : forall c s i, f_slope c = None -> blocked c i = true ->
  s_cv (ctrl c s i) = f_off c.
Proof.
  intros c s i SL B. rewrite ctrl_cv, limit_none by exact SL. unfold core.
  destruct (f_kind c); [destruct (run_pid c g (seen c s i) (i_h i)) as [[? ?] ?]|..];
    rewrite B; reflexivity.
Qed.
Print Assumptions C29_slope_start_refuted.
Print Assumptions C29_inverted_refuted.
Print Assumptions C29_off_state_refuted.

(** ** C30 Slope limit *)

Theorem C30_slope : forall c s i n p, cfg_ok c -> f_slope c = Some (n, p) -> 0 < i_h i ->
  let new := s_cv (ctrl c s i) in
  let old := s_cv s in
  let w := wish c s i in
  n * i_h i <= new - old <= p * i_h i /\
  Rmin old w <= new <= Rmax old w /\
  (n * i_h i <= w - old <= p * i_h i -> new = w) /\
  (p * i_h i < w - old -> new - old = p * i_h i) /\
  (w - old < n * i_h i -> new - old = n * i_h i).
Proof.
  intros c s i n p OK E H new old w. destruct OK as (_ & _ & _ & S & _). pose proof S as S'.
  rewrite E in S'.
  assert (N : new = old + clip (n * i_h i) (p * i_h i) (w - old)).
  { unfold new. rewrite ctrl_wish. apply limit_spec; assumption. }
  assert (NP : n * i_h i < p * i_h i) by (apply Rmult_lt_compat_r; lra).
  split; [|split; [|split; [|split]]].
  - rewrite N. pose proof (clip_in (n * i_h i) (p * i_h i) (w - old) ltac:(lra)). lra.
  - unfold new. rewrite ctrl_wish. apply limit_between; assumption.
  - intros Q. rewrite N, clip_id by exact Q. lra.
  - intros Q. rewrite N. unfold clip. destruct (Rlt_dec (w - old) (n * i_h i)); [lra|].
    destruct (Rlt_dec (p * i_h i) (w - old)); lra.
  - intros Q. rewrite N. unfold clip. destruct (Rlt_dec (w - old) (n * i_h i)); lra.
Qed.
(** Over any number of steps, for the value at the actuator as well. *)
Theorem C30_slope_run : forall c s0 ins n p, cfg_ok c -> f_slope c = Some (n, p) ->
  steps_ok ins -> s_act s0 = clip (f_ll c) (f_ul c) (s_cv s0) ->
  forall k, let T := total (fun j => i_h (ins j)) k in
    n * T <= s_cv (ctrl_at c s0 ins k) - s_cv s0 <= p * T /\
    n * T <= s_act (ctrl_at c s0 ins k) - s_act s0 <= p * T.
Proof.
  intros c s0 ins n p OK E H A k T.
  assert (P : n < 0 < p) by (destruct OK as (_ & _ & _ & S & _); rewrite E in S; exact S).
  assert (HW : f_ll c <= f_ul c) by apply OK.
  assert (C : n * T <= s_cv (ctrl_at c s0 ins k) - s_cv s0 <= p * T /\ 0 <= T).
  { unfold T. clear T. induction k as [|k IH]; [cbn; lra|]. cbn [ctrl_at total].
    destruct (C30_slope c (ctrl_at c s0 ins k) (ins k) n p OK E (H k)) as (Q & _).
    pose proof (H k). lra. }
  destruct C as [C TP]. split; [exact C|].
  assert (AK : s_act (ctrl_at c s0 ins k) = clip (f_ll c) (f_ul c) (s_cv (ctrl_at c s0 ins k))).
  { destruct k as [|k]; [exact A|]. cbn [ctrl_at]. apply ctrl_act. }
  rewrite AK, A. assert (n * T <= 0) by nra. assert (0 <= p * T) by nra.
  destruct (Rle_dec (s_cv s0) (s_cv (ctrl_at c s0 ins k))) as [L|L].
  - pose proof (clip_mono (f_ll c) (f_ul c) _ _ HW L). lra.
  - pose proof (clip_mono (f_ll c) (f_ul c) (s_cv (ctrl_at c s0 ins k)) (s_cv s0) HW ltac:(lra)).
    lra.
Qed.
Definition c30_cfg : cfg :=
  mkCfg (PID (mkGains 1 0 0 None None)) 0 1 (Some (- (1 / 10), 1 / 10)) false None 0 0 1 false 0.
Example C30_ex : cfg_ok c30_cfg /\
  s_act (fresh c30_cfg 0) = clip (f_ll c30_cfg) (f_ul c30_cfg) (s_cv (fresh c30_cfg 0)).
Proof.
  split; [unfold cfg_ok, c30_cfg; cbn; lra|]. cbn. unfold clip.
  destruct (Rlt_dec 0 0); [lra|]. destruct (Rlt_dec 1 0); lra.
Qed.
Print Assumptions C30_slope.
Print Assumptions C30_slope_run.

(** ** C31 Anti-windup *)

Lemma integral_bounded : forall c s i g a, f_kind c = PID g -> f_disc c = false ->
  g_aw g = Some a -> 0 < a -> Rabs (s_i (ctrl c s i)) <= a.
Proof.
  intros c s i g a K Di A P. rewrite ctrl_i. unfold core. rewrite K. unfold run_pid.
  rewrite Di, A. destruct (blocked c i); cbn [fst snd].
  - rewrite Rabs_R0. lra.
  - apply clip_aw_in, P.
Qed.
(** Continuous time: the integral never leaves the limit, for all histories. *)
Theorem C31_integral : forall c g a ins act, f_kind c = PID g -> f_disc c = false ->
  g_aw g = Some a -> 0 < a -> forall k, Rabs (s_i (ctrl_at c (fresh c act) ins k)) <= a.
Proof.
  intros c g a ins act K Di A P [|k].
  - cbn. rewrite Rabs_R0. lra.
  - cbn [ctrl_at]. apply (integral_bounded c _ _ g a); assumption.
Qed.
(** With 'auto_X' its share in the control value is at most X. *)
Theorem C31_auto : forall c g X a ins act, f_kind c = PID g -> f_disc c = false ->
  auto_aw X (g_ki g) = Built a -> g_aw g = Some a ->
  forall k, Rabs (g_ki g * s_i (ctrl_at c (fresh c act) ins k)) <= Rabs X.
Proof.
  intros c g X a ins act K Di B A k. unfold auto_aw in B.
  destruct (Rlt_dec 0 (X / g_ki g)) as [P|]; [|discriminate]. injection B as B.
  assert (KI : g_ki g <> 0).
  { intros Z. rewrite Z in P. unfold Rdiv in P. rewrite Rinv_0 in P. lra. }
  pose proof (C31_integral c g a ins act K Di A ltac:(lra) k) as Q.
  rewrite Rabs_mult. replace (Rabs X) with (Rabs (g_ki g) * a).
  - apply Rmult_le_compat_l; [apply Rabs_pos|exact Q].
  - rewrite <- B. replace X with (g_ki g * (X / g_ki g)) at 2 by (field; exact KI).
    rewrite Rabs_mult. f_equal. symmetry. apply Rabs_right. lra.
Qed.
Example C31_ex : auto_aw 1 (1 / 50) = Built 50.
Proof.
  unfold auto_aw. replace (1 / (1 / 50)) with 50 by field.
  destruct (Rlt_dec 0 50); [reflexivity|lra].
Qed.
Print Assumptions C31_integral.
Print Assumptions C31_auto.

(** Discrete time: 'auto_1' does not limit the integral share; a pure integral controller moves
    by 10 in one step. *)
Theorem C31_discrete_refuted : exists c g a s i, cfg_ok c /\ f_kind c = PID g /\
  f_disc c = true /\ g_kp g = 0 /\ g_kd g = 0 /\ auto_aw 1 (g_ki g) = Built a /\
  g_aw g = Some a /\ s = fresh c 0 /\ 0 < i_h i /\ s_cv (ctrl c s i) = 10.
Proof.
  set (g := mkGains 0 (1 / 100) 0 (Some 100) None).
  set (c := mkCfg (PID g) 0 1000 None false None 0 0 1000 true 0).
  exists c, g, 100, (fresh c 0), (ex_inp 1 1000 0).
  split; [unfold cfg_ok, c, g; cbn; lra|]. do 2 (split; [reflexivity|]).
  do 2 (split; [reflexivity|]). split.
  { unfold auto_aw, g. cbn [g_ki]. replace (1 / (1 / 100)) with 100 by field.
    destruct (Rlt_dec 0 100); [reflexivity|lra]. }
  do 2 (split; [reflexivity|]). split; [cbn; lra|].
  rewrite ctrl_cv, limit_none by reflexivity. unfold core.
  change (f_kind c) with (PID g). rewrite (not_blocked c _ eq_refl). unfold run_pid.
  change (f_disc c) with true. unfold is0. cbn [g_ki g].
  destruct (Req_EM_T (1 / 100) 0) as [Z|_]; [lra|]. cbn [fst snd].
  rewrite seen_err by reflexivity. unfold seen, filtered, g.
  cbn [fresh s_cv s_err s_err1 s_err2 g_kp g_ki g_kd g_aw g_rc f_disc c ex_inp i_h i_sp i_pv
       s_deriv clip_aw f_min f_max].
  rewrite (clip_id (- (100)) 100 0) by lra. rewrite clip_id; lra.
Qed.
Print Assumptions C31_discrete_refuted.
