(** C32 - C35, C53, C64 - C68: controllers, continued. *)
From Coq Require Import Reals List Arith Bool Lia Lra.
From Verif Require Import MCtrl SCtrl LDead LCtrl LCtrl2 PCtrl.
Import ListNotations.
Open Scope R_scope.

(** ** C32 Reset *)

(** After a reset a controller reacts to any input like a new one, whatever happened before --
    if it is a bang-bang or two-sensor controller, a discrete PID or one without integral
    share, in the latter cases without dead time. *)
Theorem C32_reset_partial : forall c before act0 act ins,
  match f_kind c with
  | PID g => (f_disc c = true \/ g_ki g = 0) /\ f_dead c = 0
  | _ => True
  end ->
  outputs c (reset (after c (fresh c act0) before) act) ins = outputs c (fresh c act) ins.
Proof.
  intros c before act0 act ins F. apply (same_outputs c F). apply same_reset.
Qed.
Example C32_ex : exists ins,
  outputs c30_cfg (reset (after c30_cfg (fresh c30_cfg 0) [ex_inp 1 60 20]) 0) ins
  = outputs c30_cfg (fresh c30_cfg 0) ins /\ ins <> [].
Proof.
  exists [ex_inp 1 60 20]. split; [|discriminate]. apply C32_reset_partial.
  cbn. split; [right; reflexivity|reflexivity].
Qed.
Print Assumptions C32_reset_partial.

(** A continuous PI controller: the integral collected before the reset shows up again. *)
Theorem C32_integral_refuted : exists c before ins, cfg_ok c /\
  outputs c (reset (after c (fresh c 0) before) 0) ins <> outputs c (fresh c 0) ins.
Proof.
  set (g := mkGains 1 1 0 (Some 100) None).
  set (c := mkCfg (PID g) (-1000) 1000 None false None 0 (-1000) 1000 false 0).
  assert (ST : forall s pv, s_act (ctrl c s (ex_inp 1 0 pv)) =
    clip (-1000) 1000 (clip (-1000) 1000
      ((1 * (0 - pv) + 1 * clip (- (100)) 100 (1 * (0 - pv) + s_i s)
        + 0 * ((0 - pv - s_err s) / 1)) * 1))).
  { intros s pv. rewrite ctrl_act, ctrl_cv, limit_none by reflexivity. unfold core.
    change (f_kind c) with (PID g). rewrite (not_blocked c _ eq_refl). unfold run_pid.
    change (f_disc c) with false. cbn [fst snd]. rewrite seen_err by reflexivity.
    reflexivity. }
  assert (IT : forall s pv, s_i (ctrl c s (ex_inp 1 0 pv))
                            = clip (- (100)) 100 (1 * (0 - pv) + s_i s)).
  { intros s pv. rewrite ctrl_i. unfold core. change (f_kind c) with (PID g).
    rewrite (not_blocked c _ eq_refl). unfold run_pid. change (f_disc c) with false.
    cbn [fst snd]. rewrite seen_err by reflexivity. reflexivity. }
  exists c, [ex_inp 1 0 (-10)], [ex_inp 1 0 0]. split; [unfold cfg_ok, c, g; cbn; lra|].
  cbn [after outputs]. rewrite !ST. cbn [reset s_i s_err]. rewrite IT. cbn [fresh s_i s_err].
  rewrite (clip_id (- (100)) 100 (1 * (0 - -10) + 0)) by lra.
  rewrite (clip_id (- (100)) 100 (1 * (0 - 0) + (1 * (0 - -10) + 0))) by lra.
  rewrite (clip_id (- (100)) 100 (1 * (0 - 0) + 0)) by lra.
  rewrite !clip_id by (rewrite ?clip_id; lra). intros E. injection E as E. lra.
Qed.
(** With a dead time even a P controller remembers the measurements before the reset. *)
Theorem C32_dead_time_refuted : exists c before ins, cfg_ok c /\ Forall (fun i => 0 < i_h i) ins /\
  outputs c (reset (after c (fresh c 0) before) 0) ins <> outputs c (fresh c 0) ins.
Proof.
  set (g := mkGains 1 0 0 None None).
  set (c := mkCfg (PID g) (-1000) 1000 None false None 0 (-1000) 1000 false 1).
  assert (ST : forall s pv, s_act (ctrl c s (ex_inp 1 0 pv)) =
    clip (-1000) 1000 (clip (-1000) 1000
      ((1 * (0 - d_val (dead_step (fun _ => 0) 1 1 pv (s_dead s)))
        + 0 * (1 * (0 - d_val (dead_step (fun _ => 0) 1 1 pv (s_dead s))) + s_i s)
        + 0 * ((0 - d_val (dead_step (fun _ => 0) 1 1 pv (s_dead s)) - s_err s) / 1)) * 1))).
  { intros s pv. rewrite ctrl_act, ctrl_cv, limit_none by reflexivity. unfold core.
    change (f_kind c) with (PID g). rewrite (not_blocked c _ eq_refl). unfold run_pid.
    change (f_disc c) with false. unfold seen. change (f_dead c) with 1.
    destruct (Req_EM_T 1 0) as [Z|_]; [lra|]. reflexivity. }
  exists c, [ex_inp 1 0 50], [ex_inp 1 0 0]. split; [unfold cfg_ok, c, g; cbn; lra|].
  split; [constructor; [cbn; lra|constructor]|].
  cbn [after outputs]. rewrite !ST. cbn [reset s_i s_err s_dead fresh].
  assert (E1 : d_val (dead_step (fun _ => 0) 1 1 0 (dead_init 1)) = 25).
  { pose proof (long_closed (fun _ _ => 0) 1 1 0 ltac:(lra) ltac:(lra) O) as Q.
    unfold long_at in Q. cbn [dead_at pow] in Q. lra. }
  assert (E2 : d_val (dead_step (fun _ => 0) 1 1 0
                 (s_dead (ctrl c (fresh c 0) (ex_inp 1 0 50)))) = 50).
  { destruct (ctrl_rest c (fresh c 0) (ex_inp 1 0 50)) as (_ & _ & _ & _ & ->).
    unfold seen. change (f_dead c) with 1. destruct (Req_EM_T 1 0) as [Z|_]; [lra|].
    cbn [s_dead fresh ex_inp i_junk i_h i_pv]. change (f_dead c) with 1.
    pose proof (long_inv (fun _ _ => 0) 1 1 50 ltac:(lra) ltac:(lra) 1) as (A & B & C & E).
    unfold long_at in *. cbn [dead_at] in *.
    set (s := dead_step (fun _ => 0) 1 1 50 (dead_init 1)) in *. clearbody s. cbn in E.
    assert (LP : (0 < buf_len 1)%nat).
    { destruct (buf_len_ge 1 ltac:(lra)) as [Q _]. destruct (buf_len 1); [cbn in Q; lra|lia]. }
    unfold dead_step. cbn [d_val].
    assert (F : first_old 1 (map (fun a => a + 1) (d_age s)) = Some O).
    { destruct (d_age s) as [|a r]; [cbn [length] in A; lia|]. cbn in C |- *. rewrite C.
      destruct (Rle_dec 1 (0 + 1)); [reflexivity|lra]. }
    rewrite F. rewrite !rd_in by (rewrite ?map_length; lia).
    rewrite nth_add by lia. rewrite C, E. lra. }
  change (dead_init (f_dead c)) with (dead_init 1). rewrite E1, E2.
  assert (N : forall a b v,
    (1 * (0 - v) + 0 * (1 * (0 - v) + a) + 0 * ((0 - v - b) / 1)) * 1 = - v)
    by (intros; field).
  rewrite !N, !clip_id by (rewrite ?clip_id; lra).
  intros E. injection E as E. lra.
Qed.
Print Assumptions C32_integral_refuted.
Print Assumptions C32_dead_time_refuted.

(** ** C33 Bang-bang *)

(** Without inversion, slope limit and master, starting from the on or the off value: always
    one of the two; on below the band, off above it (the other way round if reversed),
    unchanged inside. *)
Theorem C33_hysteresis_partial : forall c rev hy s0 ins, cfg_ok c ->
  f_kind c = BangBang rev hy -> f_inv c = false -> f_slope c = None -> f_sub c = None ->
  (s_cv s0 = f_off c \/ s_cv s0 = f_max c) ->
  forall k, let i := ins k in
    let old := s_cv (ctrl_at c s0 ins k) in
    let new := s_cv (ctrl_at c s0 ins (S k)) in
    (new = f_off c \/ new = f_max c) /\
    (i_pv i < i_sp i - hy / 2 -> new = if rev then f_off c else f_max c) /\
    (i_sp i + hy / 2 < i_pv i -> new = if rev then f_max c else f_off c) /\
    (i_sp i - hy / 2 <= i_pv i <= i_sp i + hy / 2 -> new = old).
Proof.
  intros c rev hy s0 ins OK K IN SL SU H0.
  destruct OK as (_ & _ & _ & _ & OK). rewrite K in OK.
  assert (ST : forall s i, s_cv (ctrl c s i) =
    if Rlt_dec (i_pv i) (i_sp i - hy / 2) then if rev then f_off c else f_max c
    else if Rlt_dec (i_sp i + hy / 2) (i_pv i) then if rev then f_max c else f_off c
    else s_cv s).
  { intros s i. rewrite ctrl_cv, limit_none by exact SL. unfold core.
    rewrite K, (not_blocked c i SU). cbn [fst]. unfold run_bb, sgn. rewrite IN. apply Rmult_1_l. }
  assert (IV : forall k, s_cv (ctrl_at c s0 ins k) = f_off c \/
                         s_cv (ctrl_at c s0 ins k) = f_max c).
  { induction k as [|k IH]; [exact H0|]. cbn [ctrl_at]. rewrite ST.
    destruct (Rlt_dec _ _); [destruct rev; auto|].
    destruct (Rlt_dec _ _); [destruct rev; auto|exact IH]. }
  intros k i old new. split; [exact (IV (S k))|].
  unfold new. cbn [ctrl_at]. rewrite ST. fold i.
  destruct (Rlt_dec (i_pv i) (i_sp i - hy / 2)).
  - split; [reflexivity|]. split; intros; lra.
  - destruct (Rlt_dec (i_sp i + hy / 2) (i_pv i)).
    + split; [intros; lra|]. split; [reflexivity|intros; lra].
    + split; [intros; lra|]. split; [intros; lra|reflexivity].
Qed.
Definition c33_cfg : cfg := mkCfg (BangBang false 4) 0 1 None false None 0 0 1 false 0.
Example C33_ex : cfg_ok c33_cfg /\
  (s_cv (fresh c33_cfg 0) = f_off c33_cfg \/ s_cv (fresh c33_cfg 0) = f_max c33_cfg).
Proof. split; [unfold cfg_ok; cbn; lra|left; reflexivity]. Qed.
Print Assumptions C33_hysteresis_partial.

(** Inverted: inside the band the output changes its sign in every step. *)
Theorem C33_inverted_refuted : forall c rev hy s i, f_kind c = BangBang rev hy ->
  f_inv c = true -> f_slope c = None -> f_sub c = None ->
  i_sp i - hy / 2 <= i_pv i <= i_sp i + hy / 2 -> s_cv (ctrl c s i) = - s_cv s.
Proof.
  intros c rev hy s i K IN SL SU B. rewrite ctrl_cv, limit_none by exact SL. unfold core.
  rewrite K, (not_blocked c i SU). cbn [fst]. unfold run_bb, sgn. rewrite IN.
  destruct (Rlt_dec (i_pv i) (i_sp i - hy / 2)); [lra|].
  destruct (Rlt_dec (i_sp i + hy / 2) (i_pv i)); lra.
Qed.
Example C33_inverted_ex :
  s_cv (ctrl c29_inv_cfg (ctrl c29_inv_cfg (fresh c29_inv_cfg 0) (ex_inp 1 60 20))
             (ex_inp 1 60 60)) = 1.
Proof.
  rewrite (C33_inverted_refuted c29_inv_cfg false 4 _ _ eq_refl eq_refl eq_refl eq_refl)
    by (cbn; lra).
  rewrite (proj2 C29_inverted_ex). lra.
Qed.
(** With a slope limit the output gets stuck at an intermediate value. *)
Theorem C33_slope_refuted : exists c ins, cfg_ok c /\ f_kind c = BangBang false 4 /\
  f_inv c = false /\ f_sub c = None /\ steps_ok ins /\
  forall k, 0 < s_cv (ctrl_at c (fresh c 0) ins (S k)) < f_max c.
Proof.
  set (c := mkCfg (BangBang false 4) 0 1 (Some (- (1 / 10), 1 / 10)) false None 0 0 1 false 0).
  exists c, (fun k => match k with O => ex_inp 1 60 20 | _ => ex_inp 1 60 60 end).
  split; [unfold cfg_ok, c; cbn; lra|]. do 3 (split; [reflexivity|]).
  split; [intros [|k]; cbn; lra|].
  assert (E : forall k, s_cv (ctrl_at c (fresh c 0)
     (fun k => match k with O => ex_inp 1 60 20 | _ => ex_inp 1 60 60 end) (S k)) = 1 / 10).
  { induction k as [|k IH].
    - cbn [ctrl_at]. rewrite ctrl_cv.
      rewrite (limit_spec c _ _ _ (- (1 / 10)) (1 / 10) eq_refl) by (cbn; lra).
      unfold core, c, run_bb, sgn, blocked. cbn [f_kind f_sub f_inv f_off f_max fst ex_inp i_pv i_sp i_h fresh s_cv].
      destruct (Rlt_dec 20 (60 - 4 / 2)); [|lra]. unfold clip.
      destruct (Rlt_dec (1 * 1 - 0) (- (1 / 10) * 1)); [lra|].
      destruct (Rlt_dec (1 / 10 * 1) (1 * 1 - 0)); lra.
    - remember (S k) as n eqn:N. cbn [ctrl_at]. rewrite ctrl_cv, IH.
      rewrite N. rewrite (limit_spec c _ _ _ (- (1 / 10)) (1 / 10) eq_refl) by (cbn; lra).
      rewrite <- N. unfold core, c, run_bb, sgn, blocked.
      cbn [f_kind f_sub f_inv f_off f_max fst ex_inp i_pv i_sp i_h]. fold c.
      destruct (Rlt_dec 60 (60 - 4 / 2)); [lra|]. destruct (Rlt_dec (60 + 4 / 2) 60); [lra|].
      rewrite IH. rewrite clip_id; lra. }
  intros k. rewrite E. change (f_max c) with 1. lra.
Qed.
(** Before the first switching the output is 0, even if neither on nor off value is 0. *)
Theorem C33_start_refuted : exists c i, cfg_ok c /\ f_kind c = BangBang false 4 /\
  f_inv c = false /\ f_slope c = None /\ f_sub c = None /\
  s_cv (ctrl c (fresh c 0) i) = 0 /\ f_off c <> 0 /\ f_max c <> 0.
Proof.
  set (c := mkCfg (BangBang false 4) (1 / 5) 1 None false None (1 / 5) 0 1 false 0).
  exists c, (ex_inp 1 60 60). split; [unfold cfg_ok, c; cbn; lra|].
  do 4 (split; [reflexivity|]). split; [|split; cbn; lra].
  rewrite ctrl_cv, limit_none by reflexivity. unfold core, c, run_bb, sgn, blocked.
  cbn [f_kind f_sub f_inv f_off f_max fst ex_inp i_pv i_sp i_h fresh s_cv].
  destruct (Rlt_dec 60 (60 - 4 / 2)); [lra|]. destruct (Rlt_dec (60 + 4 / 2) 60); lra.
Qed.
Print Assumptions C33_inverted_refuted.
Print Assumptions C33_slope_refuted.
Print Assumptions C33_start_refuted.

(** ** C34 Two sensors *)

Theorem C34_two_sensors_partial : forall c al av dl s i, f_kind c = TwoSensors al av dl ->
  f_inv c = false -> f_slope c = None -> f_sub c = None ->
  let demand := if al then i_on i < av else av < i_on i in
  let stop := if dl then i_pv i < i_sp i else i_sp i < i_pv i in
  (stop -> s_cv (ctrl c s i) = f_off c) /\
  (demand -> ~ stop -> s_cv (ctrl c s i) = f_max c) /\
  (~ demand -> ~ stop -> s_cv (ctrl c s i) = s_cv s).
Proof.
  intros c al av dl s i K IN SL SU demand stop.
  assert (ST : s_cv (ctrl c s i) = if below dl (i_pv i) (i_sp i) then f_off c
                                   else if below al (i_on i) av then f_max c else s_cv s).
  { rewrite ctrl_cv, limit_none by exact SL. unfold core.
    rewrite K, (not_blocked c i SU). cbn [fst]. unfold run_ts, sgn. rewrite IN. apply Rmult_1_l. }
  assert (BS : below dl (i_pv i) (i_sp i) = true <-> stop).
  { unfold below, stop. destruct dl; destruct (Rlt_dec _ _); split; auto; discriminate. }
  assert (BD : below al (i_on i) av = true <-> demand).
  { unfold below, demand. destruct al; destruct (Rlt_dec _ _); split; auto; discriminate. }
  rewrite ST. split; [|split].
  - intros Q. apply BS in Q. rewrite Q. reflexivity.
  - intros Q W. apply BD in Q. rewrite Q.
    destruct (below dl (i_pv i) (i_sp i)); [exfalso; apply W, BS; reflexivity|reflexivity].
  - intros Q W.
    destruct (below dl (i_pv i) (i_sp i)); [exfalso; apply W, BS; reflexivity|].
    destruct (below al (i_on i) av); [exfalso; apply Q, BD; reflexivity|reflexivity].
Qed.
(** Over histories: once off, it stays off until the on-sensor demands heat. *)
Theorem C34_stays_off : forall c al av dl s0 ins, f_kind c = TwoSensors al av dl ->
  f_inv c = false -> f_slope c = None -> f_sub c = None -> s_cv s0 = f_off c ->
  (forall k, ~ (if al then i_on (ins k) < av else av < i_on (ins k))) ->
  forall k, s_cv (ctrl_at c s0 ins k) = f_off c.
Proof.
  intros c al av dl s0 ins K IN SL SU H0 ND. induction k as [|k IH]; [exact H0|].
  cbn [ctrl_at].
  destruct (C34_two_sensors_partial c al av dl (ctrl_at c s0 ins k) (ins k) K IN SL SU)
    as (A & _ & C).
  assert (D : (if dl then i_pv (ins k) < i_sp (ins k) else i_sp (ins k) < i_pv (ins k)) \/
              ~ (if dl then i_pv (ins k) < i_sp (ins k) else i_sp (ins k) < i_pv (ins k))).
  { destruct dl; [destruct (Rlt_dec (i_pv (ins k)) (i_sp (ins k)))
                 |destruct (Rlt_dec (i_sp (ins k)) (i_pv (ins k)))]; auto. }
  destruct D as [D|D]; [apply A, D|]. rewrite C; [exact IH|apply ND|exact D].
Qed.
Definition c34_cfg : cfg := mkCfg (TwoSensors true 50 false) 0 1 None false None 0 0 1 false 0.
Definition c34_inp (on pv : R) : inp := mkInp 1 70 pv on 0 (fun _ => 0).
Example C34_ex :
  s_cv (ctrl c34_cfg (fresh c34_cfg 0) (c34_inp 40 60)) = 1 /\
  s_cv (ctrl c34_cfg (fresh c34_cfg 0) (c34_inp 40 80)) = 0.
Proof.
  destruct (C34_two_sensors_partial c34_cfg true 50 false (fresh c34_cfg 0) (c34_inp 40 60)
              eq_refl eq_refl eq_refl eq_refl) as (_ & B & _).
  destruct (C34_two_sensors_partial c34_cfg true 50 false (fresh c34_cfg 0) (c34_inp 40 80)
              eq_refl eq_refl eq_refl eq_refl) as (A & _).
  split; [apply B; cbn; lra|apply A; cbn; lra].
Qed.
(** Inverted: while neither sensor calls, the sign changes in every step. *)
Theorem C34_inverted_refuted : forall c al av dl s i, f_kind c = TwoSensors al av dl ->
  f_inv c = true -> f_slope c = None -> f_sub c = None ->
  below al (i_on i) av = false -> below dl (i_pv i) (i_sp i) = false ->
  s_cv (ctrl c s i) = - s_cv s.
Proof.
  intros c al av dl s i K IN SL SU A B. rewrite ctrl_cv, limit_none by exact SL. unfold core.
  rewrite K, (not_blocked c i SU). cbn [fst]. unfold run_ts, sgn. rewrite IN, A, B. lra.
Qed.
Print Assumptions C34_two_sensors_partial.
Print Assumptions C34_stays_off.
Print Assumptions C34_inverted_refuted.

(** ** C35 Sub-controllers *)

(** Without slope limit the sub-controller of an inactive (concurrent) or active (sequential)
    master is at its off state, and a PID forgets its integral. *)
Theorem C35_sub_partial : forall c conc moff s i, f_sub c = Some (conc, moff) ->
  f_slope c = None ->
  (if conc then i_master i = moff else i_master i <> moff) ->
  s_cv (ctrl c s i) = f_off c /\
  (f_ll c <= f_off c <= f_ul c -> s_act (ctrl c s i) = f_off c) /\
  (is_pid (f_kind c) -> s_i (ctrl c s i) = 0).
Proof.
  intros c conc moff s i SU SL M.
  assert (B : blocked c i = true).
  { unfold blocked. rewrite SU. destruct (Req_EM_T (i_master i) moff); destruct conc; auto;
      contradiction. }
  pose proof (C29_off_state_refuted c s i SL B) as V. split; [exact V|]. split.
  - intros L. rewrite ctrl_act, V. apply clip_id, L.
  - intros P. rewrite ctrl_i. unfold core. destruct (f_kind c); try contradiction.
    destruct (run_pid c g (seen c s i) (i_h i)) as [[? ?] ?]. rewrite B. reflexivity.
Qed.
(** Otherwise it acts as if it had no master. *)
Theorem C35_free : forall c conc moff s i, f_sub c = Some (conc, moff) ->
  (if conc then i_master i <> moff else i_master i = moff) ->
  ctrl c s i = ctrl (mkCfg (f_kind c) (f_min c) (f_max c) (f_slope c) (f_inv c) None (f_off c)
                           (f_ll c) (f_ul c) (f_disc c) (f_dead c)) s i.
Proof.
  intros c conc moff s i SU M.
  assert (B : blocked c i = false).
  { unfold blocked. rewrite SU. destruct (Req_EM_T (i_master i) moff); destruct conc; auto;
      contradiction. }
  rewrite !ctrl_core. unfold core at 1. rewrite B. reflexivity.
Qed.
Definition c35_cfg : cfg := mkCfg (ex_pi 5) 0 1 None false (Some (true, 0)) 0 0 1 false 0.
Example C35_ex : s_act (ctrl c35_cfg (fresh c35_cfg 0) (ex_inp 1 60 20)) = 0.
Proof.
  destruct (C35_sub_partial c35_cfg true 0 (fresh c35_cfg 0) (ex_inp 1 60 20)
              eq_refl eq_refl eq_refl) as (_ & A & _).
  rewrite A; [reflexivity|cbn; lra].
Qed.
(** With a slope limit the sub-controller keeps its actuator running after the master has been
    switched off. *)
Theorem C35_slope_refuted : exists c s i, cfg_ok c /\ f_sub c = Some (true, 0) /\
  0 < i_h i /\ i_master i = 0 /\ f_ll c <= f_off c <= f_ul c /\ f_off c < s_act (ctrl c s i).
Proof.
  set (c := mkCfg (ex_pi 5) 0 1 (Some (- (1 / 10), 1 / 10)) false (Some (true, 0)) 0 0 1 false 0).
  exists c, (mkSt 1 0 0 0 0 0 0 (dead_init 0) 1), (ex_inp 1 60 20).
  split; [unfold cfg_ok, c; cbn; lra|]. split; [reflexivity|]. split; [cbn; lra|].
  split; [reflexivity|]. split; [cbn; lra|].
  rewrite ctrl_act, ctrl_cv.
  rewrite (limit_spec c _ _ _ (- (1 / 10)) (1 / 10) eq_refl) by (cbn; lra).
  change (s_cv (mkSt 1 0 0 0 0 0 0 (dead_init 0) 1)) with 1.
  change (f_ll c) with 0. change (f_ul c) with 1. change (f_off c) with 0.
  cbn [ex_inp i_h].
  match goal with |- 0 < clip 0 1 (1 + clip ?a ?b ?x) =>
    pose proof (clip_in a b x ltac:(lra)) as Q; set (y := clip a b x) in * end.
  unfold clip. destruct (Rlt_dec (1 + y) 0); [lra|]. destruct (Rlt_dec 1 (1 + y)); lra.
Qed.
(** A master whose off state lies below the lower hardware limit of its actuator never looks
    switched off to its sub-controllers: they compare the clipped value. *)
Theorem C35_master_limit_refuted : forall master c s i j, cfg_ok master ->
  f_off master < f_ll master -> f_sub c = Some (true, f_off master) ->
  i_master j = s_act (ctrl master s i) -> blocked c j = false.
Proof.
  intros master c s i j (_ & H & _) L SU M. unfold blocked. rewrite SU, M, ctrl_act.
  pose proof (clip_in (f_ll master) (f_ul master) (s_cv (ctrl master s i)) H) as Q.
  destruct (Req_EM_T (clip (f_ll master) (f_ul master) (s_cv (ctrl master s i)))
                     (f_off master)); [lra|reflexivity].
Qed.
Print Assumptions C35_sub_partial.
Print Assumptions C35_free.
Print Assumptions C35_slope_refuted.
Print Assumptions C35_master_limit_refuted.
