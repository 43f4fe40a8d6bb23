(** C53, C64 - C68: dead time, inversion, construction, control law, derivative filter. *)
From Coq Require Import Reals List Arith Bool Lia Lra.
From Verif Require Import MCtrl SCtrl LDead LCtrl LCtrl2 PCtrl PCtrl2.
Import ListNotations.
Open Scope R_scope.

(** ** C53 Dead time *)

Lemma dead_run : forall c act ins, f_dead c <> 0 -> forall k,
  s_dead (ctrl_at c (fresh c act) ins k)
  = dead_at (fun j => i_junk (ins j)) (f_dead c) (fun j => i_h (ins j)) (fun j => i_pv (ins j)) k.
Proof.
  intros c act ins D0. induction k as [|k IH]; [reflexivity|]. cbn [ctrl_at dead_at].
  destruct (ctrl_rest c (ctrl_at c (fresh c act) ins k) (ins k)) as (_ & _ & _ & _ & ->).
  unfold seen. cbn [s_dead]. destruct (Req_EM_T (f_dead c) 0); [contradiction|].
  rewrite IH. reflexivity.
Qed.
Lemma dead_err : forall c act ins, f_dead c <> 0 -> forall k,
  s_err (ctrl_at c (fresh c act) ins (S k))
  = i_sp (ins k) - d_val (s_dead (ctrl_at c (fresh c act) ins (S k))).
Proof.
  intros c act ins D0 k. cbn [ctrl_at].
  destruct (ctrl_rest c (ctrl_at c (fresh c act) ins k) (ins k)) as (-> & _ & _ & _ & ->).
  unfold seen. cbn [s_dead s_err]. destruct (Req_EM_T (f_dead c) 0); [contradiction|].
  reflexivity.
Qed.

(** For all histories of process values and all sequences of steps not longer than the dead
    time (and not too short for the buffer), the error is computed from the measured signal
    exactly one dead time earlier. *)
Theorem C53_delay_partial : forall c act ins m, 0 < f_dead c -> 0 < m ->
  (forall k, m <= i_h (ins k) <= f_dead c) -> f_dead c <= m * (100 * f_dead c - 1) ->
  let h := fun j => i_h (ins j) in
  let pv := fun j => i_pv (ins j) in
  forall k, exists v, signal h pv (clock h (S k) - f_dead c) v /\
    s_err (ctrl_at c (fresh c act) ins (S k)) = i_sp (ins k) - v.
Proof.
  intros c act ins m DP MP HS RM h pv k.
  exists (d_val (s_dead (ctrl_at c (fresh c act) ins (S k)))).
  split; [|apply dead_err; lra]. rewrite dead_run by lra.
  apply (dead_signal (fun j => i_junk (ins j)) (f_dead c) m h pv); auto.
  - intros j. apply HS.
  - intros j. apply HS.
  - destruct (buf_len_ge (f_dead c) DP) as [A _]. nra.
Qed.
(** The signal at a time is unique, equals the sample at sampling times, and lies within the
    range of the samples. *)
Theorem C53_signal : forall h pv, (forall k, 0 < h k) ->
  (forall tau v w, signal h pv tau v -> signal h pv tau w -> v = w) /\
  (forall k, signal h pv (clock h k) (sample pv k)) /\
  (forall lo hi, lo <= 25 <= hi -> (forall k, lo <= pv k <= hi) ->
     forall tau v, signal h pv tau v -> lo <= v <= hi).
Proof.
  intros h pv P. split; [|split].
  - intros tau v w. apply signal_unique, P.
  - apply signal_sample, P.
  - intros lo hi I Q tau v. apply signal_range; assumption.
Qed.
(** Constant steps, [n] of them to the dead time: the controller acts on the process value seen
    exactly [n] calls before. *)
Theorem C53_constant_steps : forall c act ins x n, 0 < f_dead c -> (0 < n)%nat ->
  (forall k, i_h (ins k) = x) -> f_dead c = INR n * x -> f_dead c <= x * (100 * f_dead c - 1) ->
  forall k, s_err (ctrl_at c (fresh c act) ins (S (n + k)))
            = i_sp (ins (n + k)%nat) - i_pv (ins k) /\
    ((k < n)%nat -> s_err (ctrl_at c (fresh c act) ins (S k)) = i_sp (ins k) - 25).
Proof.
  intros c act ins x n DP NP HX DN RM k.
  assert (XP : 0 < x).
  { assert (0 < INR n) by (apply lt_0_INR; exact NP). destruct (Rlt_dec 0 x); [assumption|nra]. }
  assert (NX : x <= f_dead c).
  { rewrite DN. assert (1 <= INR n) by (apply (le_INR 1); lia). nra. }
  assert (HP : forall j, 0 < i_h (ins j)) by (intros j; rewrite HX; exact XP).
  assert (CK : forall j, clock (fun j => i_h (ins j)) j = INR j * x).
  { induction j as [|j IH]; [cbn; lra|]. cbn [clock]. rewrite IH, HX, S_INR. lra. }
  pose proof (C53_delay_partial c act ins x DP XP
                ltac:(intros j; rewrite HX; lra) RM) as T. cbn zeta in T.
  assert (LATE : s_err (ctrl_at c (fresh c act) ins (S (n + k)))
            = i_sp (ins (n + k)%nat) - i_pv (ins k)).
  { destruct (T (n + k)%nat) as (v & SV & E). rewrite E. f_equal.
    apply (signal_unique (fun j => i_h (ins j)) (fun j => i_pv (ins j)) HP (clock (fun j => i_h (ins j)) (S k)) v (i_pv (ins k))).
    - replace (clock (fun j => i_h (ins j)) (S k))
        with (clock (fun j => i_h (ins j)) (S (n + k)) - f_dead c); [exact SV|].
      rewrite !CK, DN, !S_INR, plus_INR. lra.
    - exact (signal_sample (fun j => i_h (ins j)) (fun j => i_pv (ins j)) HP (S k)). }
  split; [exact LATE|]. intros L. destruct (T k) as (v & SV & E). rewrite E. f_equal.
  apply (signal_unique (fun j => i_h (ins j)) (fun j => i_pv (ins j)) HP (clock (fun j => i_h (ins j)) (S k) - f_dead c) v 25); [exact SV|].
  left. split; [|reflexivity]. rewrite CK, DN.
  assert (INR (S k) <= INR n) by (apply le_INR; lia). nra.
Qed.
Definition c53_cfg : cfg :=
  mkCfg (PID (mkGains 1 0 0 None None)) 0 1 None false None 0 0 1 false 10.
Example C53_ex : forall ins, (forall k, i_h (ins k) = 5) ->
  s_err (ctrl_at c53_cfg (fresh c53_cfg 0) ins 5) = i_sp (ins 4%nat) - i_pv (ins 2%nat).
Proof.
  intros ins H. assert (Q : f_dead c53_cfg = 10) by reflexivity.
  destruct (C53_constant_steps c53_cfg 0 ins 5 2 ltac:(rewrite Q; lra) ltac:(lia) H
              ltac:(rewrite Q; cbn; lra) ltac:(rewrite Q; lra) 2) as [E _]; exact E.
Qed.
Print Assumptions C53_delay_partial.
Print Assumptions C53_signal.
Print Assumptions C53_constant_steps.

(** Steps longer than the dead time: the value used overshoots, and with steps of three dead
    times it grows without bound although the process value is constant. *)
Theorem C53_long_step_refuted : forall junk D B, 0 < D ->
  exists k, B < Rabs (d_val (dead_at junk D (fun _ => 3 * D) (fun _ => 26) k)).
Proof.
  intros junk D B DP.
  destruct (Pow_x_infinity 2 ltac:(rewrite Rabs_right; lra) (Rabs B + 27)) as [N HN].
  exists (S N). pose proof (long_closed junk D (3 * D) 26 DP ltac:(lra) N) as E.
  unfold long_at in E. rewrite E.
  replace (1 - 3 * D / D) with (- (2)) by (field; lra).
  assert (A : Rabs ((25 - 26) * (- (2)) ^ N) = Rabs (2 ^ N)).
  { rewrite Rabs_mult, <- !RPow_abs, Rabs_Ropp. rewrite (Rabs_left (25 - 26)) by lra. lra. }
  specialize (HN N (le_n N)).
  pose proof (Rabs_triang_inv ((25 - 26) * (- (2)) ^ N) (- (26))) as T.
  replace ((25 - 26) * (- (2)) ^ N - - (26)) with (26 + (25 - 26) * (- (2)) ^ N) in T by ring.
  rewrite A in T. rewrite (Rabs_left (- (26))) in T by lra. pose proof (Rle_abs B). lra.
Qed.
(** Steps too short for the buffer: the code reads memory behind it.  The process value is
    25 degC all the time, the value used is not. *)
Theorem C53_short_step_refuted : forall D x, 0 < D -> 0 < x -> INR (S (buf_len D)) * x < D ->
  forall mem, mem <> 25 -> D - (mem - x) <> 0 ->
  exists k, d_val (dead_at (fun _ _ => mem) D (fun _ => x) (fun _ => 25) k) <> 25.
Proof.
  intros D x DP XP SH mem M Z. exists (S (buf_len D)).
  pose proof (short_val (fun _ _ => mem) D x XP SH) as E. unfold short_at in E. rewrite E.
  intros Q. assert (W : (mem - 25) / (D - (mem - x)) * x = 0) by lra.
  apply Rmult_integral in W. destruct W as [W|W]; [|lra].
  unfold Rdiv in W. apply Rmult_integral in W. destruct W as [W|W]; [lra|].
  apply Rinv_neq_0_compat in Z. contradiction.
Qed.
Example C53_short_step_ex : INR (S (buf_len 1)) * (1 / 200) < 1.
Proof. rewrite S_INR. destruct (buf_len_ge 1 ltac:(lra)) as [_ A]. lra. Qed.
(** Bang-bang and two-sensor controllers ignore the dead time: they act on the current value. *)
Theorem C53_switching_refuted : forall c D s i, ~ is_pid (f_kind c) ->
  s_cv (ctrl c s i) =
  s_cv (ctrl (mkCfg (f_kind c) (f_min c) (f_max c) (f_slope c) (f_inv c) (f_sub c) (f_off c)
                    (f_ll c) (f_ul c) (f_disc c) D) s i).
Proof.
  intros c D s i N. rewrite !ctrl_cv. unfold core. cbn [f_kind].
  destruct (f_kind c); [exfalso; apply N; exact I|reflexivity|reflexivity].
Qed.
Print Assumptions C53_long_step_refuted.
Print Assumptions C53_short_step_refuted.
Print Assumptions C53_switching_refuted.

(** ** C64 Inversion *)

(** A continuous PID controller with [invert=True] reacts to any history of errors as the one
    without reacts to the opposite errors. *)
Theorem C64_invert_partial : forall c g ins act, cfg_ok c -> f_kind c = PID g ->
  f_disc c = false -> f_dead c = 0 ->
  outputs (set_inv c true) (fresh c act) ins
  = outputs (set_inv c false) (fresh c act) (map mirrored ins).
Proof.
  intros c g ins act OK K Di D0. apply (opposite_outputs c g OK K Di D0).
  unfold opposite, fresh. cbn. repeat split; ring.
Qed.
Example C64_ex : exists ins x, outputs (set_inv c29_cfg true) (fresh c29_cfg 0) ins = [x] /\ x = 1.
Proof.
  exists [mirrored (ex_inp 1 60 20)].
  rewrite (C64_invert_partial c29_cfg _ _ 0 (proj1 C29_ex) eq_refl eq_refl eq_refl).
  cbn [map outputs]. eexists. split; [reflexivity|].
  replace (mirrored (mirrored (ex_inp 1 60 20))) with (ex_inp 1 60 20).
  - change (set_inv c29_cfg false) with c29_cfg. rewrite ctrl_act.
    destruct C29_ex as (_ & _ & ->). apply clip_id. cbn. lra.
  - unfold mirrored, ex_inp. cbn. rewrite !Ropp_involutive. replace (- - 0) with 0 by lra.
    reflexivity.
Qed.
(** A discrete PID controller ignores the argument completely: *)
Theorem C64_discrete_refuted : forall c g, f_kind c = PID g -> f_disc c = true ->
  forall b s ins, outputs (set_inv c b) s ins = outputs c s ins.
Proof.
  intros c g K Di b s ins. revert s. induction ins as [|i r IH]; intros s; [reflexivity|].
  cbn [outputs]. rewrite (discrete_inv c g K Di), IH. reflexivity.
Qed.
(** so a process value above the set point switches nothing on. *)
Theorem C64_discrete_cooling_refuted : exists c, cfg_ok c /\ f_inv c = true /\ f_disc c = true /\
  s_act (ctrl c (fresh c 0) (ex_inp 1 20 60)) = 0 /\
  s_act (ctrl c (fresh c 0) (ex_inp 1 60 20)) = 1.
Proof.
  set (g := mkGains 1 0 0 None None).
  set (c := mkCfg (PID g) 0 1 None true None 0 0 1 true 0).
  assert (ST : forall sp pv, s_act (ctrl c (fresh c 0) (ex_inp 1 sp pv)) =
    clip 0 1 (clip 0 1 (1 * (sp - pv) + 0 / 1 * (sp - pv - 0)))).
  { intros sp pv. rewrite ctrl_act, ctrl_cv, limit_none by reflexivity. unfold core.
    change (f_kind c) with (PID g). rewrite (not_blocked c _ eq_refl). unfold run_pid.
    change (f_disc c) with true. unfold is0. cbn [g g_ki].
    destruct (Req_EM_T 0 0) as [_|N]; [|lra]. cbn [fst snd]. rewrite seen_err by reflexivity.
    reflexivity. }
  exists c. split; [unfold cfg_ok, c, g; cbn; lra|]. do 2 (split; [reflexivity|]).
  rewrite !ST. unfold clip. split.
  - destruct (Rlt_dec (1 * (20 - 60) + 0 / 1 * (20 - 60 - 0)) 0) as [_|N]; [|lra].
    destruct (Rlt_dec 0 0); [lra|]. destruct (Rlt_dec 1 0); lra.
  - destruct (Rlt_dec (1 * (60 - 20) + 0 / 1 * (60 - 20 - 0)) 0) as [N|_]; [lra|].
    destruct (Rlt_dec 1 (1 * (60 - 20) + 0 / 1 * (60 - 20 - 0))) as [_|N]; [|lra].
    destruct (Rlt_dec 1 0); [lra|]. destruct (Rlt_dec 1 1); lra.
Qed.
Print Assumptions C64_invert_partial.
Print Assumptions C64_discrete_refuted.
Print Assumptions C64_discrete_cooling_refuted.

(** ** C65 Set point from another part *)

(** No set of arguments with the documented name [ref_SP_diff] builds such a controller; only
    giving the same value under a second, undocumented name does. *)
Theorem C65_reference_refuted : forall kw, kw DifferenceToRef = None ->
  forall d, get_sp true kw <> Built d.
Proof.
  intros kw E d. unfold get_sp. rewrite E. destruct (kw RefSPdiff); discriminate.
Qed.
Theorem C65_constant : forall kw x, kw Setpoint = Some x -> get_sp false kw = Built x.
Proof. intros kw x E. unfold get_sp. rewrite E. reflexivity. Qed.
Example C65_ex : get_sp true (fun a => match a with RefSPdiff => Some 5 | _ => None end) = Crash.
Proof. reflexivity. Qed.
Print Assumptions C65_reference_refuted.
Print Assumptions C65_constant.

(** ** C66 Selectable terms *)

(** With manual tuning every selection except 'I' uses exactly the gains of its terms. *)
Theorem C66_terms_partial : forall t p i d, t <> TI -> forall kw,
  kw Kp = Some p -> kw Ki = Some i -> kw Kd = Some d ->
  manual_gains t kw = Built (match t with TP => (p, 0, 0) | TPI => (p, i, 0) | TPD => (p, 0, d) | TI | TPID => (p, i, d) end).
Proof.
  intros t p i d N kw P I D. unfold manual_gains. rewrite P, I, D.
  destruct t; try contradiction; reflexivity.
Qed.
(** The gain of a selected term has to be given, those of the others need not. *)
Theorem C66_gains_needed : forall t kw, t <> TI ->
  (manual_gains t kw = AssertionFails <->
   kw Kp = None \/ ((t = TPI \/ t = TPID) /\ kw Ki = None) \/ ((t = TPD \/ t = TPID) /\ kw Kd = None)).
Proof.
  intros t kw N. unfold manual_gains, want, has_I, has_D.
  destruct t; try contradiction; destruct (kw Kp), (kw Ki), (kw Kd); split; intro H; try discriminate; try reflexivity; intuition (try discriminate; congruence).
Qed.
Example C66_gains_ex : manual_gains TPI (fun a => match a with Kp => Some 1 | _ => None end) = AssertionFails.
Proof. reflexivity. Qed.
(** 'I' alone is not rejected with a message: it runs into an unrelated error. *)
Theorem C66_integral_only_refuted : forall kw g, manual_gains TI kw <> Built g /\ manual_gains TI kw <> AssertionFails.
Proof. intros kw g. split; discriminate. Qed.
Print Assumptions C66_terms_partial.
Print Assumptions C66_gains_needed.
Print Assumptions C66_integral_only_refuted.

(** ** C67 Control law *)

(** Continuous PID: as long as the integral of the error stays within the anti-windup limit the
    output is the textbook law, inverted if asked for, clipped to the saturation limits. *)
Theorem C67_continuous : forall c g ins act, f_kind c = PID g -> f_disc c = false -> plain c ->
  g_rc g = None -> (forall k, within (g_aw g) (integral ins k)) ->
  forall k, s_cv (ctrl_at c (fresh c act) ins (S k))
            = clip (f_min c) (f_max c) (law g ins k * (if f_inv c then -1 else 1)).
Proof. exact cont_law. Qed.
(** Discrete PID (velocity form): the same law, while it is within all limits; with a
    derivative share for constant steps. *)
Theorem C67_discrete_partial : forall c g ins act, f_kind c = PID g -> f_disc c = true ->
  plain c -> g_rc g = None -> g_ki g <> 0 -> steps_ok ins ->
  (g_kd g = 0 \/ forall k, i_h (ins k) = i_h (ins O)) ->
  (forall k, within (g_aw g) (law g ins k) /\ f_min c <= law g ins k <= f_max c) ->
  within (g_aw g) 0 ->
  forall k, s_cv (ctrl_at c (fresh c act) ins (S k)) = law g ins k.
Proof. exact disc_law. Qed.
Definition c67_cfg (d : bool) : cfg :=
  mkCfg (PID (mkGains 2 3 4 (Some 100) None)) (-100) 100 None false None 0 (-100) 100 d 0.
Definition c67_ins (k : nat) : inp :=
  match k with O => ex_inp 2 1 0 | S O => ex_inp 2 2 0 | _ => ex_inp 2 0 0 end.
Lemma c67_total : forall k, 0 <= total (fun j => i_h (c67_ins j) * err c67_ins j) k <= 6.
Proof.
  assert (E : forall k, total (fun j => i_h (c67_ins j) * err c67_ins j) (S (S k)) = 6).
  { induction k as [|k IH].
    { cbn [total]. unfold err. cbn [c67_ins ex_inp i_h i_sp i_pv]. lra. }
    change (total (fun j => i_h (c67_ins j) * err c67_ins j) (S (S (S k))))
      with (total (fun j => i_h (c67_ins j) * err c67_ins j) (S (S k)) + 2 * (0 - 0)).
    rewrite IH. lra. }
  intros [|[|k]]; [cbn [total]; lra| |rewrite E; lra].
  cbn [total]. unfold err. cbn [c67_ins ex_inp i_h i_sp i_pv]. lra.
Qed.
Example C67_ex :
  (forall k, within (Some 100) (integral c67_ins k)) /\
  (forall k, within (Some 100) (law (mkGains 2 3 4 (Some 100) None) c67_ins k) /\
             -100 <= law (mkGains 2 3 4 (Some 100) None) c67_ins k <= 100) /\
  s_cv (ctrl_at (c67_cfg true) (fresh (c67_cfg true) 0) c67_ins 2) = 24 /\
  s_cv (ctrl_at (c67_cfg false) (fresh (c67_cfg false) 0) c67_ins 2) = 24.
Proof.
  set (g := mkGains 2 3 4 (Some 100) None).
  assert (A : forall k, within (Some 100) (integral c67_ins k)).
  { intros k. unfold integral. pose proof (c67_total (S k)). cbn [within]. lra. }
  assert (B : forall k, within (Some 100) (law g c67_ins k) /\ -100 <= law g c67_ins k <= 100).
  { intros k. assert (Q : -100 <= law g c67_ins k <= 100); [|cbn [within]; lra].
    pose proof (c67_total (S k)) as T. unfold law, integral.
    set (t := total _ (S k)) in *. cbn [g g_kp g_ki g_kd].
    destruct k as [|[|[|k]]]; cbn [c67_ins perr]; unfold err; cbn [c67_ins ex_inp i_h i_sp i_pv]; lra. }
  assert (V : law g c67_ins 1 = 24).
  { unfold law, integral. cbn [total perr g g_kp g_ki g_kd]. unfold err.
    cbn [c67_ins ex_inp i_h i_sp i_pv]. lra. }
  split; [exact A|]. split; [exact B|]. split.
  - rewrite (C67_discrete_partial (c67_cfg true) g c67_ins 0 eq_refl eq_refl); auto.
    + repeat split.
    + cbn. lra.
    + intros [|[|k]]; cbn; lra.
    + right. intros [|[|k]]; reflexivity.
    + cbn. lra.
  - rewrite (C67_continuous (c67_cfg false) g c67_ins 0 eq_refl eq_refl); auto.
    + rewrite V. cbn [c67_cfg f_inv f_min f_max]. rewrite clip_id; lra.
    + repeat split.
Qed.
Print Assumptions C67_continuous.
Print Assumptions C67_discrete_partial.

(** ** C68 Derivative filter *)

(** The filtered error difference never exceeds the largest raw one, for all histories. *)
Theorem C68_filter_bounded : forall c g ins act B, cfg_ok c -> f_kind c = PID g ->
  f_disc c = false -> f_dead c = 0 -> steps_ok ins -> 0 <= B ->
  (forall k, Rabs (err ins k - perr ins k) <= B) ->
  forall k, Rabs (s_deriv (ctrl_at c (fresh c act) ins k)) <= B.
Proof. exact deriv_in. Qed.
(** Constant steps: while the error rises at a constant rate the derivative term approaches
    that rate geometrically. *)
Theorem C68_ramp : forall c g t s ins x r, f_kind c = PID g -> f_disc c = false ->
  f_dead c = 0 -> g_rc g = Some t -> 0 < t -> 0 < x ->
  (forall k, i_h (ins k) = x) -> err ins O - s_err s = r * x ->
  (forall k, err ins (S k) - err ins k = r * x) ->
  forall k, s_deriv (ctrl_at c s ins k) / x - r = (t / (t + x)) ^ k * (s_deriv s / x - r).
Proof.
  intros c g t s ins x r K Di D0 RC TP XP HX E0 ES. induction k as [|k IH].
  - cbn [ctrl_at pow]. ring.
  - cbn [ctrl_at pow]. rewrite (deriv_cont c g _ _ K Di), RC. cbn [filtered].
    destruct (ctrl_rest c (ctrl_at c s ins k) (ins k)) as (-> & _).
    rewrite seen_err by exact D0. rewrite HX.
    assert (Q : i_sp (ins k) - i_pv (ins k) - s_err (ctrl_at c s ins k) = r * x).
    { destruct k as [|k]; [exact E0|]. cbn [ctrl_at].
      destruct (ctrl_rest c (ctrl_at c s ins k) (ins k)) as (-> & _).
      rewrite seen_err by exact D0. exact (ES k). }
    rewrite Q. rewrite Rmult_assoc, <- IH. field. lra.
Qed.
Print Assumptions C68_filter_bounded.
Print Assumptions C68_ramp.

(** Varying steps: the filter averages error differences of steps of different length, so for
    an error rising at 1 per second the derivative term can be five times too large. *)
Theorem C68_varying_steps_refuted : exists c g t s i j, cfg_ok c /\ f_kind c = PID g /\
  f_disc c = false /\ g_rc g = Some t /\ s = fresh c 0 /\ 0 < i_h i /\ 0 < i_h j /\
  (* the error rises at rate 1 throughout *)
  i_sp i - i_pv i - s_err s = i_h i /\
  i_sp j - i_pv j - s_err (ctrl c s i) = i_h j /\
  (* after one step the derivative term is still at most 1 ... *)
  s_deriv (ctrl c s i) / i_h i <= 1 /\
  (* ... after the second one it is 111 / 22 *)
  s_deriv (ctrl c (ctrl c s i) j) / i_h j = 111 / 22.
Proof.
  set (g := mkGains 1 0 1 None (Some 10)).
  set (c := mkCfg (PID g) (-1000) 1000 None false None 0 (-1000) 1000 false 0).
  exists c, g, 10, (fresh c 0), (ex_inp 100 100 0), (ex_inp 10 110 0).
  assert (S1 : s_err (ctrl c (fresh c 0) (ex_inp 100 100 0)) = 100).
  { destruct (ctrl_rest c (fresh c 0) (ex_inp 100 100 0)) as (-> & _).
    rewrite seen_err by reflexivity. cbn. lra. }
  assert (D1 : s_deriv (ctrl c (fresh c 0) (ex_inp 100 100 0)) = 1000 / 11).
  { rewrite (deriv_cont c g _ _ eq_refl eq_refl), S1. cbn. lra. }
  split; [unfold cfg_ok, c, g; cbn; lra|]. do 4 (split; [reflexivity|]).
  split; [cbn; lra|]. split; [cbn; lra|]. split; [cbn; lra|].
  split; [rewrite S1; cbn; lra|]. split; [rewrite D1; cbn; lra|].
  rewrite (deriv_cont c g _ _ eq_refl eq_refl), S1, D1.
  destruct (ctrl_rest c (ctrl c (fresh c 0) (ex_inp 100 100 0)) (ex_inp 10 110 0)) as (-> & _).
  rewrite seen_err by reflexivity. cbn. lra.
Qed.
Print Assumptions C68_varying_steps_refuted.
