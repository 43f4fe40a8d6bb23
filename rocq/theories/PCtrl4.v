(** C64, C67 continued: inverted controllers with dead time; the velocity form of the control
    law with changing steps. *)
From Coq Require Import Reals List Arith Bool Lia Lra.
From Verif Require Import MCtrl SCtrl LDead LCtrl LCtrl2 PCtrl PCtrl2 PCtrl3.
Import ListNotations.
Open Scope R_scope.

(** ** C64 Inversion with dead time *)

(** Set point and measurement mirrored at 25 degC, the value the dead-time buffers start with:
    the error changes its sign. *)
Definition mirrored25 (i : inp) : inp :=
  mkInp (i_h i) (50 - i_sp i) (50 - i_pv i) (50 - i_on i) (i_master i) (i_junk i).

Definition mir (x : R) : R := 50 - x.

(** Two dead-time states with mirrored values. *)
Definition dead_mir (s s' : dead) : Prop :=
  d_age s' = d_age s /\ d_idx s' = d_idx s /\ d_last s' = d_last s /\
  d_pv s' = map mir (d_pv s) /\ d_val s' = mir (d_val s).

(** The buffer is never left: slots up to the current one are at least as many steps old as
    their number, all later ones are not older than the current one. *)
Definition fits (m : R) (L : nat) (s : dead) : Prop :=
  length (d_age s) = L /\ length (d_pv s) = L /\ (nextidx s < L)%nat /\
  (forall i, (i <= nextidx s)%nat -> INR i * m <= nth i (d_age s) 0) /\
  (forall i, (nextidx s < i < L)%nat -> nth i (d_age s) 0 <= nth (nextidx s) (d_age s) 0).

Lemma rd_mir : forall junk l i, (i < length l)%nat ->
  rd junk (map mir l) i = mir (rd junk l i).
Proof.
  intros junk l i H. rewrite !rd_in by (rewrite ?map_length; exact H).
  rewrite (nth_indep _ 0 (mir 0)) by (rewrite map_length; exact H). apply map_nth.
Qed.

Lemma push_mir : forall x l, push (mir x) (map mir l) = map mir (push x l).
Proof. intros x l. unfold push. rewrite map_length. exact (firstn_map mir (length l) (x :: l)). Qed.

Lemma dead_mir_step : forall junk D h pv s s' m L, 0 < m -> m <= h -> 0 < D ->
  fits m L s -> dead_mir s s' ->
  dead_mir (dead_step junk D h pv s) (dead_step junk D h (mir pv) s').
Proof.
  intros junk D h pv s s' m L MP MH DP (LA & LP & J & _ & _) (A & I & Q & P & V).
  unfold dead_step. rewrite A, I, Q, P, V.
  set (age := map (fun a => a + h) (d_age s)).
  assert (LG : length age = L) by (unfold age; rewrite map_length; exact LA).
  unfold dead_mir. cbn [d_age d_pv d_idx d_last d_val].
  do 3 (split; [reflexivity|]). split; [apply push_mir|].
  destruct (first_old D age) as [i|] eqn:F.
  - destruct (first_old_some _ _ _ F) as (IL & _ & _). rewrite LG in IL.
    destruct i as [|i].
    + rewrite rd_mir by lia. unfold mir, Rdiv. ring.
    + rewrite !rd_mir by lia. destruct (Req_EM_T _ _); [reflexivity|]. unfold mir, Rdiv. ring.
  - fold (nextidx s). rewrite rd_mir by lia. unfold mir, Rdiv. ring.
Qed.

Lemma fits_init : forall m D, 0 < D -> fits m (buf_len D) (dead_init D).
Proof.
  intros m D DP. unfold fits, dead_init, nextidx. cbn [d_age d_pv d_idx].
  rewrite !repeat_length. do 2 (split; [reflexivity|]). split.
  { destruct (buf_len_ge D DP) as [A _]. destruct (buf_len D); [cbn in A; lra|lia]. }
  split; intros i H.
  - assert (i = O) as -> by lia. rewrite nth_rep0. cbn. lra.
  - rewrite !nth_rep0. lra.
Qed.

Lemma fits_step : forall junk D h pv s m L, 0 < m -> m <= h -> D <= m * (INR L - 1) ->
  fits m L s -> fits m L (dead_step junk D h pv s).
Proof.
  intros junk D h pv s m L MP MH RM (LA & LP & J & T & ST).
  unfold dead_step. fold (nextidx s). set (j := nextidx s) in *. clearbody j.
  set (age := map (fun a => a + h) (d_age s)).
  assert (LG : length age = L) by (unfold age; rewrite map_length; exact LA).
  assert (G : forall i, (i < L)%nat -> nth i age 0 = nth i (d_age s) 0 + h).
  { intros i Q. unfold age. apply nth_add. lia. }
  clearbody age.
  assert (GT : forall i, (i <= j)%nat -> INR (S i) * m <= nth i age 0).
  { intros i Q. rewrite G by lia. specialize (T i Q). rewrite S_INR. lra. }
  destruct (first_old D age) as [i|] eqn:F.
  - destruct (first_old_some _ _ _ F) as (IL & ID & IF). rewrite LG in IL.
    assert (IJ : (i <= j)%nat).
    { destruct (le_lt_dec i j) as [Q|Q]; [exact Q|].
      pose proof (ST i (conj Q IL)) as S1. pose proof (IF j Q) as S2.
      rewrite G in ID by exact IL. rewrite G in S2 by exact J. lra. }
    unfold fits, nextidx. cbn [d_age d_pv d_idx d_last].
    rewrite !push_len, zero_len by lia. split; [lia|]. split; [lia|]. split; [lia|]. split.
    + intros [|q] Q.
      * rewrite push_0 by (rewrite zero_len; lia). cbn. lra.
      * rewrite push_S by (rewrite zero_len; lia). rewrite zero_lo by lia. apply GT. lia.
    + intros [|q] Q; [lia|]. rewrite push_S by (rewrite zero_len; lia). rewrite zero_hi by lia.
      destruct i as [|i].
      * rewrite push_0 by (rewrite zero_len; lia). lra.
      * rewrite push_S by (rewrite zero_len; lia). rewrite zero_lo by lia.
        specialize (GT i ltac:(lia)). pose proof (pos_INR (S i)). nra.
  - pose proof (first_old_none _ _ F) as FN. rewrite LG in FN.
    assert (ROOM : (S j < L)%nat).
    { apply INR_lt. pose proof (FN j J) as YJ. pose proof (GT j (le_n j)).
      apply (Rmult_lt_reg_l m); lra. }
    unfold fits, nextidx. cbn [d_age d_pv d_idx d_last].
    rewrite !push_len, zero_len by exact Logic.I.
    split; [lia|]. split; [lia|]. split; [exact ROOM|]. split.
    + intros [|q] Q.
      * rewrite push_0 by (rewrite zero_len; [lia|exact Logic.I]). cbn. lra.
      * rewrite push_S by (rewrite zero_len; [lia|exact Logic.I]).
        rewrite zero_none by lia. apply GT. lia.
    + intros [|q] Q; [lia|].
      rewrite !push_S by (rewrite zero_len; [lia|exact Logic.I]).
      rewrite !zero_none by lia. rewrite !G by lia.
      pose proof (ST q ltac:(lia)). lra.
Qed.

Lemma opposite_ctrl25 : forall c g s s' i, cfg_ok c -> f_kind c = PID g -> f_disc c = false ->
  (f_dead c <> 0 ->
     dead_mir (dead_step (i_junk i) (f_dead c) (i_h i) (i_pv i) (s_dead s))
              (dead_step (i_junk i) (f_dead c) (i_h i) (mir (i_pv i)) (s_dead s'))) ->
  opposite s s' ->
  opposite (ctrl (set_inv c true) s i) (ctrl (set_inv c false) s' (mirrored25 i)).
Proof.
  intros c g s s' i OK K Di DM (V & A & E & I & De).
  destruct OK as (_ & _ & _ & _ & AW). rewrite K in AW. destruct AW as [AW _].
  rewrite !ctrl_core. unfold core, seen, run_pid, blocked, mirrored25, sgn.
  cbn [set_inv f_kind f_min f_max f_slope f_inv f_sub f_off f_ll f_ul f_disc f_dead
       i_h i_sp i_pv i_on i_master i_junk].
  rewrite K, Di. cbn [s_cv s_err s_err1 s_err2 s_i s_pi s_deriv s_dead s_act].
  rewrite E, I, De, <- V.
  set (e := i_sp i - _).
  match goal with |- context [50 - i_sp i - ?y] =>
    assert (EE : 50 - i_sp i - y = - e) end.
  { unfold e. destruct (Req_EM_T (f_dead c) 0) as [Z|Z]; [ring|].
    destruct (DM Z) as (_ & _ & _ & _ & W). fold (mir (i_pv i)). rewrite W. unfold mir. ring. }
  rewrite EE. clear EE.
  replace (i_h i * - e + - s_i s) with (- (i_h i * e + s_i s)) by ring.
  rewrite (aw_odd (g_aw g)) by exact AW.
  replace (- e - - s_err s) with (- (e - s_err s)) by ring.
  rewrite filtered_odd.
  set (it := clip_aw (g_aw g) (i_h i * e + s_i s)).
  set (de := filtered (g_rc g) (i_h i) (s_deriv s) (e - s_err s)).
  replace ((g_kp g * - e + g_ki g * - it + g_kd g * (- de / i_h i)) * 1)
    with ((g_kp g * e + g_ki g * it + g_kd g * (de / i_h i)) * -1) by (unfold Rdiv; ring).
  set (v := clip (f_min c) (f_max c) _).
  assert (LIM : forall q, limit (set_inv c false) (s_cv s) (i_h i) q =
                          limit (set_inv c true) (s_cv s) (i_h i) q) by reflexivity.
  unfold opposite.
  destruct (match f_sub c with
            | Some (conc, off) => if Req_EM_T (i_master i) off then conc else negb conc
            | None => false end);
    cbn [fst snd s_cv s_err s_err1 s_err2 s_i s_pi s_deriv s_dead s_act];
    rewrite LIM; repeat split; ring.
Qed.

(** A continuous PID controller with [invert=True], also with a dead time, reacts to any history
    of set points and process values as the one without reacts to the history with all errors
    reversed; with a dead time the steps must not be too short for its buffer, but may be
    longer than the dead time. *)
Theorem C64_dead_time : forall c g ins act m, cfg_ok c -> f_kind c = PID g ->
  f_disc c = false ->
  f_dead c = 0 \/
    0 < m /\ f_dead c <= m * (100 * f_dead c - 1) /\ Forall (fun i => m <= i_h i) ins ->
  outputs (set_inv c true) (fresh c act) ins
  = outputs (set_inv c false) (fresh c act) (map mirrored25 ins).
Proof.
  intros c g ins act m OK K Di H.
  assert (D0 : 0 <= f_dead c) by (destruct OK as (_ & _ & D & _); exact D).
  assert (GEN : forall ins s s',
    (f_dead c = 0 \/ 0 < m /\ f_dead c <= m * (INR (buf_len (f_dead c)) - 1) /\
        Forall (fun i => m <= i_h i) ins /\ fits m (buf_len (f_dead c)) (s_dead s) /\
        dead_mir (s_dead s) (s_dead s')) ->
    opposite s s' ->
    outputs (set_inv c true) s ins = outputs (set_inv c false) s' (map mirrored25 ins)).
  { clear ins H. induction ins as [|i r IH]; intros s s' H O; [reflexivity|].
    cbn [outputs map].
    assert (STP : f_dead c <> 0 ->
      dead_mir (dead_step (i_junk i) (f_dead c) (i_h i) (i_pv i) (s_dead s))
               (dead_step (i_junk i) (f_dead c) (i_h i) (mir (i_pv i)) (s_dead s'))).
    { intros Z. destruct H as [H|(MP & RM & FA & FI & DM)]; [contradiction|].
      apply (dead_mir_step _ _ _ _ _ _ m (buf_len (f_dead c))); auto.
      - exact (Forall_inv FA).
      - lra. }
    pose proof (opposite_ctrl25 c g s s' i OK K Di STP O) as N.
    rewrite (IH _ (ctrl (set_inv c false) s' (mirrored25 i))); [|clear IH|exact N].
    { destruct N as (_ & A & _). rewrite A. reflexivity. }
    destruct H as [H|(MP & RM & FA & FI & DM)]; [left; exact H|].
    destruct (Req_EM_T (f_dead c) 0) as [Z|Z]; [left; exact Z|]. right.
    split; [exact MP|]. split; [exact RM|]. split; [exact (Forall_inv_tail FA)|].
    assert (SD : forall b s i, s_dead (ctrl (set_inv c b) s i)
                 = dead_step (i_junk i) (f_dead c) (i_h i) (i_pv i) (s_dead s)).
    { intros b x y. destruct (ctrl_rest (set_inv c b) x y) as (_ & _ & _ & _ & ->).
      unfold seen. cbn [s_dead set_inv f_dead].
      destruct (Req_EM_T (f_dead c) 0); [contradiction|]. reflexivity. }
    rewrite !SD. cbn [mirrored25 i_junk i_h i_pv]. fold (mir (i_pv i)). split.
    - apply fits_step; auto. exact (Forall_inv FA).
    - exact (STP Z). }
  apply GEN.
  - destruct H as [H|(MP & RM & FA)]; [left; exact H|].
    destruct (Req_EM_T (f_dead c) 0) as [Z|Z]; [left; exact Z|]. right.
    destruct (buf_len_ge (f_dead c) ltac:(lra)) as [B _].
    split; [exact MP|]. split; [nra|]. split; [exact FA|]. cbn [fresh s_dead].
    split; [apply fits_init; lra|].
    unfold dead_mir, dead_init. cbn [d_age d_pv d_idx d_last d_val].
    do 3 (split; [reflexivity|]).
    assert (M : mir 25 = 25) by (unfold mir; lra). split; [|symmetry; exact M].
    clear - M. induction (buf_len (f_dead c)) as [|n IHn]; [reflexivity|].
    cbn [repeat map]. rewrite M, <- IHn. reflexivity.
  - unfold opposite, fresh. cbn. repeat split; ring.
Qed.
(** Inverted controller with a dead time of 10 s: 24 degC asked for, 25 degC in the buffer. *)
Example C64_dead_time_ex : forall pv,
  outputs (set_inv c53_cfg true) (fresh c53_cfg 0) [ex_inp 10 24 pv] = [1].
Proof.
  intros pv.
  assert (OK : cfg_ok c53_cfg) by (unfold cfg_ok, c53_cfg; cbn; lra).
  rewrite (C64_dead_time c53_cfg _ _ 0 1 OK eq_refl eq_refl).
  - cbn [map outputs]. f_equal. change (set_inv c53_cfg false) with c53_cfg.
    set (i := mirrored25 (ex_inp 10 24 pv)).
    assert (Q : f_dead c53_cfg = 10) by reflexivity.
    destruct (C53_constant_steps c53_cfg 0 (fun _ => i) 10 1 ltac:(rewrite Q; lra) ltac:(lia)
              (fun _ => eq_refl) ltac:(rewrite Q; cbn; lra) ltac:(rewrite Q; lra) O) as [_ E].
    specialize (E (Nat.lt_0_succ 0)). cbn [ctrl_at] in E.
    destruct (ctrl_rest c53_cfg (fresh c53_cfg 0) i) as (SE & _). rewrite SE in E.
    rewrite ctrl_act, ctrl_cv, limit_none by reflexivity. unfold core.
    change (f_kind c53_cfg) with (PID (mkGains 1 0 0 None None)).
    rewrite (not_blocked c53_cfg _ eq_refl). unfold run_pid.
    change (f_disc c53_cfg) with false. cbn [fst snd g_kp g_ki g_kd g_rc g_aw clip_aw filtered].
    rewrite E. unfold i at 1. cbn [mirrored25 ex_inp i_sp]. unfold sgn.
    change (f_inv c53_cfg) with false. cbv iota.
    match goal with |- clip _ _ (clip _ _ ?x) = _ => replace x with 1 by ring end.
    change (clip 0 1 (clip 0 1 1) = 1). rewrite (clip_id 0 1 1) by lra. apply clip_id. lra.
  - right. split; [lra|]. split; [change (f_dead c53_cfg) with 10; lra|].
    constructor; [cbn; lra|constructor].
Qed.
(** Bang-bang controllers multiply their value by -1 instead: outside the band an inverted one
    whose off state is 0 leaves an actuator that cannot be negative switched off, on either
    side of the set point; the same controller without inversion is fully on below it. *)
Theorem C64_switching_refuted : forall c hy s i, f_kind c = BangBang false hy ->
  f_slope c = None -> f_sub c = None -> f_off c = 0 -> f_ll c = 0 -> 0 <= f_max c <= f_ul c ->
  0 <= hy -> i_pv i < i_sp i - hy / 2 \/ i_sp i + hy / 2 < i_pv i ->
  s_act (ctrl (set_inv c true) s i) = 0 /\
  (i_pv i < i_sp i - hy / 2 -> s_act (ctrl (set_inv c false) s i) = f_max c).
Proof.
  intros c hy s i K SL SU O LL MX HY H.
  assert (ST : forall b, s_act (ctrl (set_inv c b) s i) =
    clip 0 (f_ul c) ((if b then -1 else 1) *
      (if Rlt_dec (i_pv i) (i_sp i - hy / 2) then f_max c
       else if Rlt_dec (i_sp i + hy / 2) (i_pv i) then 0 else s_cv s))).
  { intros b. rewrite ctrl_act, ctrl_cv, limit_none by exact SL.
    unfold core. cbn [set_inv f_kind f_ll f_ul]. rewrite K, LL.
    rewrite (not_blocked (set_inv c b) i SU). cbn [fst]. unfold run_bb, sgn.
    cbn [set_inv f_inv f_max f_off]. rewrite O. reflexivity. }
  split.
  - rewrite ST. destruct (Rlt_dec (i_pv i) (i_sp i - hy / 2)).
    + unfold clip. destruct (Rlt_dec (-1 * f_max c) 0); [reflexivity|].
      destruct (Rlt_dec (f_ul c) (-1 * f_max c)); lra.
    + destruct (Rlt_dec (i_sp i + hy / 2) (i_pv i)); [|lra].
      rewrite clip_id; lra.
  - intros B. rewrite ST. destruct (Rlt_dec (i_pv i) (i_sp i - hy / 2)); [|contradiction].
    rewrite Rmult_1_l. apply clip_id. lra.
Qed.
Example C64_switching_ex :
  s_act (ctrl (set_inv c33_cfg true) (fresh c33_cfg 0) (ex_inp 1 20 60)) = 0 /\
  s_act (ctrl (set_inv c33_cfg false) (fresh c33_cfg 0) (ex_inp 1 60 20)) = 1.
Proof.
  split.
  - apply (C64_switching_refuted c33_cfg 4); try reflexivity; cbn; lra.
  - apply (C64_switching_refuted c33_cfg 4); try reflexivity; cbn; lra.
Qed.
Print Assumptions C64_dead_time.
Print Assumptions C64_switching_refuted.

(** ** C67 Velocity form with changing steps *)

(** Change of the error in step [k] and in the step before. *)
Definition change (ins : nat -> inp) (k : nat) : R := err ins k - perr ins k.
Definition pchange (ins : nat -> inp) (k : nat) : R :=
  match k with O => 0 | S k => change ins k end.

(** The increments of the velocity form, accumulated. *)
Definition velocity (g : gains) (ins : nat -> inp) (k : nat) : R :=
  total (fun j => g_kp g * change ins j + g_ki g * (i_h (ins j) * err ins j)
                  + g_kd g * ((change ins j - pchange ins j) / i_h (ins j))) (S k).

Lemma total_ext : forall f h k, (forall j, f j = h j) -> total f k = total h k.
Proof. induction k as [|k IH]; intros E; [reflexivity|]. cbn [total]. rewrite IH, E by exact E. reflexivity. Qed.
Lemma total_plus : forall f h k, total (fun j => f j + h j) k = total f k + total h k.
Proof. induction k as [|k IH]; cbn [total]; [lra|rewrite IH; lra]. Qed.
Lemma total_scal : forall a f k, total (fun j => a * f j) k = a * total f k.
Proof. induction k as [|k IH]; cbn [total]; [lra|rewrite IH; lra]. Qed.
Lemma total_change : forall ins k, total (change ins) (S k) = err ins k.
Proof.
  intros ins. induction k as [|k IH].
  - cbn [total]. unfold change. cbn [perr]. lra.
  - change (total (change ins) (S (S k))) with (total (change ins) (S k) + change ins (S k)).
    rewrite IH. unfold change. cbn [perr]. lra.
Qed.

(** Discrete PID: for all step sequences the control value is the accumulated sum of the
    increments, while it is within all limits. *)
Theorem C67_velocity : forall c g ins act, f_kind c = PID g -> f_disc c = true ->
  plain c -> g_rc g = None -> g_ki g <> 0 -> steps_ok ins ->
  (forall k, within (g_aw g) (velocity g ins k) /\ f_min c <= velocity g ins k <= f_max c) ->
  within (g_aw g) 0 ->
  forall k, s_cv (ctrl_at c (fresh c act) ins (S k)) = velocity g ins k.
Proof.
  intros c g ins act K Di (SL & SU & D0) RC KI HP W W0.
  assert (E1 : forall k, s_err1 (ctrl_at c (fresh c act) ins k) = perr ins (pred k)).
  { intros [|k]; [reflexivity|]. cbn [ctrl_at].
    destruct (ctrl_rest c (ctrl_at c (fresh c act) ins k) (ins k)) as (_ & -> & _).
    unfold seen. cbn [s_err1]. rewrite (err_at c (fresh c act) ins k D0 eq_refl). reflexivity. }
  assert (AW : forall x, within (g_aw g) x -> clip_aw (g_aw g) x = x).
  { intros x Q. destruct (g_aw g); cbn in *; [apply clip_id; lra|reflexivity]. }
  assert (STEP : forall k, s_cv (ctrl_at c (fresh c act) ins (S k)) =
    clip (f_min c) (f_max c)
      (clip_aw (g_aw g) (s_cv (ctrl_at c (fresh c act) ins k))
       + g_kp g * (err ins k - perr ins k) + g_ki g * i_h (ins k) * err ins k
       + g_kd g / i_h (ins k) * (err ins k - 2 * perr ins k + perr ins (pred k)))).
  { intros k. cbn [ctrl_at]. rewrite ctrl_cv, limit_none by exact SL.
    unfold core. rewrite K, (not_blocked c _ SU). unfold run_pid. rewrite Di, RC.
    unfold is0. destruct (Req_EM_T (g_ki g) 0) as [Z|_]; [contradiction|].
    cbn [fst snd filtered]. rewrite seen_err by exact D0. unfold seen.
    cbn [s_cv s_err1 s_err2]. rewrite Di, E1.
    rewrite (err_at c (fresh c act) ins k D0 eq_refl). reflexivity. }
  assert (C2 : forall k, err ins k - 2 * perr ins k + perr ins (pred k)
                         = change ins k - pchange ins k).
  { intros [|k]; unfold change, pchange, change; cbn [perr pred]; lra. }
  induction k as [|k IH].
  - rewrite STEP. change (s_cv (ctrl_at c (fresh c act) ins 0)) with 0. rewrite AW by exact W0.
    destruct (W O) as [_ B]. pose proof (HP O) as H0. rewrite C2. fold (change ins O).
    match goal with |- clip _ _ ?x = _ => replace x with (velocity g ins 0) end.
    + apply clip_id, B.
    + unfold velocity. cbn [total]. field. lra.
  - rewrite STEP, IH. destruct (W k) as [Q _]. rewrite AW by exact Q.
    destruct (W (S k)) as [_ B]. pose proof (HP (S k)) as H1. rewrite C2.
    fold (change ins (S k)).
    match goal with |- clip _ _ ?x = _ => replace x with (velocity g ins (S k)) end.
    + apply clip_id, B.
    + change (velocity g ins (S k)) with (velocity g ins k
        + (g_kp g * change ins (S k) + g_ki g * (i_h (ins (S k)) * err ins (S k))
           + g_kd g * ((change ins (S k) - pchange ins (S k)) / i_h (ins (S k))))).
      field. lra.
Qed.

(** How far this is from the textbook law: every change of the error counts once more with the
    difference of the inverse step sizes. *)
Theorem C67_velocity_law : forall g ins k, steps_ok ins ->
  velocity g ins k = law g ins k
    + g_kd g * total (fun j => change ins j * (/ i_h (ins j) - / i_h (ins (S j)))) k.
Proof.
  intros g ins k HP. unfold velocity.
  rewrite total_plus, total_plus, !total_scal, total_change.
  unfold law, integral. rewrite !Rplus_assoc. do 2 f_equal.
  rewrite <- Rmult_plus_distr_l. f_equal. fold (change ins k).
  induction k as [|k IH].
  - cbn [total pchange]. pose proof (HP O). field. lra.
  - change (total (fun j => (change ins j - pchange ins j) / i_h (ins j)) (S (S k)))
      with (total (fun j => (change ins j - pchange ins j) / i_h (ins j)) (S k)
            + (change ins (S k) - change ins k) / i_h (ins (S k))).
    rewrite IH. cbn [total]. pose proof (HP k). pose proof (HP (S k)). field. lra.
Qed.

(** Without integral share the discrete controller follows the textbook law for all step
    sequences, clipped to the saturation limits. *)
Theorem C67_discrete_pd : forall c g ins act, f_kind c = PID g -> f_disc c = true ->
  plain c -> g_rc g = None -> g_ki g = 0 -> steps_ok ins ->
  forall k, s_cv (ctrl_at c (fresh c act) ins (S k)) = clip (f_min c) (f_max c) (law g ins k).
Proof.
  intros c g ins act K Di (SL & SU & D0) RC KI HP k.
  cbn [ctrl_at]. rewrite ctrl_cv, limit_none by exact SL.
  unfold core. rewrite K, (not_blocked c _ SU). unfold run_pid. rewrite Di, RC.
  unfold is0. destruct (Req_EM_T (g_ki g) 0) as [_|Z]; [|contradiction].
  cbn [fst snd filtered]. rewrite seen_err by exact D0. unfold seen. cbn [s_err1].
  rewrite (err_at c (fresh c act) ins k D0 eq_refl). f_equal. unfold law. rewrite KI.
  fold (err ins k). pose proof (HP k). field. lra.
Qed.

(** A discrete PID controller with any gains: after an error of 1 in a step of 1 s and none in
    the following steps of 2 s the control value stays off the law by half the derivative gain
    for ever. *)
Definition c67_vary (k : nat) : inp := match k with O => ex_inp 1 1 0 | S _ => ex_inp 2 0 0 end.
Theorem C67_varying_steps_refuted : forall kp ki kd, ki <> 0 -> kd <> 0 ->
  let g := mkGains kp ki kd None None in
  let B := Rabs kp + Rabs ki + 2 * Rabs kd + 1 in
  let c := mkCfg (PID g) (- B) B None false None 0 (- B) B true 0 in
  cfg_ok c /\ steps_ok c67_vary /\
  forall act k, err c67_vary (S k) = 0 /\
    law g c67_vary (S (S k)) = ki /\
    s_cv (ctrl_at c (fresh c act) c67_vary (S (S (S k)))) = ki + kd / 2.
Proof.
  intros kp ki kd KI KD g B c.
  pose proof (Rabs_pos kp). pose proof (Rabs_pos ki). pose proof (Rabs_pos kd).
  assert (SO : steps_ok c67_vary) by (intros [|k]; cbn; lra).
  assert (ER : forall k, err c67_vary (S k) = 0).
  { intros k. unfold err. cbn [c67_vary ex_inp i_sp i_pv]. lra. }
  assert (E0 : err c67_vary 0 = 1) by (unfold err; cbn [c67_vary ex_inp i_sp i_pv]; lra).
  assert (IT : forall k, integral c67_vary k = 1).
  { intros k. unfold integral. induction k as [|k IH].
    - cbn [total]. rewrite E0. cbn. lra.
    - change (total (fun j => i_h (c67_vary j) * err c67_vary j) (S (S k)))
        with (total (fun j => i_h (c67_vary j) * err c67_vary j) (S k)
              + i_h (c67_vary (S k)) * err c67_vary (S k)).
      rewrite IH, ER. lra. }
  assert (TC : forall k, total (fun j => change c67_vary j
                * (/ i_h (c67_vary j) - / i_h (c67_vary (S j)))) (S k) = 1 / 2).
  { induction k as [|k IH].
    - cbn [total]. unfold change. cbn [perr]. rewrite E0. cbn. lra.
    - match goal with |- total ?f (S (S k)) = _ =>
        change (total f (S k) + f (S k) = 1 / 2) end.
      rewrite IH. cbn [c67_vary ex_inp i_h]. rewrite Rminus_diag_eq by reflexivity. lra. }
  assert (LW : forall k, law g c67_vary (S (S k)) = ki).
  { intros k. unfold law. rewrite IT. cbn [perr]. rewrite !ER.
    cbn [g g_kp g_ki g_kd c67_vary ex_inp i_h]. lra. }
  assert (VE : forall k, velocity g c67_vary (S (S k)) = ki + kd / 2).
  { intros k. rewrite C67_velocity_law by exact SO. rewrite LW, TC. cbn [g g_kd]. lra. }
  assert (V0 : velocity g c67_vary 0 = kp + ki + kd).
  { rewrite C67_velocity_law by exact SO. unfold law. rewrite IT. cbn [total perr].
    rewrite E0. cbn [g g_kp g_ki g_kd c67_vary ex_inp i_h]. lra. }
  assert (V1 : velocity g c67_vary 1 = ki).
  { rewrite C67_velocity_law by exact SO. rewrite TC. unfold law. rewrite IT. cbn [perr].
    rewrite E0, ER. cbn [g g_kp g_ki g_kd c67_vary ex_inp i_h]. lra. }
  assert (BD : forall k, - B <= velocity g c67_vary k <= B).
  { pose proof (Rle_abs kp). pose proof (Rle_abs ki). pose proof (Rle_abs kd).
    pose proof (Rle_abs (- kp)) as P1. pose proof (Rle_abs (- ki)) as P2.
    pose proof (Rle_abs (- kd)) as P3. rewrite Rabs_Ropp in P1, P2, P3.
    intros [|[|k]]; [rewrite V0|rewrite V1|rewrite VE]; unfold B; lra. }
  split; [|split].
  - unfold cfg_ok, c, g. cbn. unfold B. repeat split; lra.
  - exact SO.
  - intros act k. split; [apply ER|]. split; [apply LW|].
    rewrite (C67_velocity c g c67_vary act eq_refl eq_refl).
    + apply VE.
    + repeat split.
    + reflexivity.
    + exact KI.
    + exact SO.
    + intros j. split; [exact I|apply BD].
    + exact I.
Qed.
Print Assumptions C67_velocity.
Print Assumptions C67_velocity_law.
Print Assumptions C67_discrete_pd.
Print Assumptions C67_varying_steps_refuted.
