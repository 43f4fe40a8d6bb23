(** Controllers over whole histories: reset, inversion, control law, derivative. *)
From Coq Require Import Reals List Arith Bool Lia Lra.
From Verif Require Import MCtrl SCtrl LCtrl.
Import ListNotations.
Open Scope R_scope.

(** ** Reset *)

(** Nothing relevant survives a reset. *)
Definition forgets (c : cfg) : Prop :=
  match f_kind c with
  | PID g => (f_disc c = true \/ g_ki g = 0) /\ f_dead c = 0
  | _ => True
  end.

Definition same (c : cfg) (s s' : st) : Prop :=
  s_cv s = s_cv s' /\ s_act s = s_act s' /\
  (is_pid (f_kind c) -> s_err s = s_err s' /\ s_err1 s = s_err1 s' /\
                        s_err2 s = s_err2 s' /\ s_deriv s = s_deriv s').

Lemma same_ctrl : forall c s s' i, forgets c -> same c s s' -> same c (ctrl c s i) (ctrl c s' i).
Proof.
  intros c s s' i F (V & A & P).
  assert (W : fst (fst (core c s i)) = fst (fst (core c s' i)) /\
    (is_pid (f_kind c) -> snd (core c s i) = snd (core c s' i) /\
       s_err (seen c s i) = s_err (seen c s' i) /\ s_err1 (seen c s i) = s_err1 (seen c s' i) /\
       s_err2 (seen c s i) = s_err2 (seen c s' i))).
  { unfold core, forgets in *. destruct (f_kind c) as [g|rev hy|al av dl] eqn:K.
    - destruct F as [F D0]. destruct (P I) as (E0 & E1 & E2 & E3).
      unfold seen. rewrite D0. destruct (Req_EM_T 0 0) as [_|N]; [|lra].
      rewrite V, E0, E1, E2, E3. unfold run_pid.
      cbn [s_cv s_err s_err1 s_err2 s_i s_pi s_deriv s_dead s_act].
      destruct (f_disc c) eqn:Di.
      + destruct (is0 (g_ki g)); destruct (blocked c i); cbn [fst snd]; auto.
      + destruct F as [F|F]; [discriminate|]. rewrite F, !Rmult_0_l.
        destruct (blocked c i); cbn [fst snd]; auto.
    - rewrite V. destruct (blocked c i); cbn [fst snd]; (split; [reflexivity|intros []]).
    - rewrite V. destruct (blocked c i); cbn [fst snd]; (split; [reflexivity|intros []]). }
  destruct W as [W1 W2].
  assert (C : s_cv (ctrl c s i) = s_cv (ctrl c s' i)) by (rewrite !ctrl_cv, V, W1; reflexivity).
  split; [exact C|]. split; [rewrite !ctrl_act, C; reflexivity|].
  intros Q. destruct (W2 Q) as (B1 & B2 & B3 & B4).
  destruct (ctrl_rest c s i) as (R1 & R2 & R3 & _).
  destruct (ctrl_rest c s' i) as (T1 & T2 & T3 & _).
  rewrite !ctrl_deriv, R1, R2, R3, T1, T2, T3. auto.
Qed.

Lemma same_outputs : forall c, forgets c -> forall ins s s', same c s s' ->
  outputs c s ins = outputs c s' ins.
Proof.
  intros c F. induction ins as [|i r IH]; intros s s' S; [reflexivity|]. cbn [outputs].
  pose proof (same_ctrl c s s' i F S) as N. rewrite (IH _ _ N).
  destruct N as (_ & A & _). rewrite A. reflexivity.
Qed.
Lemma same_reset : forall c s act, same c (reset s act) (fresh c act).
Proof. intros. unfold same, reset, fresh. cbn. repeat split. Qed.

(** ** Inversion *)

Definition set_inv (c : cfg) (b : bool) : cfg :=
  mkCfg (f_kind c) (f_min c) (f_max c) (f_slope c) b (f_sub c) (f_off c)
        (f_ll c) (f_ul c) (f_disc c) (f_dead c).

Lemma clip_odd : forall a x, clip (- a) a (- x) = - clip (- a) a x \/ a < 0.
Proof.
  intros a x. unfold clip. destruct (Rlt_dec (- x) (- a)), (Rlt_dec x (- a));
    destruct (Rlt_dec a (- x)), (Rlt_dec a x); try (left; lra); right; lra.
Qed.
Lemma aw_odd : forall aw x, match aw with None => True | Some a => 0 < a end ->
  clip_aw aw (- x) = - clip_aw aw x.
Proof. intros [a|] x A; cbn; [destruct (clip_odd a x); [assumption|lra]|reflexivity]. Qed.
Lemma filtered_odd : forall rc h p r, filtered rc h (- p) (- r) = - filtered rc h p r.
Proof. intros [t|] h p r; cbn; [ring|reflexivity]. Qed.

Definition opposite (s s' : st) : Prop :=
  s_cv s = s_cv s' /\ s_act s = s_act s' /\ s_err s' = - s_err s /\ s_i s' = - s_i s /\
  s_deriv s' = - s_deriv s.

Lemma opposite_ctrl : forall c g s s' i, cfg_ok c -> f_kind c = PID g -> f_disc c = false ->
  f_dead c = 0 -> opposite s s' ->
  opposite (ctrl (set_inv c true) s i) (ctrl (set_inv c false) s' (mirrored i)).
Proof.
  intros c g s s' i OK K Di D0 (V & A & E & I & De).
  destruct OK as (_ & _ & _ & _ & AW). rewrite K in AW. destruct AW as [AW _].
  rewrite !ctrl_core. unfold core, seen, run_pid, blocked, mirrored, sgn.
  cbn [set_inv f_kind f_min f_max f_slope f_inv f_sub f_off f_ll f_ul f_disc f_dead
       i_h i_sp i_pv i_on i_master i_junk].
  rewrite K, Di, D0. destruct (Req_EM_T 0 0) as [_|N]; [|lra].
  cbn [s_cv s_err s_err1 s_err2 s_i s_pi s_deriv s_dead s_act].
  rewrite E, I, De, <- V.
  set (e := i_sp i - i_pv i).
  replace (- i_sp i - - i_pv i) with (- e) by (unfold e; ring).
  replace (i_h i * - e + - s_i s) with (- (i_h i * e + s_i s)) by ring.
  rewrite (aw_odd (g_aw g)) by exact AW.
  replace (- e - - s_err s) with (- (e - s_err s)) by ring.
  rewrite filtered_odd.
  set (it := clip_aw (g_aw g) (i_h i * e + s_i s)).
  set (de := filtered (g_rc g) (i_h i) (s_deriv s) (e - s_err s)).
  replace ((g_kp g * - e + g_ki g * - it + g_kd g * (- de / i_h i)) * 1)
    with ((g_kp g * e + g_ki g * it + g_kd g * (de / i_h i)) * -1) by (unfold Rdiv; ring).
  set (v := clip (f_min c) (f_max c) _).
  assert (LIM : forall q, limit (set_inv c false) (s_cv s) (i_h i) q =
                          limit (set_inv c true) (s_cv s) (i_h i) q) by reflexivity.
  unfold opposite.
  destruct (match f_sub c with
            | Some (conc, off) => if Req_EM_T (i_master i) off then conc else negb conc
            | None => false end);
    cbn [fst snd s_cv s_err s_err1 s_err2 s_i s_pi s_deriv s_dead s_act];
    rewrite LIM; repeat split; ring.
Qed.
Lemma opposite_outputs : forall c g, cfg_ok c -> f_kind c = PID g -> f_disc c = false ->
  f_dead c = 0 -> forall ins s s', opposite s s' ->
  outputs (set_inv c true) s ins = outputs (set_inv c false) s' (map mirrored ins).
Proof.
  intros c g OK K Di D0. induction ins as [|i r IH]; intros s s' O; [reflexivity|].
  cbn [outputs map]. pose proof (opposite_ctrl c g s s' i OK K Di D0 O) as N.
  rewrite (IH _ _ N). destruct N as (_ & A & _). rewrite A. reflexivity.
Qed.

(** In discrete mode the flag has no effect at all. *)
Lemma discrete_inv : forall c g, f_kind c = PID g -> f_disc c = true ->
  forall b s i, ctrl (set_inv c b) s i = ctrl c s i.
Proof.
  intros c g K Di b s i. rewrite !ctrl_core. unfold core, run_pid.
  cbn [set_inv f_kind f_disc]. rewrite K, Di. reflexivity.
Qed.

(** ** Control law *)

Lemma seen_err : forall c s i, f_dead c = 0 -> s_err (seen c s i) = i_sp i - i_pv i.
Proof.
  intros c s i D0. unfold seen. rewrite D0. destruct (Req_EM_T 0 0); [reflexivity|lra].
Qed.
Lemma err_at : forall c s0 ins k, f_dead c = 0 -> s_err s0 = 0 ->
  s_err (ctrl_at c s0 ins k) = perr ins k.
Proof.
  intros c s0 ins [|k] D0 E; [exact E|]. cbn [ctrl_at].
  destruct (ctrl_rest c (ctrl_at c s0 ins k) (ins k)) as (-> & _).
  rewrite seen_err by exact D0. reflexivity.
Qed.

Lemma not_blocked : forall c i, f_sub c = None -> blocked c i = false.
Proof. intros. unfold blocked. rewrite H. reflexivity. Qed.

Lemma cont_i : forall c g ins act, f_kind c = PID g -> f_disc c = false -> plain c ->
  (forall k, within (g_aw g) (integral ins k)) ->
  forall k, s_i (ctrl_at c (fresh c act) ins (S k)) = integral ins k.
Proof.
  intros c g ins act K Di (SL & SU & D0) W. induction k as [|k IH].
  - cbn [ctrl_at]. rewrite ctrl_i. unfold core. rewrite K, (not_blocked c _ SU).
    unfold run_pid. rewrite Di. cbn [fst snd].
    rewrite seen_err by exact D0. unfold seen. rewrite Di. cbn [s_pi s_i fresh].
    specialize (W O). unfold integral, total, err in *. cbn in W |- *.
    destruct (g_aw g) as [a|]; cbn [clip_aw within] in *; [rewrite clip_id by lra|]; lra.
  - change (ctrl_at c (fresh c act) ins (S (S k)))
      with (ctrl c (ctrl_at c (fresh c act) ins (S k)) (ins (S k))).
    rewrite ctrl_i. unfold core. rewrite K, (not_blocked c _ SU).
    unfold run_pid. rewrite Di. cbn [fst snd].
    rewrite seen_err by exact D0. unfold seen. rewrite Di. cbn [s_pi].
    rewrite IH. specialize (W (S k)). unfold integral in *.
    change (total (fun j => i_h (ins j) * err ins j) (S (S k)))
      with (total (fun j => i_h (ins j) * err ins j) (S k)
            + i_h (ins (S k)) * err ins (S k)) in *.
    set (t := total _ (S k)) in *. unfold err in *.
    destruct (g_aw g) as [a|]; cbn [clip_aw within] in *; [rewrite clip_id by lra|]; lra.
Qed.

Lemma cont_law : forall c g ins act, f_kind c = PID g -> f_disc c = false -> plain c ->
  g_rc g = None -> (forall k, within (g_aw g) (integral ins k)) ->
  forall k, s_cv (ctrl_at c (fresh c act) ins (S k))
            = clip (f_min c) (f_max c) (law g ins k * sgn c).
Proof.
  intros c g ins act K Di PL RC W k.
  pose proof (cont_i c g ins act K Di PL W k) as CI. destruct PL as (SL & SU & D0).
  cbn [ctrl_at] in *. rewrite ctrl_i in CI. rewrite ctrl_cv, limit_none by exact SL.
  unfold core in *. rewrite K, (not_blocked c _ SU) in *. unfold run_pid in *.
  rewrite Di in *. cbn [fst snd] in *. rewrite CI, RC. cbn [filtered].
  rewrite seen_err by exact D0. unfold seen. cbn [s_err1].
  rewrite (err_at c (fresh c act) ins k D0 eq_refl). reflexivity.
Qed.

Lemma disc_law : forall c g ins act, f_kind c = PID g -> f_disc c = true -> plain c ->
  g_rc g = None -> g_ki g <> 0 -> steps_ok ins ->
  (g_kd g = 0 \/ forall k, i_h (ins k) = i_h (ins O)) ->
  (forall k, within (g_aw g) (law g ins k) /\ f_min c <= law g ins k <= f_max c) ->
  within (g_aw g) 0 ->
  forall k, s_cv (ctrl_at c (fresh c act) ins (S k)) = law g ins k.
Proof.
  intros c g ins act K Di (SL & SU & D0) RC KI HP HC W W0.
  assert (E1 : forall k, s_err1 (ctrl_at c (fresh c act) ins k) = perr ins (pred k)).
  { intros [|k]; [reflexivity|]. cbn [ctrl_at].
    destruct (ctrl_rest c (ctrl_at c (fresh c act) ins k) (ins k)) as (_ & -> & _).
    unfold seen. cbn [s_err1]. rewrite (err_at c (fresh c act) ins k D0 eq_refl). reflexivity. }
  assert (AW : forall x, within (g_aw g) x -> clip_aw (g_aw g) x = x).
  { intros x Q. destruct (g_aw g); cbn in *; [apply clip_id; lra|reflexivity]. }
  assert (STEP : forall k, s_cv (ctrl_at c (fresh c act) ins (S k)) =
    clip (f_min c) (f_max c)
      (clip_aw (g_aw g) (s_cv (ctrl_at c (fresh c act) ins k))
       + g_kp g * (err ins k - perr ins k) + g_ki g * i_h (ins k) * err ins k
       + g_kd g / i_h (ins k) * (err ins k - 2 * perr ins k + perr ins (pred k)))).
  { intros k. cbn [ctrl_at]. rewrite ctrl_cv, limit_none by exact SL.
    unfold core. rewrite K, (not_blocked c _ SU). unfold run_pid. rewrite Di, RC.
    unfold is0. destruct (Req_EM_T (g_ki g) 0) as [Z|_]; [contradiction|].
    cbn [fst snd filtered]. rewrite seen_err by exact D0. unfold seen.
    cbn [s_cv s_err1 s_err2]. rewrite Di, E1.
    rewrite (err_at c (fresh c act) ins k D0 eq_refl). reflexivity. }
  induction k as [|k IH].
  - rewrite STEP. change (s_cv (ctrl_at c (fresh c act) ins 0)) with 0. rewrite AW by exact W0.
    destruct (W O) as [_ B]. pose proof (HP O) as H0.
    match goal with |- clip _ _ ?x = _ => replace x with (law g ins 0) end.
    + apply clip_id, B.
    + unfold law, integral. cbn [total perr pred]. field. lra.
  - rewrite STEP, IH. destruct (W k) as [Q _]. rewrite AW by exact Q.
    destruct (W (S k)) as [_ B]. pose proof (HP (S k)) as H1. pose proof (HP k) as H2.
    match goal with |- clip _ _ ?x = _ => replace x with (law g ins (S k)) end.
    + apply clip_id, B.
    + unfold law, integral.
      change (total (fun j => i_h (ins j) * err ins j) (S (S k)))
        with (total (fun j => i_h (ins j) * err ins j) (S k)
              + i_h (ins (S k)) * err ins (S k)).
      set (t := total _ (S k)). cbn [perr pred].
      destruct HC as [HC|HC].
      * rewrite HC. field. split; lra.
      * rewrite (HC (S k)), (HC k). specialize (HP O). field. lra.
Qed.

(** ** Derivative *)

Lemma deriv_cont : forall c g s i, f_kind c = PID g -> f_disc c = false ->
  s_deriv (ctrl c s i)
  = filtered (g_rc g) (i_h i) (s_deriv s) (s_err (ctrl c s i) - s_err s).
Proof.
  intros c g s i K Di. rewrite ctrl_deriv. destruct (ctrl_rest c s i) as (-> & _).
  unfold core. rewrite K. unfold run_pid. rewrite Di.
  destruct (blocked c i); cbn [fst snd]; unfold seen at 1 3; cbn [s_deriv s_err1]; reflexivity.
Qed.

Lemma deriv_in : forall c g ins act B, cfg_ok c -> f_kind c = PID g -> f_disc c = false ->
  f_dead c = 0 -> steps_ok ins -> 0 <= B ->
  (forall k, Rabs (err ins k - perr ins k) <= B) ->
  forall k, Rabs (s_deriv (ctrl_at c (fresh c act) ins k)) <= B.
Proof.
  intros c g ins act B (_ & _ & _ & _ & OK) K Di D0 HP BP Q. rewrite K in OK.
  destruct OK as [_ RC]. induction k as [|k IH]; [cbn; rewrite Rabs_R0; exact BP|].
  cbn [ctrl_at]. rewrite (deriv_cont c g _ _ K Di).
  destruct (ctrl_rest c (ctrl_at c (fresh c act) ins k) (ins k)) as (-> & _).
  rewrite seen_err by exact D0. rewrite (err_at c (fresh c act) ins k D0 eq_refl).
  specialize (Q k). unfold err at 1 in Q.
  assert (D1 : forall x, Rabs x <= B <-> - B <= x <= B).
  { intros x. split; [|intros Z; apply Rabs_le; lra]. intros Z. pose proof (Rle_abs x).
    pose proof (Rle_abs (- x)) as N. rewrite Rabs_Ropp in N. lra. }
  apply D1. apply D1 in IH. apply D1 in Q. apply filtered_in; auto.
Qed.
