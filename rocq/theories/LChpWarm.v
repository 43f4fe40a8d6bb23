(** Warm restarts of the CHP plant: the look-up of the remaining heat in the start-up curve. *)
From Coq Require Import Reals List Arith Bool Lia Lra Psatz.
From Verif Require Import MChp SChp LChp LChpCurve LChpRun.
Import ListNotations.
Open Scope R_scope.

(** The look-up returns the first entry that is closest. *)
Lemma argmin_abs_spec x : forall l best ib i,
  let r := argmin_abs l x best ib i in
  (r = ib /\ forall m, (m < length l)%nat -> best <= Rabs (nth m l 0 - x)) \/
  (exists m, (m < length l)%nat /\ r = (i + m)%nat /\ Rabs (nth m l 0 - x) < best /\
     (forall q, (q < length l)%nat -> Rabs (nth m l 0 - x) <= Rabs (nth q l 0 - x)) /\
     (forall q, (q < m)%nat -> Rabs (nth m l 0 - x) < Rabs (nth q l 0 - x))).
Proof.
  induction l as [|y l IH]; intros best ib i; cbn [argmin_abs].
  - left. split; [reflexivity|]. cbn. lia.
  - cbv zeta in *. destruct (Rlt_dec (Rabs (y - x)) best) as [L|L].
    + right. destruct (IH (Rabs (y - x)) i (S i)) as [(E&A)|(m&M&E&B&C&D)].
      * exists O. rewrite E. cbn [length nth]. split; [lia|]. split; [lia|]. split; [exact L|].
        split; [|lia]. intros [|q] Q; [lra|]. apply A. lia.
      * exists (S m). rewrite E. cbn [length nth]. split; [lia|]. split; [lia|].
        split; [lra|]. split.
        -- intros [|q] Q; [lra|]. apply C. lia.
        -- intros [|q] Q; [exact B|]. apply D. lia.
    + destruct (IH best ib (S i)) as [(E&A)|(m&M&E&B&C&D)].
      * left. split; [exact E|]. intros [|q] Q; cbn [length nth] in *; [lra|]. apply A. lia.
      * right. exists (S m). rewrite E. cbn [length nth]. split; [lia|]. split; [lia|].
        split; [exact B|]. split.
        -- intros [|q] Q; [lra|]. apply C. lia.
        -- intros [|q] Q; [lra|]. apply D. lia.
Qed.

Lemma steps_nth n m : (m < n)%nat -> nth m (startuptsteps n) 0 = chp_startup_th (INR (S m)).
Proof.
  intros M. unfold startuptsteps.
  rewrite (nth_indep _ 0 (chp_startup_th (INR 0)))
    by (rewrite map_length, seq_length; exact M).
  rewrite (map_nth (fun k => chp_startup_th (INR k))), seq_nth by exact M. reflexivity.
Qed.

Lemma lookup_spec n x : (0 < n)%nat ->
  let j := argmin_abs (startuptsteps n) x (Rabs (chp_startup_th 1 - x)) 0 0 in
  (j < n)%nat /\
  (forall q, (q < n)%nat ->
     Rabs (chp_startup_th (INR (S j)) - x) <= Rabs (chp_startup_th (INR (S q)) - x)) /\
  (forall q, (q < j)%nat ->
     Rabs (chp_startup_th (INR (S j)) - x) < Rabs (chp_startup_th (INR (S q)) - x)).
Proof.
  intros N. cbv zeta.
  assert (Len : length (startuptsteps n) = n)
    by (unfold startuptsteps; rewrite map_length, seq_length; reflexivity).
  destruct (argmin_abs_spec x (startuptsteps n) (Rabs (chp_startup_th 1 - x)) 0 0)
    as [(E&A)|(m&M&E&B&C&D)]; rewrite E; rewrite Len in *.
  - split; [exact N|]. split; [|lia]. intros q Q. specialize (A q Q).
    rewrite steps_nth in A by exact Q. exact A.
  - cbn [Nat.add]. rewrite steps_nth in * by exact M. split; [exact M|]. split.
    + intros q Q. specialize (C q Q). rewrite steps_nth in C by exact Q. exact C.
    + intros q Q. specialize (D q Q). rewrite steps_nth in D by lia. exact D.
Qed.

(** In one second the thermal factor grows by at most 0.0022. *)
Lemma th_second x : chp_startup_th (x + 1) - chp_startup_th x <= 0.0022.
Proof.
  unfold chp_startup_th.
  replace (- 8.61423130773867e-3 * 1 * (x + 1))
    with (- 8.61423130773867e-3 * 1 * x + - 8.61423130773867e-3) by lra.
  rewrite exp_plus.
  set (c := 1 / 4.3715647889609857e-4 - 1).
  assert (C : 0 < c) by (unfold c; lra).
  pose proof (exp_pos (- 8.61423130773867e-3 * 1 * x)) as A.
  set (e := exp (- 8.61423130773867e-3 * 1 * x)) in *.
  pose proof (exp_ineq1_le (- 8.61423130773867e-3)) as Q1.
  assert (Q2 : exp (- 8.61423130773867e-3) < 1).
  { rewrite <- exp_0. apply exp_increasing. lra. }
  set (q := exp (- 8.61423130773867e-3)) in *. clearbody q e c.
  assert (U : 0 < c * e) by (apply Rmult_lt_0_compat; assumption).
  replace (c * (e * q)) with (c * e * q) by ring.
  set (u := c * e) in *. clearbody u.
  assert (Uq : 0 < u * q) by (apply Rmult_lt_0_compat; lra).
  replace (1 / (1 + u * q) - 1 / (1 + u)) with (u * (1 - q) / ((1 + u * q) * (1 + u)))
    by (field; lra).
  apply Rmult_le_reg_r with ((1 + u * q) * (1 + u)); [apply Rmult_lt_0_compat; lra|].
  unfold Rdiv. rewrite Rmult_assoc, Rinv_l by (apply Rgt_not_eq, Rmult_lt_0_compat; lra).
  rewrite Rmult_1_r.
  assert (K : u * (1 + 3 * q) <= (1 + u * q) * (1 + u)).
  { assert (0 <= q * ((1 - u) * (1 - u))) by (apply Rmult_le_pos; [lra|apply Rle_0_sqr]). nra. }
  nra.
Qed.

Lemma th_mono x y : x <= y -> chp_startup_th x <= chp_startup_th y.
Proof. intros [L|<-]; [apply Rlt_le, th_incr, L|lra]. Qed.

Lemma th_1 : chp_startup_th 1 < 0.01.
Proof.
  unfold chp_startup_th. pose proof (exp_ineq1_le (- 8.61423130773867e-3 * 1 * 1)) as Q1.
  set (q := exp (- 8.61423130773867e-3 * 1 * 1)) in *. clearbody q.
  set (c := 1 / 4.3715647889609857e-4 - 1).
  assert (C : 2000 < c) by (unfold c; lra). clearbody c.
  assert (100 < 1 + c * q) by nra.
  apply Rmult_lt_reg_r with (1 + c * q); [lra|]. unfold Rdiv.
  rewrite Rmult_assoc, Rinv_l by lra. lra.
Qed.

(** Some full second of the table has nearly the factor asked for. *)
Lemma th_near n x : (0 < n)%nat -> chp_startup_th 1 <= x ->
  exists q, (q < n)%nat /\
    (Rabs (chp_startup_th (INR (S q)) - x) <= 0.0022 \/
     chp_startup_th (INR n) <= x /\ S q = n).
Proof.
  induction n as [|n IH]; intros N X; [lia|].
  destruct n as [|n].
  - exists O. split; [lia|]. right. split; [exact X|reflexivity].
  - destruct (Rle_dec (chp_startup_th (INR (S (S n)))) x) as [L|L].
    + exists (S n). split; [lia|]. right. split; [exact L|reflexivity].
    + destruct (IH ltac:(lia) X) as (q&Q&[H|(H&E)]).
      * exists q. split; [lia|]. left. exact H.
      * exists q. split; [lia|]. left. rewrite E.
        pose proof (th_second (INR (S n))) as T. rewrite (S_INR (S n)) in L.
        rewrite Rabs_left1 by lra. lra.
Qed.

(** Nearest entry: within 0.0022, or the last one for what is above the table. *)
Lemma lookup_near n x : (0 < n)%nat -> chp_startup_th 1 <= x <= 1 ->
  0.995 <= chp_startup_th (INR n) ->
  let j := argmin_abs (startuptsteps n) x (Rabs (chp_startup_th 1 - x)) 0 0 in
  Rabs (chp_startup_th (INR (S j)) - x) <= 0.005.
Proof.
  intros N X H. cbv zeta. destruct (lookup_spec n x N) as (_&A&_).
  destruct (th_near n x N ltac:(lra)) as (q&Q&D). specialize (A q Q).
  destruct D as [D|(D&E)]; [lra|]. rewrite E in A. rewrite (Rabs_left1 (_ (INR n) - x)) in A by lra.
  lra.
Qed.

(** What the constructor's choice of the table length gives. *)
Lemma table_reaches n :
  (forall j, INR j < 100000 ->
     Rabs (chp_startup_th (INR n) - on_perc) <= Rabs (chp_startup_th (INR j) - on_perc)) ->
  0.995 <= chp_startup_th (INR n).
Proof.
  intros H.
  destruct (th_near 2000 on_perc ltac:(lia)) as (q&Q&D).
  { pose proof th_1. unfold on_perc. lra. }
  assert (E2000 : INR 2000 = 2000) by (rewrite INR_IZR_INZ; reflexivity).
  assert (B : INR (S q) < 100000).
  { assert (INR (S q) <= INR 2000) by (apply le_INR; lia). lra. }
  specialize (H (S q) B).
  assert (G : Rabs (chp_startup_th (INR (S q)) - on_perc) <= 0.0022).
  { destruct D as [D|(D&_)]; [exact D|]. exfalso.
    pose proof (th_done 2000 ltac:(lra)) as T.
    rewrite E2000 in D. lra. }
  assert (K : Rabs (chp_startup_th (INR n) - on_perc) <= 0.0022) by lra.
  unfold on_perc, Rabs in K. destruct (Rcase_abs _); lra.
Qed.

(** A start: times and flags the procedure works with. *)
Lemma start_decide P s i : 0 < p_low P -> 0 < p_ramp P -> 0 < p_off P -> sane P s -> 0 < i_dt i ->
  h_row s = 0 -> h_row (chp_step P s i) <> 0 ->
  let d := decide P i s in
  h_up d = i_t i + i_dt i /\ h_down d = h_down s /\ h_down d < h_up d /\ h_starting d = true /\
  h_stopping d = h_stopping s.
Proof.
  intros L Rm O Sa Dt Z H. cbv zeta.
  destruct (step_start P L Rm i s Sa Dt Z H) as (A&B&C&_&E).
  assert (Co : cool i) by (apply cool_spec; exact C).
  destruct (decide_flags0 P i s Z E A Co) as (F&G).
  destruct (start_fwd P s i Z E A Co) as (_&_&_&U&D).
  destruct (step_keeps P s i) as (_&_&_&K4&K5&_).
  rewrite <- K4, <- K5, U, D. repeat split; auto. lra.
Qed.

Lemma step_facs P s i :
  let p := chp_process P i (decide P i s) in let s' := chp_step P s i in
  h_fth s' = h_fth p /\ h_fel s' = h_fel p /\ h_fgas s' = h_fgas p /\ h_fdown s' = h_fdown p /\
  h_stopping s' = h_stopping p /\ h_starting s' = h_starting p /\ h_rem s' = h_rem p.
Proof. exact (outputs_facs P (chp_process P i (decide P i s))). Qed.

(** The procedure in a running plant. *)
Lemma process_up P i d : h_down d < h_up d ->
  let hot := rlt off_perc (h_fdown d) in
  let rem := if hot then
      INR (argmin_abs (startuptsteps (p_nsteps P)) (h_fdown d)
             (Rabs (chp_startup_th 1 - h_fdown d)) 0 0) else h_rem d in
  let dur := i_t i + i_dt i - h_up d + rem in
  let p := chp_process P i d in
  h_fdown p = (if hot then 0 else h_fdown d) /\
  h_stopping p = (if hot then false else h_stopping d) /\
  (h_starting d = false -> h_starting p = false /\ h_rem p = rem /\
     h_fth p = h_fth d /\ h_fel p = h_fel d /\ h_fgas p = h_fgas d) /\
  (h_starting d = true -> 0.999 < chp_startup_th dur ->
     h_starting p = false /\ h_rem p = 0 /\ h_fth p = 1 /\ h_fel p = 1 /\ h_fgas p = 1) /\
  (h_starting d = true -> chp_startup_th dur <= 0.999 ->
     h_starting p = true /\ h_rem p = rem /\ h_fth p = chp_startup_th dur /\
     h_fel p = clip01 (chp_startup_el dur) /\ h_fgas p = clip01 (chp_startup_gas dur)).
Proof.
  intros U. cbv zeta. unfold chp_process. apply rlt_true in U. rewrite U.
  set (rem := if rlt off_perc (h_fdown d) then _ else _).
  set (dur := i_t i + i_dt i - h_up d + rem).
  assert (T : clip01 (chp_startup_th dur) = chp_startup_th dur)
    by (apply clip01_id; pose proof (th_range dur); lra).
  destruct (h_starting d) eqn:S.
  - rewrite T. destruct (rlt on_perc (chp_startup_th dur)) eqn:E.
    + apply rlt_true in E. unfold on_perc in E. cbn. repeat split; auto; try discriminate; lra.
    + apply rlt_false in E. unfold on_perc in E. cbn. repeat split; auto; try discriminate; lra.
  - cbn. repeat split; auto; discriminate.
Qed.

(** A plant that keeps running keeps its times and flags. *)
Lemma stay_decide P s i : 0 < p_low P -> 0 < p_ramp P -> sane P s -> 0 < i_dt i ->
  h_row s <> 0 -> h_row (chp_step P s i) <> 0 ->
  let d := decide P i s in
  h_up d = h_up s /\ h_down d = h_down s /\ h_starting d = h_starting s /\
  h_stopping d = h_stopping s.
Proof.
  intros L Rm Sa Dt Z H. apply (step_on P L Rm) in H; auto. cbv zeta.
  unfold decide in *. set (d := chp_switch P i s) in *.
  assert (D : h_on d = true).
  { unfold chp_protect in H. destruct (h_on d) eqn:E; [reflexivity|].
    cbn in H. congruence. }
  assert (PM : h_up (chp_protect i d) = h_up d /\ h_down (chp_protect i d) = h_down d /\
    h_starting (chp_protect i d) = h_starting d /\ h_stopping (chp_protect i d) = h_stopping d).
  { unfold chp_protect in *. rewrite D in *. cbn [andb] in *.
    destruct (overtemp (i_T i)); [destruct (_ || _)%bool|]; cbn in *; auto; discriminate. }
  destruct PM as (-> & -> & -> & ->). unfold d, chp_switch in *.
  set (m := match i_ctl i with Some c => c | None => h_mod s end) in *.
  destruct (rlt m (p_low P)); destruct (Req_EM_T (h_row s) 0); try contradiction.
  - destruct (rlt (i_t i + i_dt i - h_up s) (p_on P)); [|cbn in D; discriminate].
    cbn. auto.
  - cbn. auto.
Qed.

(** A plant that stays off keeps its flags. *)
Lemma off_decide P s i : 0 < p_low P -> 0 < p_ramp P -> sane P s -> 0 < i_dt i ->
  h_row s = 0 -> h_row (chp_step P s i) = 0 ->
  let d := decide P i s in
  h_up d = h_up s /\ h_down d = h_down s /\ h_starting d = h_starting s /\
  h_stopping d = h_stopping s.
Proof.
  intros L Rm Sa Dt Z H.
  assert (D : h_on (decide P i s) = false).
  { destruct (h_on (decide P i s)) eqn:E; [|reflexivity]. apply (step_on P L Rm) in E; auto.
    contradiction. }
  cbv zeta. unfold decide in *. set (d := chp_switch P i s) in *.
  assert (Hd : h_on d = true -> overtemp (i_T i) = false).
  { unfold d, chp_switch.
    set (m := match i_ctl i with Some c => c | None => h_mod s end) in *.
    destruct (rlt m (p_low P)); destruct (Req_EM_T (h_row s) 0); try contradiction.
    - cbn. discriminate.
    - destruct (rlt (i_t i + i_dt i - h_down s) (p_off P)) eqn:E2; cbn [orb];
        [cbn; discriminate|].
      destruct (overtemp (i_T i)) eqn:E3; cbn; auto; discriminate. }
  assert (Of : h_on d = false).
  { destruct (h_on d) eqn:E; [|reflexivity]. unfold chp_protect in D. rewrite E, Hd in D by reflexivity.
    cbn in D. congruence. }
  unfold chp_protect. rewrite Of. cbn [andb]. cbn.
  unfold d, chp_switch in *.
  set (m := match i_ctl i with Some c => c | None => h_mod s end) in *.
  destruct (rlt m (p_low P)); destruct (Req_EM_T (h_row s) 0); try contradiction.
  - cbn. auto.
  - destruct (_ || _)%bool; [cbn; auto|cbn in Of; discriminate].
Qed.

(** A plant that stops. *)
Lemma stop_decide P s i : 0 < p_low P -> 0 < p_ramp P -> sane P s -> 0 < i_dt i ->
  h_row s <> 0 -> h_row (chp_step P s i) = 0 ->
  let d := decide P i s in
  h_up d = h_up s /\ h_down d = i_t i + i_dt i /\ h_starting d = h_starting s /\
  h_stopping d = true.
Proof.
  intros L Rm Sa Dt Z H.
  assert (D : h_on (decide P i s) = false).
  { destruct (h_on (decide P i s)) eqn:E; [|reflexivity]. apply (step_on P L Rm) in E; auto.
    contradiction. }
  cbv zeta. unfold decide in *. unfold chp_switch in *.
  set (m := match i_ctl i with Some c => c | None => h_mod s end) in *.
  destruct (rlt m (p_low P)); destruct (Req_EM_T (h_row s) 0); try contradiction;
    [destruct (rlt (i_t i + i_dt i - h_up s) (p_on P))|]; unfold chp_protect in *;
    cbn [set_sw h_on andb] in *; try (cbn; auto; fail);
    (destruct (overtemp (i_T i)); [destruct (_ || _)%bool|]; cbn in *; auto; discriminate).
Qed.
