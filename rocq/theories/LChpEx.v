(** Concrete histories of the CHP plant and the lemmas on lost requests. *)
From Coq Require Import Reals List Arith Bool Lia Lra Psatz.
From Verif Require Import MChp SChp LChp LChpCurve LChpRun.
Import ListNotations.
Open Scope R_scope.

Definition exP : chp_par := mkChpPar 20000 0.5 0.32 0.5 1 0.01 600 60 1700.
Lemma exP_ok : chp_par_ok exP.
Proof. unfold chp_par_ok; cbn. repeat split; lra. Qed.

(** Lost requests: a constant value that was overwritten with zero. *)
Lemma lost_step P s i : 0 < p_low P -> h_row s = 0 -> h_mod s = 0 -> i_ctl i = None ->
  h_row (chp_step P s i) = 0 /\ h_mod (chp_step P s i) = 0.
Proof.
  intros L Z M C. destruct (step_keeps P s i) as (K1&K2&K3&K4&K5&K6&K7). rewrite K7, K1.
  unfold decide, chp_switch. rewrite C, M.
  assert (E : rlt 0 (p_low P) = true) by (apply rlt_true; exact L). rewrite E.
  destruct (Req_EM_T (h_row s) 0); [|contradiction].
  unfold chp_protect. cbn. split; ring.
Qed.

Lemma lost P s0 ins j : 0 < p_low P ->
  h_row (chp_at P s0 ins j) = 0 -> h_mod (chp_at P s0 ins j) = 0 ->
  (forall k, (j <= k)%nat -> i_ctl (ins k) = None) ->
  forall n, h_row (chp_at P s0 ins (j + n)) = 0 /\ h_mod (chp_at P s0 ins (j + n)) = 0.
Proof.
  intros L Z M C. induction n as [|n [IH1 IH2]]; [rewrite Nat.add_0_r; auto|].
  replace (j + S n)%nat with (S (j + n)) by lia. cbn [chp_at].
  apply lost_step; auto. apply C. lia.
Qed.

(** A blocked start and a protective shut-down write a zero. *)
Lemma blocked_zero P s i : h_row s = 0 -> p_low P <= asked s i ->
  return_hot i \/ cell_hot i \/ i_t i + i_dt i - h_down s < p_off P ->
  h_row (chp_step P s i) = 0 /\ h_mod (chp_step P s i) = 0.
Proof.
  intros Z A B. destruct (step_keeps P s i) as (K1&K2&K3&K4&K5&K6&K7). rewrite K7, K1.
  unfold decide, chp_switch. fold (asked s i). apply rlt_false in A. rewrite A.
  destruct (Req_EM_T (h_row s) 0); [|contradiction].
  assert (E : (rlt (i_t i + i_dt i - h_down s) (p_off P) || overtemp (i_T i))%bool = true).
  { apply orb_true_iff. rewrite rlt_true, overtemp_spec. tauto. }
  rewrite E. unfold chp_protect. cbn. split; ring.
Qed.

Lemma shutdown_zero P s i : sane P s -> 0 < p_low P -> 0 < p_ramp P -> 0 < i_dt i ->
  h_row s <> 0 -> p_low P <= asked s i -> cell_hot i ->
  h_row (chp_step P s i) = 0 /\ h_mod (chp_step P s i) = 0.
Proof.
  intros Hs HL HR Hdt Z A B. destruct (step_keeps P s i) as (K1&K2&K3&K4&K5&K6&K7).
  rewrite K7, K1. unfold decide, chp_switch. fold (asked s i). apply rlt_false in A. rewrite A.
  destruct (Req_EM_T (h_row s) 0); [contradiction|]. cbv zeta iota.
  assert (O : overtemp (i_T i) = true) by (apply overtemp_spec; auto).
  assert (N : any_above T_emergency (i_T i) = true) by (apply any_above_true; exact B).
  unfold chp_protect. rewrite O, N, orb_true_r. cbn. split; ring.
Qed.

(** Running on with a hot return flow. *)
Lemma hot_fwd P s i : h_row s <> 0 -> p_low P <= asked s i ->
  Rabs (h_row s - asked s i) / i_dt i <= p_ramp P -> return_hot i -> ~ cell_hot i ->
  h_exc s <= 120 ->
  let s' := chp_step P s i in h_row s' = asked s i /\ h_exc s' = h_exc s + i_dt i.
Proof.
  intros Z A O C N E. cbv zeta.
  destruct (step_keeps P s i) as (K1&K2&K3&K4&K5&K6&K7). rewrite K7, K6.
  assert (D : decide P i s = chp_protect i
     (set_sw s (asked s i) 1 true (h_up s) (h_down s) (h_starting s) (h_stopping s))).
  { unfold decide, chp_switch. fold (asked s i).
    apply rlt_false in A. rewrite A. destruct (Req_EM_T (h_row s) 0); [contradiction|].
    apply rlt_false in O. rewrite O. reflexivity. }
  rewrite D. unfold chp_protect.
  assert (C1 : overtemp (i_T i) = true) by (apply overtemp_spec; auto).
  assert (C2 : any_above T_emergency (i_T i) = false).
  { destruct (any_above T_emergency (i_T i)) eqn:X; [|reflexivity].
    apply any_above_true in X. contradiction. }
  assert (C3 : rlt exc_time (h_exc s) = false) by (apply rlt_false; exact E).
  rewrite C1, C2. cbn [andb h_on set_sw h_exc]. rewrite C3. cbn. split; [ring|reflexivity].
Qed.

(** History without rejected attempts: on, off, on again. *)
Definition exH (k : nat) : chp_in :=
  match k with
  | O => mkChpIn 0 1 (Some 1) [60]
  | S O => mkChpIn 1 100 (Some 0) [60]
  | S (S n) => mkChpIn (101 + 600 * INR n) 600 (Some 1) [60]
  end.

Lemma cool60 i : i_T i = [60] -> cool i.
Proof.
  intros E. split.
  - unfold return_hot. rewrite E. cbn. lra.
  - intros (x&A&B). rewrite E in A. destruct A as [<-|[]]. lra.
Qed.

Lemma exH_hist : unrejected exH.
Proof.
  split; [cbn; lra|]. intros [|[|n]]; unfold stamp; cbn [exH i_t i_dt]; split; try lra.
  - cbn [INR]. lra.
  - rewrite S_INR. lra.
Qed.

Definition ex0 : chp := chp_init exP false 0.

Lemma exH_1 : h_row (chp_at exP ex0 exH 1) = 1 /\ h_up (chp_at exP ex0 exH 1) = 1 /\
  h_down (chp_at exP ex0 exH 1) = - 601.
Proof.
  destruct (start_fwd exP ex0 (exH 0)) as (A&_&_&B&C); try (cbn; lra).
  - apply cool60. reflexivity.
  - cbn [chp_at]. rewrite A, B, C. cbn. lra.
Qed.

Lemma exH_2 : h_row (chp_at exP ex0 exH 2) = 0 /\ h_down (chp_at exP ex0 exH 2) = 101.
Proof.
  destruct exH_1 as (R&U&D).
  destruct (stop_fwd exP (chp_at exP ex0 exH 1) (exH 1)) as (A&_&_&B&C).
  - rewrite R. lra.
  - cbn. lra.
  - rewrite U. cbn. lra.
  - change (chp_at exP ex0 exH 2) with (chp_step exP (chp_at exP ex0 exH 1) (exH 1)).
    rewrite A, C. cbn. lra.
Qed.

Lemma exH_3 : h_row (chp_at exP ex0 exH 3) = 1.
Proof.
  destruct exH_2 as (R&D).
  destruct (start_fwd exP (chp_at exP ex0 exH 2) (exH 2)) as (A&_).
  - exact R.
  - cbn. lra.
  - rewrite D. cbn. lra.
  - apply cool60. reflexivity.
  - change (chp_at exP ex0 exH 3) with (chp_step exP (chp_at exP ex0 exH 2) (exH 2)).
    rewrite A. reflexivity.
Qed.

(** The same requests, but every first attempt after the start is rejected and the accepted
    step is one second long. *)
Definition exJ (k : nat) : chp_in :=
  match k with
  | O => mkChpIn 0 1 (Some 1) [60]
  | S O => mkChpIn 1 100 (Some 0) [60]
  | S (S O) => mkChpIn 2 700 (Some 1) [60]
  | S (S (S n)) => mkChpIn (3 + INR n) 1 (Some 1) [60]
  end.

Lemma exJ_hist : history exJ.
Proof.
  split; [cbn; lra|]. intros [|[|[|n]]]; unfold stamp; cbn [exJ i_t i_dt]; try (cbn [INR]; lra).
  rewrite S_INR. lra.
Qed.

Lemma exJ_1 : h_row (chp_at exP ex0 exJ 1) = 1 /\ h_up (chp_at exP ex0 exJ 1) = 1 /\
  h_down (chp_at exP ex0 exJ 1) = - 601.
Proof. exact exH_1. Qed.

Lemma exJ_2 : h_row (chp_at exP ex0 exJ 2) = 0 /\ h_down (chp_at exP ex0 exJ 2) = 101.
Proof. exact exH_2. Qed.

Lemma exJ_3 : h_row (chp_at exP ex0 exJ 3) = 1.
Proof.
  destruct exJ_2 as (R&D).
  destruct (start_fwd exP (chp_at exP ex0 exJ 2) (exJ 2)) as (A&_).
  - exact R.
  - cbn. lra.
  - rewrite D. cbn. lra.
  - apply cool60. reflexivity.
  - change (chp_at exP ex0 exJ 3) with (chp_step exP (chp_at exP ex0 exJ 2) (exJ 2)).
    rewrite A. reflexivity.
Qed.

(** Full load, then a shut-down whose first attempt of 100 s is rejected. *)
Definition exB (k : nat) : chp_in :=
  match k with
  | O => mkChpIn 0 1 (Some 1) [60]
  | S O => mkChpIn 1 3000 (Some 1) [60]
  | S (S O) => mkChpIn 3001 100 (Some 0) [60]
  | S (S (S n)) => mkChpIn (3002 + INR n) 1 (Some 0) [60]
  end.
(** Up to the shut-down this is the steady history. *)
Definition exBs (k : nat) : chp_in :=
  match k with
  | O => mkChpIn 0 1 (Some 1) [60]
  | S n => mkChpIn (1 + 3000 * INR n) 3000 (Some 1) [60]
  end.

Lemma exB_hist : history exB.
Proof.
  split; [cbn; lra|]. intros [|[|[|n]]]; unfold stamp; cbn [exB i_t i_dt]; try (cbn [INR]; lra).
  rewrite S_INR. lra.
Qed.

Lemma exBs_hist : unrejected exBs.
Proof.
  split; [cbn; lra|]. intros [|n]; unfold stamp; cbn [exBs i_t i_dt]; split; try lra.
  - cbn [INR]. lra.
  - rewrite S_INR. lra.
Qed.

Lemma exB_agree : chp_at exP ex0 exB 2 = chp_at exP ex0 exBs 2.
Proof. cbn [chp_at exB exBs]. replace (1 + 3000 * INR 0) with 1 by (cbn; lra). reflexivity. Qed.

Lemma exBs_2 :
  let s := chp_at exP ex0 exBs 2 in
  steady_state exP 1 1 s /\ h_dQ s = p_pow exP / p_p2h exP.
Proof.
  assert (C : forall k, i_ctl (exBs k) = Some 1) by (intros [|k]; reflexivity).
  assert (D : forall k, cool (exBs k)) by (intros [|k]; apply cool60; reflexivity).
  cbv zeta. split.
  - pose proof (proj1 (steady exP exP_ok 1 0 ltac:(cbn; lra) exBs exBs_hist C D 1)) as S.
    replace (stamp exBs 0) with 1 in S by (unfold stamp; cbn; lra). exact S.
  - destruct (steady_outputs exP exP_ok 1 0 ltac:(cbn; lra) exBs exBs_hist C D 1) as (_&A&_).
    + unfold stamp. cbn. lra.
    + unfold ex0. rewrite A. unfold rel_th. pose proof (thermal_pos 1 ltac:(lra)). field.
      split; [cbn|]; lra.
Qed.

(** Shut-down in progress. *)
Lemma down_run P i d : h_up d <= h_down d -> h_stopping d = true ->
  off_perc <= chp_shutdown_th (i_t i + i_dt i - h_down d) ->
  h_stopping (chp_process P i d) = true /\
  h_fdown (chp_process P i d) = chp_shutdown_th (i_t i + i_dt i - h_down d).
Proof.
  intros U S F. unfold chp_process. apply rlt_false in U. rewrite U, S.
  apply rlt_false in F. rewrite F. cbn. auto.
Qed.

Lemma last_dQ P s : chp_par_ok P -> h_stopping (chp_outputs P s) = false ->
  h_last (chp_outputs P s) = h_dQ (chp_outputs P s).
Proof. intros HP E. cbn in E. destruct (out_forms P HP s) as (A&_). apply A. exact E. Qed.

Lemma exB_3 :
  let s := chp_at exP ex0 exB 3 in
  h_row s = 0 /\ h_stopping s = true /\ h_down s = 3101 /\ h_up s = 1 /\
  h_last s = p_pow exP / p_p2h exP.
Proof.
  destruct exBs_2 as ((S1&S2&S3&S4&S5&S6&S7&S8&S9)&Q). rewrite <- exB_agree in *.
  set (s := chp_at exP ex0 exB 2) in *. cbv zeta.
  change (chp_at exP ex0 exB 3) with (chp_step exP s (exB 2)).
  destruct (stop_fwd exP s (exB 2)) as (A&_&_&B&C).
  { rewrite S1. lra. } { cbn. lra. } { rewrite S4. cbn. lra. }
  assert (L : h_last s = p_pow exP / p_p2h exP).
  { rewrite <- Q. unfold s. cbn [chp_at].
    change (chp_step exP (chp_step exP ex0 (exB 0)) (exB 1)) with
      (chp_outputs exP (chp_process exP (exB 1) (decide exP (exB 1)
        (chp_step exP ex0 (exB 0))))).
    apply last_dQ; [apply exP_ok|]. exact S8. }
  rewrite A, B, C.
  change (chp_step exP s (exB 2)) with
    (chp_outputs exP (chp_process exP (exB 2) (decide exP (exB 2) s))) in *.
  destruct (step_keeps exP s (exB 2)) as (_&_&_&K4&K5&_).
  assert (Hd : h_down (decide exP (exB 2) s) = 3101).
  { rewrite <- K5. transitivity (i_t (exB 2) + i_dt (exB 2)); [exact C|cbn; lra]. }
  assert (Hu : h_up (decide exP (exB 2) s) = 1).
  { rewrite <- K4. exact (eq_trans B S4). }
  assert (St : h_stopping (decide exP (exB 2) s) = true).
  { unfold decide, chp_switch. cbn [exB i_ctl i_t i_dt].
    assert (E1 : rlt 0 (p_low exP) = true) by (apply rlt_true; cbn; lra). rewrite E1.
    destruct (Req_EM_T (h_row s) 0); [lra|]. cbv iota.
    assert (E2 : rlt (3001 + 100 - h_up s) (p_on exP) = false)
      by (apply rlt_false; rewrite S4; cbn; lra).
    rewrite E2. reflexivity. }
  destruct (down_run exP (exB 2) (decide exP (exB 2) s)) as (D1&D2).
  { rewrite Hu, Hd. lra. } { exact St. }
  { rewrite Hd. cbn [exB i_t i_dt]. replace (3001 + 100 - 3101) with 0 by lra.
    pose proof down_0. unfold off_perc. lra. }
  destruct (out_forms exP exP_ok (chp_process exP (exB 2) (decide exP (exB 2) s)))
    as (_&O2&_).
  destruct (O2 D1) as (_&->).
  destruct (process_keeps exP (exB 2) (decide exP (exB 2) s)) as (_&_&_&_&_&_&_&->).
  destruct (decide_facs exP (exB 2) s) as (_&_&_&_&->&_).
  split; [reflexivity|]. split; [exact D1|]. split; [cbn; lra|]. split; [exact S4|exact L].
Qed.

Lemma exB_4 :
  let s := chp_at exP ex0 exB 4 in
  h_row s = 0 /\ 1.3 * (p_pow exP / p_p2h exP) < h_dQ s.
Proof.
  destruct exB_3 as (R&S&D&U&L). set (s := chp_at exP ex0 exB 3) in *. cbv zeta.
  change (chp_at exP ex0 exB 4) with (chp_step exP s (exB 3)). clearbody s.
  assert (Dec : decide exP (exB 3) s = chp_protect (exB 3)
     (set_sw s 0 0 false (h_up s) (h_down s) (h_starting s) (h_stopping s))).
  { unfold decide, chp_switch. cbn [exB i_ctl i_t i_dt].
    assert (E1 : rlt 0 (p_low exP) = true) by (apply rlt_true; cbn; lra). rewrite E1.
    destruct (Req_EM_T (h_row s) 0); [reflexivity|contradiction]. }
  destruct (step_keeps exP s (exB 3)) as (K1&K2&_&_&_&_&K7). rewrite K7, Dec.
  split; [cbn; ring|].
  change (chp_step exP s (exB 3)) with
    (chp_outputs exP (chp_process exP (exB 3) (decide exP (exB 3) s))).
  destruct (down_run exP (exB 3) (decide exP (exB 3) s)) as (D1&D2).
  { rewrite Dec. cbn. rewrite U, D. lra. } { rewrite Dec. cbn. exact S. }
  { rewrite Dec. unfold chp_protect; cbn [set_sw h_on andb h_down exB i_t i_dt]. rewrite D.
    cbn [INR]. unfold off_perc, chp_shutdown_th. lra. }
  destruct (out_forms exP exP_ok (chp_process exP (exB 3) (decide exP (exB 3) s)))
    as (_&O2&_).
  destruct (O2 D1) as (->&_). rewrite D2.
  destruct (process_keeps exP (exB 3) (decide exP (exB 3) s)) as (_&_&_&_&_&_&_&->).
  destruct (decide_facs exP (exB 3) s) as (_&_&_&_&->&_). rewrite L, Dec.
  unfold chp_protect; cbn [set_sw h_on andb h_down exB i_t i_dt]. rewrite D.
  assert (Q : 1.3 < chp_shutdown_th (3002 + INR 0 + 1 - 3101))
    by (unfold chp_shutdown_th; cbn [INR]; lra).
  assert (0 < p_pow exP / p_p2h exP) by (cbn; lra).
  set (q := p_pow exP / p_p2h exP) in *. nra.
Qed.

(** Hot return flow from the second step on. *)
Definition exK (k : nat) : chp_in :=
  match k with
  | O => mkChpIn 0 1 (Some 1) [60]
  | S n => mkChpIn (1 + 60 * INR n) 60 (Some 1) [80]
  end.

Lemma exK_hot k : return_hot (exK (S k)) /\ ~ cell_hot (exK (S k)).
Proof.
  split; [unfold return_hot; cbn; lra|]. intros (x&[<-|[]]&B). lra.
Qed.

Lemma exK_step k e : h_row (chp_at exP ex0 exK (S k)) = 1 ->
  h_exc (chp_at exP ex0 exK (S k)) = e -> e <= 120 ->
  h_row (chp_at exP ex0 exK (S (S k))) = 1 /\ h_exc (chp_at exP ex0 exK (S (S k))) = e + 60.
Proof.
  intros R E L. destruct (exK_hot k) as [H1 H2].
  destruct (hot_fwd exP (chp_at exP ex0 exK (S k)) (exK (S k))) as (A&B); auto.
  - rewrite R. lra.
  - cbn. lra.
  - rewrite R. cbn. rewrite Rminus_eq_0, Rabs_R0. lra.
  - rewrite E. exact L.
  - cbn [chp_at] in *. rewrite A, B, E. split; [reflexivity|]. cbn. lra.
Qed.

Lemma exK_1 : h_row (chp_at exP ex0 exK 1) = 1 /\ h_exc (chp_at exP ex0 exK 1) = 0.
Proof.
  split; [exact (proj1 exH_1)|].
  change (chp_at exP ex0 exK 1) with (chp_step exP ex0 (exK 0)).
  destruct (step_keeps exP ex0 (exK 0)) as (_&_&_&_&_&->&_).
  unfold decide, chp_protect.
  assert (C : overtemp (i_T (exK 0)) = false) by (apply cool_spec, cool60; reflexivity).
  rewrite C, andb_false_r. reflexivity.
Qed.

Lemma exK_rows : forall k, (1 <= k <= 3)%nat -> running exP ex0 exK (S k).
Proof.
  destruct exK_1 as [R1 E1].
  destruct (exK_step 0 0 R1 E1 ltac:(lra)) as [R2 E2].
  destruct (exK_step 1 _ R2 E2 ltac:(lra)) as [R3 E3].
  destruct (exK_step 2 _ R3 E3 ltac:(lra)) as [R4 E4].
  intros k Hk. unfold running.
  assert (k = 1 \/ k = 2 \/ k = 3)%nat as [ -> | [ -> | -> ] ] by lia;
    [rewrite R2|rewrite R3|rewrite R4]; lra.
Qed.

(** Efficiency: constant half load with an admissible plant. *)
Definition effP : chp_par := mkChpPar 10000 0.263 0.2 0.5 1 0.01 600 60 1700.
Lemma effP_ok : chp_par_ok effP.
Proof. unfold chp_par_ok; cbn. repeat split; lra. Qed.
Definition effH (k : nat) : chp_in := mkChpIn (60 * INR k) 60 (Some (1 / 2)) [60].
Lemma effH_hist : unrejected effH.
Proof.
  split; [cbn; lra|]. intros k. unfold stamp. cbn [effH i_t i_dt]. rewrite S_INR.
  split; lra.
Qed.
