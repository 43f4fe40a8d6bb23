From Coq Require Import Reals List Arith Bool Lia Lra Psatz.
From Verif Require Import MChp SChp.
Import ListNotations.
Open Scope R_scope.

Lemma rlt_true a b : rlt a b = true <-> a < b.
Proof. unfold rlt. destruct (Rlt_dec a b); split; auto; try discriminate; contradiction. Qed.
Lemma rlt_false a b : rlt a b = false <-> b <= a.
Proof.
  unfold rlt. destruct (Rlt_dec a b); split; auto; try discriminate; lra.
Qed.

Lemma any_above_true lim T : any_above lim T = true <-> exists x, In x T /\ lim < x.
Proof.
  unfold any_above. rewrite existsb_exists. split; intros (x&A&B); exists x; split; auto.
  - destruct (Rlt_dec lim x); [assumption|discriminate].
  - destruct (Rlt_dec lim x); [reflexivity|contradiction].
Qed.

Lemma overtemp_spec i : overtemp (i_T i) = true <-> return_hot i \/ cell_hot i.
Proof.
  unfold overtemp, return_hot, cell_hot. rewrite orb_true_iff, rlt_true, any_above_true.
  reflexivity.
Qed.

(** The procedure does not touch what the switching logic decided. *)
Lemma process_keeps P i s :
  let s' := chp_process P i s in
  h_row s' = h_row s /\ h_mod s' = h_mod s /\ h_bin s' = h_bin s /\ h_on s' = h_on s /\
  h_up s' = h_up s /\ h_down s' = h_down s /\ h_exc s' = h_exc s /\ h_last s' = h_last s.
Proof.
  unfold chp_process.
  repeat match goal with |- context [if ?b then _ else _] => destruct b end; cbn; repeat split.
Qed.

Lemma outputs_keeps P s :
  let s' := chp_outputs P s in
  h_mod s' = h_mod s /\ h_bin s' = h_bin s /\ h_on s' = h_on s /\ h_up s' = h_up s /\
  h_down s' = h_down s /\ h_exc s' = h_exc s /\ h_row s' = h_bin s * h_mod s.
Proof. cbn. repeat split. Qed.

(** The decision of one step. *)
Definition decide (P : chp_par) (i : chp_in) (s : chp) : chp := chp_protect i (chp_switch P i s).

Lemma step_keeps P s i :
  let d := decide P i s in let s' := chp_step P s i in
  h_mod s' = h_mod d /\ h_bin s' = h_bin d /\ h_on s' = h_on d /\ h_up s' = h_up d /\
  h_down s' = h_down d /\ h_exc s' = h_exc d /\ h_row s' = h_bin d * h_mod d.
Proof.
  cbv zeta. unfold chp_step. fold (decide P i s).
  destruct (process_keeps P i (decide P i s)) as (A&B&C&D&E&F&G&_).
  destruct (outputs_keeps P (chp_process P i (decide P i s))) as (O1&O2&O3&O4&O5&O6&O7).
  rewrite O1, O2, O3, O4, O5, O6, O7, B, C, D, E, F, G. repeat split.
Qed.

Section S.
Variable P : chp_par.
Hypothesis Hlow : 0 < p_low P.
Hypothesis Hramp : 0 < p_ramp P.

(** The on flag and the stored row agree. *)
Definition sane (s : chp) : Prop :=
  (h_row s = 0 \/ p_low P <= h_row s) /\
  (h_row s <> 0 -> h_mod s = h_row s).

Ltac cases := repeat match goal with
  | |- context [if ?b then _ else _] => destruct b eqn:? end.

Lemma switch_sane i s : sane s -> 0 < i_dt i ->
  let d := chp_switch P i s in
  (h_on d = true /\ h_bin d = 1 /\ p_low P <= h_mod d) \/ (h_on d = false /\ h_bin d = 0).
Proof.
  intros [Hs1 Hs2] Hdt. unfold chp_switch.
  set (m := match i_ctl i with Some c => c | None => h_mod s end).
  destruct (rlt m (p_low P)) eqn:E1.
  - destruct (Req_EM_T (h_row s) 0); cbn; auto.
    destruct (rlt (i_t i + i_dt i - h_up s) (p_on P)); cbn; auto.
    left. split; [reflexivity|]. split; [reflexivity|]. apply Rle_refl.
  - apply rlt_false in E1.
    destruct (Req_EM_T (h_row s) 0) as [Z|Z].
    + destruct (_ || _)%bool; cbn; auto.
    + cbn. left. repeat split.
      assert (p_low P <= h_row s) by (destruct Hs1; auto; contradiction).
      destruct (rlt (p_ramp P) (Rabs (h_row s - m) / i_dt i)) eqn:E2; [|exact E1].
      apply rlt_true in E2.
      assert (E3 : p_ramp P * i_dt i < Rabs (h_row s - m)).
      { apply Rmult_lt_reg_r with (/ i_dt i); [apply Rinv_0_lt_compat; exact Hdt|].
        rewrite Rmult_assoc, Rinv_r by lra. unfold Rdiv in E2. lra. }
      assert (0 < p_ramp P * i_dt i) by (apply Rmult_lt_0_compat; assumption).
      destruct (Rle_dec (h_row s - m) 0) as [L|L]; [lra|].
      rewrite Rabs_right in E3 by lra. lra.
Qed.

Lemma decide_sane i s : sane s -> 0 < i_dt i ->
  let d := decide P i s in
  (h_on d = true /\ h_bin d = 1 /\ p_low P <= h_mod d) \/ (h_on d = false /\ h_bin d = 0).
Proof.
  intros Hs Hdt. unfold decide, chp_protect.
  destruct (switch_sane i s Hs Hdt) as [(A&B&C)|(A&B)]; rewrite A; cbn [andb].
  - destruct (overtemp (i_T i)); [destruct (_ || _)%bool|]; cbn; auto.
  - cbn. auto.
Qed.

Lemma step_sane i s : sane s -> 0 < i_dt i -> sane (chp_step P s i).
Proof.
  intros Hs Hdt. destruct (step_keeps P s i) as (K1&K2&K3&K4&K5&K6&K7).
  destruct (decide_sane i s Hs Hdt) as [(A&B&C)|(A&B)]; unfold sane; rewrite K7, K1, B.
  - split; [right; lra|intros _; ring].
  - split; [left; ring|]. intros N. exfalso. apply N. ring.
Qed.

Lemma step_on i s : sane s -> 0 < i_dt i ->
  (h_row (chp_step P s i) <> 0 <-> h_on (decide P i s) = true).
Proof.
  intros Hs Hdt. destruct (step_keeps P s i) as (K1&K2&K3&K4&K5&K6&K7). rewrite K7.
  destruct (decide_sane i s Hs Hdt) as [(A&B&C)|(A&B)]; rewrite A, B; split; intros; auto.
  - lra.
  - exfalso. apply H. ring.
  - discriminate.
Qed.

(** Switching on. *)
Lemma step_start i s : sane s -> 0 < i_dt i -> h_row s = 0 -> h_row (chp_step P s i) <> 0 ->
  p_off P <= i_t i + i_dt i - h_down s /\ h_up (chp_step P s i) = i_t i + i_dt i /\
  overtemp (i_T i) = false /\ h_mod (chp_step P s i) = asked s i /\ p_low P <= asked s i.
Proof.
  intros Hs Hdt Z H. apply step_on in H; auto.
  destruct (step_keeps P s i) as (K1&K2&K3&K4&K5&K6&K7). rewrite K1, K4.
  unfold decide in *. set (d := chp_switch P i s) in *.
  assert (D : h_on d = true).
  { unfold chp_protect in H. destruct (h_on d) eqn:E; [reflexivity|].
    cbn in H. congruence. }
  assert (PM : h_mod (chp_protect i d) = h_mod d /\ h_up (chp_protect i d) = h_up d).
  { unfold chp_protect in *. rewrite D in *. cbn [andb] in *.
    destruct (overtemp (i_T i)); [destruct (_ || _)%bool|]; cbn in *; auto; discriminate. }
  destruct PM as [-> ->]. unfold d, chp_switch in *. unfold asked.
  set (m := match i_ctl i with Some c => c | None => h_mod s end) in *.
  destruct (rlt m (p_low P)) eqn:E1.
  - destruct (Req_EM_T (h_row s) 0); [|contradiction]. cbn in D. discriminate.
  - apply rlt_false in E1. destruct (Req_EM_T (h_row s) 0); [|contradiction].
    destruct (rlt (i_t i + i_dt i - h_down s) (p_off P)) eqn:E2; cbn [orb] in *;
      [cbn in D; discriminate|].
    destruct (overtemp (i_T i)) eqn:E3; [cbn in D; discriminate|].
    cbn. apply rlt_false in E2. auto.
Qed.

(** Staying off. *)
Lemma step_stay_off i s : sane s -> 0 < i_dt i -> h_row s = 0 -> h_row (chp_step P s i) = 0 ->
  h_down (chp_step P s i) = h_down s.
Proof.
  intros Hs Hdt Z H.
  assert (D : h_on (decide P i s) = false).
  { destruct (h_on (decide P i s)) eqn:E; [|reflexivity]. apply step_on in E; auto.
    contradiction. }
  destruct (step_keeps P s i) as (K1&K2&K3&K4&K5&K6&K7). rewrite K5.
  unfold decide in *. set (d := chp_switch P i s) in *.
  assert (Hd : h_down d = h_down s /\ (h_on d = true -> overtemp (i_T i) = false)).
  { unfold d, chp_switch.
    set (m := match i_ctl i with Some c => c | None => h_mod s end) in *.
    destruct (rlt m (p_low P)) eqn:E1.
    - destruct (Req_EM_T (h_row s) 0); [|contradiction]. cbn. split; auto. discriminate.
    - destruct (Req_EM_T (h_row s) 0); [|contradiction].
      destruct (rlt (i_t i + i_dt i - h_down s) (p_off P)) eqn:E2; cbn [orb];
        [cbn; split; auto; discriminate|].
      destruct (overtemp (i_T i)) eqn:E3; cbn; split; auto; discriminate. }
  destruct Hd as [Hd1 Hd2].
  unfold chp_protect in *. destruct (h_on d) eqn:E; cbn [andb] in *.
  - rewrite Hd2 in * by reflexivity. cbn in *. congruence.
  - cbn. exact Hd1.
Qed.

(** Switching off. *)
Lemma step_stop i s : sane s -> 0 < i_dt i -> h_row s <> 0 -> h_row (chp_step P s i) = 0 ->
  h_down (chp_step P s i) = i_t i + i_dt i /\
  (overtemp (i_T i) = false -> p_on P <= i_t i + i_dt i - h_up s).
Proof.
  intros Hs Hdt Z H.
  assert (D : h_on (decide P i s) = false).
  { destruct (h_on (decide P i s)) eqn:E; [|reflexivity]. apply step_on in E; auto.
    contradiction. }
  destruct (step_keeps P s i) as (K1&K2&K3&K4&K5&K6&K7). rewrite K5.
  unfold decide in *. set (d := chp_switch P i s) in *.
  assert (Hd : (h_on d = false -> h_down d = i_t i + i_dt i /\ p_on P <= i_t i + i_dt i - h_up s)).
  { unfold d, chp_switch.
    set (m := match i_ctl i with Some c => c | None => h_mod s end) in *.
    destruct (rlt m (p_low P)) eqn:E1.
    - destruct (Req_EM_T (h_row s) 0); [contradiction|].
      destruct (rlt (i_t i + i_dt i - h_up s) (p_on P)) eqn:E2; cbn; [discriminate|].
      intros _. apply rlt_false in E2. auto.
    - destruct (Req_EM_T (h_row s) 0); [contradiction|]. cbn. discriminate. }
  unfold chp_protect in *. destruct (h_on d) eqn:E; cbn [andb] in *.
  - destruct (overtemp (i_T i)) eqn:O; cbn in *.
    + destruct (_ || _)%bool; cbn in *; [|congruence]. split; auto. discriminate.
    + congruence.
  - cbn. destruct (Hd eq_refl). auto.
Qed.

(** Keeping on. *)
Lemma step_stay_on i s : sane s -> 0 < i_dt i -> h_row s <> 0 -> h_row (chp_step P s i) <> 0 ->
  h_up (chp_step P s i) = h_up s /\
  (p_low P <= asked s i -> Rabs (h_row (chp_step P s i) - h_row s) <= p_ramp P * i_dt i) /\
  h_row (chp_step P s i) <= Rmax (p_low P) (Rmax (h_row s) (asked s i)).
Proof.
  intros Hs Hdt Z H. pose proof H as H'. apply step_on in H; auto.
  destruct (step_keeps P s i) as (K1&K2&K3&K4&K5&K6&K7).
  assert (K8 : h_row (chp_step P s i) = h_mod (decide P i s)).
  { rewrite K7. destruct (decide_sane i s Hs Hdt) as [(_&->&_)|(A&_)]; [ring|congruence]. }
  rewrite K4, K8. clear K1 K2 K3 K4 K5 K6 K7 K8 H'.
  unfold decide in *. set (d := chp_switch P i s) in *.
  assert (D : h_on d = true).
  { unfold chp_protect in H. destruct (h_on d) eqn:E; [reflexivity|].
    cbn in H. congruence. }
  assert (PM : h_mod (chp_protect i d) = h_mod d /\ h_up (chp_protect i d) = h_up d).
  { unfold chp_protect in *. rewrite D in *. cbn [andb] in *.
    destruct (overtemp (i_T i)); [destruct (_ || _)%bool|]; cbn in *; auto; discriminate. }
  destruct PM as [-> ->]. unfold d, chp_switch in *. unfold asked.
  set (m := match i_ctl i with Some c => c | None => h_mod s end) in *.
  destruct (rlt m (p_low P)) eqn:E1.
  - apply rlt_true in E1. destruct (Req_EM_T (h_row s) 0); [contradiction|].
    destruct (rlt (i_t i + i_dt i - h_up s) (p_on P)); [|cbn in D; discriminate].
    cbn. split; [reflexivity|]. split; [lra|]. apply Rmax_l.
  - apply rlt_false in E1. destruct (Req_EM_T (h_row s) 0); [contradiction|].
    cbn. split; [reflexivity|].
    assert (Hr : 0 < p_ramp P * i_dt i) by (apply Rmult_lt_0_compat; assumption).
    assert (E3 : forall x, rlt (p_ramp P) (x / i_dt i) = true <-> p_ramp P * i_dt i < x).
    { intros x. rewrite rlt_true. split; intros A.
      - apply Rmult_lt_reg_r with (/ i_dt i); [apply Rinv_0_lt_compat; exact Hdt|].
        rewrite Rmult_assoc, Rinv_r by lra. unfold Rdiv in A. lra.
      - apply Rmult_lt_reg_r with (i_dt i); [exact Hdt|].
        unfold Rdiv. rewrite Rmult_assoc, Rinv_l by lra. lra. }
    destruct (rlt (p_ramp P) (Rabs (h_row s - m) / i_dt i)) eqn:E2.
    + apply E3 in E2. destruct (Rle_dec (h_row s - m) 0) as [L|L].
      * rewrite Rabs_left1 in E2 by lra. split.
        -- intros _. rewrite Rabs_right; lra.
        -- eapply Rle_trans; [|apply Rmax_r]. eapply Rle_trans; [|apply Rmax_r]. lra.
      * rewrite Rabs_right in E2 by lra. split.
        -- intros _. rewrite Rabs_left; lra.
        -- eapply Rle_trans; [|apply Rmax_r]. eapply Rle_trans; [|apply Rmax_l]. lra.
    + assert (E4 : ~ p_ramp P * i_dt i < Rabs (h_row s - m)) by (rewrite <- E3; congruence).
      split.
      * intros _. rewrite Rabs_minus_sym. lra.
      * eapply Rle_trans; [|apply Rmax_r]. apply Rmax_r.
Qed.

(** Over-temperature. *)
Lemma step_emergency i s : sane s -> 0 < i_dt i -> cell_hot i -> h_row (chp_step P s i) = 0.
Proof.
  intros Hs Hdt Hc. destruct (Req_dec (h_row (chp_step P s i)) 0) as [A|A]; [exact A|].
  exfalso. apply step_on in A; auto. unfold decide, chp_protect in A.
  assert (O : overtemp (i_T i) = true) by (apply overtemp_spec; auto).
  assert (N : any_above T_emergency (i_T i) = true) by (apply any_above_true; exact Hc).
  rewrite O, N, orb_true_r in A. destruct (h_on (chp_switch P i s)) eqn:E; cbn in A;
    congruence.
Qed.

Lemma step_exc i s : sane s -> 0 < i_dt i -> return_hot i -> h_row (chp_step P s i) <> 0 ->
  h_exc s <= 120 /\ h_exc (chp_step P s i) = h_exc s + i_dt i.
Proof.
  intros Hs Hdt Hc A. apply step_on in A; auto.
  destruct (step_keeps P s i) as (K1&K2&K3&K4&K5&K6&K7). rewrite K6.
  unfold decide, chp_protect in *.
  assert (O : overtemp (i_T i) = true) by (apply overtemp_spec; auto).
  assert (X : h_exc (chp_switch P i s) = h_exc s).
  { unfold chp_switch. cases; reflexivity. }
  rewrite O in *. destruct (h_on (chp_switch P i s)) eqn:E; cbn [andb] in *;
    [|cbn in A; congruence].
  destruct (rlt exc_time (h_exc (chp_switch P i s))) eqn:F; cbn [orb] in *;
    [cbn in A; discriminate|].
  destruct (any_above T_emergency (i_T i)); [cbn in A; discriminate|].
  apply rlt_false in F. unfold exc_time in F. cbn. rewrite X in *. split; lra.
Qed.

Lemma exc_nonneg i s : 0 < i_dt i -> 0 <= h_exc s -> 0 <= h_exc (chp_step P s i).
Proof.
  intros Hdt H. destruct (step_keeps P s i) as (K1&K2&K3&K4&K5&K6&K7). rewrite K6.
  unfold decide, chp_protect.
  assert (X : h_exc (chp_switch P i s) = h_exc s).
  { unfold chp_switch. cases; reflexivity. }
  destruct (_ && _)%bool; [destruct (_ || _)%bool|]; cbn; rewrite ?X; lra.
Qed.

(** Histories. *)
Variable s0 : chp.
Hypothesis H0 : sane s0.
Hypothesis H0e : 0 <= h_exc s0.
Variable ins : nat -> chp_in.
Hypothesis Hin : forall k, 0 < i_dt (ins k).

Lemma at_sane k : sane (chp_at P s0 ins k).
Proof. induction k; cbn; auto. apply step_sane; auto. Qed.

Lemma at_exc k : 0 <= h_exc (chp_at P s0 ins k).
Proof. induction k; cbn [chp_at]; auto. apply exc_nonneg; auto. Qed.

Lemma min_off i : forall n,
  running P s0 ins i ->
  (forall k, (i < k <= i + n)%nat -> ~ running P s0 ins k) -> (0 < n)%nat ->
  h_down (chp_at P s0 ins (i + n)) = stamp ins i.
Proof.
  induction n as [|n IH]; intros Hi Hoff Hn; [lia|].
  replace (i + S n)%nat with (S (i + n)) by lia. cbn [chp_at].
  assert (Z : h_row (chp_step P (chp_at P s0 ins (i + n)) (ins (i + n)%nat)) = 0).
  { pose proof (Hoff (S (i + n)) ltac:(lia)) as A. unfold running in A. cbn [chp_at] in A.
    destruct (Req_dec (h_row (chp_step P (chp_at P s0 ins (i + n)) (ins (i + n)%nat))) 0);
      [assumption|contradiction]. }
  destruct n as [|n].
  - rewrite Nat.add_0_r in *. apply step_stop; auto. apply at_sane.
  - rewrite step_stay_off; auto; [apply IH; auto; try lia; intros k Hk; apply Hoff; lia|
      apply at_sane|].
    pose proof (Hoff (i + S n)%nat ltac:(lia)) as A. unfold running in A.
    destruct (Req_dec (h_row (chp_at P s0 ins (i + S n))) 0); [assumption|contradiction].
Qed.

Lemma min_off_thm i j : (i < j)%nat ->
  running P s0 ins i -> (forall k, (i < k <= j)%nat -> ~ running P s0 ins k) ->
  running P s0 ins (S j) -> p_off P <= stamp ins j - stamp ins i.
Proof.
  intros Hij Hi Hoff Hj.
  pose proof (min_off i (j - i) Hi) as D. replace (i + (j - i))%nat with j in D by lia.
  rewrite <- D by (auto; lia). unfold running in Hj. cbn [chp_at] in Hj.
  assert (Z : h_row (chp_at P s0 ins j) = 0).
  { pose proof (Hoff j ltac:(lia)) as A. unfold running in A.
    destruct (Req_dec (h_row (chp_at P s0 ins j)) 0); [assumption|contradiction]. }
  exact (proj1 (step_start _ _ (at_sane j) (Hin j) Z Hj)).
Qed.

Lemma min_on i : forall n,
  ~ running P s0 ins i -> (forall k, (i < k <= i + n)%nat -> running P s0 ins k) ->
  (0 < n)%nat -> h_up (chp_at P s0 ins (i + n)) = stamp ins i.
Proof.
  induction n as [|n IH]; intros Hi Hon Hn; [lia|].
  replace (i + S n)%nat with (S (i + n)) by lia. cbn [chp_at].
  pose proof (Hon (S (i + n)) ltac:(lia)) as Z. unfold running in Z. cbn [chp_at] in Z.
  destruct n as [|n].
  - rewrite Nat.add_0_r in *. apply step_start; auto; [apply at_sane|].
    unfold running in Hi. destruct (Req_dec (h_row (chp_at P s0 ins i)) 0);
      [assumption|contradiction].
  - destruct (step_stay_on (ins (i + S n)%nat) (chp_at P s0 ins (i + S n))) as [-> _]; auto.
    + apply at_sane.
    + apply (Hon (i + S n)%nat). lia.
    + apply IH; auto; try lia. intros k Hk. apply Hon. lia.
Qed.

Lemma min_on_thm i j : (i < j)%nat ->
  ~ running P s0 ins i -> (forall k, (i < k <= j)%nat -> running P s0 ins k) ->
  ~ running P s0 ins (S j) -> ~ return_hot (ins j) -> ~ cell_hot (ins j) ->
  p_on P <= stamp ins j - stamp ins i.
Proof.
  intros Hij Hi Hon Hj H1 H2.
  pose proof (min_on i (j - i) Hi) as D. replace (i + (j - i))%nat with j in D by lia.
  rewrite <- D by (auto; lia). unfold running in Hj. cbn [chp_at] in Hj.
  assert (Z : h_row (chp_step P (chp_at P s0 ins j) (ins j)) = 0).
  { destruct (Req_dec (h_row (chp_step P (chp_at P s0 ins j) (ins j))) 0);
      [assumption|contradiction]. }
  assert (R : h_row (chp_at P s0 ins j) <> 0) by (apply (Hon j); lia).
  apply (step_stop _ _ (at_sane j) (Hin j) R Z).
  destruct (overtemp (i_T (ins j))) eqn:O; [|reflexivity].
  apply overtemp_spec in O. destruct O; contradiction.
Qed.

Lemma hot_time : forall n j,
  (forall k, (j <= k <= j + n)%nat -> return_hot (ins k) /\ running P s0 ins (S k)) ->
  h_exc (chp_at P s0 ins j) + elapsed ins j n <= 120.
Proof.
  induction n as [|n IH]; intros j H.
  - cbn [elapsed]. destruct (H j ltac:(lia)) as [A B]. unfold running in B.
    cbn [chp_at] in B.
    destruct (step_exc _ _ (at_sane j) (Hin j) A B). lra.
  - cbn [elapsed].
    destruct (H j ltac:(lia)) as [A B]. unfold running in B. cbn [chp_at] in B.
    destruct (step_exc _ _ (at_sane j) (Hin j) A B) as [_ E].
    assert (G : h_exc (chp_at P s0 ins (S j)) + elapsed ins (S j) n <= 120).
    { apply IH. intros k Hk. apply H. lia. }
    cbn [chp_at] in G. rewrite E in G. lra.
Qed.

Lemma hot_thm n j :
  (forall k, (j <= k <= j + n)%nat -> return_hot (ins k) /\ running P s0 ins (S k)) ->
  elapsed ins j n <= 120.
Proof. intros H. pose proof (hot_time n j H). pose proof (at_exc j). lra. Qed.

Lemma range_thm U : h_mod s0 <= U -> h_row s0 <= U -> p_low P <= U -> 0 <= U ->
  (forall k c, i_ctl (ins k) = Some c -> c <= U) ->
  forall k, h_mod (chp_at P s0 ins k) <= U /\
            (h_row (chp_at P s0 ins k) = 0 \/ p_low P <= h_row (chp_at P s0 ins k) <= U).
Proof.
  intros Hm Hr Hl HU Hc.
  assert (G : forall k, h_mod (chp_at P s0 ins k) <= U /\ h_row (chp_at P s0 ins k) <= U).
  { induction k as [|k [IH1 IH2]]; [auto|]. cbn [chp_at].
    set (s := chp_at P s0 ins k) in *. set (i := ins k) in *.
    assert (A : asked s i <= U).
    { unfold asked. destruct (i_ctl i) eqn:E; [apply (Hc k); exact E|exact IH1]. }
    pose proof (step_keeps P s i) as (K1&K2&K3&K4&K5&K6&K7).
    pose proof (step_sane i s (at_sane k) (Hin k)) as [S1 S2].
    assert (M : h_mod (chp_step P s i) <= U).
    { rewrite K1. unfold decide, chp_protect.
      assert (M' : h_mod (chp_switch P i s) <= U).
      { unfold chp_switch. fold (asked s i). set (m := asked s i) in *.
        pose proof (Hin k) as Hdt. fold i in Hdt.
        destruct (rlt m (p_low P)); destruct (Req_EM_T (h_row s) 0);
          try (cases; cbn; lra).
        cbn. destruct (rlt (p_ramp P) (Rabs (h_row s - m) / i_dt i)) eqn:E2; [|exact A].
        apply rlt_true in E2.
        assert (E3 : p_ramp P * i_dt i < Rabs (h_row s - m)).
        { apply Rmult_lt_reg_r with (/ i_dt i); [apply Rinv_0_lt_compat; exact Hdt|].
          rewrite Rmult_assoc, Rinv_r by lra. unfold Rdiv in E2. lra. }
        assert (0 < p_ramp P * i_dt i) by (apply Rmult_lt_0_compat; assumption).
        destruct (Rle_dec (h_row s - m) 0) as [L|L]; [|lra].
        rewrite Rabs_left1 in E3 by lra. lra. }
      destruct (_ && _)%bool; [destruct (_ || _)%bool|]; cbn; auto. }
    split; [exact M|]. destruct S1 as [->|S1]; [lra|].
    assert (N : h_row (chp_step P s i) <> 0) by lra. rewrite <- (S2 N). exact M. }
  intros k. destruct (G k) as [G1 G2]. split; [exact G1|].
  destruct (at_sane k) as [[Z|Z] _]; auto.
Qed.
End S.

Lemma init_sane P b start : sane P (chp_init P b start).
Proof. destruct b; (split; [left; reflexivity|]); intros N; exfalso; apply N; reflexivity. Qed.

Lemma init_exc P b start : 0 <= h_exc (chp_init P b start).
Proof. destruct b; cbn; lra. Qed.
