(** Properties of dynamic boundary conditions: C36, C37, C69. *)
From Coq Require Import Reals List Arith ZArith Lia Lra.
From Verif Require Import MBC SBC LBC.
Import ListNotations.
Open Scope R_scope.

(** * C36: reading position and data range *)

(** The reading position is the elapsed time in sampling intervals. *)
Theorem C36_position : forall td y h k p, 0 < td -> bc_at td y h k = Some p ->
  fst p * td = time h k.
Proof.
  intros td y h k p TP E. rewrite (bc_pos td y h k p TP E). field. lra.
Qed.

(** The value after a step from time [t] to [t'] lies in every interval holding the samples
    between the last sample before [t] and the first one after [t']. *)
Theorem C36_range : forall td y h k p lo hi, 0 < td -> (forall j, 0 < h j) ->
  bc_at td y h (S k) = Some p ->
  (forall i v, time h k < INR (S i) * td -> INR i * td <= time h (S k) + td ->
     nth_error y i = Some v -> lo <= v <= hi) ->
  lo <= snd p <= hi.
Proof.
  intros td y h k p lo hi TP HP E H. pose proof E as E0. cbn [bc_at] in E.
  destruct (bc_at td y h k) as [[last v]|] eqn:EK; [|discriminate].
  pose proof (bc_pos td y h k _ TP EK) as PL. cbn [fst] in PL.
  assert (LP : 0 <= last).
  { rewrite PL. apply div_ge; [exact TP|]. pose proof (time_pos h HP k). lra. }
  assert (NT : (last + h k / td) * td = time h (S k)).
  { rewrite PL. cbn [time]. field. lra. }
  assert (NP : 0 <= last + h k / td).
  { pose proof (Rdiv_lt_0_compat _ _ (HP k) TP). lra. }
  apply (update_range td y last (h k) p lo hi TP (HP k) LP E).
  intros i w Li Ei. apply (H i w); [| |exact Ei].
  - destruct (fl_spec last LP) as [_ B].
    assert (LT : last * td = time h k) by (rewrite PL; field; lra). rewrite <- LT.
    apply Rmult_lt_compat_r; [exact TP|]. rewrite S_INR.
    assert (INR (fl last) <= INR i) by (apply le_INR; lia). lra.
  - rewrite <- NT. destruct (fl_spec _ NP) as [A _].
    assert (INR i <= INR (fl (last + h k / td)) + 1) by (rewrite <- S_INR; apply le_INR; lia).
    nra.
Qed.

(** A constant series gives the constant. *)
Corollary C36_constant : forall td y h k p c, 0 < td -> (forall j, 0 < h j) ->
  (forall v, In v y -> v = c) -> bc_at td y h k = Some p -> snd p = c.
Proof.
  intros td y h k p c TP HP C E. destruct k as [|k].
  - cbn [bc_at] in E. destruct (nth_error y 0) as [v|] eqn:Z; [|discriminate].
    injection E as <-. apply C, nth_error_In with (n := O), Z.
  - enough (c <= snd p <= c) by lra. apply (C36_range td y h k p c c TP HP E).
    intros i v _ _ Ei. rewrite (C v (nth_error_In _ _ Ei)). lra.
Qed.

(** Steps not longer than the sampling interval give the linear interpolation of the series at
    the end of the step. *)
Theorem C36_interpolation : forall td y h k p, 0 < td -> (forall j, 0 < h j) -> h k <= td ->
  bc_at td y h (S k) = Some p -> interpolated td y (time h (S k)) (snd p).
Proof.
  intros td y h k p TP HP L E. cbn [bc_at] in E.
  destruct (bc_at td y h k) as [[last v]|] eqn:EK; [|discriminate].
  pose proof (bc_pos td y h k _ TP EK) as PL. cbn [fst] in PL.
  assert (LP : 0 <= last).
  { rewrite PL. apply div_ge; [exact TP|]. pose proof (time_pos h HP k). lra. }
  replace (time h (S k)) with ((last + h k / td) * td)
    by (rewrite PL; cbn [time]; field; lra).
  apply update_interp; auto.
Qed.

(** * C69: the mean over several samples *)

(** For a series rising (or falling) by [s] per sample the value after a step over more than one
    sampling interval is the time mean of the series over the step, up to half of [s]. *)
Theorem C69_ramp_mean : forall td y h k p c s, 0 < td -> (forall j, 0 < h j) -> td < h k ->
  (forall i v, nth_error y i = Some v -> v = c + s * INR i) ->
  bc_at td y h (S k) = Some p ->
  Rabs (snd p - (c + s * ((time h k + time h (S k)) / 2 / td))) <= Rabs s / 2.
Proof.
  intros td y h k p c s TP HP L RP E. cbn [bc_at] in E.
  destruct (bc_at td y h k) as [[last v]|] eqn:EK; [|discriminate].
  pose proof (bc_pos td y h k _ TP EK) as PL. cbn [fst] in PL.
  assert (LP : 0 <= last).
  { rewrite PL. apply div_ge; [exact TP|]. pose proof (time_pos h HP k). lra. }
  replace ((time h k + time h (S k)) / 2 / td) with (last + h k / td / 2)
    by (rewrite PL; cbn [time]; field; lra).
  apply (update_ramp td y last (h k)); auto.
Qed.

(** It is not the exact mean: samples 0, 1, 2, 3 every second, one step of 2.5 s; the mean is
    1.25, the value written is 1.3. *)
Theorem C69_exact_refuted : exists p,
  bc_at 1 [0; 1; 2; 3] (fun _ => 5 / 2) 1 = Some p /\ snd p = 13 / 10.
Proof.
  cbn [bc_at nth_error]. unfold bc_update.
  replace (0 + 5 / 2 / 1) with (5 / 2) by field.
  rewrite (fl_unique (5 / 2) 2) by (cbn; lra). cbn [nth_error].
  destruct (Rle_dec (5 / 2 / 1) 1) as [Q|Q]; [exfalso; lra|].
  replace (pyround 0) with O.
  2:{ unfold pyround. rewrite (fl_unique 0 0) by (cbn; lra).
      destruct (Rlt_dec (0 - INR 0) (1 / 2)) as [Z|Z]; [reflexivity|cbn in Z; lra]. }
  eexists. split; [reflexivity|]. cbn [snd]. unfold mean, slice, sum.
  cbn [firstn skipn Nat.sub fold_right length INR]. field.
Qed.

(** * C37: length of the series *)

(** A series accepted by the length check whose last sample lies within the timeframe is always
    read beyond its end, whatever the step sizes. *)
Theorem C37_length_refuted : forall td y timeframe h n, 0 < td -> 0 < timeframe ->
  accepted td y timeframe -> (INR (length y) - 1) * td <= timeframe ->
  run_of h timeframe n -> bc_at td y h n = None.
Proof.
  intros td y tf h n TP FP _ L (HP & _ & EN).
  destruct n as [|n]; [cbn in EN; lra|].
  cbn [bc_at]. destruct (bc_at td y h n) as [[last v]|] eqn:EK; [|reflexivity].
  pose proof (bc_pos td y h n _ TP EK) as PL. cbn [fst] in PL.
  assert (NT : last + h n / td = time h (S n) / td).
  { rewrite PL. cbn [time]. field. lra. }
  apply update_none; rewrite NT.
  - apply div_ge; [exact TP|]. pose proof (time_pos h HP (S n)). lra.
  - apply div_ge; [exact TP|]. lra.
Qed.

(** A series ending later than the last step does suffices: no step reads beyond the end. *)
Theorem C37_length_partial : forall td y timeframe h n, 0 < td -> 0 < timeframe ->
  run_of h timeframe n -> time h n < (INR (length y) - 1) * td ->
  forall k, (k <= n)%nat -> exists p, bc_at td y h k = Some p.
Proof.
  intros td y tf h n TP FP (HP & _ & EN) L.
  assert (LN : 0 < INR (length y) - 1).
  { pose proof (time_pos h HP n). assert (0 < (INR (length y) - 1) * td) by lra. nra. }
  induction k as [|k IH]; intros LK.
  - destruct y as [|a y]; [cbn in LN; lra|]. cbn. eauto.
  - destruct (IH ltac:(lia)) as [[last v] EK]. cbn [bc_at]. rewrite EK.
    pose proof (bc_pos td y h k _ TP EK) as PL. cbn [fst] in PL.
    assert (NT : last + h k / td = time h (S k) / td).
    { rewrite PL. cbn [time]. field. lra. }
    apply update_some; rewrite NT.
    + apply div_ge; [exact TP|]. pose proof (time_pos h HP (S k)). lra.
    + apply div_lt; [exact TP|]. pose proof (time_mono h HP (S k) n LK). lra.
Qed.

(** With steps of at most [hmax] a series reaching [hmax] past the timeframe suffices. *)
Corollary C37_margin : forall td y timeframe h hmax n, 0 < td -> 0 < timeframe ->
  run_of h timeframe n -> (forall k, h k <= hmax) ->
  timeframe + hmax < (INR (length y) - 1) * td ->
  forall k, (k <= n)%nat -> exists p, bc_at td y h k = Some p.
Proof.
  intros td y tf h hmax n TP FP RN HM L. apply (C37_length_partial td y tf h n TP FP RN).
  destruct RN as (HP & RL & EN). destruct n as [|n]; [cbn in EN; lra|].
  specialize (RL n ltac:(lia)). cbn [time]. specialize (HM n). lra.
Qed.

(** Cases meeting the hypotheses: five samples every 10 s for a timeframe of 45 s are accepted;
    steps of 10 s. *)
Lemma ex_time : forall c k, time (fun _ => c) k = INR k * c.
Proof. intros c. induction k as [|k IH]; [cbn; lra|]. cbn [time]. rewrite IH, S_INR. ring. Qed.
Example ex_accepted : accepted 10 [1; 2; 3; 2; 1] 45 /\ run_of (fun _ => 10) 45 5 /\
  bc_at 10 [1; 2; 3; 2; 1] (fun _ => 10) 5 = None.
Proof.
  assert (A : accepted 10 [1; 2; 3; 2; 1] 45) by (unfold accepted; cbn; lra).
  assert (B : run_of (fun _ => 10) 45 5).
  { split; [intros; lra|]. split; [|rewrite ex_time; cbn; lra].
    intros k L. rewrite ex_time. assert (INR k <= INR 4) by (apply le_INR; lia). cbn in H. lra. }
  split; [exact A|]. split; [exact B|].
  apply (C37_length_refuted 10 _ 45); [lra|lra|exact A|cbn; lra|exact B].
Qed.
Example ex_enough : forall k, (k <= 2)%nat ->
  exists p, bc_at 10 [1; 2; 3; 2; 1] (fun _ => 10) k = Some p.
Proof.
  apply (C37_length_partial 10 _ 15); [lra|lra| |rewrite ex_time; cbn; lra].
  split; [intros; lra|]. split; [|rewrite ex_time; cbn; lra].
  intros k L. rewrite ex_time. assert (INR k <= INR 1) by (apply le_INR; lia). cbn in H. lra.
Qed.
(** A step of 25 s from the start lies within the samples 1 .. 3. *)
Example ex_range : forall p, bc_at 10 [1; 2; 3; 2; 1] (fun _ => 25) 1 = Some p ->
  1 <= snd p <= 3.
Proof.
  intros p E. apply (C36_range 10 [1; 2; 3; 2; 1] (fun _ => 25) 0 p 1 3); [lra|intros; lra|exact E|].
  intros i v _ _ Ei. apply nth_error_In in Ei. cbn in Ei.
  repeat (destruct Ei as [<-|Ei]; [lra|]). contradiction.
Qed.
Example ex_range_met : exists p, bc_at 10 [1; 2; 3; 2; 1] (fun _ => 25) 1 = Some p.
Proof.
  cbn [bc_at nth_error]. apply update_some; [lra|cbn; lra].
Qed.
Example ex_ramp : exists p, bc_at 10 [0; 2; 4; 6; 8] (fun _ => 25) 1 = Some p /\
  Rabs (snd p - 5 / 2) <= 1.
Proof.
  assert (Q : exists p, bc_at 10 [0; 2; 4; 6; 8] (fun _ => 25) 1 = Some p)
    by (cbn [bc_at nth_error]; apply update_some; [lra|cbn; lra]).
  destruct Q as [p E]. exists p. split; [exact E|].
  pose proof (C69_ramp_mean 10 [0; 2; 4; 6; 8] (fun _ => 25) 0 p 0 2 ltac:(lra)
    ltac:(intros; lra) ltac:(lra)) as W.
  rewrite (Rabs_right 2) in W by lra. cbn [time] in W.
  replace (0 + 2 * ((0 + (0 + 25)) / 2 / 10)) with (5 / 2) in W by field.
  replace (2 / 2) with 1 in W by field. apply W; [|exact E].
  intros i v Ei. do 5 (destruct i as [|i]; [cbn in Ei; injection Ei as <-; cbn; lra|]).
  destruct i; discriminate.
Qed.

Print Assumptions C36_position.
Print Assumptions C36_range.
Print Assumptions C36_constant.
Print Assumptions C36_interpolation.
Print Assumptions C37_length_refuted.
Print Assumptions C37_length_partial.
Print Assumptions C37_margin.
Print Assumptions C69_ramp_mean.
Print Assumptions C69_exact_refuted.

(** An accepted series is long enough for all steps that end a sampling interval before the end. *)
Theorem C37_accepted : forall td y timeframe h n, 0 < td -> (forall k, 0 < h k) ->
  accepted td y timeframe -> time h n <= timeframe - td ->
  forall k, (k <= n)%nat -> exists p, bc_at td y h k = Some p.
Proof.
  intros td y tf h n TP HP A L. unfold accepted in A.
  destruct n as [|n].
  - intros k Lk. replace k with 0%nat by lia. destruct y as [|a y]; [cbn in *; lra|]. cbn. eauto.
  - apply (C37_length_partial td y (time h (S n)) h (S n) TP).
    + pose proof (time_pos h HP n). cbn [time]. pose proof (HP n). lra.
    + split; [exact HP|]. split; [|lra]. intros k Lk. pose proof (time_mono h HP (S k) (S n) Lk) as M.
      change (time h (S k)) with (time h k + h k) in M. pose proof (HP k). lra.
    + lra.
Qed.
Print Assumptions C37_accepted.
Example C37_accepted_ex : forall k, (k <= 3)%nat -> exists p, bc_at 10 [1; 2; 3; 2; 1] (fun _ => 10) k = Some p.
Proof.
  apply (C37_accepted 10 _ 45); [lra|intros; lra|unfold accepted; cbn; lra|cbn; lra].
Qed.
