(** C142, C143, C144: moving averages, logarithmic mean temperature difference, split walls. *)
From Coq Require Import Reals List Bool Arith Lia Lra Psatz.
From Verif Require Import MOut MRoll PRoll MAvg.
Import ListNotations.
Open Scope R_scope.

Lemma lsum_app a b : lsum (a ++ b) = lsum a + lsum b.
Proof. unfold lsum; induction a as [|x a IH]; cbn; lra. Qed.
Lemma csum_rows x i N : csum x (i + N) - csum x i = lsum (rows i (i + N) x).
Proof.
  unfold csum, rows. replace (i + N - i)%nat with N by lia.
  rewrite <- (firstn_skipn i (firstn (i + N) x)), lsum_app, firstn_firstn, Nat.min_l by lia.
  rewrite skipn_firstn_comm. replace (i + N - i)%nat with N by lia. lra.
Qed.
Lemma rows_length i N (x : list R) : (i + N <= length x)%nat -> length (rows i (i + N) x) = N.
Proof. intros H; unfold rows; rewrite firstn_length, skipn_length. lia. Qed.
Lemma mavg_length x N : length (moving_avg x N) = (length x + 1 - N)%nat.
Proof. unfold moving_avg; rewrite map_length, seq_length; reflexivity. Qed.
Lemma nth_map_seq {A} (f : nat -> A) n d i : (i < n)%nat -> nth i (map f (seq 0 n)) d = f i.
Proof.
  intros H. rewrite (nth_indep _ d (f 0%nat)) by (rewrite map_length, seq_length; exact H).
  rewrite map_nth, seq_nth by exact H. reflexivity.
Qed.
Lemma mavg_nth x N i : (1 <= N)%nat -> (i + N <= length x)%nat ->
  nth i (moving_avg x N) 0 = lmean (rows i (i + N) x).
Proof.
  intros HN Hi; unfold moving_avg; rewrite nth_map_seq by lia.
  unfold lmean; rewrite csum_rows, rows_length by exact Hi. reflexivity.
Qed.

(** Cell number, in the array of windows, which an output cell shows. *)
Definition shown (n N r : nat) : nat := Nat.min (r - N / 2) (n - N).
Lemma half_up N : (1 <= N)%nat -> ((N - 1) / 2 + (N - 1) mod 2 = N / 2)%nat.
Proof.
  intros H. pose proof (Nat.div_mod (N - 1) 2 ltac:(lia)). pose proof (Nat.div_mod N 2 ltac:(lia)).
  pose proof (Nat.mod_upper_bound (N - 1) 2 ltac:(lia)). pose proof (Nat.mod_upper_bound N 2 ltac:(lia)). lia.
Qed.
Lemma last_nth (x : list R) d : last x d = nth (length x - 1) x d.
Proof.
  induction x as [|a x IH]; [reflexivity|]. destruct x as [|b x]; [reflexivity|].
  transitivity (last (b :: x) d); [reflexivity|]. rewrite IH.
  replace (length (a :: b :: x) - 1)%nat with (S (length (b :: x) - 1)) by (cbn; lia). reflexivity.
Qed.
Lemma filled x N : (1 <= N)%nat -> (N <= length x)%nat ->
  exists y, moving_avg_fill_edges x N = Some y /\ length y = length x /\
    forall r, (r < length x)%nat ->
      nth r y 0 = lmean (rows (shown (length x) N r) (shown (length x) N r + N) x).
Proof.
  intros H1 H2. unfold moving_avg_fill_edges. destruct N as [|N']; [lia|]. set (N := S N') in *.
  unfold fill_edges. destruct (moving_avg x N) as [|a t] eqn:E.
  { apply (f_equal (@length R)) in E. rewrite mavg_length in E. cbn in E; lia. }
  assert (L : length (a :: t) = (length x + 1 - N)%nat) by (rewrite <- E; apply mavg_length).
  eexists; split; [reflexivity|]. rewrite map_length, seq_length. split; [reflexivity|].
  intros r Hr. rewrite nth_map_seq by exact Hr. rewrite L.
  assert (S0 : edge_start (length x + 1 - N) (length x) = (N / 2)%nat).
  { unfold edge_start. replace (length x - (length x + 1 - N))%nat with (N - 1)%nat by lia. apply half_up; lia. }
  rewrite S0. unfold shown.
  destruct (r <? N / 2)%nat eqn:A.
  - apply Nat.ltb_lt in A. replace (Nat.min (r - N / 2) (length x - N)) with 0%nat by lia.
    rewrite <- (mavg_nth x N 0) by lia. rewrite E; reflexivity.
  - apply Nat.ltb_ge in A. destruct (r <? N / 2 + (length x + 1 - N))%nat eqn:B.
    + apply Nat.ltb_lt in B. replace (Nat.min (r - N / 2) (length x - N)) with (r - N / 2)%nat by lia.
      rewrite <- (mavg_nth x N) by lia. rewrite E; reflexivity.
    + apply Nat.ltb_ge in B. replace (Nat.min (r - N / 2) (length x - N)) with (length x - N)%nat by lia.
      rewrite <- (mavg_nth x N) by lia. rewrite E, last_nth, L. f_equal; lia.
Qed.

(** C142, first part: length is kept, all values are within the range of the data. *)
Theorem C142_range : forall x N lo hi, (1 <= N)%nat -> (N <= length x)%nat ->
  (forall v, In v x -> lo <= v <= hi) ->
  exists y, moving_avg_fill_edges x N = Some y /\ length y = length x /\ forall v, In v y -> lo <= v <= hi.
Proof.
  intros x N lo hi H1 H2 Hx. destruct (filled x N H1 H2) as (y & E & L & V).
  exists y; split; [exact E|]; split; [exact L|]. intros v Hv.
  destruct (In_nth y v 0 Hv) as (r & Hr & <-). rewrite L in Hr. rewrite (V r Hr).
  apply lmean_bounds.
  - intros Z. apply (f_equal (@length R)) in Z. rewrite rows_length in Z; [cbn in Z; lia|].
    unfold shown; lia.
  - intros w Hw; apply Hx. exact (in_rows _ _ _ _ Hw).
Qed.
Print Assumptions C142_range.
Example C142_range_example : exists y, moving_avg_fill_edges [1; 5; 2; 4] 3 = Some y /\ length y = 4%nat /\
  forall v, In v y -> 1 <= v <= 5.
Proof.
  apply (C142_range [1; 5; 2; 4] 3 1 5); [lia|cbn; lia|]. intros v [<-|[<-|[<-|[<-|[]]]]]; lra.
Qed.

(** Second part: on data which rises steadily the average over an odd number of cells changes nothing away from
    the edges, over an even number of cells it is half a cell late. *)
Theorem C142_ramp : forall a b n N, (1 <= N)%nat -> (N <= n)%nat ->
  exists y, moving_avg_fill_edges (ramp a b n) N = Some y /\
    forall r, (N / 2 <= r)%nat -> (r + N <= n + N / 2)%nat ->
      nth r y 0 = a * (INR r - (if Nat.even N then / 2 else 0)) + b.
Proof.
  intros a b n N H1 H2.
  destruct (filled (ramp a b n) N H1) as (y & E & L & V); [rewrite ramp_length; exact H2|].
  rewrite ramp_length in L, V. exists y; split; [exact E|]. intros r Ha Hb.
  pose proof (Nat.div_mod N 2 ltac:(lia)) as D. pose proof (Nat.mod_upper_bound N 2 ltac:(lia)) as M.
  rewrite V by lia. unfold shown.
  replace (Nat.min (r - N / 2) (n - N)) with (r - N / 2)%nat by lia.
  rewrite rows_ramp by lia. replace (r - N / 2 + N - (r - N / 2))%nat with N by lia.
  rewrite mean_ramp by lia. rewrite minus_INR by exact Ha.
  pose proof (Nat.bit0_mod N) as P. rewrite Nat.bit0_odd in P. rewrite <- Nat.negb_odd.
  destruct (Nat.odd N); cbn [negb Nat.b2n] in *.
  - assert (X : INR N = 2 * INR (N / 2) + 1).
    { rewrite D at 1. rewrite plus_INR, mult_INR, <- P. cbn [INR]. lra. }
    rewrite X; lra.
  - assert (X : INR N = 2 * INR (N / 2)).
    { rewrite D at 1. rewrite plus_INR, mult_INR, <- P. cbn [INR]. lra. }
    rewrite X; lra.
Qed.
Print Assumptions C142_ramp.
Example C142_ramp_example : exists y, moving_avg_fill_edges (ramp 3 1 6) 3 = Some y /\ nth 2 y 0 = 7.
Proof.
  destruct (C142_ramp 3 1 6 3 ltac:(lia) ltac:(lia)) as (y & E & V). exists y; split; [exact E|].
  rewrite V; [cbn [Nat.even INR]; lra|cbn; lia|cbn; lia].
Qed.

(** Third part: more cells in the window than there are: access beyond the array. *)
Theorem C142_short_refuted : forall x N, (length x < N)%nat -> moving_avg_fill_edges x N = None.
Proof.
  intros x N H. unfold moving_avg_fill_edges. destruct N as [|N]; [reflexivity|].
  unfold fill_edges, moving_avg. replace (length x + 1 - S N)%nat with 0%nat by lia. reflexivity.
Qed.
Print Assumptions C142_short_refuted.
Example C142_short_example : moving_avg_fill_edges [1; 2; 3] 40 = None.
Proof. apply C142_short_refuted; cbn; lia. Qed.

(** Fourth part: equal weights give the plain moving average; nonnegative weights with sum 1 stay within the
    range of the data. *)
Lemma dot_equal c : forall w x, (forall v, In v w -> v = c) -> (length x <= length w)%nat -> dot x w = c * lsum x.
Proof.
  induction w as [|b w IH]; intros [|a x] Hw L; cbn in L |- *; try lra; try lia.
  rewrite IH; [|intros; apply Hw; right; assumption|lia]. rewrite (Hw b (or_introl eq_refl)).
  unfold lsum; cbn; lra.
Qed.
Theorem C142_weights : forall x w, (1 <= length w)%nat -> (length w <= length x)%nat ->
  (forall v, In v w -> v = / INR (length w)) -> weighted_moving_avg x w = moving_avg_fill_edges x (length w).
Proof.
  intros x w H1 H2 Hw. destruct (filled x (length w) H1 H2) as (y & E & L & V). rewrite E.
  unfold weighted_moving_avg. destruct (length x + 1 - length w)%nat as [|m] eqn:Em; [lia|].
  f_equal. apply nth_ext with (d := 0) (d' := 0); [rewrite map_length, seq_length; symmetry; exact L|].
  rewrite map_length, seq_length. intros r Hr. rewrite nth_map_seq by exact Hr. rewrite (V r Hr).
  assert (S0 : edge_start (S m) (length x) = (length w / 2)%nat).
  { unfold edge_start. replace (length x - S m)%nat with (length w - 1)%nat by lia. apply half_up; lia. }
  assert (A : forall i, (i + length w <= length x)%nat ->
    dot (firstn (length w) (skipn i x)) w = lmean (rows i (i + length w) x)).
  { intros i Hi. rewrite (dot_equal (/ INR (length w))); [|exact Hw|rewrite firstn_length; lia].
    unfold lmean; rewrite rows_length by exact Hi. unfold rows.
    replace (i + length w - i)%nat with (length w) by lia. unfold Rdiv; ring. }
  rewrite S0. unfold shown.
  destruct (r <? length w / 2)%nat eqn:Q; [apply Nat.ltb_lt in Q|apply Nat.ltb_ge in Q].
  - replace (Nat.min (r - length w / 2) (length x - length w)) with 0%nat by lia. apply A; lia.
  - destruct (r <? length w / 2 + S m)%nat eqn:Q2; [apply Nat.ltb_lt in Q2|apply Nat.ltb_ge in Q2].
    + replace (Nat.min (r - length w / 2) (length x - length w)) with (r - length w / 2)%nat by lia. apply A; lia.
    + replace (Nat.min (r - length w / 2) (length x - length w)) with (length x - length w)%nat by lia.
      replace m with (length x - length w)%nat by lia. apply A; lia.
Qed.
Print Assumptions C142_weights.
Example C142_weights_example : weighted_moving_avg [1; 5; 2; 4] [/ 2; / 2] = moving_avg_fill_edges [1; 5; 2; 4] 2.
Proof. apply (C142_weights [1; 5; 2; 4] [/ 2; / 2]); [cbn; lia|cbn; lia|]. intros v [<-|[<-|[]]]; cbn; lra. Qed.
Lemma dot_bounds lo hi : forall w x, (length x = length w) -> (forall v, In v w -> 0 <= v) ->
  (forall v, In v x -> lo <= v <= hi) -> lo * lsum w <= dot x w <= hi * lsum w.
Proof.
  induction w as [|b w IH]; intros [|a x] L Hw Hx; cbn in L; try lia; [unfold lsum; cbn; lra|].
  specialize (IH x ltac:(lia) (fun v H => Hw v (or_intror H)) (fun v H => Hx v (or_intror H))).
  pose proof (Hw b (or_introl eq_refl)). pose proof (Hx a (or_introl eq_refl)).
  unfold lsum in *; cbn. nra.
Qed.
Theorem C142_weighted_range : forall x w lo hi, (1 <= length w)%nat -> (length w <= length x)%nat ->
  (forall v, In v w -> 0 <= v) -> lsum w = 1 -> (forall v, In v x -> lo <= v <= hi) ->
  exists y, weighted_moving_avg x w = Some y /\ length y = length x /\ forall v, In v y -> lo <= v <= hi.
Proof.
  intros x w lo hi H1 H2 Hw Hs Hx. unfold weighted_moving_avg.
  destruct (length x + 1 - length w)%nat as [|m] eqn:Em; [lia|].
  eexists; split; [reflexivity|]. rewrite map_length, seq_length. split; [reflexivity|].
  intros v Hv. apply in_map_iff in Hv. destruct Hv as (r & <- & Hr). apply in_seq in Hr.
  assert (A : forall i, (i + length w <= length x)%nat -> lo <= dot (firstn (length w) (skipn i x)) w <= hi).
  { intros i Hi. pose proof (dot_bounds lo hi w (firstn (length w) (skipn i x))) as D.
    rewrite Hs, !Rmult_1_r in D. apply D; [rewrite firstn_length, skipn_length; lia|exact Hw|].
    intros u Hu; apply Hx. apply (in_rows i (i + length w) x). unfold rows.
    replace (i + length w - i)%nat with (length w) by lia. exact Hu. }
  destruct (r <? _)%nat; [apply A; lia|].
  destruct (r <? edge_start (S m) (length x) + S m)%nat eqn:Q; [apply Nat.ltb_lt in Q|]; apply A; lia.
Qed.
Print Assumptions C142_weighted_range.
Example C142_weighted_example : exists y, weighted_moving_avg [1; 5; 2; 4] [/ 4; / 2; / 4] = Some y /\
  length y = 4%nat /\ forall v, In v y -> 1 <= v <= 5.
Proof.
  apply (C142_weighted_range [1; 5; 2; 4] [/ 4; / 2; / 4] 1 5); [cbn; lia|cbn; lia| |unfold lsum; cbn; lra|].
  - intros v [<-|[<-|[<-|[]]]]; lra.
  - intros v [<-|[<-|[<-|[<-|[]]]]]; lra.
Qed.

(** C143, first part: with different temperature differences of the same sign at both ends, the logarithmic mean
    lies strictly between them. *)
Lemma ln_neq x : 0 < x -> x <> 1 -> ln x <> 0.
Proof. intros H N E. apply N. apply ln_inv; [exact H|lra|rewrite E, ln_1; reflexivity]. Qed.
Lemma ln_below x : 0 < x -> x <> 1 -> ln x < x - 1.
Proof.
  intros H N. pose proof (exp_ineq1 (ln x) (ln_neq x H N)) as E. rewrite exp_ln in E by exact H. lra.
Qed.
Lemma ln_above x : 0 < x -> x <> 1 -> 1 - / x < ln x.
Proof.
  intros H N. pose proof (Rinv_0_lt_compat x H) as I.
  assert (M : / x <> 1). { intros E; apply N. rewrite <- (Rinv_inv x). rewrite E; field. }
  pose proof (ln_below (/ x) I M) as B. rewrite ln_Rinv in B by exact H. lra.
Qed.
Lemma lmtd_between a b : 0 < b -> b < a -> b < (a - b) / ln (a / b) < a.
Proof.
  intros Hb Hab. set (t := a / b). assert (T : 1 < t).
  { unfold t. apply (Rmult_lt_reg_r b); [exact Hb|]. replace (a / b * b) with a by (field; lra). lra. }
  assert (A : a = t * b) by (unfold t; field; lra).
  pose proof (ln_below t ltac:(lra) ltac:(lra)) as L. pose proof (ln_above t ltac:(lra) ltac:(lra)) as U.
  assert (I : t * / t = 1) by (field; lra).
  assert (P : 0 < ln t). { rewrite <- ln_1; apply ln_increasing; lra. }
  rewrite A. split.
  - apply (Rmult_lt_reg_r (ln t)); [exact P|].
    replace ((t * b - b) / ln t * ln t) with (b * (t - 1)) by (field; lra). apply Rmult_lt_compat_l; lra.
  - apply (Rmult_lt_reg_r (ln t)); [exact P|].
    replace ((t * b - b) / ln t * ln t) with (t * b * (1 - / t)) by (field; lra).
    apply Rmult_lt_compat_l; [nra|exact U].
Qed.
Lemma lmtd_swap TA1 TA2 TB1 TB2 : lmtd TB1 TB2 TA1 TA2 = lmtd TA1 TA2 TB1 TB2.
Proof.
  unfold lmtd. set (a := TA1 - TA2). set (b := TB1 - TB2). clearbody a b.
  assert (R : a <> 0 -> b <> 0 -> b / a = / (a / b)) by (intros; field; split; assumption).
  destruct (Req_EM_T a 0) as [Ea|Ea], (Req_EM_T b 0) as [Eb|Eb]; try reflexivity.
  - rewrite Ea; unfold Rdiv; rewrite Rmult_0_l. destruct (Rlt_dec 0 0); [lra|reflexivity].
  - rewrite Eb; unfold Rdiv; rewrite Rmult_0_l. destruct (Rlt_dec 0 0); [lra|reflexivity].
  - rewrite (R Ea Eb). destruct (Rlt_dec 0 (a / b)) as [P|P], (Rlt_dec 0 (/ (a / b))) as [Q|Q]; try reflexivity.
    + rewrite ln_Rinv by exact P.
      destruct (Req_EM_T (ln (a / b)) 0) as [Z|Z], (Req_EM_T (- ln (a / b)) 0) as [Y|Y]; try reflexivity; try lra.
      f_equal. field. exact Z.
    + elim Q. apply Rinv_0_lt_compat; exact P.
    + elim P. rewrite <- (Rinv_inv (a / b)). apply Rinv_0_lt_compat; exact Q.
Qed.
Lemma lmtd_value a b x y : 0 < b -> b < a -> x - y = a -> forall u v, u - v = b ->
  lmtd x y u v = Some ((a - b) / ln (a / b)).
Proof.
  intros Hb Hab Ea u v Eb. unfold lmtd. rewrite Ea, Eb.
  assert (T : 1 < a / b).
  { apply (Rmult_lt_reg_r b); [exact Hb|]. replace (a / b * b) with a by (field; lra). lra. }
  destruct (Req_EM_T b 0); [lra|]. destruct (Rlt_dec 0 (a / b)); [|lra].
  destruct (Req_EM_T (ln (a / b)) 0) as [Z|Z]; [|reflexivity].
  elim (ln_neq (a / b)); [lra|lra|exact Z].
Qed.
Lemma lmtd_neg a b c d : lmtd b a d c = match lmtd a b c d with Some m => Some (- m) | None => None end.
Proof.
  unfold lmtd. replace (b - a) with (- (a - b)) by ring. replace (d - c) with (- (c - d)) by ring.
  set (u := a - b). set (v := c - d). clearbody u v.
  destruct (Req_EM_T v 0) as [V|V], (Req_EM_T (- v) 0) as [W|W]; try lra; [reflexivity|].
  replace (- u / - v) with (u / v) by (field; exact V).
  destruct (Rlt_dec 0 (u / v)); [|reflexivity]. destruct (Req_EM_T (ln (u / v)) 0) as [Z|Z]; [reflexivity|].
  f_equal. field. exact Z.
Qed.
Theorem C143_between : forall TA1 TA2 TB1 TB2,
  0 < TA1 - TA2 -> 0 < TB1 - TB2 -> TA1 - TA2 <> TB1 - TB2 ->
  exists m, lmtd TA1 TA2 TB1 TB2 = Some m /\
    Rmin (TA1 - TA2) (TB1 - TB2) < m < Rmax (TA1 - TA2) (TB1 - TB2).
Proof.
  intros TA1 TA2 TB1 TB2 HA HB N.
  destruct (Rtotal_order (TA1 - TA2) (TB1 - TB2)) as [L|[L|L]]; [|contradiction|].
  - exists ((TB1 - TB2 - (TA1 - TA2)) / ln ((TB1 - TB2) / (TA1 - TA2))). split.
    + rewrite <- lmtd_swap. apply lmtd_value; auto.
    + rewrite Rmin_left, Rmax_right by lra. apply lmtd_between; lra.
  - exists ((TA1 - TA2 - (TB1 - TB2)) / ln ((TA1 - TA2) / (TB1 - TB2))). split.
    + apply lmtd_value; auto.
    + rewrite Rmin_right, Rmax_left by lra. apply lmtd_between; lra.
Qed.
Print Assumptions C143_between.
Example C143_between_example : exists m, lmtd 90 60 70 50 = Some m /\ 20 < m < 30.
Proof.
  destruct (C143_between 90 60 70 50) as (m & E & B); try lra. exists m; split; [exact E|].
  rewrite Rmin_right, Rmax_left in B by lra. lra.
Qed.
(** Second part: the ends and the streams can be exchanged. *)
Theorem C143_symmetric : forall TA1 TA2 TB1 TB2,
  lmtd TB1 TB2 TA1 TA2 = lmtd TA1 TA2 TB1 TB2 /\
  lmtd TA2 TA1 TB2 TB1 = match lmtd TA1 TA2 TB1 TB2 with Some m => Some (- m) | None => None end.
Proof. intros; split; [apply lmtd_swap|apply lmtd_neg]. Qed.
Print Assumptions C143_symmetric.
(** Third part: the same difference at both ends, as in counterflow with the same heat capacity flow on both
    sides: 0 divided by 0. *)
Theorem C143_equal_refuted : forall TA1 TA2 TB1 TB2, TA1 - TA2 = TB1 - TB2 -> lmtd TA1 TA2 TB1 TB2 = None.
Proof.
  intros TA1 TA2 TB1 TB2 E; unfold lmtd. rewrite E. destruct (Req_EM_T (TB1 - TB2) 0) as [Z|Z]; [reflexivity|].
  replace ((TB1 - TB2) / (TB1 - TB2)) with 1 by (field; exact Z).
  destruct (Rlt_dec 0 1); [|reflexivity]. rewrite ln_1. destruct (Req_EM_T 0 0); [reflexivity|lra].
Qed.
Print Assumptions C143_equal_refuted.
Example C143_equal_example : lmtd 80 60 70 50 = None.
Proof. apply C143_equal_refuted; lra. Qed.

(** C144: the wall as a body of its own, in the middle between two heat transfer coefficients: the two
    resistances in series are the resistance from the fluid to the ambient. *)
Lemma ln_mid ri ro : 0 < ri -> 0 < ro -> ln ((ro / ri + 1) / 2) + ln (2 / (ri / ro + 1)) = ln (ro / ri).
Proof.
  intros Hi Ho. assert (0 < ro / ri) by (apply Rdiv_lt_0_compat; assumption).
  assert (0 < ri / ro) by (apply Rdiv_lt_0_compat; assumption).
  rewrite <- ln_mult; [|lra|apply Rdiv_lt_0_compat; lra]. f_equal. field. lra.
Qed.
Lemma ln_mid_pos ri ro : 0 < ri -> ri < ro -> 0 < ln ((ro / ri + 1) / 2) /\ 0 < ln (2 / (ri / ro + 1)).
Proof.
  intros Hi Ho.
  assert (A : 1 < ro / ri). { apply (Rmult_lt_reg_r ri); [exact Hi|]. replace (ro / ri * ri) with ro by (field; lra). lra. }
  assert (B : ri / ro < 1). { apply (Rmult_lt_reg_r ro); [lra|]. replace (ri / ro * ro) with ri by (field; lra). lra. }
  assert (0 < ri / ro) by (apply Rdiv_lt_0_compat; lra).
  split; rewrite <- ln_1; apply ln_increasing; try lra.
  apply (Rmult_lt_reg_r (ri / ro + 1)); [lra|]. replace (2 / (ri / ro + 1) * (ri / ro + 1)) with 2 by (field; lra). lra.
Qed.
Lemma inv_frac A X : A <> 0 -> X <> 0 -> / (A / X) = X / A.
Proof. intros; field; split; assumption. Qed.
Theorem C144_cyl : forall Ai ri ro s ai ainf lw li,
  0 < Ai -> 0 < ri -> ri < ro -> 0 <= s -> 0 < ai -> 0 < ainf -> 0 < lw -> 0 < li ->
  / UA_fld_wll_cyl Ai ri ro ai lw +
  / UA_wll_ins_amb_cyl Ai ri ro (ri * ln ((ro + s) / ro)) (ri / (ro + s)) ainf lw li =
  / UA_fld_wll_ins_amb_cyl Ai (ri * ln (ro / ri)) (ri * ln ((ro + s) / ro)) (ri / (ro + s)) ai ainf lw li.
Proof.
  intros Ai ri ro s ai ainf lw li HA Hi Ho Hs Hai Hinf Hlw Hli.
  pose proof (ln_mid ri ro Hi ltac:(lra)) as M. destruct (ln_mid_pos ri ro Hi Ho) as [P1 P2].
  unfold UA_fld_wll_cyl, UA_wll_ins_amb_cyl, UA_fld_wll_ins_amb_cyl.
  set (L1 := ln ((ro / ri + 1) / 2)) in *. set (L2 := ln (2 / (ri / ro + 1))) in *.
  assert (I : 0 <= ri * ln ((ro + s) / ro)).
  { apply Rmult_le_pos; [lra|]. rewrite <- ln_1.
    assert (1 <= (ro + s) / ro).
    { apply (Rmult_le_reg_r ro); [lra|]. replace ((ro + s) / ro * ro) with (ro + s) by (field; lra). lra. }
    destruct (Req_dec 1 ((ro + s) / ro)) as [E|E]; [rewrite <- E; lra|]. left; apply ln_increasing; lra. }
  set (J := ri * ln ((ro + s) / ro)) in *.
  assert (0 < / ai) by (apply Rinv_0_lt_compat; exact Hai).
  assert (0 < ri * L1 / lw) by (apply Rdiv_lt_0_compat; nra).
  assert (0 < ri * L2 / lw) by (apply Rdiv_lt_0_compat; nra).
  assert (0 <= J / li) by (apply Rmult_le_pos; [exact I|left; apply Rinv_0_lt_compat; exact Hli]).
  assert (0 < ri / (ro + s) / ainf) by (apply Rdiv_lt_0_compat; [apply Rdiv_lt_0_compat; lra|exact Hinf]).
  rewrite <- M.
  assert (E : ri * (L1 + L2) / lw = ri * L1 / lw + ri * L2 / lw) by (unfold Rdiv; ring).
  rewrite E. unfold Rdiv at 2. rewrite Rmult_1_l.
  rewrite !inv_frac; try lra; unfold Rdiv at 3 5 7 9 11; unfold Rdiv; try ring; try lra.
Qed.
Print Assumptions C144_cyl.
Example C144_cyl_example :
  / UA_fld_wll_cyl 1 1 2 10 50 + / UA_wll_ins_amb_cyl 1 1 2 (1 * ln ((2 + 1) / 2)) (1 / (2 + 1)) 5 50 (/ 25) =
  / UA_fld_wll_ins_amb_cyl 1 (1 * ln (2 / 1)) (1 * ln ((2 + 1) / 2)) (1 / (2 + 1)) 10 5 50 (/ 25).
Proof. apply C144_cyl; lra. Qed.
Theorem C144_bare : forall Ai ri ro ai ainf lw,
  0 < Ai -> 0 < ri -> ri < ro -> 0 < ai -> 0 < ainf -> 0 < lw ->
  / UA_fld_wll_cyl Ai ri ro ai lw + / UA_wll_amb_cyl Ai ri ro ainf lw =
  / UA_fld_wll_amb_cyl Ai (ri * ln (ro / ri)) (ri / ro) ai ainf lw /\
  UA_fld_wll_amb_cyl Ai (ri * ln (ro / ri)) (ri / ro) ai ainf lw =
  UA_fld_wll_ins_amb_cyl Ai (ri * ln (ro / ri)) (ri * ln ((ro + 0) / ro)) (ri / (ro + 0)) ai ainf lw 1.
Proof.
  intros Ai ri ro ai ainf lw HA Hi Ho Hai Hinf Hlw. split.
  - pose proof (ln_mid ri ro Hi ltac:(lra)) as M. destruct (ln_mid_pos ri ro Hi Ho) as [P1 P2].
    unfold UA_fld_wll_cyl, UA_wll_amb_cyl, UA_fld_wll_amb_cyl.
    set (L1 := ln ((ro / ri + 1) / 2)) in *. set (L2 := ln (2 / (ri / ro + 1))) in *.
    assert (0 < 1 / ai) by (apply Rdiv_lt_0_compat; lra).
    assert (0 < ri * L1 / lw) by (apply Rdiv_lt_0_compat; nra).
    assert (0 < ri * L2 / lw) by (apply Rdiv_lt_0_compat; nra).
    assert (Q : ri / (ro * ainf) = ri / ro / ainf) by (field; lra).
    assert (0 < ri / ro / ainf) by (apply Rdiv_lt_0_compat; [apply Rdiv_lt_0_compat; lra|exact Hinf]).
    rewrite <- M, Q.
    assert (E : ri * (L1 + L2) / lw = ri * L1 / lw + ri * L2 / lw) by (unfold Rdiv; ring).
    rewrite E, !inv_frac; try lra; try (field; repeat split; lra).
  - unfold UA_fld_wll_amb_cyl, UA_fld_wll_ins_amb_cyl. rewrite Rplus_0_r.
    replace (ro / ro) with 1 by (field; lra). rewrite ln_1. f_equal. field; repeat split; lra.
Qed.
Print Assumptions C144_bare.
Theorem C144_plate : forall A s1 s2 si af ainf lw li,
  0 < A -> 0 <= s1 -> 0 <= s2 -> 0 <= si -> 0 < af -> 0 < ainf -> 0 < lw -> 0 < li ->
  / UA_fld_wll_plate A s1 af lw + / UA_wll_ins_amb_plate A s2 si lw li ainf =
  / UA_fld_wll_ins_amb_plate A (s1 + s2) si af ainf lw li.
Proof.
  intros A s1 s2 si af ainf lw li HA H1 H2 Hsi Hf Hinf Hlw Hli.
  unfold UA_fld_wll_plate, UA_wll_ins_amb_plate, UA_fld_wll_ins_amb_plate.
  assert (0 < 1 / af) by (apply Rdiv_lt_0_compat; lra).
  assert (0 < 1 / ainf) by (apply Rdiv_lt_0_compat; lra).
  assert (Pos : forall u v, 0 <= u -> 0 < v -> 0 <= u / v)
    by (intros u v Hu Hv; apply Rmult_le_pos; [exact Hu|left; apply Rinv_0_lt_compat; exact Hv]).
  pose proof (Pos s1 lw H1 Hlw). pose proof (Pos s2 lw H2 Hlw). pose proof (Pos si li Hsi Hli).
  assert (E : (s1 + s2) / lw = s1 / lw + s2 / lw) by (field; lra).
  rewrite E, !inv_frac; try lra; try (field; repeat split; lra).
Qed.
Print Assumptions C144_plate.
(** The resistance of the whole wall is counted twice, if both halves are given its whole thickness. *)
Theorem C144_thickness : forall A s si af ainf lw li,
  0 < A -> 0 < s -> 0 <= si -> 0 < af -> 0 < ainf -> 0 < lw -> 0 < li ->
  / UA_fld_wll_plate A s af lw + / UA_wll_ins_amb_plate A s si lw li ainf =
  / UA_fld_wll_ins_amb_plate A s si af ainf lw li + s / (lw * A).
Proof.
  intros A s si af ainf lw li HA Hs Hsi Hf Hinf Hlw Hli.
  rewrite C144_plate by lra. unfold UA_fld_wll_ins_amb_plate.
  assert (0 < 1 / af) by (apply Rdiv_lt_0_compat; lra).
  assert (0 < 1 / ainf) by (apply Rdiv_lt_0_compat; lra).
  assert (0 < s / lw) by (apply Rdiv_lt_0_compat; lra).
  assert (0 <= si / li) by (apply Rmult_le_pos; [exact Hsi|left; apply Rinv_0_lt_compat; exact Hli]).
  assert (E : (s + s) / lw = s / lw + s / lw) by (field; lra).
  rewrite E, !inv_frac; try lra; try (field; repeat split; lra).
Qed.
Print Assumptions C144_thickness.
Example C144_plate_example :
  / UA_fld_wll_plate 2 1 10 50 + / UA_wll_ins_amb_plate 2 1 3 50 (/ 25) 5 = / UA_fld_wll_ins_amb_plate 2 (1 + 1) 3 10 5 50 (/ 25).
Proof. apply C144_plate; lra. Qed.
