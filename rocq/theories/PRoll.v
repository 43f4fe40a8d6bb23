(** Properties of rolling statistics and of the fitting of a control (C135-C138). *)
From Coq Require Import Reals List Bool Arith Lia Lra.
From Verif Require Import MOut LOut LOut2 MRoll.
Import ListNotations.
Open Scope R_scope.

(** ** C135: a fitted control reproduces the measured flow *)
(** The sum of the signed differences is minimised, so that less flow is always better: no simulated
    flow is optimal, and the measured one is beaten by every flow below it. *)
Lemma objective_lower d : forall sim meas, length sim = length meas ->
  objective (map (fun x => x - d) sim) meas = objective sim meas - d * INR (length meas).
Proof.
  unfold objective, lsum. induction sim as [|x sim IH]; intros [|y meas] L; cbn in L; try discriminate.
  - cbn. ring.
  - cbn [map combine fold_right fst snd length]. rewrite S_INR, IH by lia. ring.
Qed.
Theorem C135_unbounded_refuted sim meas : length sim = length meas -> meas <> [] ->
  forall bound, exists d, 0 < d /\ objective (map (fun x => x - d) sim) meas < bound.
Proof.
  intros L N bound. assert (P : 1 <= INR (length meas)).
  { replace 1 with (INR 1) by reflexivity. apply le_INR. destruct meas; [congruence|cbn; lia]. }
  exists (Rabs (objective sim meas - bound) + 1). split; [pose proof (Rabs_pos (objective sim meas - bound)); lra|].
  rewrite objective_lower by exact L. pose proof (Rle_abs (objective sim meas - bound)) as A.
  pose proof (Rabs_pos (objective sim meas - bound)). set (z := Rabs _) in *.
  assert (z + 1 <= (z + 1) * INR (length meas)) by (rewrite <- (Rmult_1_r (z + 1)) at 1; apply Rmult_le_compat_l; lra). lra.
Qed.
Print Assumptions C135_unbounded_refuted.
Theorem C135_below_refuted sim meas : Forall2 Rle sim meas -> sim <> meas -> objective sim meas < objective meas meas.
Proof.
  assert (Z : objective meas meas = 0).
  { unfold objective, lsum. induction meas; cbn; [reflexivity|]. rewrite IHmeas. ring. }
  rewrite Z. clear Z. intros F. assert (G : objective sim meas <= 0 /\ (objective sim meas = 0 -> sim = meas)).
  { unfold objective, lsum. induction F as [|x y sim meas H F [IH1 IH2]]; cbn; [split; [lra|auto]|].
    split; [lra|]. intros E. f_equal; [lra|apply IH2; lra]. }
  intros N. destruct G as [[G|G] E]; [exact G|]. exfalso. auto.
Qed.
Print Assumptions C135_below_refuted.
(** Not vacuous: no flow at all is rated better than the measured flow. *)
Example C135_case : objective [0; 0; 0] [0.2; 0.3; 0.2] < objective [0.2; 0.3; 0.2] [0.2; 0.3; 0.2].
Proof. apply C135_below_refuted; [repeat constructor; lra|]. intros E. injection E. intros. lra. Qed.

(** ** C136: rolling values stay within the data *)
Lemma least_le l x : In x l -> least l <= x.
Proof.
  destruct l as [|y l]; [easy|]. cbn. intros I. assert (forall t, In t (y :: l) -> fold_right Rmin y l <= t).
  { clear I x. induction l as [|z l IH]; intros t J; cbn.
    - destruct J as [<-|[]]. lra.
    - destruct J as [<-|[<-|J]].
      + apply Rle_trans with (1 := Rmin_r _ _). apply IH. left. reflexivity.
      + apply Rmin_l.
      + apply Rle_trans with (1 := Rmin_r _ _). apply IH. right. exact J. }
  auto.
Qed.
Lemma greatest_ge l x : In x l -> x <= greatest l.
Proof.
  destruct l as [|y l]; [easy|]. cbn. intros I. assert (forall t, In t (y :: l) -> t <= fold_right Rmax y l).
  { clear I x. induction l as [|z l IH]; intros t J; cbn.
    - destruct J as [<-|[]]. lra.
    - destruct J as [<-|[<-|J]].
      + apply Rle_trans with (2 := Rmax_r _ _). apply IH. left. reflexivity.
      + apply Rmax_l.
      + apply Rle_trans with (2 := Rmax_r _ _). apply IH. right. exact J. }
  auto.
Qed.
Lemma least_in l : l <> [] -> In (least l) l.
Proof.
  destruct l as [|y l]; [congruence|]. intros _. cbn. induction l as [|z l IH]; cbn; [auto|].
  set (v := fold_right Rmin y l) in *.
  assert (D : Rmin z v = z \/ Rmin z v = v) by (unfold Rmin; destruct (Rle_dec z v); auto). destruct D as [->| ->]; tauto.
Qed.
Lemma greatest_in l : l <> [] -> In (greatest l) l.
Proof.
  destruct l as [|y l]; [congruence|]. intros _. cbn. induction l as [|z l IH]; cbn; [auto|].
  set (v := fold_right Rmax y l) in *.
  assert (D : Rmax z v = z \/ Rmax z v = v) by (unfold Rmax; destruct (Rle_dec z v); auto). destruct D as [->| ->]; tauto.
Qed.
Lemma lsum_bounds lo hi l : (forall x, In x l -> lo <= x <= hi) ->
  INR (length l) * lo <= lsum l <= INR (length l) * hi.
Proof.
  induction l as [|x l IH]; intros H; [unfold lsum; cbn; lra|].
  cbn [length]. rewrite S_INR. unfold lsum in *. cbn [fold_right].
  pose proof (H x (or_introl eq_refl)). assert (G : forall y, In y l -> lo <= y <= hi) by (intros; apply H; right; assumption).
  specialize (IH G). lra.
Qed.
Lemma lmean_bounds lo hi l : l <> [] -> (forall x, In x l -> lo <= x <= hi) -> lo <= lmean l <= hi.
Proof.
  intros N H. pose proof (lsum_bounds lo hi l H) as [A B]. unfold lmean.
  assert (P : 0 < INR (length l)) by (apply lt_0_INR; destruct l; [congruence|cbn; lia]).
  split.
  - apply Rmult_le_reg_r with (INR (length l)); [exact P|]. unfold Rdiv. rewrite Rmult_assoc, Rinv_l by lra. lra.
  - apply Rmult_le_reg_r with (INR (length l)); [exact P|]. unfold Rdiv. rewrite Rmult_assoc, Rinv_l by lra. lra.
Qed.
Lemma median_bounds lo hi l : l <> [] -> (forall x, In x l -> lo <= x <= hi) -> lo <= median l <= hi.
Proof.
  intros N H. apply median_majority. rewrite (cnt_all (within lo hi) l).
  - destruct l; [congruence|cbn; lia].
  - intros x I. apply within_true. auto.
Qed.
Lemma statistic_bounds m l lo hi v : m <> Sum -> (forall x, In x l -> lo <= x <= hi) ->
  statistic m l = Some v -> lo <= v <= hi.
Proof.
  intros M H E. assert (N : l <> []) by (intros ->; destruct m; cbn in E; congruence).
  destruct m; [| |congruence| |]; destruct l as [|x l]; try congruence; cbn [statistic] in E; injection E as <-.
  - apply lmean_bounds; auto.
  - apply median_bounds; auto.
  - exact (H _ (least_in (x :: l) N)).
  - exact (H _ (greatest_in (x :: l) N)).
Qed.
Lemma in_rows a b l x : In x (rows a b l) -> In x l.
Proof.
  unfold rows. intros I. rewrite <- (firstn_skipn a l). apply in_or_app. right.
  rewrite <- (firstn_skipn (b - a) (skipn a l)). apply in_or_app. left. exact I.
Qed.
(** The window a value of the result belongs to. *)
Lemma rolled_window mp m w q l i v : nth i (rolling_centered mp m w q l) None = Some v ->
  exists a b, statistic m (rows a b l) = Some v.
Proof.
  unfold rolling_centered. intros E. destruct (Nat.lt_ge_cases i (length l)) as [H|H].
  2:{ rewrite nth_overflow in E by (rewrite map_length, seq_length; exact H). discriminate. }
  set (g := if (w mod q =? 0)%nat then by_rows mp m (w / q) l else by_time mp m w q l) in *.
  rewrite (nth_indep _ None (g 0%nat)) in E by (rewrite map_length, seq_length; exact H).
  rewrite map_nth, seq_nth in E by exact H. cbn [Nat.add] in E. unfold g in E.
  destruct (w mod q =? 0)%nat.
  - unfold by_rows, enough in E. destruct (length _ <? _)%nat; [discriminate|]. eauto.
  - unfold by_time in E. destruct (_ <? length l)%nat; [|discriminate].
    unfold in_time, enough in E. destruct (length _ <? _)%nat; [discriminate|]. eauto.
Qed.
Theorem C136_range mp m w q l i v lo hi : m <> Sum -> (forall x, In x l -> lo <= x <= hi) ->
  nth i (rolling_centered mp m w q l) None = Some v -> lo <= v <= hi.
Proof.
  intros M H E. apply rolled_window in E. destruct E as (a & b & E).
  apply (statistic_bounds m (rows a b l)); auto. intros x I. apply H. exact (in_rows a b l x I).
Qed.
Print Assumptions C136_range.

Lemma rolled_nth mp m w q l i : (i < length l)%nat -> nth i (rolling_centered mp m w q l) None =
  if (w mod q =? 0)%nat then by_rows mp m (w / q) l i else by_time mp m w q l i.
Proof.
  intros H. unfold rolling_centered.
  set (g := if (w mod q =? 0)%nat then by_rows mp m (w / q) l else by_time mp m w q l).
  rewrite (nth_indep _ None (g 0%nat)) by (rewrite map_length, seq_length; exact H).
  rewrite map_nth, seq_nth by exact H. unfold g. destruct (w mod q =? 0)%nat; reflexivity.
Qed.
(** Smallest, middle, mean and largest value of the same window are ordered. *)
Theorem C136_order mp w q l i v : (i < length l)%nat ->
  nth i (rolling_centered mp Mean w q l) None = Some v ->
  exists a m b, nth i (rolling_centered mp Min w q l) None = Some a /\
    nth i (rolling_centered mp Median w q l) None = Some m /\
    nth i (rolling_centered mp Max w q l) None = Some b /\ a <= v <= b /\ a <= m <= b.
Proof.
  intros L. rewrite !rolled_nth by exact L.
  assert (G : forall p x, enough p Mean x = Some v -> exists a m b, enough p Min x = Some a /\ enough p Median x = Some m /\
    enough p Max x = Some b /\ a <= v <= b /\ a <= m <= b).
  { intros p x. unfold enough. destruct (length x <? p)%nat; [discriminate|]. destruct x as [|y x]; [discriminate|].
    intros E. exists (least (y :: x)), (median (y :: x)), (greatest (y :: x)). split; [reflexivity|]. split; [reflexivity|].
    split; [reflexivity|].
    assert (B : forall z, In z (y :: x) -> least (y :: x) <= z <= greatest (y :: x)) by (intros; split; [apply least_le|apply greatest_ge]; assumption).
    injection E as <-. split; [apply lmean_bounds|apply median_bounds]; auto; discriminate. }
  destruct (w mod q =? 0)%nat.
  - unfold by_rows. apply G.
  - unfold by_time. destruct (_ <? _)%nat; [apply G|discriminate].
Qed.
Print Assumptions C136_order.

(** ** C137: the window is centred *)
(** A series which rises by [a] from row to row. *)
Definition ramp (a b : R) (n : nat) : list R := map (fun i => a * INR i + b) (seq 0 n).
Lemma rows_ramp a b n x y : (y <= n)%nat -> (x <= y)%nat -> rows x y (ramp a b n) = map (fun i => a * INR i + b) (seq x (y - x)).
Proof.
  intros Y X. unfold rows, ramp. rewrite skipn_map, firstn_map, skipn_seq0, firstn_seq0 by lia. reflexivity.
Qed.
Lemma lsum_ramp a b k : forall x, lsum (map (fun i => a * INR i + b) (seq x k)) =
  INR k * (a * (INR x + (INR k - 1) / 2) + b).
Proof.
  unfold lsum. induction k as [|k IH]; intros x; [cbn; ring|].
  cbn [seq map fold_right]. rewrite IH, !S_INR. field.
Qed.
Lemma mean_ramp a b x k : (0 < k)%nat -> lmean (map (fun i => a * INR i + b) (seq x k)) = a * (INR x + (INR k - 1) / 2) + b.
Proof.
  intros K. unfold lmean. rewrite lsum_ramp, map_length, seq_length. field. apply not_0_INR. lia.
Qed.
Lemma enough_ramp p a b n x y : (y <= n)%nat -> (x < y)%nat -> (p <= y - x)%nat ->
  enough p Mean (rows x y (ramp a b n)) = Some (a * (INR x + (INR (y - x) - 1) / 2) + b).
Proof.
  intros Y X P. rewrite rows_ramp by lia. unfold enough. rewrite map_length, seq_length.
  destruct (Nat.ltb_spec (y - x) p); [lia|]. rewrite <- mean_ramp by lia.
  destruct (y - x)%nat eqn:E; [lia|]. reflexivity.
Qed.
Lemma ramp_length a b n : length (ramp a b n) = n.
Proof. unfold ramp. rewrite map_length, seq_length. reflexivity. Qed.

(** Windows of an odd number of rows: a steady rise is not changed away from the ends. *)
Theorem C137_odd mp q h a b n i : (0 < q)%nat -> (h <= i)%nat -> (i + h < n)%nat ->
  (forall p, mp = Some p -> (p <= 2 * h + 1)%nat) ->
  nth i (rolling_centered mp Mean ((2 * h + 1) * q) q (ramp a b n)) None = Some (a * INR i + b).
Proof.
  intros Q H1 H2 P. rewrite rolled_nth by (rewrite ramp_length; lia).
  rewrite Nat.mod_mul, Nat.div_mul by lia. cbn [Nat.eqb]. unfold by_rows.
  replace ((2 * h + 1 - 1) / 2)%nat with h by (replace (2 * h + 1 - 1)%nat with (h * 2)%nat by lia; rewrite Nat.div_mul; lia).
  rewrite enough_ramp; try lia.
  - f_equal. replace (i + h + 1 - (2 * h + 1))%nat with (i - h)%nat by lia.
    replace (i + h + 1 - (i - h))%nat with (2 * h + 1)%nat by lia.
    rewrite minus_INR, plus_INR, mult_INR by lia. cbn [INR]. field.
  - destruct mp as [p|]; [specialize (P p eq_refl)|]; lia.
Qed.
Print Assumptions C137_odd.

(** Windows of an even number of rows are half a row late. *)
Theorem C137_even_refuted mp q h a b n i : (0 < q)%nat -> (0 < h)%nat -> (h <= i)%nat -> (i + h <= n)%nat -> (i < n)%nat ->
  (forall p, mp = Some p -> (p <= 2 * h)%nat) ->
  nth i (rolling_centered mp Mean (2 * h * q) q (ramp a b n)) None = Some (a * (INR i - 1 / 2) + b).
Proof.
  intros Q H0 H1 H2 H3 P. rewrite rolled_nth by (rewrite ramp_length; lia).
  rewrite Nat.mod_mul, Nat.div_mul by lia. cbn [Nat.eqb]. unfold by_rows.
  replace ((2 * h - 1) / 2)%nat with (h - 1)%nat.
  2:{ symmetry. replace (2 * h - 1)%nat with (1 + (h - 1) * 2)%nat by lia. rewrite Nat.div_add by lia. reflexivity. }
  replace (i + (h - 1) + 1)%nat with (i + h)%nat by lia.
  rewrite enough_ramp; try lia.
  - f_equal. replace (i + h - 2 * h)%nat with (i - h)%nat by lia.
    replace (i + h - (i - h))%nat with (2 * h)%nat by lia.
    rewrite minus_INR, mult_INR by lia. cbn [INR]. field.
  - destruct mp as [p|]; [specialize (P p eq_refl)|]; lia.
Qed.
Print Assumptions C137_even_refuted.

(** Windows which are no multiple of the frequency are late by half a row or, if an odd number of
    rows fits in, by a whole one. *)
Theorem C137_time_refuted mp q k r a b n i : (0 < r < q)%nat -> (1 <= k)%nat -> (k <= i + k / 2)%nat -> (i + k / 2 < n)%nat ->
  (forall p, mp = Some p -> (p <= k)%nat) ->
  nth i (rolling_centered mp Mean (k * q + r) q (ramp a b n)) None =
  Some (a * (INR i - (if Nat.even k then 1 / 2 else 1)) + b).
Proof.
  intros R K H1 H2 P. rewrite rolled_nth by (rewrite ramp_length; lia).
  rewrite Nat.add_comm, Nat.mod_add, (Nat.mod_small r q) by lia. destruct (Nat.eqb_spec r 0) as [Z|_]; [lia|].
  unfold by_time. replace (2 * q)%nat with (q * 2)%nat by lia. rewrite <- Nat.div_div by lia.
  assert (D : ((r + k * q) / q = k)%nat) by (rewrite Nat.div_add, Nat.div_small by lia; reflexivity).
  rewrite D, ramp_length. destruct (Nat.ltb_spec (i + k / 2) n); [|lia].
  unfold in_time. rewrite D, enough_ramp; try lia.
  - f_equal. replace (i + k / 2 - (i + k / 2 - k))%nat with k by lia.
    rewrite minus_INR, plus_INR by lia.
    destruct (Nat.Even_or_Odd k) as [[z ->]|[z ->]].
    + replace (2 * z / 2)%nat with z by (rewrite Nat.mul_comm, Nat.div_mul; lia).
      rewrite Nat.even_mul. cbn [Nat.even orb]. rewrite mult_INR. cbn [INR]. field.
    + replace ((2 * z + 1) / 2)%nat with z by (rewrite Nat.add_comm, Nat.mul_comm, Nat.div_add by lia; reflexivity).
      rewrite Nat.add_comm, Nat.even_add_mul_2. cbn [Nat.even]. rewrite plus_INR, mult_INR. cbn [INR]. field.
  - destruct mp as [p|]; [specialize (P p eq_refl)|]; lia.
Qed.
Print Assumptions C137_time_refuted.

(** Not vacuous: five minutes at one value per minute; two and a half minutes. *)
Example C137_case : nth 4 (rolling_centered (Some 0%nat) Mean ((2 * 2 + 1) * 60) 60 (ramp 2 10 9)) None = Some 18.
Proof. rewrite (C137_odd (Some 0%nat) 60 2 2 10 9 4); try lia; [f_equal; cbn; lra|]. intros p E. injection E as <-. lia. Qed.
Example C137_case2 : nth 4 (rolling_centered (Some 0%nat) Mean (3 * 60 + 30) 60 (ramp 2 10 9)) None = Some 16.
Proof.
  rewrite (C137_time_refuted (Some 0%nat) 60 3 30 2 10 9 4); cbn; try lia; [f_equal; lra|]. intros p E. injection E as <-. lia.
Qed.

(** ** C138: no new gaps with [min_periods = 0] *)
Theorem C138_rows m q k l i : (0 < q)%nat -> (0 < k)%nat -> (i < length l)%nat ->
  nth i (rolling_centered (Some 0%nat) m (k * q) q l) None <> None.
Proof.
  intros Q K L. rewrite rolled_nth by exact L. rewrite Nat.mod_mul, Nat.div_mul by lia. cbn [Nat.eqb].
  unfold by_rows, enough. destruct (Nat.ltb_spec (length (rows (i + (k - 1) / 2 + 1 - k) (i + (k - 1) / 2 + 1) l)) 0) as [H|_]; [lia|].
  assert (N : rows (i + (k - 1) / 2 + 1 - k) (i + (k - 1) / 2 + 1) l <> []).
  { intros E. apply (f_equal (@length R)) in E. unfold rows in E. rewrite firstn_length, skipn_length in E. cbn [length] in E.
    assert ((k - 1) / 2 <= k - 1)%nat by (apply Nat.div_le_upper_bound; lia). lia. }
  destruct (rows _ _ l); [congruence|]. destruct m; discriminate.
Qed.
Print Assumptions C138_rows.

(** If the window is no multiple of the frequency, the last rows are lost. *)
Theorem C138_end_refuted mp m q k r l i : (0 < r < q)%nat -> (2 <= k)%nat -> (length l <= i + k / 2)%nat -> (i < length l)%nat ->
  nth i (rolling_centered mp m (k * q + r) q l) None = None.
Proof.
  intros R K H L. rewrite rolled_nth by exact L.
  rewrite Nat.add_comm, Nat.mod_add, (Nat.mod_small r q) by lia. destruct (Nat.eqb_spec r 0) as [Z|_]; [lia|].
  unfold by_time. replace (2 * q)%nat with (q * 2)%nat by lia. rewrite <- Nat.div_div by lia.
  assert (D : ((r + k * q) / q = k)%nat) by (rewrite Nat.div_add, Nat.div_small by lia; reflexivity).
  rewrite D. destruct (Nat.ltb_spec (i + k / 2) (length l)); [lia|reflexivity].
Qed.
Print Assumptions C138_end_refuted.

(** Not vacuous: the last value is lost for windows of two and a half minutes. *)
Example C138_case : nth 8 (rolling_centered (Some 0%nat) Mean (2 * 60 + 30) 60 (ramp 2 10 9)) None = None /\
  nth 8 (rolling_centered (Some 0%nat) Mean (2 * 60) 60 (ramp 2 10 9)) None <> None.
Proof. split; [apply C138_end_refuted|apply C138_rows]; rewrite ?ramp_length; cbn; lia. Qed.

(** Without [min_periods] exactly the rows have a value whose window lies in the series. *)
Theorem C138_whole m q k l i : (0 < q)%nat -> (0 < k)%nat -> (i < length l)%nat ->
  (nth i (rolling_centered None m (k * q) q l) None <> None <->
   (k <= i + (k - 1) / 2 + 1)%nat /\ (i + (k - 1) / 2 < length l)%nat).
Proof.
  intros Q K L. rewrite rolled_nth by exact L. rewrite Nat.mod_mul, Nat.div_mul by lia. cbn [Nat.eqb].
  unfold by_rows, enough. assert (D : ((k - 1) / 2 <= k - 1)%nat) by (apply Nat.div_le_upper_bound; lia).
  assert (E : length (rows (i + (k - 1) / 2 + 1 - k) (i + (k - 1) / 2 + 1) l) =
              Nat.min (i + (k - 1) / 2 + 1 - (i + (k - 1) / 2 + 1 - k)) (length l - (i + (k - 1) / 2 + 1 - k)))
    by (unfold rows; rewrite firstn_length, skipn_length; reflexivity).
  destruct (Nat.ltb_spec (length (rows (i + (k - 1) / 2 + 1 - k) (i + (k - 1) / 2 + 1) l)) k) as [H|H].
  - split; [congruence|]. intros [A B]. lia.
  - split; [intros _; lia|]. intros _. destruct (rows (i + (k - 1) / 2 + 1 - k) (i + (k - 1) / 2 + 1) l) as [|x r]; [cbn in H; lia|].
    destruct m; discriminate.
Qed.
Print Assumptions C138_whole.
