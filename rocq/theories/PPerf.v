(** Properties of the performance indicators (C125-C128). *)
From Coq Require Import Reals List Bool Arith ZArith Lia Lra Permutation Sorted.
From Verif Require Import MOut LOut LOut2 MPerf LPerf.
Import ListNotations.
Open Scope R_scope.

Lemma map_snd_combine {A B} (xs : list A) : forall ys : list B, length xs = length ys -> map snd (combine xs ys) = ys.
Proof. induction xs as [|x xs IH]; intros [|y ys] H; cbn in *; try discriminate; auto. f_equal. apply IH. lia. Qed.
Lemma no_error xs : forall ys, length xs = length ys ->
  (forall e, In e (map (fun w => fst w - snd w) (combine xs ys)) -> e = 0) -> xs = ys.
Proof.
  induction xs as [|x xs IH]; intros [|y ys] L Z; cbn in *; try discriminate; auto.
  rewrite (IH ys) by (auto; lia). specialize (Z (x - y) (or_introl eq_refl)). f_equal. lra.
Qed.

(** ** C125: laws of the indicators *)
(** The mean bias error is never larger than the mean absolute error, which is never larger than
    the root mean square error; the mean square error is the square of the latter - for all series,
    also with labels missing on either side. *)
Theorem C125_order ez ip ir p r i : performance ez ip ir p r = Some i ->
  (n_samples i <> 0%nat -> exists b a q, mbe i = Some b /\ mae i = Some a /\ rmse i = Some q /\
     mse i = Some (q * q) /\ Rabs b <= a <= q) /\
  (n_samples i = 0%nat -> mbe i = None /\ mae i = None /\ rmse i = None).
Proof.
  unfold performance. destruct (fit ip ir p r) as [l|]; [|discriminate]. cbn. intros E. injection E as <-.
  set (k := kept ez l). split; intros N.
  - pose proof (fun b a q => order k _ b a q eq_refl) as O.
    unfold evaluate in *. cbn in N, O |- *. unfold quot in *.
    assert (NZ : INR (length k) <> 0) by (apply not_0_INR; exact N).
    destruct (Req_EM_T (INR (length k)) 0); [contradiction|]. cbn in *.
    eexists. eexists. eexists. split; [reflexivity|]. split; [reflexivity|]. split; [reflexivity|].
    split; [reflexivity|]. destruct (O _ _ _ eq_refl eq_refl eq_refl) as (A & B & _). auto.
  - cbn in *. unfold quot. rewrite N. cbn. destruct (Req_EM_T 0 0); [auto|congruence].
Qed.
Print Assumptions C125_order.

(** With the same labels on both sides the indicators are the usual means over the differences. *)
Theorem C125_values ks xs ys i :
  length ks = length xs -> length ks = length ys -> NoDup ks -> ks <> [] ->
  performance false Numbers Numbers (ser ks xs) (ser ks ys) = Some i ->
  let d := map (fun w => fst w - snd w) (combine xs ys) in
  n_samples i = length xs /\
  mbe i = Some (lsum d / INR (length xs)) /\
  mae i = Some (lsum (map Rabs d) / INR (length xs)) /\
  rmse i = Some (sqrt (lsum (map (fun e => e * e) d) / INR (length xs))) /\
  (lmean ys <> 0 -> nmbe i = Some (lsum d / INR (length xs) / lmean ys)).
Proof.
  intros A B D N. rewrite perf_ser by auto. intros E. injection E as <-. cbn [pairs].
  unfold evaluate. cbn [n_samples mbe mae rmse nmbe].
  rewrite residuals_both, measured_both, map_length.
  assert (L : length (combine xs ys) = length xs) by (rewrite combine_length; lia). rewrite L.
  assert (P : INR (length xs) <> 0).
  { apply not_0_INR. rewrite <- A. destruct ks; [congruence|cbn; lia]. }
  assert (SN : map snd (combine xs ys) = ys).
  { apply map_snd_combine. congruence. }
  rewrite SN. unfold quot. destruct (Req_EM_T (INR (length xs)) 0); [contradiction|]. cbn [obind].
  repeat split. intros M. destruct (Nat.eqb_spec (length ys) 0) as [Z|_].
  { exfalso. apply P. rewrite <- A, B, Z. reflexivity. }
  destruct (Req_EM_T (lmean ys) 0); [contradiction|]. reflexivity.
Qed.
Print Assumptions C125_values.

(** The root mean square error is zero exactly if the prediction is right in every row which is
    evaluated. *)
Theorem C125_zero ez ks xs ys i :
  length ks = length xs -> length ks = length ys -> NoDup ks ->
  performance ez Numbers Numbers (ser ks xs) (ser ks ys) = Some i -> n_samples i <> 0%nat ->
  (rmse i = Some 0 <->
   forall k, (k < length ks)%nat -> (ez = true -> nth k xs 0 <> 0 /\ nth k ys 0 <> 0) ->
     nth k xs 0 = nth k ys 0).
Proof.
  intros A B D. rewrite perf_ser by auto. intros E. injection E as <-.
  unfold evaluate. cbn [n_samples rmse]. rewrite residuals_both, map_length.
  set (w := pairs ez (combine xs ys)). intros N.
  assert (P : 0 < INR (length w)) by (apply lt_0_INR; lia).
  unfold quot. destruct (Req_EM_T (INR (length w)) 0); [lra|]. cbn [obind].
  assert (IN : forall x y, In (x, y) w <-> In (x, y) (combine xs ys) /\ (ez = true -> x <> 0 /\ y <> 0)).
  { intros x y. unfold w, pairs. destruct ez.
    - rewrite filter_In. unfold nz. cbn. destruct (Req_EM_T x 0), (Req_EM_T y 0); cbn; intuition congruence.
    - intuition congruence. }
  assert (CB : forall x y, In (x, y) (combine xs ys) <-> exists k, (k < length ks)%nat /\ nth k xs 0 = x /\ nth k ys 0 = y).
  { intros x y. split.
    - intros I. apply In_nth with (d := (0, 0)) in I. destruct I as (k & L & Q).
      rewrite combine_nth in Q by congruence. rewrite combine_length in L. injection Q as <- <-.
      exists k. split; [lia|auto].
    - intros (k & L & <- & <-). rewrite <- combine_nth by congruence. apply nth_In.
      rewrite combine_length. lia. }
  split.
  - intros Z. injection Z as Z. pose proof (lsum_sq_nonneg (map err w)) as Q0.
    assert (S0 : lsum (map (fun e => e * e) (map err w)) = 0).
    { apply sqrt_eq_0 in Z.
      - unfold Rdiv in Z. apply Rmult_integral in Z. destruct Z as [Z|Z]; [exact Z|].
        exfalso. pose proof (Rinv_0_lt_compat _ P). lra.
      - unfold Rdiv. apply Rmult_le_pos; [exact Q0|]. left. apply Rinv_0_lt_compat. exact P. }
    intros k K Z0. pose proof (lsum_sq_zero _ S0) as H.
    assert (I : In (nth k xs 0, nth k ys 0) w) by (apply IN; split; [apply CB; exists k; auto|exact Z0]).
    specialize (H _ (in_map err _ _ I)). unfold err in H. cbn in H. lra.
  - intros H. assert (S0 : lsum (map (fun e => e * e) (map err w)) = 0).
    { rewrite map_map. assert (Z : forall v, In v w -> err v = 0).
      { intros [x y] I. apply IN in I. destruct I as [I Q]. apply CB in I. destruct I as (k & L & <- & <-).
        unfold err. cbn. rewrite (H k L Q). ring. }
      clear - Z. unfold lsum. induction w as [|v w IH]; cbn; [reflexivity|].
      rewrite (Z v) by (left; reflexivity). rewrite IH; [ring|]. intros u U. apply Z. right. exact U. }
    rewrite S0. unfold Rdiv. rewrite Rmult_0_l, sqrt_0. reflexivity.
Qed.
Print Assumptions C125_zero.

(** Another unit of measurement changes MBE, MAE and RMSE like the values and leaves all
    normalised indicators as they are. *)
Theorem C125_units c ez ip ir p r : 0 < c ->
  match performance ez ip ir p r, performance ez ip ir (scale c p) (scale c r) with
  | Some i, Some j => n_samples j = n_samples i /\ mbe j = oscale c (mbe i) /\
      mae j = oscale c (mae i) /\ rmse j = oscale c (rmse i) /\ mse j = oscale (c * c) (mse i) /\
      nmbe j = nmbe i /\ cv_rmse j = cv_rmse i /\ nrmse j = nrmse i /\ nrmse_iqr j = nrmse_iqr i /\
      r2 j = r2 i
  | None, None => True
  | _, _ => False
  end.
Proof.
  intros C. unfold performance.
  assert (F : fit ip ir (scale c p) (scale c r) = obind (fit ip ir p r) (fun l => Some (map (rscale c) l))).
  { unfold fit. replace (length (scale c p)) with (length p) by (symmetry; apply map_length).
    replace (length (scale c r)) with (length r) by (symmetry; apply map_length).
    destruct ip as [|f], ir as [|g]; try reflexivity; try destruct (same_freq f g);
      destruct (length p =? length r)%nat; cbn [andb obind]; rewrite ?concat_scale; reflexivity. }
  rewrite F. destruct (fit ip ir p r) as [l|]; cbn [obind]; [|exact I].
  rewrite kept_scale by lra. apply (evaluate_scale c (kept ez l)). exact C.
Qed.
Print Assumptions C125_units.

(** Not vacuous: a prediction of three temperatures. *)
Example C125_case : forall i,
  performance true Numbers Numbers (ser [1; 2; 3]%Z [20; 25; 30]) (ser [1; 2; 3]%Z [22; 25; 29]) = Some i ->
  n_samples i = 3%nat /\ mbe i = Some (- (1) / 3) /\ mae i = Some 1.
Proof.
  intros i. rewrite perf_ser; [|reflexivity|reflexivity|repeat constructor; cbn; intuition congruence].
  assert (P : pairs true (combine [20; 25; 30] [22; 25; 29]) = [(20, 22); (25, 25); (30, 29)]).
  { cbn. unfold nz. cbn. repeat (destruct (Req_EM_T _ 0); [lra|]; cbn). reflexivity. }
  rewrite P. intros E. injection E as <-. cbn -[INR].
  split; [reflexivity|]. unfold quot, lsum. cbn -[INR].
  destruct (Req_EM_T (INR 3) 0) as [Z|_]; [exfalso; revert Z; apply not_0_INR; discriminate|].
  split; f_equal; cbn [INR]; [field|].
  unfold err. cbn. rewrite (Rabs_left (20 - 22)), (Rabs_right (25 - 25)), (Rabs_right (30 - 29)) by lra. field.
Qed.

(** ** C126: the coefficient of determination *)
(** [ss_total] (2990-2992) multiplies the variance of a sample (which divides by n - 1) by n, so that
    it is too large by n / (n - 1); the returned value is not the coefficient of determination
    but lies above it for every prediction which is not perfect. *)
Theorem C126_r2_refuted ks xs ys i :
  length ks = length xs -> length ks = length ys -> NoDup ks -> (2 <= length ks)%nat -> ssd ys <> 0 ->
  performance false Numbers Numbers (ser ks xs) (ser ks ys) = Some i ->
  let n := INR (length ks) in
  let R2 := 1 - lsum (map (fun w => (fst w - snd w) * (fst w - snd w)) (combine xs ys)) / ssd ys in
  exists v, r2 i = Some v /\ v = 1 - (1 - R2) * (n - 1) / n /\ (xs <> ys -> R2 < v).
Proof.
  intros A B D N S. rewrite perf_ser by auto. intros E. injection E as <-. cbn zeta. cbn [pairs].
  unfold evaluate. cbn [r2]. rewrite residuals_both, measured_both.
  assert (SN : map snd (combine xs ys) = ys).
  { apply map_snd_combine. congruence. }
  rewrite SN. unfold lstd. destruct (Nat.leb_spec (length ys) 1) as [L|L]; [lia|]. cbn [obind].
  rewrite map_map. change (fun x => err x * err x) with (fun w : R * R => (fst w - snd w) * (fst w - snd w)).
  set (q := lsum (map _ (combine xs ys))).
  assert (P : 0 < ssd ys) by (pose proof (ssd_nonneg ys); lra).
  assert (NY : INR (length ys - 1) = INR (length ks) - 1) by (rewrite minus_INR, B by lia; cbn; lra).
  set (n := INR (length ks)) in *. assert (N2 : 2 <= n) by (replace 2 with (INR 2) by (cbn; lra); apply le_INR; exact N).
  rewrite NY. rewrite sqrt_sqrt by (unfold Rdiv; apply Rmult_le_pos; [lra|left; apply Rinv_0_lt_compat; lra]).
  rewrite <- B. fold n. unfold quot. destruct (Req_EM_T (ssd ys / (n - 1) * n) 0) as [Z|_].
  { exfalso. assert (0 < ssd ys / (n - 1) * n); [|lra].
    apply Rmult_lt_0_compat; [|lra]. unfold Rdiv. apply Rmult_lt_0_compat; [lra|apply Rinv_0_lt_compat; lra]. }
  cbn [obind]. eexists. split; [reflexivity|]. split; [field; lra|]. intros NE.
  assert (Q : 0 < q).
  { assert (H : 0 <= q).
    { unfold q. rewrite <- (map_map (fun w : R * R => fst w - snd w) (fun e => e * e)). apply lsum_sq_nonneg. }
    destruct H as [H|H]; [exact H|]. exfalso. apply NE. symmetry in H. unfold q in H.
    rewrite <- (map_map (fun w : R * R => fst w - snd w) (fun e => e * e)) in H.
    pose proof (lsum_sq_zero _ H) as Z. assert (LE : length xs = length ys) by congruence.
    apply no_error; assumption. }
  apply Rplus_lt_compat_l. apply Ropp_lt_contravar.
  replace (q / (ssd ys / (n - 1) * n)) with (q / ssd ys * ((n - 1) / n)) by (field; lra).
  assert (0 < q / ssd ys) by (unfold Rdiv; apply Rmult_lt_0_compat; [lra|apply Rinv_0_lt_compat; lra]).
  assert ((n - 1) / n < 1).
  { apply Rmult_lt_reg_r with n; [lra|]. unfold Rdiv. rewrite Rmult_assoc, Rinv_l; lra. }
  rewrite <- (Rmult_1_r (q / ssd ys)) at 2. apply Rmult_lt_compat_l; assumption.
Qed.
Print Assumptions C126_r2_refuted.

(** Predicting nothing but the mean of the measured values should give 0, but gives 1 / n. *)
Corollary C126_mean_refuted ks ys i :
  length ks = length ys -> NoDup ks -> (2 <= length ks)%nat -> ssd ys <> 0 ->
  performance false Numbers Numbers (ser ks (map (fun _ => lmean ys) ys)) (ser ks ys) = Some i ->
  r2 i = Some (1 / INR (length ks)).
Proof.
  intros A D N S E.
  assert (LE : length ks = length (map (fun _ => lmean ys) ys)) by (rewrite map_length; exact A).
  destruct (C126_r2_refuted ks _ ys i LE A D N S E) as (v & Q & V & _). rewrite Q. f_equal. rewrite V.
  assert (H : lsum (map (fun w : R * R => (fst w - snd w) * (fst w - snd w))
      (combine (map (fun _ => lmean ys) ys) ys)) = ssd ys).
  { rewrite combine_map_self, map_map. unfold ssd. apply lsum_ext. intros x _. cbn. ring. }
  rewrite H. assert (2 <= INR (length ks)) by (replace 2 with (INR 2) by (cbn; lra); apply le_INR; exact N).
  field. split; [lra|exact S].
Qed.
Print Assumptions C126_mean_refuted.

(** Not vacuous: two measured values. *)
Example C126_case : ssd [20; 30] = 50 /\
  forall i, performance false Numbers Numbers (ser [0; 1]%Z [25; 25]) (ser [0; 1]%Z [20; 30]) = Some i ->
  r2 i = Some (1 / 2).
Proof.
  assert (M : lmean [20; 30] = 25) by (unfold lmean, lsum; cbn; lra).
  assert (S : ssd [20; 30] = 50) by (unfold ssd; rewrite M; unfold lsum; cbn; lra).
  split; [exact S|]. intros i E.
  pose proof (C126_mean_refuted [0; 1]%Z [20; 30] i eq_refl) as H. cbn [map length INR] in H. rewrite M in H.
  apply H; [repeat constructor; cbn; intuition congruence|lia|lra|exact E].
Qed.

(** ** C127: comparison by order *)
(** The documentation says that the labels of number indices are ignored and the values compared in
    their order.  They are joined by label instead: if the labels have nothing in common, every
    difference is NaN, the sums skip all of them and any prediction whatsoever is rated as perfect. *)
Theorem C127_labels_refuted ez ks js xs ys i :
  length ks = length xs -> length js = length ys -> length xs = length ys ->
  (forall k, In k ks -> ~ In k js) ->
  performance ez Numbers Numbers (ser ks xs) (ser js ys) = Some i -> n_samples i <> 0%nat ->
  mbe i = Some 0 /\ mae i = Some 0 /\ rmse i = Some 0 /\ mse i = Some 0.
Proof.
  intros A B C D. unfold performance. rewrite fit_numbers by auto. cbn [obind]. intros E. injection E as <-.
  unfold evaluate. cbn [n_samples mbe mae rmse mse].
  rewrite residuals_kept by (apply residuals_disjoint; rewrite !ser_labels by auto; exact D).
  set (m := length (kept ez _)). intros N. unfold lsum. cbn [map fold_right]. unfold quot.
  destruct (Req_EM_T (INR m) 0) as [Z|_]; [exfalso; revert Z; apply not_0_INR; exact N|].
  unfold Rdiv. rewrite Rmult_0_l. cbn [obind]. rewrite sqrt_0, Rmult_0_l. auto.
Qed.
Print Assumptions C127_labels_refuted.

(** In particular twice as many samples as values are reported and the coefficient of determination is 1. *)
Theorem C127_perfect_refuted ks js xs ys i :
  length ks = length xs -> length js = length ys -> length xs = length ys -> NoDup ks -> NoDup js ->
  (forall k, In k ks -> ~ In k js) -> (2 <= length ys)%nat -> ssd ys <> 0 ->
  performance false Numbers Numbers (ser ks xs) (ser js ys) = Some i ->
  n_samples i = (2 * length xs)%nat /\ rmse i = Some 0 /\ r2 i = Some 1.
Proof.
  intros A B C NK NJ D N S E.
  assert (NS : n_samples i = (2 * length xs)%nat).
  { revert E. unfold performance. rewrite fit_numbers by auto. cbn [obind]. intros E. injection E as <-.
    cbn [evaluate n_samples kept]. unfold concat. rewrite map_length, app_length, !ser_labels by auto.
    rewrite filter_all; [lia|]. intros k I. apply negb_true_iff. destruct (has (ser ks xs) k) eqn:H; [|reflexivity].
    apply has_true in H. rewrite ser_labels in H by auto. exfalso. exact (D k H I). }
  split; [exact NS|].
  split. { apply (C127_labels_refuted false ks js xs ys i A B C D E). lia. }
  revert E. unfold performance. rewrite fit_numbers by auto. cbn [obind]. intros E. injection E as <-.
  unfold evaluate. cbn [r2 kept].
  rewrite residuals_disjoint by (rewrite !ser_labels by auto; exact D).
  rewrite measured_disjoint by (rewrite ?ser_labels by auto; auto).
  assert (VS : values (ser js ys) = ys).
  { unfold values, ser. apply map_snd_combine. exact B. }
  rewrite VS. unfold lstd. destruct (Nat.leb_spec (length ys) 1) as [L|L]; [lia|]. cbn [obind].
  assert (P : 0 < ssd ys) by (pose proof (ssd_nonneg ys); lra).
  assert (P1 : 0 < INR (length ys - 1)) by (apply lt_0_INR; lia).
  assert (P2 : 0 < INR (length ys)) by (apply lt_0_INR; lia).
  rewrite sqrt_sqrt by (unfold Rdiv; apply Rmult_le_pos; [lra|left; apply Rinv_0_lt_compat; lra]).
  unfold quot. destruct (Req_EM_T (ssd ys / INR (length ys - 1) * INR (length ys)) 0) as [Z|_].
  { exfalso. assert (0 < ssd ys / INR (length ys - 1) * INR (length ys)); [|lra].
    apply Rmult_lt_0_compat; [|lra]. unfold Rdiv. apply Rmult_lt_0_compat; [lra|apply Rinv_0_lt_compat; lra]. }
  cbn [obind]. unfold lsum. cbn [map fold_right]. f_equal. unfold Rdiv. rewrite Rmult_0_l. ring.
Qed.
Print Assumptions C127_perfect_refuted.

(** Not vacuous: the same two values, once labelled 0, 1 and once 2, 3, against nonsense. *)
Example C127_case : exists i,
  performance true Numbers Numbers (ser [0; 1]%Z [1000; -1000]) (ser [2; 3]%Z [20; 30]) = Some i /\
  n_samples i = 4%nat /\ rmse i = Some 0.
Proof.
  eexists. split; [reflexivity|].
  assert (N : n_samples (evaluate (kept true (concat (ser [0; 1]%Z [1000; -1000]) (ser [2; 3]%Z [20; 30])))) = 4%nat).
  { cbn. repeat (match goal with |- context [Req_EM_T ?a 0] => destruct (Req_EM_T a 0); [lra|]; cbn end). reflexivity. }
  split; [exact N|].
  apply (C127_labels_refuted true [0; 1]%Z [2; 3]%Z [1000; -1000] [20; 30]); try reflexivity.
  - cbn. intuition lia.
  - rewrite N. discriminate.
Qed.

(** ** C128: zeros *)
(** Rows in which both values are zero do not count. *)
Theorem C128_both ks xs ys k :
  length ks = length xs -> length ks = length ys -> NoDup (ks ++ [k]) ->
  performance true Numbers Numbers (ser (ks ++ [k]) (xs ++ [0])) (ser (ks ++ [k]) (ys ++ [0])) =
  performance true Numbers Numbers (ser ks xs) (ser ks ys).
Proof.
  intros A B D. assert (DK : NoDup ks) by (apply NoDup_remove_1 with (l' := []) in D; rewrite app_nil_r in D; exact D).
  rewrite !perf_ser by (rewrite ?app_length; cbn; auto; lia).
  assert (CA : forall us vs (u v : R), length us = length vs -> combine (us ++ [u]) (vs ++ [v]) = combine us vs ++ [(u, v)]).
  { induction us as [|a us IH]; intros [|b vs] u v L; cbn in *; try discriminate; auto. f_equal. apply IH. lia. }
  rewrite CA by congruence. unfold pairs. rewrite filter_app. cbn [filter]. unfold nz at 2. cbn.
  destruct (Req_EM_T 0 0); [|congruence]. cbn. rewrite app_nil_r. reflexivity.
Qed.
Print Assumptions C128_both.

(** But a row is left out as soon as one of the values is zero: whenever the prediction is zero,
    it may be wrong by any amount without any effect on the indicators. *)
Theorem C128_missed_refuted ks xs ys k v :
  length ks = length xs -> length ks = length ys -> NoDup (ks ++ [k]) ->
  performance true Numbers Numbers (ser (ks ++ [k]) (xs ++ [0])) (ser (ks ++ [k]) (ys ++ [v])) =
  performance true Numbers Numbers (ser ks xs) (ser ks ys) /\
  performance true Numbers Numbers (ser (ks ++ [k]) (xs ++ [v])) (ser (ks ++ [k]) (ys ++ [0])) =
  performance true Numbers Numbers (ser ks xs) (ser ks ys).
Proof.
  intros A B D. assert (DK : NoDup ks) by (apply NoDup_remove_1 with (l' := []) in D; rewrite app_nil_r in D; exact D).
  rewrite !perf_ser by (rewrite ?app_length; cbn; auto; lia).
  assert (CA : forall us vs (u v : R), length us = length vs -> combine (us ++ [u]) (vs ++ [v]) = combine us vs ++ [(u, v)]).
  { induction us as [|a us IH]; intros [|b vs] u w L; cbn in *; try discriminate; auto. f_equal. apply IH. lia. }
  rewrite !CA by congruence. unfold pairs. rewrite !filter_app. cbn [filter].
  assert (Z1 : nz (0, v) = false) by (unfold nz; cbn; destruct (Req_EM_T 0 0); [reflexivity|congruence]).
  assert (Z2 : nz (v, 0) = false) by (unfold nz; cbn; destruct (Req_EM_T 0 0); [apply andb_false_r|congruence]).
  rewrite Z1, Z2, !app_nil_r. auto.
Qed.
Print Assumptions C128_missed_refuted.

(** Without the exclusion every row counts. *)
Theorem C128_all ks xs ys i :
  length ks = length xs -> length ks = length ys -> NoDup ks ->
  performance false Numbers Numbers (ser ks xs) (ser ks ys) = Some i -> n_samples i = length ks.
Proof.
  intros A B D. rewrite perf_ser by auto. intros E. injection E as <-. cbn. rewrite map_length, combine_length. lia.
Qed.
Print Assumptions C128_all.

(** Not vacuous: a heater predicted to be off while it delivers 5 kW. *)
Example C128_case : exists i,
  performance true Numbers Numbers (ser [0; 1]%Z [4000; 0]) (ser [0; 1]%Z [4000; 5000]) = Some i /\
  n_samples i = 1%nat /\ rmse i = Some 0.
Proof.
  pose proof (C128_missed_refuted [0]%Z [4000] [4000] 1%Z 5000 eq_refl eq_refl) as H.
  destruct H as [H _]; [repeat constructor; cbn; intuition congruence|]. cbn [app] in H. rewrite H.
  rewrite perf_ser; [|reflexivity|reflexivity|repeat constructor; cbn; tauto].
  eexists. split; [reflexivity|].
  assert (P : pairs true (combine [4000] [4000]) = [(4000, 4000)]).
  { cbn. unfold nz. cbn. repeat (destruct (Req_EM_T _ 0); [lra|]; cbn). reflexivity. }
  rewrite P. cbn -[INR]. split; [reflexivity|]. unfold quot. cbn. destruct (Req_EM_T 1 0); [lra|]. cbn.
  f_equal. unfold err, lsum. cbn. replace (_ / 1) with 0 by field. apply sqrt_0.
Qed.

(** ** Which series are compared at all *)
(** Series in time are only compared if both have the same known frequency and equally many values. *)
Theorem C127_accepted ez ip ir p r :
  (exists i, performance ez ip ir p r = Some i) <->
  length p = length r /\ (ip = Numbers \/ exists f, ip = Times (Some f) /\ ir = Times (Some f)).
Proof.
  unfold performance. split.
  - intros [i E]. destruct (fit ip ir p r) as [l|] eqn:F; [|discriminate]. clear E.
    unfold fit in F. destruct ip as [|f].
    + destruct (Nat.eqb_spec (length p) (length r)); [|discriminate]. split; [assumption|left; reflexivity].
    + destruct ir as [|g]; [discriminate|]. destruct f as [a|]; [|discriminate]. destruct g as [b|]; [|discriminate].
      cbn [same_freq] in F. destruct (Z.eqb_spec a b) as [->|]; [|discriminate].
      destruct (Nat.eqb_spec (length p) (length r)); [|discriminate]. split; [assumption|right; exists b; auto].
  - intros [L [->|(f&->&->)]]; unfold fit; cbn [same_freq]; rewrite ?Z.eqb_refl, L, Nat.eqb_refl; eexists; reflexivity.
Qed.
Print Assumptions C127_accepted.
(** A prediction with numbers as index is compared with a measurement in time, though both must be of the same type;
    the other way round it is refused. *)
Theorem C127_mixed_refuted ez f p r : length p = length r ->
  (exists i, performance ez Numbers (Times f) p r = Some i) /\ performance ez (Times f) Numbers p r = None.
Proof.
  intros L. split; [apply C127_accepted; auto|reflexivity].
Qed.
Print Assumptions C127_mixed_refuted.
Example C127_accepted_ex :
  (exists i, performance false (Times (Some 60%Z)) (Times (Some 60%Z)) (ser [0; 60]%Z [1; 2]) (ser [0; 60]%Z [1; 3]) = Some i) /\
  (exists i, performance false Numbers (Times None) (ser [0; 1]%Z [1; 2]) (ser [0; 60]%Z [1; 3]) = Some i) /\
  performance false (Times (Some 60%Z)) (Times (Some 900%Z)) (ser [0; 60]%Z [1; 2]) (ser [0; 900]%Z [1; 3]) = None.
Proof.
  split; [apply C127_accepted; cbn; split; [reflexivity|right; exists 60%Z; auto]|].
  split; [apply C127_accepted; cbn; auto|reflexivity].
Qed.

(** ** What the normalised indicators are normalised by *)
Lemma sorted_unique : forall a b : list R, Permutation a b -> StronglySorted Rle a -> StronglySorted Rle b -> a = b.
Proof.
  induction a as [|x a IH]; intros b P A B; [apply Permutation_nil in P; now subst|].
  destruct b as [|y b]; [apply Permutation_sym, Permutation_nil in P; discriminate|].
  inversion A as [|? ? A1 A2]; inversion B as [|? ? B1 B2]; subst. rewrite Forall_forall in *.
  assert (x = y).
  { apply Rle_antisym.
    - destruct (Permutation_in _ (Permutation_sym P) (or_introl eq_refl)) as [->|H]; [lra|auto].
    - destruct (Permutation_in _ P (or_introl eq_refl)) as [->|H]; [lra|auto]. }
  subst y. f_equal. apply IH; auto. apply Permutation_cons_inv in P. exact P.
Qed.
Lemma isort_unique y s : Permutation y s -> StronglySorted Rle s -> isort y = s.
Proof.
  intros P S. apply sorted_unique; [|apply isort_sorted|exact S].
  apply Permutation_trans with y; [apply Permutation_sym, isort_perm|exact P].
Qed.
(** The quartile is found at the position [k (n - 1) / 4] of the ordered values, on the straight line between its
    neighbours. *)
Lemma quartile_at k y s j : Permutation y s -> StronglySorted Rle s -> (j + 1 < length y)%nat ->
  let pos := INR k * (INR (length y) - 1) / 4 in
  INR j <= pos <= INR j + 1 ->
  quartile k y = (INR j + 1 - pos) * nth j s 0 + (pos - INR j) * nth (j + 1) s 0.
Proof.
  intros P S J pos Hp. unfold quartile. rewrite (isort_unique y s P S).
  set (h := (k * (length y - 1))%nat).
  assert (E : pos = INR h / 4).
  { unfold pos, h. rewrite mult_INR, minus_INR by lia. cbn [INR]. reflexivity. }
  rewrite E in *. pose proof (Nat.div_mod_eq h 4) as D. pose proof (Nat.mod_upper_bound h 4 ltac:(lia)) as M.
  assert (DR : INR h = 4 * INR (h / 4) + INR (h mod 4)).
  { rewrite D at 1. rewrite plus_INR, mult_INR. cbn [INR]. lra. }
  assert (L1 : (4 * j <= h)%nat) by (apply INR_le; rewrite mult_INR; cbn [INR]; lra).
  assert (L2 : (h <= 4 * j + 4)%nat) by (apply INR_le; rewrite plus_INR, mult_INR; cbn [INR]; lra).
  assert (C : (h / 4 = j)%nat \/ ((h / 4 = j + 1)%nat /\ (h mod 4 = 0)%nat)) by lia.
  destruct C as [C|[C Z]]; rewrite DR, C in *.
  - field.
  - rewrite Z, plus_INR. cbn [INR]. field.
Qed.

Theorem C125_normalised ks xs ys i lo hi :
  length ks = length xs -> length ks = length ys -> NoDup ks ->
  performance false Numbers Numbers (ser ks xs) (ser ks ys) = Some i ->
  In lo ys -> In hi ys -> (forall v, In v ys -> lo <= v <= hi) ->
  exists b q, mbe i = Some b /\ rmse i = Some q /\
  (lmean ys <> 0 -> nmbe i = Some (b / lmean ys) /\ cv_rmse i = Some (q / lmean ys)) /\
  (lo <> hi -> nrmse i = Some (q / (hi - lo))) /\
  (forall s m, Permutation ys s -> StronglySorted Rle s -> length ys = (4 * m + 1)%nat ->
     nth m s 0 <> nth (3 * m) s 0 -> nrmse_iqr i = Some (q / (nth (3 * m) s 0 - nth m s 0))).
Proof.
  intros A B D E Hlo Hhi R. rewrite perf_ser in E by auto. injection E as <-.
  change (pairs false (combine xs ys)) with (combine xs ys).
  assert (Y : measured (map both (combine xs ys)) = ys) by (rewrite measured_both; apply map_snd_combine; lia).
  assert (N : (0 < length ys)%nat) by (destruct ys; [contradiction|cbn; lia]).
  assert (LN : length (map both (combine xs ys)) = length ys) by (rewrite map_length, combine_length; lia).
  assert (NZ : INR (length ys) <> 0) by (apply not_0_INR; lia).
  assert (FB : (length ys =? 0)%nat = false) by (apply Nat.eqb_neq; lia).
  unfold evaluate. cbv zeta. cbn [mbe rmse nmbe cv_rmse nrmse nrmse_iqr]. rewrite Y, LN, FB.
  set (sr := lsum (map (fun e => e * e) _)). set (sm := lsum (residuals _)).
  assert (Q : forall a c, c <> 0 -> quot a c = Some (a / c)).
  { intros a c Hc. unfold quot. destruct (Req_EM_T c 0); [contradiction|reflexivity]. }
  rewrite (Q sm _ NZ), (Q sr _ NZ). cbn [obind]. eexists. eexists. split; [reflexivity|]. split; [reflexivity|].
  split; [|split].
  - intros Hm. rewrite !Q by exact Hm. split; reflexivity.
  - intros Hd. assert (largest ys = hi) as ->.
    { unfold largest. apply Rle_antisym.
      - apply R. apply (Permutation_in _ (Permutation_sym (isort_perm ys))). apply nth_In. rewrite isort_length. lia.
      - destruct (In_nth_R _ _ (Permutation_in _ (isort_perm ys) Hhi)) as (j&Hj&<-). rewrite isort_length in Hj.
        apply sorted_nth; [apply isort_sorted|lia|rewrite isort_length; lia]. }
    assert (smallest ys = lo) as ->.
    { unfold smallest. apply Rle_antisym.
      - destruct (In_nth_R _ _ (Permutation_in _ (isort_perm ys) Hlo)) as (j&Hj&<-). rewrite isort_length in Hj.
        apply sorted_nth; [apply isort_sorted|lia|rewrite isort_length; lia].
      - apply R. apply (Permutation_in _ (Permutation_sym (isort_perm ys))). apply nth_In. rewrite isort_length. lia. }
    apply Q. lra.
  - intros s m P S L Hne. assert (M : (m <> 0)%nat) by (intros ->; apply Hne; reflexivity).
    assert (LR : INR (length ys) = 4 * INR m + 1) by (rewrite L, plus_INR, mult_INR; cbn [INR]; lra).
    rewrite (quartile_at 1 ys s m P S ltac:(lia)) by (rewrite LR; cbn [INR]; lra).
    rewrite (quartile_at 3 ys s (3 * m) P S ltac:(lia)) by (rewrite LR, mult_INR; cbn [INR]; lra).
    rewrite LR, mult_INR. cbn [INR].
    assert (LS : length s = length ys) by (symmetry; apply Permutation_length, P).
    assert (O : nth m s 0 <= nth (3 * m) s 0) by (apply sorted_nth; [exact S|lia|lia]).
    match goal with |- quot _ (Rabs ?t) = _ => replace t with (nth (3 * m) s 0 - nth m s 0) by (field) end.
    rewrite Rabs_right by lra. apply Q. lra.
Qed.
Print Assumptions C125_normalised.
(** In general the quartiles are interpolated. *)
Theorem C125_quartiles k y s j : Permutation y s -> StronglySorted Rle s -> (j + 1 < length y)%nat ->
  let pos := INR k * (INR (length y) - 1) / 4 in
  INR j <= pos <= INR j + 1 ->
  quartile k y = (INR j + 1 - pos) * nth j s 0 + (pos - INR j) * nth (j + 1) s 0.
Proof. exact (quartile_at k y s j). Qed.
Print Assumptions C125_quartiles.
Example C125_quartiles_ex : quartile 1 [40; 10] = 17.5 /\ quartile 3 [40; 10] = 32.5.
Proof.
  assert (P : Permutation [40; 10] [10; 40]) by apply perm_swap.
  assert (S : StronglySorted Rle [10; 40]) by (repeat constructor; lra).
  rewrite (quartile_at 1 [40; 10] [10; 40] 0 P S ltac:(cbn; lia)) by (cbn; lra).
  rewrite (quartile_at 3 [40; 10] [10; 40] 0 P S ltac:(cbn; lia)) by (cbn; lra). cbn. lra.
Qed.
Example C125_normalised_ex : exists i,
  performance false Numbers Numbers (ser [0; 1; 2; 3; 4]%Z [1; 2; 3; 4; 5]) (ser [0; 1; 2; 3; 4]%Z [2; 3; 4; 5; 6]) = Some i /\
  nrmse i = Some (1 / 4) /\ nrmse_iqr i = Some (1 / 2).
Proof.
  set (i := evaluate (map both (combine [1; 2; 3; 4; 5] [2; 3; 4; 5; 6]))).
  assert (E : performance false Numbers Numbers (ser [0; 1; 2; 3; 4]%Z [1; 2; 3; 4; 5]) (ser [0; 1; 2; 3; 4]%Z [2; 3; 4; 5; 6]) = Some i).
  { rewrite perf_ser; [reflexivity|reflexivity|reflexivity|repeat constructor; cbn; intuition congruence]. }
  exists i. split; [exact E|].
  destruct (C125_normalised [0; 1; 2; 3; 4]%Z [1; 2; 3; 4; 5] [2; 3; 4; 5; 6] i 2 6) as (b&q&_&Hq&_&H1&H2).
  - reflexivity.
  - reflexivity.
  - repeat constructor; cbn; intuition congruence.
  - exact E.
  - cbn. tauto.
  - cbn. tauto.
  - intros v H. cbn in H. repeat (destruct H as [<-|H]; [lra|]). contradiction.
  - assert (q = 1).
    { revert Hq. unfold i. cbn [rmse evaluate]. cbn. unfold quot. cbn. destruct (Req_EM_T _ 0); [lra|]. cbn.
      intros H. injection H as <-. unfold lsum. cbn.
      match goal with |- sqrt ?x = 1 => replace x with 1 by lra end. apply sqrt_1. }
    subst q. split.
    + rewrite H1 by lra. f_equal. lra.
    + rewrite (H2 [2; 3; 4; 5; 6] 1%nat); [cbn; f_equal; lra|reflexivity|repeat constructor; lra|reflexivity|cbn; lra].
Qed.
