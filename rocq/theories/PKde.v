(** * C170: what the exchanged arguments of the density plot mean. *)
From Coq Require Import Reals List Bool Arith Lra Lia.
From Verif Require Import MMpcCost MErr PErr.
Import ListNotations.
Open Scope R_scope.

(** [annotate_errors(y, y_hat)] (_utility/plotting.py 731-755) with the default
    measures: coefficient of determination, CV(RMSE), normalised mean bias. *)
Definition annotate (y h : arr) : out (option R) * out (option R) * out (option R) :=
  (r_squared y h, cv_rmse y h, normalized_mean MSD y h).

(** _utility/plotting.py 520: [annotate_errors(y=y_hat, y_hat=y)]. *)
Definition kde_annotation (y h : arr) := annotate h y.

Lemma msd_opp : forall y h, length y = length h -> msd1 h y = - msd1 y h.
Proof.
  intros y h L. unfold msd1. rewrite (resid_opp y h). unfold mean. rewrite map_length.
  assert (E : rsum (map Ropp (resid h y)) = - rsum (resid h y)).
  { generalize (resid h y). induction l as [|a l IH]; [cbn; ring|]. change (- a + rsum (map Ropp l) = - (a + rsum l)). rewrite IH. ring. }
  rewrite E. unfold Rdiv. ring.
Qed.

(** Whenever realisation and prediction have positive means and the prediction
    is biased, the bias annotated in the plot has the wrong sign: too high a
    prediction is reported as too low. *)
Theorem C170_bias_refuted : forall y h, length y = length h -> 0 < mean y -> 0 < mean h -> msd1 y h <> 0 ->
  exists a b, snd (kde_annotation (One y) (One h)) = Num (Some a) /\
    normalized_mean MSD (One y) (One h) = Num (Some b) /\ b = msd1 y h / mean y /\ a * b < 0.
Proof.
  intros y h L Y H B. exists (msd1 h y / mean h), (msd1 y h / mean y).
  unfold kde_annotation, annotate, normalized_mean, err_fun, mean_signed_deviation, colwise, mean_all, over, ratio. cbn [snd].
  rewrite (same_len y h L), (same_len h y (eq_sym L)).
  destruct (Req_EM_T (mean h) 0) as [E|_]; [lra|]. destruct (Req_EM_T (mean y) 0) as [E|_]; [lra|].
  repeat split. rewrite (msd_opp y h L).
  replace (- msd1 y h / mean h * (msd1 y h / mean y)) with (- (Rsqr (msd1 y h) * / (mean h * mean y))).
  - assert (0 < Rsqr (msd1 y h)) by now apply Rsqr_pos_lt.
    assert (0 < / (mean h * mean y)) by (apply Rinv_0_lt_compat; now apply Rmult_lt_0_compat).
    assert (0 < Rsqr (msd1 y h) * / (mean h * mean y)) by now apply Rmult_lt_0_compat. lra.
  - unfold Rsqr. field. split; lra.
Qed.
Print Assumptions C170_bias_refuted.

(** Measured 1 and 3, predicted 2 and 6: the bias is +2/2 = 100 %, the plot
    shows -50 %. *)
Example C170_bias_example :
  length [1; 3] = length [2; 6] /\ 0 < mean [1; 3] /\ 0 < mean [2; 6] /\ msd1 [1; 3] [2; 6] <> 0 /\
  snd (kde_annotation (One [1; 3]) (One [2; 6])) = Num (Some (-1/2)).
Proof.
  assert (M : mean [1; 3] = 2) by (unfold mean, rsum; cbn; field).
  assert (N : mean [2; 6] = 4) by (unfold mean, rsum; cbn; field).
  assert (D : msd1 [1; 3] [2; 6] = 2) by (unfold msd1, mean, resid, rsum; cbn; field).
  rewrite M, N, D. repeat split; try lra.
  unfold kde_annotation, annotate, normalized_mean, err_fun, mean_signed_deviation, colwise, mean_all, over, ratio. cbn [snd].
  rewrite N. replace (same_length [2; 6] [1; 3]) with true by reflexivity.
  destruct (Req_EM_T 4 0) as [E|_]; [lra|]. rewrite (msd_opp [1; 3] [2; 6] eq_refl), D. do 2 f_equal. lra.
Qed.

(** The coefficient of determination changes too: a prediction that is
    constant explains nothing of the measurements (0), the plot has none. *)
Theorem C170_r_squared_refuted :
  fst (fst (annotate (One [1; 3]) (One [2; 2]))) = Num (Some 0) /\
  fst (fst (kde_annotation (One [1; 3]) (One [2; 2]))) = Num None.
Proof.
  assert (M : mean [1; 3] = 2) by (unfold mean, rsum; cbn; field).
  assert (N : mean [2; 2] = 2) by (unfold mean, rsum; cbn; field).
  unfold kde_annotation, annotate, r_squared, colwise, ratio. cbn [fst].
  replace (same_length [2; 2] [1; 3]) with true by reflexivity.
  replace (same_length [1; 3] [2; 2]) with true by reflexivity.
  assert (T1 : ss_tot (One [1; 3]) = 2) by (unfold ss_tot, ss_tot1; cbn [map]; rewrite M; unfold sq, rsum; cbn; ring).
  assert (T2 : ss_tot (One [2; 2]) = 0) by (unfold ss_tot, ss_tot1; cbn [map]; rewrite N; unfold sq, rsum; cbn; ring).
  assert (S1 : ss_res1 [1; 3] [2; 2] = 2) by (unfold ss_res1, resid, sq, rsum; cbn; ring).
  rewrite T1, T2, S1. split.
  - destruct (Req_EM_T 2 0); [lra|]. cbn. do 2 f_equal. lra.
  - destruct (Req_EM_T 0 0); [reflexivity|lra].
Qed.
Print Assumptions C170_r_squared_refuted.
