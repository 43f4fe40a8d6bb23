(** Property theorems about the error measures (C51, C52, C79, C80). *)
From Coq Require Import Reals Lra Lia List Bool Arith.
From Verif Require Import MMpcCost MErr.
Import ListNotations.
Open Scope R_scope.

(** ** Sums *)

Lemma rsum_map_plus {A} (f g : A -> R) l : rsum (map (fun a => f a + g a) l) = rsum (map f l) + rsum (map g l).
Proof. unfold rsum. induction l as [|a l IH]; cbn [map fold_right]; [ring|]. rewrite IH. ring. Qed.
Lemma rsum_map_scale {A} c (f : A -> R) l : rsum (map (fun a => c * f a) l) = c * rsum (map f l).
Proof. unfold rsum. induction l as [|a l IH]; cbn [map fold_right]; [ring|]. rewrite IH. ring. Qed.
Lemma rsum_const {A} c (l : list A) : rsum (map (fun _ => c) l) = INR (length l) * c.
Proof.
  induction l as [|a l IH]; [cbn; ring|].
  change (c + rsum (map (fun _ => c) l) = INR (S (length l)) * c). rewrite IH, S_INR. ring.
Qed.
Lemma rsum_nonneg l : Forall (fun v => 0 <= v) l -> 0 <= rsum l.
Proof. induction 1 as [|a l A F IH]; unfold rsum in *; cbn [fold_right]; lra. Qed.
Lemma rsum_zero l : Forall (fun v => 0 <= v) l -> rsum l = 0 -> Forall (fun v => v = 0) l.
Proof.
  induction 1 as [|a l A F IH]; intro Z; constructor; pose proof (rsum_nonneg l F) as P;
  unfold rsum in *; cbn [fold_right] in Z; [lra|apply IH; lra].
Qed.
Lemma rsum_abs l : Rabs (rsum l) <= rsum (map Rabs l).
Proof.
  unfold rsum. induction l as [|a l IH]; cbn [map fold_right]; [rewrite Rabs_R0; lra|].
  eapply Rle_trans; [apply Rabs_triang|]. lra.
Qed.

Lemma len_pos {A} (l : list A) : l <> [] -> 0 < INR (length l).
Proof. intro N. apply lt_0_INR. destruct l; [congruence|cbn; lia]. Qed.

Lemma sq_nonneg v : 0 <= sq v. Proof. unfold sq. nra. Qed.

(** Variance of a series of errors. *)
Definition variance (e : list R) : R := mean (map (fun v => sq (v - mean e)) e).

Lemma variance_nonneg e : e <> [] -> 0 <= variance e.
Proof.
  intro N. unfold variance, mean at 1. rewrite map_length. apply Rmult_le_pos.
  - apply rsum_nonneg, Forall_forall. intros v V. apply in_map_iff in V. destruct V as (x & <- & _).
    apply sq_nonneg.
  - left. apply Rinv_0_lt_compat. now apply len_pos.
Qed.

Lemma decomposition e : e <> [] -> mean (map sq e) = variance e + sq (mean e).
Proof.
  intro N. unfold variance. set (m := mean e). unfold mean. rewrite !map_length.
  pose proof (len_pos e N) as P.
  assert (E : rsum (map (fun v => sq (v - m)) e) = rsum (map sq e) - INR (length e) * sq m).
  { transitivity (rsum (map (fun v => sq v + ((-2 * m) * v + sq m)) e)).
    - f_equal. apply map_ext. intro v. unfold sq. ring.
    - rewrite (rsum_map_plus sq (fun v => -2 * m * v + sq m)).
      rewrite (rsum_map_plus (fun v => -2 * m * v) (fun _ => sq m)).
      rewrite (rsum_map_scale (-2 * m) (fun v => v)), rsum_const, map_id.
      assert (S : rsum e = INR (length e) * m) by (unfold m, mean; field; lra).
      rewrite S. unfold sq. ring. }
  rewrite E. field. lra.
Qed.

Lemma mean_abs_le e : e <> [] -> Rabs (mean e) <= mean (map Rabs e).
Proof.
  intro N. pose proof (len_pos e N). unfold mean. rewrite map_length. unfold Rdiv.
  rewrite Rabs_mult, (Rabs_right (/ _)) by (left; now apply Rinv_0_lt_compat).
  apply Rmult_le_compat_r; [left; now apply Rinv_0_lt_compat|apply rsum_abs].
Qed.

Lemma mean_abs_rms e : e <> [] -> mean (map Rabs e) <= sqrt (mean (map sq e)).
Proof.
  intro N. assert (N' : map Rabs e <> []) by (destruct e; [congruence|discriminate]).
  pose proof (decomposition (map Rabs e) N') as D. pose proof (variance_nonneg (map Rabs e) N') as V.
  rewrite map_map in D.
  assert (Q : map (fun x => sq (Rabs x)) e = map sq e).
  { apply map_ext. intro v. unfold sq. rewrite <- Rabs_mult. apply Rabs_right. nra. }
  rewrite Q in D. rewrite D.
  assert (P : 0 <= mean (map Rabs e)).
  { eapply Rle_trans; [apply Rabs_pos|]. apply mean_abs_le. exact N. }
  rewrite <- (sqrt_square (mean (map Rabs e))) at 1 by exact P.
  apply sqrt_le_1_alt. unfold sq. lra.
Qed.

(** ** Residuals *)

(** The errors prediction - observation, row by row. *)
Definition is_error (y h e : list R) : Prop :=
  length e = length y /\ forall i, (i < length y)%nat -> nth i e 0 = nth i h 0 - nth i y 0.

Lemma resid_length y : forall h, length y = length h -> length (resid y h) = length y.
Proof.
  induction y as [|a y IH]; intros [|b h] L; try discriminate; [reflexivity|].
  cbn. f_equal. apply IH. now apply eq_add_S in L.
Qed.

Lemma resid_is_error y : forall h, length y = length h -> is_error y h (resid h y).
Proof.
  unfold is_error. induction y as [|a y IH]; intros [|b h] L; try discriminate.
  - split; [reflexivity|]. cbn. lia.
  - destruct (IH h) as [A B]; [now apply eq_add_S in L|]. split; [cbn; now f_equal|].
    intros [|i] I; [reflexivity|]. cbn. apply B. cbn in I. lia.
Qed.

Lemma is_error_unique y h e : length y = length h -> is_error y h e -> e = resid h y.
Proof.
  intros L [A B]. destruct (resid_is_error y h L) as [C D].
  apply (nth_ext e (resid h y) 0 0); [congruence|]. intros i I. rewrite B, D by lia. reflexivity.
Qed.

Lemma resid_opp y h : resid y h = map Ropp (resid h y).
Proof.
  revert h. induction y as [|a y IH]; intros [|b h]; try reflexivity. cbn. f_equal; [ring|apply IH].
Qed.

Lemma resid_zero y : forall h, length y = length h -> (Forall (fun v => v = 0) (resid y h) <-> y = h).
Proof.
  induction y as [|a y IH]; intros [|b h] L; try discriminate; [split; [auto|constructor]|].
  apply eq_add_S in L. specialize (IH h L). cbn. split.
  - intro F. inversion F; subst. f_equal; [lra|]. now apply IH.
  - intro E. injection E as -> E. constructor; [lra|]. now apply IH.
Qed.

Lemma same_len y h : length y = length h -> same_length y h = true.
Proof. intro L. unfold same_length. now apply Nat.eqb_eq. Qed.

Lemma sq_sum_zero y h : length y = length h -> (rsum (map sq (resid y h)) = 0 <-> y = h).
Proof.
  intro L. rewrite <- (resid_zero y h L). split.
  - intro Z. apply rsum_zero in Z.
    + rewrite Forall_map in Z. eapply Forall_impl; [|exact Z]. intros v V. unfold sq in V. cbn in V. nra.
    + apply Forall_forall. intros v V. apply in_map_iff in V. destruct V as (x & <- & _). apply sq_nonneg.
  - intro F. induction F as [|v l V F IH]; [reflexivity|]. unfold rsum in *. cbn [map fold_right]. rewrite V, IH. unfold sq. ring.
Qed.

(** C51. *)
Theorem C51_laws : forall y h e, length y = length h -> y <> [] -> is_error y h e ->
  exists msd mae mse rms,
    mean_signed_deviation (One y) (One h) = Num msd /\ mean_abs_err (One y) (One h) = Num mae /\
    mean_squared_err (One y) (One h) = Num mse /\ rmse (One y) (One h) = Num rms /\
    Rabs msd <= mae <= rms /\ rms * rms = mse /\ 0 <= rms /\ (mse = 0 <-> y = h) /\
    mse = variance e + msd * msd /\ msd = mean h - mean y.
Proof.
  intros y h e L N E. apply is_error_unique in E; [|exact L]. subst e.
  unfold mean_signed_deviation, mean_abs_err, mean_squared_err, rmse, colwise. rewrite (same_len y h L).
  exists (msd1 y h), (mae1 y h), (mse1 y h), (rmse1 y h).
  assert (NR : resid h y <> []).
  { intro Z. apply (f_equal (@length R)) in Z. rewrite resid_length in Z by congruence.
    destruct y; [congruence|]. cbn in *. lia. }
  assert (AB : map Rabs (resid y h) = map Rabs (resid h y)).
  { rewrite (resid_opp y h), map_map. apply map_ext. intro v. apply Rabs_Ropp. }
  assert (SQ : map sq (resid y h) = map sq (resid h y)).
  { rewrite (resid_opp y h), map_map. apply map_ext. intro v. unfold sq. ring. }
  assert (P : 0 <= mse1 y h).
  { unfold mse1. rewrite SQ, (decomposition _ NR). pose proof (variance_nonneg _ NR).
    pose proof (sq_nonneg (mean (resid h y))). lra. }
  repeat (split; [reflexivity|]).
  split; [unfold msd1, mae1, rmse1, mse1; rewrite AB, SQ; split; [now apply mean_abs_le|now apply mean_abs_rms]|].
  split; [unfold rmse1; now apply sqrt_sqrt|]. split; [apply sqrt_pos|].
  assert (LP : 0 < INR (length y)) by now apply len_pos.
  split; [|split].
  - rewrite <- (sq_sum_zero y h L). unfold mse1, mean. rewrite map_length, resid_length by exact L.
    split; intro Z.
    + apply Rmult_integral in Z. destruct Z as [Z|Z]; [exact Z|].
      exfalso. revert Z. apply Rinv_neq_0_compat. lra.
    + rewrite Z. unfold Rdiv. ring.
  - unfold mse1. rewrite SQ. apply decomposition. exact NR.
  - unfold msd1, mean. rewrite resid_length by congruence. rewrite L.
    assert (S : forall a b, length a = length b -> rsum (resid a b) = rsum a - rsum b).
    { clear. induction a as [|x a IH]; intros [|z b] L; try discriminate; [cbn; ring|].
      change (x - z + rsum (resid a b) = x + rsum a - (z + rsum b)).
      rewrite IH by (now apply eq_add_S in L). ring. }
    rewrite S by congruence. unfold Rdiv. ring.
Qed.

Lemma ss_tot_nonneg y : 0 <= ss_tot1 y.
Proof.
  apply rsum_nonneg, Forall_forall. intros v V. apply in_map_iff in V. destruct V as (x & <- & _).
  apply sq_nonneg.
Qed.

Lemma ss_tot_zero y : ss_tot1 y = 0 -> exists c, y = repeat c (length y).
Proof.
  intro Z. apply rsum_zero in Z.
  - exists (mean y). set (m := mean y) in *. clearbody m. induction y as [|a y IH]; [reflexivity|].
    cbn [map repeat length] in *. inversion Z as [|u v A B]; subst.
    f_equal; [unfold sq in A; nra|apply IH, B].
  - apply Forall_forall. intros v V. apply in_map_iff in V. destruct V as (x & <- & _). apply sq_nonneg.
Qed.

(** A series that is not constant. *)
Definition varies (y : list R) : Prop := ~ exists c, y = repeat c (length y).

Lemma ss_tot_varies y : varies y -> 0 < ss_tot1 y.
Proof.
  intro V. pose proof (ss_tot_nonneg y). destruct (Req_dec (ss_tot1 y) 0) as [Z|Z]; [|lra].
  exfalso. apply V. now apply ss_tot_zero.
Qed.

Lemma ss_res_nonneg y h : 0 <= ss_res1 y h.
Proof.
  apply rsum_nonneg, Forall_forall. intros v V. apply in_map_iff in V. destruct V as (x & <- & _). apply sq_nonneg.
Qed.

Theorem C51_r_squared : forall y h, length y = length h -> varies y ->
  exists r, r_squared (One y) (One h) = Num (Some r) /\ r <= 1 /\ (r = 1 <-> y = h).
Proof.
  intros y h L V. pose proof (ss_tot_varies y V) as T. pose proof (ss_res_nonneg y h) as S.
  exists (1 - ss_res1 y h / ss_tot1 y). unfold r_squared, colwise. rewrite (same_len y h L).
  cbn [ss_tot]. unfold ratio. destruct (Req_EM_T (ss_tot1 y) 0); [lra|].
  split; [reflexivity|]. assert (Q : 0 <= ss_res1 y h / ss_tot1 y).
  { apply Rmult_le_pos; [exact S|left; now apply Rinv_0_lt_compat]. }
  split; [lra|]. rewrite <- (sq_sum_zero y h L). change (rsum (map sq (resid y h))) with (ss_res1 y h). split.
  - intro E. assert (Z : ss_res1 y h / ss_tot1 y = 0) by lra.
    apply (f_equal (fun v => v * ss_tot1 y)) in Z. unfold Rdiv in Z.
    rewrite Rmult_assoc, Rinv_l in Z by lra. lra.
  - intro E. rewrite E. unfold Rdiv. ring.
Qed.

(** ** Columns *)

(** Column [j] after broadcasting. *)
Definition column (a : arr) (j : nat) : option (list R) :=
  match a with One y => Some y | Two [y] => Some y | Two ys => nth_error ys j end.

Lemma nth_error_map2 {A B C} (f : A -> B -> C) a : forall b j v, nth_error (map2 f a b) j = Some v ->
  exists x y, nth_error a j = Some x /\ nth_error b j = Some y /\ v = f x y.
Proof.
  induction a as [|p a IH]; intros [|q b] [|j] v H; cbn in *; try discriminate.
  - injection H as <-. eauto.
  - apply IH, H.
Qed.
Lemma nth_error_map_inv {A B} (f : A -> B) l j v : nth_error (map f l) j = Some v ->
  exists x, nth_error l j = Some x /\ v = f x.
Proof.
  revert j. induction l as [|a l IH]; intros [|j] H; cbn in *; try discriminate; [injection H as <-; eauto|].
  now apply IH.
Qed.

Lemma column_two (ys : list (list R)) j y : nth_error ys j = Some y -> column (Two ys) j = Some y.
Proof.
  destruct ys as [|a [|b ys]]; cbn; try (destruct j; discriminate).
  - destruct j as [|j]; cbn; [auto|]. destruct j; discriminate.
  - auto.
Qed.

Lemma in_forallb {A} (p : A -> bool) l j x : forallb p l = true -> nth_error l j = Some x -> p x = true.
Proof. intros F N. rewrite forallb_forall in F. apply F. eapply nth_error_In. exact N. Qed.

Lemma nth_error_combine {A B} (a : list A) : forall (b : list B) j x y,
  nth_error a j = Some x -> nth_error b j = Some y -> nth_error (combine a b) j = Some (x, y).
Proof.
  induction a as [|p a IH]; intros [|q b] [|j] x y X Y; cbn in *; try discriminate; [congruence|now apply IH].
Qed.

Lemma colwise_column {A} (f : list R -> list R -> A) y h l j v : colwise f y h = Cols l ->
  nth_error l j = Some v -> exists y1 h1, column y j = Some y1 /\ column h j = Some h1 /\
  same_length y1 h1 = true /\ v = f y1 h1.
Proof.
  intros E N. destruct y as [y|ys], h as [h|hs].
  - cbn in E. destruct (same_length y h); discriminate.
  - cbn [colwise] in E. destruct (forallb (same_length y) hs) eqn:F; [|discriminate]. injection E as <-.
    apply nth_error_map_inv in N. destruct N as (x & N & ->). exists y, x.
    repeat split; [now apply column_two|]. now apply (in_forallb _ _ _ _ F N).
  - cbn [colwise] in E. destruct (forallb (fun y => same_length y h) ys) eqn:F; [|discriminate]. injection E as <-.
    apply nth_error_map_inv in N. destruct N as (x & N & ->). exists x, h.
    repeat split; [now apply column_two|]. now apply (in_forallb _ _ _ _ F N).
  - destruct ys as [|y1 [|y2 ys]].
    + cbn [colwise] in E. destruct hs as [|h1 [|h2 hs]].
      * cbn in E. injection E as <-. destruct j; discriminate.
      * cbn in E. injection E as <-. destruct j; discriminate.
      * cbn in E. discriminate.
    + cbn [colwise] in E. destruct (forallb (same_length y1) hs) eqn:F; [|discriminate]. injection E as <-.
      apply nth_error_map_inv in N. destruct N as (x & N & ->). exists y1, x.
      repeat split; [now apply column_two|]. now apply (in_forallb _ _ _ _ F N).
    + destruct hs as [|h1 [|h2 hs]].
      * cbn in E. discriminate.
      * cbn [colwise] in E. destruct (forallb (fun y => same_length y h1) (y1 :: y2 :: ys)) eqn:F; [|discriminate].
        injection E as <-.
        change (f y1 h1 :: f y2 h1 :: map (fun y => f y h1) ys) with (map (fun y => f y h1) (y1 :: y2 :: ys)) in N.
        apply nth_error_map_inv in N. destruct N as (x & N & ->). exists x, h1.
        repeat split; [now apply column_two|]. now apply (in_forallb _ _ _ _ F N).
      * cbn [colwise] in E.
        destruct (Nat.eqb (length (y1 :: y2 :: ys)) (length (h1 :: h2 :: hs)) &&
          forallb (fun p => same_length (fst p) (snd p)) (combine (y1 :: y2 :: ys) (h1 :: h2 :: hs)))%bool eqn:F;
          [|discriminate].
        injection E as <-. apply andb_true_iff in F. destruct F as [_ F].
        change (f y1 h1 :: f y2 h2 :: map2 f ys hs) with (map2 f (y1 :: y2 :: ys) (h1 :: h2 :: hs)) in N.
        apply nth_error_map2 in N. destruct N as (a & b & NA & NB & ->). exists a, b.
        repeat split; [now apply column_two|now apply column_two|].
        apply (in_forallb _ _ _ _ F (nth_error_combine _ _ _ _ _ NA NB)).
Qed.

(** C51: for 2-D data every measure is that of the single columns, hence the laws hold for each. *)
Theorem C51_columns : forall y h l j v m, err_fun m y h = Cols l -> nth_error l j = Some v ->
  exists y1 h1, column y j = Some y1 /\ column h j = Some h1 /\ length y1 = length h1 /\
  err_fun m (One y1) (One h1) = Num v.
Proof.
  intros y h l j v m E N.
  assert (G : forall f : list R -> list R -> R, colwise f y h = Cols l ->
    exists y1 h1, column y j = Some y1 /\ column h j = Some h1 /\ length y1 = length h1 /\
    colwise f (One y1) (One h1) = Num v).
  { intros f F. destruct (colwise_column f y h l j v F N) as (y1 & h1 & A & B & C & ->).
    exists y1, h1. repeat split; try assumption; [now apply Nat.eqb_eq|]. cbn. now rewrite C. }
  destruct m; exact (G _ E).
Qed.

(** C52: one measured series (or a single column) against any number of predictions. *)
Theorem C52_single_partial : forall y h l j v, (exists y1, y = One y1 \/ y = Two [y1]) ->
  r_squared y h = Cols l -> nth_error l j = Some v ->
  exists y1 h1, column y j = Some y1 /\ column h j = Some h1 /\ r_squared (One y1) (One h1) = Num v.
Proof.
  intros y h l j v (y0 & Y) E N. unfold r_squared in E.
  destruct (colwise_column _ y h l j v E N) as (y1 & h1 & A & B & C & V).
  exists y1, h1. repeat split; try assumption. unfold r_squared. cbn [colwise]. rewrite C, V.
  destruct Y as [-> | ->]; cbn in A; injection A as <-; cbn [ss_tot]; [reflexivity|].
  cbn [map]. unfold rsum. cbn [fold_right]. rewrite Rplus_0_r. reflexivity.
Qed.

Lemma rsum_ge_nth l j v : Forall (fun v => 0 <= v) l -> nth_error l j = Some v -> v <= rsum l.
Proof.
  intro F. revert j. induction F as [|a l A F IH]; intros [|j] N; cbn in *; try discriminate.
  - injection N as ->. pose proof (rsum_nonneg l F). unfold rsum in *. lra.
  - specialize (IH j N). unfold rsum in *. lra.
Qed.
Lemma rsum_ge_two l j k v w : Forall (fun v => 0 <= v) l -> nth_error l j = Some v ->
  nth_error l k = Some w -> j <> k -> v + w <= rsum l.
Proof.
  intro F. revert j k. induction F as [|a l A F IH]; intros [|j] [|k] N M D; cbn in *; try discriminate; try congruence.
  - injection N as ->. pose proof (rsum_ge_nth l k w F M). unfold rsum in *. lra.
  - injection M as ->. pose proof (rsum_ge_nth l j v F N). unfold rsum in *. lra.
  - specialize (IH j k N M ltac:(congruence)). unfold rsum in *. lra.
Qed.

(** Several measured columns: the unexplained share of each column is divided by the variation of
    all columns together, so the result is too good. *)
Theorem C52_columns_refuted : forall ys hs l j v y1 h1 r,
  r_squared (Two ys) (Two hs) = Cols l -> nth_error l j = Some (Some v) ->
  nth_error ys j = Some y1 -> column (Two hs) j = Some h1 ->
  r_squared (One y1) (One h1) = Num (Some r) ->
  v = 1 - (1 - r) * ss_tot1 y1 / rsum (map ss_tot1 ys) /\ r <= v /\
  (forall k y2, k <> j -> nth_error ys k = Some y2 -> varies y2 -> r < 1 -> r < v).
Proof.
  intros ys hs l j v y1 h1 r E N Y H S. unfold r_squared in E.
  destruct (colwise_column _ _ _ l j _ E N) as (y1' & h1' & A & B & C & V).
  rewrite (column_two _ _ _ Y) in A. injection A as <-. rewrite H in B. injection B as <-.
  unfold r_squared in S. cbn [colwise] in S. rewrite C in S. cbn [ss_tot] in *.
  unfold ratio in *. destruct (Req_EM_T (ss_tot1 y1) 0) as [|Z]; [discriminate|].
  destruct (Req_EM_T (rsum (map ss_tot1 ys)) 0) as [|ZT]; [discriminate|].
  cbn [option_map] in *. injection S as <-. injection V as ->.
  pose proof (ss_tot_nonneg y1). pose proof (ss_res_nonneg y1 h1) as SR.
  assert (NN : Forall (fun v => 0 <= v) (map ss_tot1 ys)).
  { apply Forall_forall. intros x X. apply in_map_iff in X. destruct X as (u & <- & _). apply ss_tot_nonneg. }
  assert (NE : nth_error (map ss_tot1 ys) j = Some (ss_tot1 y1)) by (apply map_nth_error; exact Y).
  pose proof (rsum_ge_nth _ _ _ NN NE) as GE. set (T := rsum (map ss_tot1 ys)) in *.
  set (t := ss_tot1 y1) in *. set (s := ss_res1 y1 h1) in *.
  assert (tp : 0 < t) by lra. assert (Tp : 0 < T) by lra.
  split; [field; lra|].
  assert (INV : / T <= / t) by (apply Rinv_le_contravar; lra).
  split; [unfold Rdiv; nra|].
  intros k y2 D K VY R. assert (sp : 0 < s).
  { destruct (Req_dec s 0) as [Z0|Z0]; [|lra]. rewrite Z0 in R. unfold Rdiv in R. lra. }
  assert (NK : nth_error (map ss_tot1 ys) k = Some (ss_tot1 y2)) by (apply map_nth_error; exact K).
  pose proof (rsum_ge_two _ _ _ _ _ NN NE NK ltac:(congruence)) as G2. fold T in G2.
  pose proof (ss_tot_varies y2 VY). assert (INV2 : / T < / t).
  { apply Rinv_lt_contravar; [nra|lra]. }
  unfold Rdiv. nra.
Qed.

(** ** C79: units *)

Definition scale (c : R) (a : arr) : arr :=
  match a with One y => One (map (Rmult c) y) | Two ys => Two (map (map (Rmult c)) ys) end.
Definition scale_out (c : R) (o : out R) : out R :=
  match o with Num a => Num (c * a) | Cols l => Cols (map (Rmult c) l) | Error => Error end.

Lemma rsum_scaled c l : rsum (map (Rmult c) l) = c * rsum l.
Proof. unfold rsum. induction l as [|a l IH]; cbn [map fold_right]; [ring|]. rewrite IH. ring. Qed.
Lemma mean_scaled c l : mean (map (Rmult c) l) = c * mean l.
Proof. unfold mean. rewrite rsum_scaled, map_length. unfold Rdiv. ring. Qed.
Lemma resid_scaled c y : forall h, resid (map (Rmult c) y) (map (Rmult c) h) = map (Rmult c) (resid y h).
Proof. induction y as [|a y IH]; intros [|b h]; try reflexivity. cbn. f_equal; [ring|apply IH]. Qed.

Lemma same_scaled c y h : same_length (map (Rmult c) y) (map (Rmult c) h) = same_length y h.
Proof. unfold same_length. now rewrite !map_length. Qed.

Lemma forallb_map {A B} (f : A -> B) p l : forallb p (map f l) = forallb (fun a => p (f a)) l.
Proof. induction l as [|a l IH]; cbn; [reflexivity|]. now rewrite IH. Qed.
Lemma forallb_ext' {A} (p q : A -> bool) l : (forall a, p a = q a) -> forallb p l = forallb q l.
Proof. intro H. induction l as [|a l IH]; cbn; [reflexivity|]. now rewrite IH, H. Qed.
Lemma combine_map {A B} (f : A -> B) a : forall b,
  combine (map f a) (map f b) = map (fun p => (f (fst p), f (snd p))) (combine a b).
Proof. induction a as [|x a IH]; intros [|y b]; try reflexivity. cbn. f_equal. apply IH. Qed.
Lemma map2_map {A B C D} (f : B -> C -> D) (g : A -> B) (h : A -> C) a : forall b,
  map2 f (map g a) (map h b) = map2 (fun x y => f (g x) (h y)) a b.
Proof. induction a as [|x a IH]; intros [|y b]; try reflexivity. cbn. f_equal. apply IH. Qed.
Lemma map_map2 {A B C D} (g : C -> D) (f : A -> B -> C) a : forall b,
  map g (map2 f a b) = map2 (fun x y => g (f x y)) a b.
Proof. induction a as [|x a IH]; intros [|y b]; try reflexivity. cbn. f_equal. apply IH. Qed.
Lemma map2_ext {A B C} (f g : A -> B -> C) a : forall b, (forall x y, f x y = g x y) -> map2 f a b = map2 g a b.
Proof. induction a as [|x a IH]; intros [|y b] H; try reflexivity. cbn. f_equal; auto. Qed.

Lemma colwise_scaled c k (f : list R -> list R -> R) y h :
  (forall a b, f (map (Rmult c) a) (map (Rmult c) b) = k * f a b) ->
  colwise f (scale c y) (scale c h) = scale_out k (colwise f y h).
Proof.
  intro F. set (S := map (Rmult c)) in *.
  assert (G1 : forall y0 hs, forallb (same_length (S y0)) (map S hs) = forallb (same_length y0) hs).
  { intros. rewrite forallb_map. apply forallb_ext'. intro. apply same_scaled. }
  assert (G2 : forall h0 ys, forallb (fun y => same_length y (S h0)) (map S ys) = forallb (fun y => same_length y h0) ys).
  { intros. rewrite forallb_map. apply forallb_ext'. intro. apply same_scaled. }
  assert (M1 : forall y0 hs, map (f (S y0)) (map S hs) = map (Rmult k) (map (f y0) hs)).
  { intros. rewrite !map_map. apply map_ext. intro. apply F. }
  assert (M2 : forall h0 ys, map (fun y => f y (S h0)) (map S ys) = map (Rmult k) (map (fun y => f y h0) ys)).
  { intros. rewrite !map_map. apply map_ext. intro. apply F. }
  destruct y as [y|ys], h as [h|hs]; cbn [scale]; fold S.
  - cbn [colwise]. unfold S at 1 2. rewrite same_scaled. destruct (same_length y h); [|reflexivity].
    cbn [scale_out]. now rewrite F.
  - cbn [colwise]. rewrite G1. destruct (forallb (same_length y) hs); [|reflexivity].
    cbn [scale_out]. now rewrite M1.
  - cbn [colwise]. rewrite G2. destruct (forallb (fun y => same_length y h) ys); [|reflexivity].
    cbn [scale_out]. now rewrite M2.
  - assert (TW : forall ys hs : list (list R),
      (if (Nat.eqb (length (map S ys)) (length (map S hs)) &&
           forallb (fun p => same_length (fst p) (snd p)) (combine (map S ys) (map S hs)))%bool
       then Cols (map2 f (map S ys) (map S hs)) else Error) =
      scale_out k (if (Nat.eqb (length ys) (length hs) &&
           forallb (fun p => same_length (fst p) (snd p)) (combine ys hs))%bool
       then Cols (map2 f ys hs) else Error)).
    { intros us vs. rewrite !map_length, combine_map, forallb_map. cbn [fst snd].
      rewrite (forallb_ext' _ (fun p => same_length (fst p) (snd p))) by (intros; apply same_scaled).
      destruct (_ && _)%bool; [|reflexivity]. cbn [scale_out]. f_equal. rewrite map2_map, map_map2.
      apply map2_ext. intros. apply F. }
    destruct ys as [|y1 [|y2 ys]].
    + destruct hs as [|h1 [|h2 hs]]; [reflexivity|reflexivity|]. exact (TW [] (h1 :: h2 :: hs)).
    + change (map S [y1]) with [S y1]. cbn [colwise]. rewrite G1.
      destruct (forallb (same_length y1) hs); [|reflexivity]. cbn [scale_out]. now rewrite M1.
    + destruct hs as [|h1 [|h2 hs]].
      * exact (TW (y1 :: y2 :: ys) []).
      * change (map S [h1]) with [S h1].
        change (colwise f (Two (map S (y1 :: y2 :: ys))) (Two [S h1])) with
          (if forallb (fun y => same_length y (S h1)) (map S (y1 :: y2 :: ys))
           then Cols (map (fun y => f y (S h1)) (map S (y1 :: y2 :: ys))) else Error).
        change (colwise f (Two (y1 :: y2 :: ys)) (Two [h1])) with
          (if forallb (fun y => same_length y h1) (y1 :: y2 :: ys)
           then Cols (map (fun y => f y h1) (y1 :: y2 :: ys)) else Error).
        rewrite G2, M2. destruct (forallb _ _); reflexivity.
      * exact (TW (y1 :: y2 :: ys) (h1 :: h2 :: hs)).
Qed.

Lemma mse_scaled c a b : mse1 (map (Rmult c) a) (map (Rmult c) b) = (c * c) * mse1 a b.
Proof.
  unfold mse1. rewrite resid_scaled, map_map.
  rewrite (map_ext (fun x => sq (c * x)) (fun x => (c * c) * sq x)) by (intro; unfold sq; ring).
  rewrite <- (map_map sq (Rmult (c * c))). apply mean_scaled.
Qed.
Lemma rmse_scaled c a b : 0 <= c -> rmse1 (map (Rmult c) a) (map (Rmult c) b) = c * rmse1 a b.
Proof.
  intro C. unfold rmse1. rewrite mse_scaled, sqrt_mult_alt by nra. now rewrite sqrt_square.
Qed.
Lemma mae_scaled c a b : 0 <= c -> mae1 (map (Rmult c) a) (map (Rmult c) b) = c * mae1 a b.
Proof.
  intro C. unfold mae1. rewrite resid_scaled, map_map.
  rewrite (map_ext (fun x => Rabs (c * x)) (fun x => c * Rabs x)).
  - rewrite <- (map_map Rabs (Rmult c)). apply mean_scaled.
  - intro x. rewrite Rabs_mult. now rewrite (Rabs_right c) by lra.
Qed.
Lemma msd_scaled c a b : msd1 (map (Rmult c) a) (map (Rmult c) b) = c * msd1 a b.
Proof. unfold msd1. rewrite resid_scaled. apply mean_scaled. Qed.

Definition degree (m : method) : nat := match m with MSE => 2 | _ => 1 end.

Lemma err_scaled m c y h : 0 <= c ->
  err_fun m (scale c y) (scale c h) = scale_out (c ^ degree m) (err_fun m y h).
Proof.
  intro C. destruct m; cbn [err_fun degree]; apply colwise_scaled; intros.
  - rewrite mse_scaled. ring.
  - rewrite rmse_scaled by exact C. ring.
  - rewrite msd_scaled. ring.
  - rewrite mae_scaled by exact C. ring.
Qed.

Definition scale_opt (c : R) (o : out (option R)) : out (option R) :=
  match o with
  | Num a => Num (option_map (Rmult c) a) | Cols l => Cols (map (option_map (Rmult c)) l) | Error => Error
  end.

Lemma over_scaled c k b o : c <> 0 -> over (c * b) (scale_out (c * k) o) = scale_opt k (over b o).
Proof.
  intro C. assert (G : forall a, ratio (c * k * a) (c * b) = option_map (Rmult k) (ratio a b)).
  { intro a. unfold ratio. destruct (Req_EM_T (c * b) 0) as [Z|Z]; destruct (Req_EM_T b 0) as [Y|Y]; try reflexivity.
    - exfalso. apply Rmult_integral in Z. tauto.
    - subst b. exfalso. apply Z. ring.
    - cbn. f_equal. field. split; assumption. }
  destruct o as [a|l|]; cbn; [now rewrite G| |reflexivity]. f_equal. rewrite !map_map. apply map_ext. apply G.
Qed.

Lemma mean_all_scaled c y : mean_all (scale c y) = c * mean_all y.
Proof. destruct y as [y|ys]; cbn [scale mean_all]; [|rewrite <- concat_map]; apply mean_scaled. Qed.

Lemma scale_opt_1 o : scale_opt 1 o = o.
Proof.
  assert (G : forall a : option R, option_map (Rmult 1) a = a) by (intros [a|]; cbn; [f_equal; ring|reflexivity]).
  destruct o as [a|l|]; cbn; [now rewrite G| |reflexivity]. f_equal.
  rewrite (map_ext _ (fun a => a)) by apply G. apply map_id.
Qed.

(** C79: CV(RMSE) and the normalised RMSE, MSD and MAE do not depend on the unit of the data. *)
Theorem C79_unit_free : forall c y h m, 0 < c -> m <> MSE ->
  cv_rmse (scale c y) (scale c h) = cv_rmse y h /\
  normalized_mean m (scale c y) (scale c h) = normalized_mean m y h /\
  (forall quart, quart (scale c y) = (c * fst (quart y), c * snd (quart y)) ->
     normalized_iqr m quart (scale c y) (scale c h) = normalized_iqr m quart y h).
Proof.
  intros c y h m C M.
  assert (D : forall m b, m <> MSE -> over (c * b) (err_fun m (scale c y) (scale c h)) = over b (err_fun m y h)).
  { intros m0 b M0. rewrite err_scaled by lra. replace (c ^ degree m0) with (c * 1) by (destruct m0; cbn; congruence || ring).
    rewrite over_scaled by lra. apply scale_opt_1. }
  split; [|split].
  - unfold cv_rmse. rewrite mean_all_scaled. apply (D RMSE). discriminate.
  - unfold normalized_mean. rewrite mean_all_scaled. now apply D.
  - intros quart Q. unfold normalized_iqr. rewrite Q. cbn [fst snd].
    replace (c * fst (quart y) - c * snd (quart y)) with (c * (fst (quart y) - snd (quart y))) by ring.
    now apply D.
Qed.

(** The default, MSE, does: in another unit the value changes by the conversion factor. *)
Theorem C79_default_refuted : forall c y h, 0 < c ->
  normalized_mean MSE (scale c y) (scale c h) = scale_opt c (normalized_mean MSE y h) /\
  (forall quart, quart (scale c y) = (c * fst (quart y), c * snd (quart y)) ->
     normalized_iqr MSE quart (scale c y) (scale c h) = scale_opt c (normalized_iqr MSE quart y h)).
Proof.
  intros c y h C. split.
  - unfold normalized_mean. rewrite mean_all_scaled, err_scaled by lra. cbn [degree].
    replace (c ^ 2) with (c * c) by ring. apply over_scaled. lra.
  - intros quart Q. unfold normalized_iqr. rewrite Q. cbn [fst snd].
    replace (c * fst (quart y) - c * snd (quart y)) with (c * (fst (quart y) - snd (quart y))) by ring.
    rewrite err_scaled by lra. cbn [degree]. replace (c ^ 2) with (c * c) by ring. apply over_scaled. lra.
Qed.

(** CV(RMSE) of several measured columns is divided by the mean of all of them. *)
Theorem C79_columns_refuted : exists y1 y2 h1 h2 v1 w1,
  cv_rmse (Two [y1; y2]) (Two [h1; h2]) = Cols [Some v1; Some w1] /\
  cv_rmse (One y1) (One h1) <> Num (Some v1).
Proof.
  exists [1], [3], [2], [3], (1 / 2), 0.
  assert (E1 : rmse1 [1] [2] = 1).
  { unfold rmse1, mse1, mean, resid. cbn. unfold sq.
    replace (((1 - 2) * (1 - 2) + 0) / 1) with (1 * 1) by lra. apply sqrt_square. lra. }
  assert (E2 : rmse1 [3] [3] = 0).
  { unfold rmse1, mse1, mean, resid. cbn. unfold sq.
    replace (((3 - 3) * (3 - 3) + 0) / 1) with 0 by lra. apply sqrt_0. }
  assert (M2 : mean [1; 3] = 2) by (unfold mean; cbn; lra).
  assert (M1 : mean [1] = 1) by (unfold mean; cbn; lra).
  unfold cv_rmse, rmse, over, mean_all. cbn [concat app colwise]. cbn [same_length length Nat.eqb andb forallb combine fst snd map2].
  rewrite M2, M1, E1. rewrite E2. unfold ratio. cbn [map].
  destruct (Req_EM_T 2 0); [lra|]. destruct (Req_EM_T 1 0); [lra|].
  split; [replace (0 / 2) with 0 by lra; reflexivity|]. intro Z. injection Z. lra.
Qed.

(** ** C80: adjusted R^2 *)

(** For a fraction [r <= 1] and more samples than parameters it is at most [r], equal only
    without parameters or for a perfect fit, and falls with every additional parameter. *)
Theorem C80_adjusted : forall p q r n, r <= 1 -> 0 <= p -> p <= q -> q < n - 1 ->
  exists a b, r_squared_adj p r n = Some a /\ r_squared_adj q r n = Some b /\
  a <= r /\ b <= a /\ (a = r <-> p = 0 \/ r = 1).
Proof.
  intros p q r n R P PQ QN. unfold r_squared_adj, ratio. destruct (Rle_dec r 1); [|lra].
  destruct (Req_EM_T (n - p - 1) 0); [lra|]. destruct (Req_EM_T (n - q - 1) 0); [lra|].
  cbn [option_map]. do 2 eexists. split; [reflexivity|]. split; [reflexivity|].
  assert (A : 1 - (1 - r) * (n - 1) / (n - p - 1) = r - (1 - r) * (p / (n - p - 1))) by (field; lra).
  assert (IP : 0 < / (n - p - 1)) by (apply Rinv_0_lt_compat; lra).
  assert (PP : 0 <= p / (n - p - 1)) by (apply Rmult_le_pos; lra).
  rewrite A. split; [nra|]. split.
  - rewrite <- A. assert (IQ : / (n - p - 1) <= / (n - q - 1)) by (apply Rinv_le_contravar; lra).
    assert (0 <= (1 - r) * (n - 1)) by (apply Rmult_le_pos; lra). unfold Rdiv. nra.
  - split.
    + intro E. assert (Z : (1 - r) * (p / (n - p - 1)) = 0) by lra. apply Rmult_integral in Z.
      destruct Z as [Z|Z]; [right; lra|left]. apply (f_equal (fun v => v * (n - p - 1))) in Z.
      unfold Rdiv in Z. rewrite Rmult_assoc, Rinv_l in Z by lra. lra.
    + intros [->| ->]; unfold Rdiv; ring.
Qed.

(** With more parameters than samples it is better than a perfect fit (not rejected). *)
Theorem C80_overfit_refuted : forall p r n a, r < 1 -> 1 < n -> n - 1 < p ->
  r_squared_adj p r n = Some a -> 1 < a.
Proof.
  intros p r n a R N P. unfold r_squared_adj, ratio. destruct (Rle_dec r 1); [|lra].
  destruct (Req_EM_T (n - p - 1) 0); [lra|]. cbn [option_map]. intro E. injection E as <-.
  assert (I : 0 < / (p + 1 - n)) by (apply Rinv_0_lt_compat; lra).
  replace ((1 - r) * (n - 1) / (n - p - 1)) with (- ((1 - r) * (n - 1) * / (p + 1 - n))) by (field; lra).
  assert (0 < (1 - r) * (n - 1)) by (apply Rmult_lt_0_compat; lra). nra.
Qed.

(** Percentages: consistent above 1 percent ... *)
Theorem C80_percent_partial : forall p r n, 1 < r <= 100 ->
  r_squared_adj p r n = option_map (Rmult 100) (r_squared_adj p (r / 100) n).
Proof.
  intros p r n R. unfold r_squared_adj, ratio. destruct (Rle_dec r 1); [lra|].
  destruct (Rle_dec (r / 100) 1); [|lra]. destruct (Req_EM_T (n - p - 1) 0); [reflexivity|].
  cbn. f_equal. field. assumption.
Qed.
(** ... but not up to 1 percent, which is taken as a fraction. *)
Theorem C80_percent_refuted : exists p n, r_squared_adj p 1 n = Some 1 /\
  option_map (Rmult 100) (r_squared_adj p (1 / 100) n) = Some (-10).
Proof.
  exists 1, 11. unfold r_squared_adj, ratio. destruct (Rle_dec 1 1); [|lra].
  destruct (Rle_dec (1/100) 1); [|lra]. destruct (Req_EM_T (11 - 1 - 1) 0); [lra|].
  cbn. split; f_equal; lra.
Qed.

(** ** Rolling measures *)

Lemma window_map (f : R -> R) w l i : window w (map f l) i = map f (window w l i).
Proof. unfold window. now rewrite skipn_map, firstn_map. Qed.

(** C51 in every row of the rolling versions: they are defined in the same rows and ordered. *)
Theorem C51_rolling : forall y h w mp i, length y = length h ->
  (exists msd mae rms, roll_msd w mp y h i = Some msd /\ roll_mae w mp y h i = Some mae /\
     roll_rmse w mp y h i = Some rms /\ Rabs msd <= mae <= rms) \/
  (roll_msd w mp y h i = None /\ roll_mae w mp y h i = None /\ roll_rmse w mp y h i = None).
Proof.
  intros y h w mp i L.
  assert (AB : map Rabs (resid y h) = map Rabs (resid h y)).
  { rewrite (resid_opp y h), map_map. apply map_ext. intro v. apply Rabs_Ropp. }
  assert (SQ : map sq (resid y h) = map sq (resid h y)).
  { rewrite (resid_opp y h), map_map. apply map_ext. intro v. unfold sq. ring. }
  unfold roll_msd, roll_mae, roll_rmse, roll_mse, rolling. rewrite AB, SQ, !window_map, !map_length.
  set (e := window w (resid h y) i).
  destruct (Nat.ltb (length e) mp || Nat.eqb (length e) 0)%bool eqn:B; [right; auto|left].
  apply orb_false_iff in B. destruct B as [_ B]. apply Nat.eqb_neq in B.
  assert (N : e <> []) by (intro Z; rewrite Z in B; apply B; reflexivity).
  exists (mean e), (mean (map Rabs e)), (sqrt (mean (map sq e))). repeat (split; [reflexivity|]).
  split; [now apply mean_abs_le|now apply mean_abs_rms].
Qed.

(** A window of odd length [2k+1] is centred: rows [i-k .. i+k]. *)
Theorem C51_window : forall l k i, (k <= i)%nat -> (i + k < length l)%nat ->
  length (window (2 * k + 1) l i) = (2 * k + 1)%nat /\
  forall j, (j < 2 * k + 1)%nat -> nth j (window (2 * k + 1) l i) 0 = nth (i - k + j) l 0.
Proof.
  intros l k i A B. unfold window.
  assert (E : ((2 * k + 1 - 1) / 2 = k)%nat).
  { replace (2 * k + 1 - 1)%nat with (k * 2)%nat by lia. now apply Nat.div_mul. }
  rewrite E. replace (S (i + k) - (2 * k + 1))%nat with (i - k)%nat by lia.
  replace (S (i + k) - (i - k))%nat with (2 * k + 1)%nat by lia. split.
  - rewrite firstn_length, skipn_length. lia.
  - intros j J. assert (G : forall n (m : list R), (j < n)%nat -> nth j (firstn n m) 0 = nth j m 0).
    { clear. revert j. induction j as [|j IH]; intros [|n] [|a m] H; try lia; try reflexivity. cbn. apply IH. lia. }
    rewrite G by lia. clear. revert l. generalize (i - k)%nat. induction n as [|n IH]; intros [|a l]; cbn; try reflexivity.
    + destruct j; reflexivity.
    + apply IH.
Qed.

Example C51_case : varies [1; 2; 4] /\ is_error [1; 2; 4] [1; 3; 3] [0; 1; -1].
Proof.
  split.
  - intros (c & E). cbn in E. injection E. lra.
  - split; [reflexivity|]. intros [|[|[|i]]] I; cbn in *; try lra. lia.
Qed.

Print Assumptions C51_laws.
Print Assumptions C51_r_squared.
Print Assumptions C51_columns.
Print Assumptions C51_rolling.
Print Assumptions C51_window.
Print Assumptions C52_single_partial.
Print Assumptions C52_columns_refuted.
Print Assumptions C79_unit_free.
Print Assumptions C79_default_refuted.
Print Assumptions C79_columns_refuted.
Print Assumptions C80_adjusted.
Print Assumptions C80_overfit_refuted.
Print Assumptions C80_percent_partial.
Print Assumptions C80_percent_refuted.

(** ** Errors normalised with the range of the measured values *)
Lemma lmax_scaled c l : 0 <= c -> lmaximum (map (Rmult c) l) = c * lmaximum l.
Proof.
  intro C. destruct l as [|a l]; cbn [map lmaximum]; [ring|]. revert a.
  induction l as [|b l IH]; intro a; cbn [map fold_left]; [reflexivity|].
  rewrite RmaxRmult by exact C. apply IH.
Qed.
Lemma lmin_scaled c l : 0 <= c -> lminimum (map (Rmult c) l) = c * lminimum l.
Proof.
  intro C. destruct l as [|a l]; cbn [map lminimum]; [ring|]. revert a.
  induction l as [|b l IH]; intro a; cbn [map fold_left]; [reflexivity|].
  replace (Rmin (c * a) (c * b)) with (c * Rmin a b); [apply IH|].
  unfold Rmin. destruct (Rle_dec a b), (Rle_dec (c * a) (c * b)); try reflexivity; nra.
Qed.
Lemma lmax_shifted c l : l <> [] -> lmaximum (map (Rplus c) l) = c + lmaximum l.
Proof.
  destruct l as [|a l]; [congruence|]. intros _. cbn [map lmaximum]. revert a.
  induction l as [|b l IH]; intro a; cbn [map fold_left]; [reflexivity|].
  replace (Rmax (c + a) (c + b)) with (c + Rmax a b); [apply IH|].
  unfold Rmax. destruct (Rle_dec a b), (Rle_dec (c + a) (c + b)); lra.
Qed.
Lemma lmin_shifted c l : l <> [] -> lminimum (map (Rplus c) l) = c + lminimum l.
Proof.
  destruct l as [|a l]; [congruence|]. intros _. cbn [map lminimum]. revert a.
  induction l as [|b l IH]; intro a; cbn [map fold_left]; [reflexivity|].
  replace (Rmin (c + a) (c + b)) with (c + Rmin a b); [apply IH|].
  unfold Rmin. destruct (Rle_dec a b), (Rle_dec (c + a) (c + b)); lra.
Qed.
Lemma resid_shifted c y h : resid (map (Rplus c) y) (map (Rplus c) h) = resid y h.
Proof.
  unfold resid. revert h. induction y as [|a y IH]; intros [|b h]; cbn; try reflexivity.
  f_equal; [ring|apply IH].
Qed.
Lemma err_shifted m c y h : err_fun m (One (map (Rplus c) y)) (One (map (Rplus c) h)) = err_fun m (One y) (One h).
Proof.
  destruct m; cbn [err_fun]; unfold mean_squared_err, rmse, mean_signed_deviation, mean_abs_err, colwise, same_length;
    rewrite !map_length; unfold rmse1, mse1, mae1, msd1; rewrite resid_shifted; reflexivity.
Qed.

(** Neither the unit nor the zero point of the scale matters: degrees Celsius, Kelvin and
    Fahrenheit give the same number. *)
Theorem C79_range_affine : forall c d y h m, 0 < c -> m <> MSE -> y <> [] ->
  normalized_range m (map (fun v => d + c * v) y) (One (map (fun v => d + c * v) h)) = normalized_range m y (One h).
Proof.
  intros c d y h m C M Y. unfold normalized_range.
  rewrite <- !(map_map (Rmult c) (Rplus d)).
  assert (Y' : map (Rmult c) y <> []) by (destruct y; [congruence|discriminate]).
  rewrite lmax_shifted, lmin_shifted by exact Y'. rewrite lmax_scaled, lmin_scaled by lra. rewrite err_shifted.
  replace (d + c * lmaximum y - (d + c * lminimum y)) with (c * (lmaximum y - lminimum y)) by ring.
  change (One (map (Rmult c) y)) with (scale c (One y)). change (One (map (Rmult c) h)) with (scale c (One h)).
  rewrite err_scaled by lra. replace (c ^ degree m) with (c * 1) by (destruct m; cbn; congruence || ring).
  rewrite over_scaled by lra. apply scale_opt_1.
Qed.
Print Assumptions C79_range_affine.
Example C79_range_ex : normalized_range MAE [20; 40; 60] (One [25; 40; 55]) = Num (Some (1 / 12)).
Proof.
  unfold normalized_range, err_fun, mean_abs_err, colwise, same_length. cbn [length Nat.eqb over lmaximum lminimum fold_left].
  assert (E : mae1 [20; 40; 60] [25; 40; 55] = 10 / 3).
  { unfold mae1, mean, resid. cbn. replace (20 - 25) with (-5) by lra. replace (40 - 40) with 0 by lra.
    replace (60 - 55) with 5 by lra. rewrite Rabs_R0, (Rabs_left (-5)), (Rabs_pos_eq 5) by lra. lra. }
  rewrite E. unfold Rmax, Rmin. destruct (Rle_dec 20 40); [|lra]. destruct (Rle_dec 40 60); [|lra].
  destruct (Rle_dec 20 60); [|lra]. unfold ratio. destruct (Req_EM_T (60 - 20) 0); [lra|]. do 2 f_equal. lra.
Qed.
