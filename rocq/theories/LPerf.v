(** Lemmas about the performance indicators. *)
From Coq Require Import Reals List Bool Arith ZArith Lia Lra.
From Verif Require Import MOut LOut LOut2 MPerf.
Import ListNotations.
Open Scope R_scope.

Definition values (s : series) : list R := map snd s.
(** The series with labels [ks] and values [xs]. *)
Definition ser (ks : list Z) (xs : list R) : series := combine ks xs.

Lemma ser_labels ks : forall xs, length ks = length xs -> labels (ser ks xs) = ks.
Proof.
  induction ks as [|k ks IH]; intros [|x xs] L; cbn in *; try discriminate; auto.
  unfold labels, ser in IH. rewrite IH by lia. reflexivity.
Qed.
Lemma has_true s k : has s k = true <-> In k (labels s).
Proof.
  unfold has. rewrite existsb_exists. split.
  - intros (x & I & E). apply Z.eqb_eq in E. subst. exact I.
  - intros I. exists k. split; [exact I|apply Z.eqb_refl].
Qed.
Lemma at_label_none s k : ~ In k (labels s) -> at_label s k = None.
Proof.
  induction s as [|[j v] s IH]; cbn; intros N; [reflexivity|].
  destruct (Z.eq_dec j k); [tauto|]. apply IH. tauto.
Qed.
Lemma at_label_some s k : In k (labels s) -> exists v, at_label s k = Some v /\ In (k, v) s.
Proof.
  induction s as [|[j v] s IH]; cbn; intros N; [easy|].
  destruct (Z.eq_dec j k) as [->|D].
  - exists v. auto.
  - destruct N as [E|I]; [contradiction|]. destruct (IH I) as (w & A & B). exists w. auto.
Qed.
Lemma filter_nil {A} (f : A -> bool) l : (forall x, In x l -> f x = false) -> filter f l = [].
Proof. induction l; cbn; intros H; [reflexivity|]. rewrite H by auto. apply IHl. auto. Qed.

Definition both (w : R * R) : row := (Some (fst w), Some (snd w)).
Lemma concat_ser_aux ks : forall xs ys, length ks = length xs -> length ks = length ys -> NoDup ks ->
  map (fun k => (at_label (ser ks xs) k, at_label (ser ks ys) k)) ks = map both (combine xs ys).
Proof.
  induction ks as [|k ks IH]; intros [|x xs] [|y ys] L1 L2 D; cbn in *; try discriminate; auto.
  inversion D; subst. destruct (Z.eq_dec k k) as [_|]; [|congruence]. 
  unfold ser in IH. rewrite <- IH by (auto; lia). apply f_equal2; [reflexivity|]. apply map_ext_in. intros j J.
  destruct (Z.eq_dec k j); [subst; contradiction|]. reflexivity.
Qed.
Lemma concat_ser ks xs ys : length ks = length xs -> length ks = length ys -> NoDup ks ->
  concat (ser ks xs) (ser ks ys) = map both (combine xs ys).
Proof.
  intros L1 L2 D. unfold concat. rewrite !ser_labels by auto.
  rewrite filter_nil.
  2:{ intros k I. apply negb_false_iff. apply has_true. rewrite ser_labels by auto. exact I. }
  rewrite app_nil_r. apply concat_ser_aux; auto.
Qed.

Definition nz (w : R * R) : bool := (nonzero (Some (fst w)) && nonzero (Some (snd w)))%bool.
Definition pairs (ez : bool) (l : list (R * R)) : list (R * R) := if ez then filter nz l else l.
Lemma kept_both ez l : kept ez (map both l) = map both (pairs ez l).
Proof.
  destruct ez; cbn; [|reflexivity]. induction l as [|[x y] l IH]; cbn [map filter]; [reflexivity|].
  unfold nz at 1. cbn [fst snd both]. destruct (nonzero (Some x) && nonzero (Some y))%bool; cbn [map]; rewrite IH; reflexivity.
Qed.
Definition err (w : R * R) : R := fst w - snd w.
Lemma residuals_both l : residuals (map both l) = map err l.
Proof. unfold residuals, somes. induction l; cbn; [reflexivity|]. f_equal. exact IHl. Qed.
Lemma measured_both l : measured (map both l) = map snd l.
Proof. unfold measured, somes. induction l; cbn; [reflexivity|]. f_equal. exact IHl. Qed.

Lemma lsum_abs l : Rabs (lsum l) <= lsum (map Rabs l).
Proof.
  unfold lsum. induction l; cbn; [rewrite Rabs_R0; lra|].
  pose proof (Rabs_triang a (fold_right Rplus 0 l)). lra.
Qed.
Lemma lsum_abs_nonneg l : 0 <= lsum (map Rabs l).
Proof. unfold lsum. induction l; cbn; [lra|]. pose proof (Rabs_pos a). lra. Qed.
Lemma lsum_sq_nonneg l : 0 <= lsum (map (fun e => e * e) l).
Proof. unfold lsum. induction l; cbn; [lra|]. nra. Qed.
Lemma cauchy l : lsum (map Rabs l) * lsum (map Rabs l) <= INR (length l) * lsum (map (fun e => e * e) l).
Proof.
  induction l as [|x l IH]; [unfold lsum; cbn; lra|].
  cbn [length map]. rewrite S_INR. unfold lsum in *. cbn [fold_right].
  set (s := fold_right Rplus 0 (map Rabs l)) in *.
  set (q := fold_right Rplus 0 (map (fun e => e * e) l)) in *.
  assert (Hq : 0 <= q) by (apply lsum_sq_nonneg).
  assert (Hn : 0 <= INR (length l)) by apply pos_INR.
  assert (E : x * x = Rabs x * Rabs x) by (rewrite <- Rabs_mult; rewrite Rabs_pos_eq; nra).
  rewrite E. set (a := Rabs x). set (n := INR (length l)) in *. clearbody a s q n. clear E.
  assert (K : 2 * a * s <= n * (a * a) + q).
  { destruct (Req_dec n 0) as [Z|NZ].
    - assert (s * s <= 0) by (rewrite Z, Rmult_0_l in IH; exact IH). assert (S0 : s = 0) by nra. rewrite S0, Z. lra.
    - assert (0 < n) by lra.
      assert (0 <= (n * a - s) * (n * a - s)) by (pose proof (Rle_0_sqr (n * a - s)) as W; exact W).
      assert (2 * a * s * n <= n * (n * (a * a) + q)) by nra.
      apply Rmult_le_reg_l with n; lra. }
  nra.
Qed.
Lemma lsum_sq_zero l : lsum (map (fun e => e * e) l) = 0 -> forall e, In e l -> e = 0.
Proof.
  induction l as [|x l IH]; cbn; [easy|]. unfold lsum in *. cbn [fold_right map] in *.
  pose proof (lsum_sq_nonneg l) as P. unfold lsum in P. intros E e [<-|I]; [nra|]. apply IH; nra || auto.
Qed.
Lemma length_somes l : (length (somes l) <= length l)%nat.
Proof. unfold somes. induction l as [|[v|] l IH]; cbn; lia. Qed.

(** What is needed of the sums for the order of the indicators; rows with NaN only enlarge n. *)
Lemma order l i b a q : evaluate l = i -> mbe i = Some b -> mae i = Some a -> rmse i = Some q ->
  Rabs b <= a /\ a <= q /\ 0 <= a.
Proof.
  intros <-. cbn. set (res := residuals l).
  assert (LE : (length res <= length l)%nat).
  { unfold res, residuals. apply Nat.le_trans with (1 := length_somes _). rewrite map_length. apply le_n. }
  unfold quot. destruct (Req_EM_T (INR (length l)) 0) as [Z|NZ]; [discriminate|].
  cbn. intros E1 E2 E3. injection E1 as <-. injection E2 as <-. injection E3 as <-.
  set (n := INR (length l)) in *. assert (P : 0 < n) by (pose proof (pos_INR (length l)); unfold n in *; lra).
  assert (IN : 0 < / n) by (apply Rinv_0_lt_compat; exact P).
  repeat split.
  - unfold Rdiv. rewrite Rabs_mult, (Rabs_pos_eq (/ n)) by lra.
    apply Rmult_le_compat_r; [lra|]. apply lsum_abs.
  - pose proof (cauchy res) as C. pose proof (lsum_abs_nonneg res) as A. pose proof (lsum_sq_nonneg res) as Q.
    set (s := lsum (map Rabs res)) in *. set (w := lsum (map (fun e => e * e) res)) in *.
    assert (C2 : s * s <= n * w).
    { apply Rle_trans with (1 := C). apply Rmult_le_compat_r; [exact Q|]. apply le_INR. exact LE. }
    assert (S0 : 0 <= s / n) by (unfold Rdiv; apply Rmult_le_pos; lra).
    rewrite <- (sqrt_square (s / n)) by exact S0. apply sqrt_le_1_alt.
    unfold Rdiv. replace (s * / n * (s * / n)) with ((s * s) * / n * / n) by ring.
    apply Rmult_le_compat_r; [lra|].
    apply Rmult_le_reg_r with n; [exact P|]. rewrite Rmult_assoc, Rinv_l by lra. lra.
  - unfold Rdiv. apply Rmult_le_pos; [apply lsum_abs_nonneg|lra].
Qed.

(** ** Units *)
Definition scale (c : R) (s : series) : series := map (fun kv => (fst kv, c * snd kv)) s.
Definition oscale (c : R) (o : option R) : option R := match o with None => None | Some v => Some (c * v) end.
Definition rscale (c : R) (w : row) : row := (oscale c (fst w), oscale c (snd w)).
Lemma scale_labels c s : labels (scale c s) = labels s.
Proof. unfold labels, scale. rewrite map_map. reflexivity. Qed.
Lemma scale_at c s k : at_label (scale c s) k = oscale c (at_label s k).
Proof. induction s as [|[j v] s IH]; cbn; [reflexivity|]. destruct (Z.eq_dec j k); [reflexivity|exact IH]. Qed.
Lemma concat_scale c p r : concat (scale c p) (scale c r) = map (rscale c) (concat p r).
Proof.
  unfold concat. rewrite !scale_labels, map_map. unfold has. rewrite scale_labels.
  apply map_ext. intros k. rewrite !scale_at. reflexivity.
Qed.
Lemma nonzero_scale c o : c <> 0 -> nonzero (oscale c o) = nonzero o.
Proof.
  intros C. destruct o; cbn; [|reflexivity].
  destruct (Req_EM_T (c * r) 0) as [E|E], (Req_EM_T r 0) as [F|F]; try reflexivity.
  - apply Rmult_integral in E. tauto.
  - subst. rewrite Rmult_0_r in E. congruence.
Qed.
Lemma kept_scale c ez l : c <> 0 -> kept ez (map (rscale c) l) = map (rscale c) (kept ez l).
Proof.
  intros C. destruct ez; cbn; [|reflexivity]. induction l as [|w l IH]; cbn [map filter]; [reflexivity|].
  cbn [rscale fst snd]. rewrite !nonzero_scale by exact C.
  destruct (nonzero (fst w) && nonzero (snd w))%bool; cbn [map]; rewrite IH; reflexivity.
Qed.
Lemma residuals_scale c l : residuals (map (rscale c) l) = map (fun x => c * x + 0) (residuals l).
Proof.
  unfold residuals, somes. induction l as [|[[x|] [y|]] l IH]; cbn in *; auto. rewrite IH. f_equal. ring.
Qed.
Lemma measured_scale c l : measured (map (rscale c) l) = map (fun x => c * x + 0) (measured l).
Proof.
  unfold measured, somes. induction l as [|[x [y|]] l IH]; cbn in *; auto. rewrite IH. f_equal. ring.
Qed.
Lemma lsum_scale c l : lsum (map (fun x => c * x + 0) l) = c * lsum l.
Proof. unfold lsum. induction l; cbn; [ring|]. rewrite IHl. ring. Qed.
Lemma nth_isort_scale c l i : 0 < c -> nth i (isort (map (fun x => c * x + 0) l)) 0 = c * nth i (isort l) 0.
Proof.
  intros C. rewrite isort_map by (apply affine_mono; exact C).
  destruct (Nat.lt_ge_cases i (length l)) as [H|H].
  - rewrite nth_map_R by (rewrite isort_length; exact H). ring.
  - rewrite !nth_overflow; [ring| |]; try rewrite map_length; rewrite isort_length; exact H.
Qed.
Lemma quartile_scale c k l : 0 < c -> quartile k (map (fun x => c * x + 0) l) = c * quartile k l.
Proof. intros C. unfold quartile. rewrite map_length, !nth_isort_scale by exact C. ring. Qed.
Lemma quot_scale c a b : c <> 0 -> quot (c * a) (c * b) = quot a b.
Proof.
  intros C. unfold quot. destruct (Req_EM_T (c * b) 0) as [E|E], (Req_EM_T b 0) as [F|F]; try reflexivity.
  - apply Rmult_integral in E. tauto.
  - subst. rewrite Rmult_0_r in E. congruence.
  - f_equal. field. auto.
Qed.
Lemma quot_scale_l c a b : quot (c * a) b = oscale c (quot a b).
Proof. unfold quot. destruct (Req_EM_T b 0); cbn; [reflexivity|]. f_equal. field. auto. Qed.

Lemma rmse_scale c s n : 0 < c ->
  obind (quot (c * c * s) n) (fun q => Some (sqrt q)) = oscale c (obind (quot s n) (fun q => Some (sqrt q))).
Proof.
  intros C. rewrite quot_scale_l. destruct (quot s n) as [q|]; cbn; [|reflexivity]. f_equal.
  rewrite sqrt_mult_alt by nra. rewrite sqrt_square by lra. reflexivity.
Qed.
Lemma evaluate_scale c l : 0 < c -> let i := evaluate l in let j := evaluate (map (rscale c) l) in
  n_samples j = n_samples i /\ mbe j = oscale c (mbe i) /\ mae j = oscale c (mae i) /\
  rmse j = oscale c (rmse i) /\ mse j = oscale (c * c) (mse i) /\
  nmbe j = nmbe i /\ cv_rmse j = cv_rmse i /\ nrmse j = nrmse i /\ nrmse_iqr j = nrmse_iqr i /\ r2 j = r2 i.
Proof.
  intros C. cbn zeta. unfold evaluate. cbn [n_samples mbe mae rmse mse nmbe cv_rmse nrmse nrmse_iqr r2].
  rewrite residuals_scale, measured_scale, !map_length, lsum_scale.
  set (res := residuals l). set (y := measured l). set (n := INR (length l)).
  assert (E1 : lsum (map Rabs (map (fun x => c * x + 0) res)) = c * lsum (map Rabs res)).
  { rewrite map_map. rewrite <- lsum_scal. apply lsum_ext. intros x _.
    rewrite Rplus_0_r, Rabs_mult, (Rabs_pos_eq c) by lra. reflexivity. }
  assert (E2 : lsum (map (fun e => e * e) (map (fun x => c * x + 0) res)) = c * c * lsum (map (fun e => e * e) res)).
  { rewrite map_map. rewrite <- lsum_scal. apply lsum_ext. intros x _. ring. }
  rewrite E1, E2. rewrite rmse_scale by exact C. set (q := lsum (map (fun e => e * e) res)).
  set (rm := obind (quot q n) (fun q => Some (sqrt q))).
  rewrite !quot_scale_l. set (m := quot (lsum res) n).
  split; [reflexivity|]. split; [reflexivity|]. split; [reflexivity|]. split; [reflexivity|].
  split. { destruct rm; cbn; [|reflexivity]. f_equal. ring. }
  destruct (Nat.eqb_spec (length y) 0) as [Y|Y].
  { repeat split; auto.
    rewrite lstd_affine by exact C. destruct y; [|discriminate]. cbn. reflexivity. }
  assert (YN : y <> []) by (destruct y; [cbn in Y; lia|discriminate]).
  assert (ML : lmean (map (fun x => c * x + 0) y) = c * lmean y) by (rewrite lmean_affine by exact YN; ring).
  rewrite ML, !quartile_scale by exact C. unfold largest, smallest. rewrite map_length, !nth_isort_scale by exact C.
  rewrite <- !Rmult_minus_distr_l. rewrite Rabs_mult, (Rabs_pos_eq c) by lra.
  assert (Z : c <> 0) by lra.
  split. { destruct m; cbn; [|reflexivity]. apply quot_scale; exact Z. }
  split. { destruct rm; cbn; [|reflexivity]. apply quot_scale; exact Z. }
  split. { destruct rm; cbn; [|reflexivity]. apply quot_scale; exact Z. }
  split. { destruct rm; cbn; [|reflexivity]. apply quot_scale; exact Z. }
  rewrite lstd_affine by exact C. destruct (lstd 1 y) as [s|]; cbn; [|reflexivity].
  replace (c * s * (c * s) * INR (length y)) with (c * c * (s * s * INR (length y))) by ring.
  rewrite quot_scale by nra. reflexivity.
Qed.

(** ** Values by position *)
Lemma fit_numbers ks js xs ys : length ks = length xs -> length js = length ys -> length xs = length ys ->
  fit Numbers Numbers (ser ks xs) (ser js ys) = Some (concat (ser ks xs) (ser js ys)).
Proof.
  intros A B C. unfold fit. unfold ser. rewrite !combine_length, A, B, C.
  rewrite !Nat.min_id. rewrite Nat.eqb_refl. reflexivity.
Qed.
Lemma perf_ser ez ks xs ys : length ks = length xs -> length ks = length ys -> NoDup ks ->
  performance ez Numbers Numbers (ser ks xs) (ser ks ys) =
  Some (evaluate (map both (pairs ez (combine xs ys)))).
Proof.
  intros A B D. unfold performance. rewrite fit_numbers by congruence. cbn [obind].
  rewrite concat_ser by auto. rewrite kept_both. reflexivity.
Qed.

(** ** Labels without a partner *)
Lemma residuals_disjoint p r : (forall k, In k (labels p) -> ~ In k (labels r)) ->
  residuals (concat p r) = [].
Proof.
  intros D. unfold residuals, concat. rewrite map_map.
  assert (H : forall l, (forall k, In k l -> ~ (In k (labels p) /\ In k (labels r))) ->
    somes (map (fun k => residual (at_label p k, at_label r k)) l) = []).
  { induction l as [|k l IH]; cbn; intros H; [reflexivity|].
    assert (N : ~ In k (labels p) \/ ~ In k (labels r)).
    { specialize (H k (or_introl eq_refl)). destruct (in_dec Z.eq_dec k (labels p)); tauto. }
    destruct N as [N|N]; rewrite (at_label_none _ k N).
    - cbn. apply IH. auto.
    - destruct (at_label p k); cbn; apply IH; auto. }
  apply H. intros k _ [A B]. exact (D k A B).
Qed.
Lemma residuals_kept ez l : residuals l = [] -> residuals (kept ez l) = [].
Proof.
  destruct ez; cbn; [|auto]. induction l as [|w l IH]; cbn [filter]; [auto|]. intros E.
  unfold residuals in *. cbn in E.
  assert (F : residual w = None /\ somes (map residual l) = []).
  { unfold somes in *. destruct (residual w); cbn in E; [discriminate|auto]. }
  destruct F as [F1 F2]. destruct (nonzero (fst w) && nonzero (snd w))%bool; [|auto].
  cbn. rewrite F1. cbn. auto.
Qed.
Lemma measured_disjoint p r : NoDup (labels r) -> (forall k, In k (labels p) -> ~ In k (labels r)) ->
  measured (concat p r) = values r.
Proof.
  intros ND D. unfold measured, concat. rewrite map_map. cbn [snd]. rewrite map_app. unfold somes. rewrite flat_map_app.
  replace (flat_map _ (map (at_label r) (labels p))) with (@nil R).
  2:{ symmetry. assert (H : forall l, (forall k, In k l -> ~ In k (labels r)) ->
      flat_map (fun o : option R => match o with Some v => [v] | None => [] end) (map (at_label r) l) = []).
      { induction l; cbn; intros H; [reflexivity|]. rewrite at_label_none by auto. cbn. auto. }
      apply H. exact D. }
  cbn. rewrite (filter_all (fun k => negb (has p k)) (labels r)).
  2:{ intros k I. apply negb_true_iff. destruct (has p k) eqn:E; [|reflexivity].
      apply has_true in E. exfalso. exact (D k E I). }
  clear D. induction r as [|[k v] r IH]; cbn; [reflexivity|].
  destruct (Z.eq_dec k k) as [_|]; [|congruence]. cbn. f_equal. cbn in ND. inversion ND; subst.
  etransitivity; [|apply IH; auto]. f_equal. apply map_ext_in. intros j J. destruct (Z.eq_dec k j); [subst; contradiction|reflexivity].
Qed.
