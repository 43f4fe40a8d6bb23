(** Lemmas about the condensing heat exchanger. *)
From Coq Require Import Reals List ZArith Bool Arith Lra Lia.
From Verif Require Import SFlow LFlow MWater MPorts LPorts MCond SCond.
Import ListNotations.
Open Scope R_scope.

Lemma all_some_map {A B} (f : A -> option B) (g : A -> B) l :
  (forall x, In x l -> f x = Some (g x)) -> all_some (map f l) = Some (map g l).
Proof.
  induction l as [|a l IH]; intros H; [reflexivity|].
  cbn [map all_some]. rewrite (H a) by now left.
  rewrite IH by (intros x Hx; apply H; now right). reflexivity.
Qed.

Lemma combos_ok r : reg_ok r -> make_combs (rg_combos r) =
  Some (map (fun c => map Z.of_nat c ++ repeat (-99)%Z (length (last (rg_combos r) []) - length c))
          (rg_combos r), map (@length nat) (rg_combos r)).
Proof.
  intros (N & C & _). unfold make_combs. destruct (rg_combos r) as [|c0 cs] eqn:E; [congruence|].
  rewrite <- E in *. clear N E.
  set (w := length (last (rg_combos r) [])) in *. clearbody w.
  rewrite (all_some_map _ (fun c => map Z.of_nat c ++ repeat (-99)%Z (w - length c))); [reflexivity|].
  intros x Hx. destruct (C x Hx) as [L _]. unfold pad_row.
  now rewrite (proj2 (Nat.leb_le _ _) L).
Qed.

Lemma prod_mono c X : prod (map (fun v => nth v X 0) c) = monomial c X.
Proof. induction c as [|v c IH]; [reflexivity|]. cbn [map prod monomial fold_right]. now rewrite IH. Qed.

Lemma at_idx_nat X v : (v < length X)%nat -> at_idx X (Z.of_nat v) = Some (nth v X 0).
Proof.
  intros H. unfold at_idx. destruct (Z.ltb_spec (Z.of_nat v) 0); [lia|].
  rewrite Nat2Z.id. now apply nth_error_nth'.
Qed.

Lemma firstn_pad c w : firstn (length c) (map Z.of_nat c ++ repeat (-99)%Z w) = map Z.of_nat c.
Proof.
  rewrite firstn_app, map_length, Nat.sub_diag. cbn [firstn]. rewrite app_nil_r.
  rewrite <- (map_length Z.of_nat c). apply firstn_all.
Qed.

Lemma combine_map {A B C} (f : A -> B) (g : A -> C) l :
  combine (map f l) (map g l) = map (fun x => (f x, g x)) l.
Proof. induction l as [|a l IH]; [reflexivity|]. cbn. now rewrite IH. Qed.

Lemma to_poly_ok r X : reg_ok r -> length X = 4%nat ->
  exists rows ns, make_combs (rg_combos r) = Some (rows, ns) /\
    to_poly rows ns X = Some (map (fun c => monomial c X) (rg_combos r)).
Proof.
  intros R L. eexists _, _. split; [apply combos_ok, R|].
  unfold to_poly. rewrite combine_map, map_map. apply all_some_map.
  intros c Hc. cbn [fst snd]. rewrite firstn_pad, map_map.
  destruct R as (_ & C & _). destruct (C c Hc) as [_ V].
  rewrite (all_some_map _ (fun v => nth v X 0)).
  - rewrite prod_mono. f_equal. ring.
  - intros v Hv. apply at_idx_nat. rewrite L. now apply V.
Qed.

(** Inner products as indexed sums. *)
Lemma rsum_shift m f : rsum (S m) f = f 0%nat + rsum m (fun i => f (S i)).
Proof. induction m as [|m IH]; cbn [rsum] in *; [ring|]. rewrite IH. ring. Qed.

Lemma dot_sum u v : length u = length v -> dot u v = rsum (length u) (fun i => nth i u 0 * nth i v 0).
Proof.
  revert v. induction u as [|a u IH]; intros [|b v] L; try discriminate; [reflexivity|].
  cbn [length] in *. injection L as L. rewrite rsum_shift. cbn [dot nth]. now rewrite (IH v L).
Qed.

Lemma vsub_len u v : length u = length v -> length (vsub u v) = length u.
Proof.
  revert v. induction u as [|a u IH]; intros [|b v] L; try discriminate; [reflexivity|].
  cbn [length vsub] in *. injection L as L. now rewrite (IH v L).
Qed.

Lemma vsub_nth u v i : length u = length v -> (i < length u)%nat ->
  nth i (vsub u v) 0 = nth i u 0 - nth i v 0.
Proof.
  revert v i. induction u as [|a u IH]; intros [|b v] i L H; try discriminate; [cbn in H; lia|].
  cbn [length] in *. injection L as L. destruct i as [|i]; cbn [vsub nth]; [reflexivity|].
  apply IH; [exact L|lia].
Qed.

Lemma rsum_eq m f g : (forall i, (i < m)%nat -> f i = g i) -> rsum m f = rsum m g.
Proof. induction m as [|m IH]; intros H; cbn [rsum]; [reflexivity|]. rewrite IH by (intros; apply H; lia). rewrite (H m) by lia. reflexivity. Qed.

Lemma out_is r X c0 : reg_ok r -> length X = 4%nat -> In c0 (rg_coef r) ->
  dot (to_pca (map (fun c => monomial c X) (rg_combos r)) (rg_mean r) (rg_comps r)) c0 =
  rsum (length (rg_comps r)) (fun k => nth k c0 0 *
    rsum (length (rg_combos r)) (fun j =>
      nth j (nth k (rg_comps r) []) 0 *
      (monomial (nth j (rg_combos r) []) X - nth j (rg_mean r) 0))).
Proof.
  intros (N & C & M & P & I & O & Q) L H.
  unfold to_pca. rewrite dot_sum by (rewrite map_length; symmetry; now apply Q).
  rewrite map_length. apply rsum_eq. intros k Hk.
  rewrite (nth_indep _ 0 (dot (vsub (map (fun c => monomial c X) (rg_combos r)) (rg_mean r)) []))
    by (now rewrite map_length).
  rewrite map_nth, Rmult_comm. f_equal.
  assert (Lk : length (nth k (rg_comps r) []) = length (rg_combos r)) by (apply P, nth_In, Hk).
  assert (LM : length (map (fun c => monomial c X) (rg_combos r)) = length (rg_mean r))
    by (now rewrite map_length).
  assert (LV : length (vsub (map (fun c => monomial c X) (rg_combos r)) (rg_mean r)) =
               length (rg_combos r)) by (rewrite vsub_len by exact LM; apply map_length).
  rewrite dot_sum by congruence.
  rewrite LV. apply rsum_eq. intros j Hj.
  rewrite vsub_nth by (try exact LM; now rewrite map_length).
  rewrite (nth_indep _ 0 (monomial [] X)) by (now rewrite map_length).
  rewrite (map_nth (fun c => monomial c X)). ring.
Qed.

Lemma predict_is r X : reg_ok r -> length X = 4%nat ->
  predict r X = Some (pipeline r 0 X, pipeline r 1 X).
Proof.
  intros R L. unfold predict. destruct (to_poly_ok r X R L) as (rows & ns & E & F).
  rewrite E, F. pose proof R as (N & C & M & P & I & O & Q).
  pose proof (out_is r X) as D. unfold pipeline.
  destruct (rg_icpt r) as [|i0 [|i1 [|]]]; try discriminate.
  destruct (rg_coef r) as [|c0 [|c1 [|]]]; try discriminate.
  cbn [lin_pred combine map fst snd nth].
  rewrite (D c0 R L) by (now left). rewrite (D c1 R L) by (right; now left). reflexivity.
Qed.

Lemma rsum_scal m c f : rsum m (fun i => c * f i) = c * rsum m f.
Proof. induction m as [|m IH]; cbn [rsum]; [ring|]. rewrite IH. ring. Qed.
Lemma rsum_sub m f g : rsum m (fun i => f i - g i) = rsum m f - rsum m g.
Proof. induction m as [|m IH]; cbn [rsum]; [ring|]. rewrite IH. ring. Qed.
Lemma rsum_add m f g : rsum m (fun i => f i + g i) = rsum m f + rsum m g.
Proof. induction m as [|m IH]; cbn [rsum]; [ring|]. rewrite IH. ring. Qed.
Lemma rsum_zero m : rsum m (fun _ => 0) = 0.
Proof. induction m as [|m IH]; cbn [rsum]; [ring|]. rewrite IH. ring. Qed.
Lemma rsum_swap m n f : rsum m (fun i => rsum n (fun j => f i j)) = rsum n (fun j => rsum m (fun i => f i j)).
Proof.
  induction m as [|m IH]; cbn [rsum]; [now rewrite rsum_zero|].
  rewrite IH. symmetry. apply (rsum_add n).
Qed.

Lemma pipeline_poly r o X : pipeline r o X =
  poly_const r o + rsum (length (rg_combos r)) (fun j =>
    poly_coef r o j * monomial (nth j (rg_combos r) []) X).
Proof.
  unfold pipeline, poly_const, poly_coef.
  rewrite (rsum_eq (length (rg_combos r)) _ (fun j => rsum (length (rg_comps r)) (fun k =>
    nth k (nth o (rg_coef r) []) 0 * (nth j (nth k (rg_comps r) []) 0 *
      monomial (nth j (rg_combos r) []) X)))).
  2:{ intros j _. rewrite Rmult_comm, <- rsum_scal. apply rsum_eq. intros. ring. }
  rewrite rsum_swap.
  match goal with |- _ + ?a = _ - ?b + ?c => enough (a = c - b) by lra end.
  rewrite <- rsum_sub. apply rsum_eq. intros k _.
  rewrite rsum_scal. rewrite <- Rmult_minus_distr_l, <- rsum_sub. f_equal. apply rsum_eq.
  intros. ring.
Qed.
