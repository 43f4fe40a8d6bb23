(** Lemmas on the cost functions of the model-predictive CHP controller. *)
From Coq Require Import Reals List Lra Lia.
From Verif Require Import MMpcCost.
Import ListNotations.
Open Scope R_scope.

Lemma clip_some v w : 0 <= w -> clip0 (pos_part v) (Some w) = Rmax 0 (Rmin v w).
Proof.
  intro W. unfold clip0, pos_part, Rmax, Rmin.
  destruct (Rlt_dec v 0); repeat (destruct (Rle_dec _ _)); lra.
Qed.

Lemma clip_none v : clip0 (pos_part v) None = Rmax 0 v.
Proof.
  unfold clip0, pos_part, Rmax. destruct (Rlt_dec v 0); repeat (destruct (Rle_dec _ _)); lra.
Qed.

(** The row of band powers, entry by entry. *)
Lemma pel_bands p : pel_per_step p =
  [Rmax 0 (Rmin p 50); Rmax 0 (Rmin p 100 - 50); Rmax 0 (Rmin p 250 - 100);
   Rmax 0 (Rmin p 2000 - 250); Rmax 0 (p - 2000)].
Proof.
  unfold pel_per_step, lower_edges, kwkg_steps. cbn [removelast map ediff map2].
  rewrite !clip_some, clip_none by lra.
  assert (S : forall a b, Rmin (p - a) (b - a) = Rmin p b - a)
    by (intros; unfold Rmin; repeat (destruct (Rle_dec _ _)); lra).
  rewrite !S, Rminus_0_r. reflexivity.
Qed.

Definition kwk_val (r1 r2 r3 r4 r5 p : R) : R :=
  if Rle_dec p 0 then 0
  else if Rle_dec p 50 then r1 * p
  else if Rle_dec p 100 then r1 * 50 + r2 * (p - 50)
  else if Rle_dec p 250 then r1 * 50 + r2 * 50 + r3 * (p - 100)
  else if Rle_dec p 2000 then r1 * 50 + r2 * 50 + r3 * 150 + r4 * (p - 250)
  else r1 * 50 + r2 * 50 + r3 * 150 + r4 * 1750 + r5 * (p - 2000).

Lemma kwk_piecewise r1 r2 r3 r4 r5 p :
  kwk_sum [r1; r2; r3; r4; r5] p = kwk_val r1 r2 r3 r4 r5 p.
Proof.
  unfold kwk_sum, kwk_row. rewrite pel_bands. unfold rsum. cbn [map2 fold_right].
  unfold kwk_val, Rmax, Rmin.
  destruct (Rle_dec p 0); [|destruct (Rle_dec p 50); [|destruct (Rle_dec p 100);
    [|destruct (Rle_dec p 250); [|destruct (Rle_dec p 2000)]]]];
  repeat (destruct (Rle_dec _ _); try lra); try ring; try (replace p with 0 by lra; ring);
  try (replace p with 50 by lra; ring); try (replace p with 100 by lra; ring);
  try (replace p with 250 by lra; ring); try (replace p with 2000 by lra; ring).
Qed.

Lemma bands_total p : rsum (pel_per_step p) = Rmax 0 p.
Proof.
  rewrite pel_bands. unfold rsum. cbn [fold_right]. unfold Rmax, Rmin.
  destruct (Rle_dec p 50); destruct (Rle_dec p 100); destruct (Rle_dec p 250);
  destruct (Rle_dec p 2000); try lra; repeat (destruct (Rle_dec _ _); try lra).
Qed.

Ltac kwk := unfold kwk_val in *; repeat (destruct (Rle_dec _ _)); try lra; try nra.

Lemma es_eq p : kwk_sum kwkg_es p = kwk_val 8 6 5 (44 / 10) (31 / 10) p.
Proof. apply kwk_piecewise. Qed.
Lemma en_eq p : kwk_sum kwkg_en p = kwk_val 4 3 2 (15 / 10) 1 p.
Proof. apply kwk_piecewise. Qed.

(** Slopes of the total bonus. *)
Lemma es_slopes p q : 0 <= p -> p <= q ->
  31 / 10 * (q - p) <= kwk_sum kwkg_es q - kwk_sum kwkg_es p <= 8 * (q - p).
Proof. rewrite !es_eq. unfold kwk_val. intros. repeat (destruct (Rle_dec _ _)); lra. Qed.
Lemma en_slopes p q : 0 <= p -> p <= q ->
  q - p <= kwk_sum kwkg_en q - kwk_sum kwkg_en p <= 4 * (q - p).
Proof. rewrite !en_eq. unfold kwk_val. intros. repeat (destruct (Rle_dec _ _)); lra. Qed.

Lemma es_mono p q : p <= q -> kwk_sum kwkg_es p <= kwk_sum kwkg_es q.
Proof. rewrite !es_eq. unfold kwk_val. intros. repeat (destruct (Rle_dec _ _)); lra. Qed.
Lemma en_mono p q : p <= q -> kwk_sum kwkg_en p <= kwk_sum kwkg_en q.
Proof. rewrite !en_eq. unfold kwk_val. intros. repeat (destruct (Rle_dec _ _)); lra. Qed.

Lemma es_zero p : p <= 0 -> kwk_sum kwkg_es p = 0.
Proof. rewrite es_eq. unfold kwk_val. intros. destruct (Rle_dec p 0); lra. Qed.
Lemma en_zero p : p <= 0 -> kwk_sum kwkg_en p = 0.
Proof. rewrite en_eq. unfold kwk_val. intros. destruct (Rle_dec p 0); lra. Qed.

(** Concavity: the mean bonus does not grow with the power. *)
Lemma es_mean p q : 0 < p -> p <= q -> kwk_sum kwkg_es q * p <= kwk_sum kwkg_es p * q.
Proof. rewrite !es_eq. unfold kwk_val. intros. repeat (destruct (Rle_dec _ _)); nra. Qed.
Lemma en_mean p q : 0 < p -> p <= q -> kwk_sum kwkg_en q * p <= kwk_sum kwkg_en p * q.
Proof. rewrite !en_eq. unfold kwk_val. intros. repeat (destruct (Rle_dec _ _)); nra. Qed.

(** ** Power split *)

Ltac spl := unfold split_of, s_buy, s_own; cbn [s_prod s_buy_b s_own_b s_rest s_buy_m s_feed s_own_m].

Lemma split_balance q x b u : let s := split_of q x b u in
  b + u = s_own s + s_buy s /\ s_prod s = s_own s + s_feed s.
Proof. spl. repeat (destruct (Rlt_dec _ _)); lra. Qed.

Lemma split_sign q x b u : 0 <= x * p_pel q -> 0 <= b -> 0 <= u -> let s := split_of q x b u in
  0 <= s_own_b s /\ 0 <= s_own_m s /\ 0 <= s_buy_b s /\ 0 <= s_buy_m s /\ 0 <= s_feed s /\
  0 <= s_rest s.
Proof. intros X B U. spl. repeat (destruct (Rlt_dec _ _)); lra. Qed.

Lemma split_excl q x b u : 0 <= x * p_pel q -> 0 <= b -> 0 <= u -> let s := split_of q x b u in
  s_feed s = 0 \/ s_buy s = 0.
Proof. intros X B U. spl. repeat (destruct (Rlt_dec _ _)); lra. Qed.

Lemma split_values q x b u : 0 <= x * p_pel q -> 0 <= b -> 0 <= u -> let s := split_of q x b u in
  s_own s = Rmin (x * p_pel q) (b + u) /\
  s_buy s = Rmax 0 (b + u - x * p_pel q) /\
  s_feed s = Rmax 0 (x * p_pel q - (b + u)) /\
  s_own_b s = Rmin (x * p_pel q) b.
Proof.
  intros X B U. spl. unfold Rmin, Rmax.
  repeat (destruct (Rlt_dec _ _)); repeat (destruct (Rle_dec _ _)); lra.
Qed.
