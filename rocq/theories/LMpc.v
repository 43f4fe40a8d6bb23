(** Lemmas on the model-predictive CHP controller. *)
From Coq Require Import Reals List Bool Arith Lra Lia ZArith.
From Verif Require Import MBC MCtrl MMpcCost MMpc.
Import ListNotations.
Open Scope R_scope.

(** ** Sums *)

Lemma rsum_app l m : rsum (l ++ m) = rsum l + rsum m.
Proof. unfold rsum. induction l as [|a l IH]; cbn [app fold_right]; [ring|rewrite IH; ring]. Qed.

Lemma cumsum_from_nth l : forall a k, (k < length l)%nat ->
  nth_error (cumsum_from a l) k = Some (a + rsum (firstn (S k) l)).
Proof.
  induction l as [|x l IH]; intros a k K; cbn [length] in K; [lia|].
  destruct k as [|k].
  - cbn. f_equal. ring.
  - cbn [cumsum_from nth_error]. rewrite IH by lia. f_equal.
    change (firstn (S (S k)) (x :: l)) with (x :: firstn (S k) l).
    change (rsum (x :: firstn (S k) l)) with (x + rsum (firstn (S k) l)). ring.
Qed.

Lemma cumsum_nth l k : (k < length l)%nat ->
  nth_error (cumsum l) k = Some (rsum (firstn (S k) l)).
Proof. intro K. unfold cumsum. rewrite cumsum_from_nth by assumption. f_equal. ring. Qed.

Lemma cumsum_from_length l : forall a, length (cumsum_from a l) = length l.
Proof. induction l as [|x l IH]; intro a; cbn; [reflexivity|now rewrite IH]. Qed.
Lemma cumsum_length l : length (cumsum l) = length l.
Proof. apply cumsum_from_length. Qed.

Lemma map2_nth {A B C} (f : A -> B -> C) l : forall m k a b,
  nth_error l k = Some a -> nth_error m k = Some b -> nth_error (map2 f l m) k = Some (f a b).
Proof.
  induction l as [|x l IH]; intros m k a b; destruct k; cbn; intros L M; try discriminate;
  destruct m; try discriminate.
  - cbn in M. congruence.
  - apply IH; assumption.
Qed.

Lemma map2_length {A B C} (f : A -> B -> C) l : forall m,
  length (map2 f l m) = Nat.min (length l) (length m).
Proof. induction l as [|x l IH]; intros [|y m]; cbn; auto. Qed.

Lemma nth_skip {A} n : forall (l : list A) k, nth_error (skipn n l) k = nth_error l (n + k).
Proof.
  induction n as [|n IH]; intros l k; [reflexivity|].
  destruct l; cbn [skipn plus]; [destruct k; reflexivity|]. cbn [nth_error]. apply IH.
Qed.

Lemma nth_first {A} n : forall (l : list A) k, (k < n)%nat ->
  nth_error (firstn n l) k = nth_error l k.
Proof.
  induction n as [|n IH]; intros l k K; [lia|].
  destruct l; [destruct k; reflexivity|]. destruct k; cbn; [reflexivity|]. apply IH. lia.
Qed.

Lemma rsum_scale c l : rsum (map (fun v => v * c) l) = rsum l * c.
Proof.
  unfold rsum. induction l as [|a l IH]; cbn [map fold_right]; [ring|rewrite IH; ring].
Qed.

(** The next [m] entries after the first [n]. *)
Lemma first_split {A} n m : forall l : list A,
  firstn (n + m) l = firstn n l ++ firstn m (skipn n l).
Proof.
  induction n as [|n IH]; intros l; [reflexivity|].
  destruct l; cbn [plus firstn skipn app]; [destruct m; reflexivity|]. f_equal. apply IH.
Qed.

(** Entry [k] of the demand seen by the optimiser: the demand of the slots [n+1 .. n+k]. *)
Lemma horizon_nth oe dmd n size k :
  (k < size)%nat -> (n + k < length dmd)%nat ->
  nth_error (horizon n size (heat_dmd_kum oe dmd)) k =
    Some (rsum (firstn k (skipn (S n) dmd)) * oe / 3600000).
Proof.
  intros K L. unfold horizon.
  assert (E : forall j, (j < size)%nat -> (n + j < length dmd)%nat ->
    nth_error (firstn size (skipn n (heat_dmd_kum oe dmd))) j =
      Some (rsum (firstn (S (n + j)) dmd) * oe / 3600000)).
  { intros j J LJ. rewrite nth_first by assumption. rewrite nth_skip. unfold heat_dmd_kum.
    erewrite map_nth_error; [reflexivity|]. now apply cumsum_nth. }
  assert (H0 : hd 0 (firstn size (skipn n (heat_dmd_kum oe dmd))) =
               rsum (firstn (S n) dmd) * oe / 3600000).
  { assert (E0 := E 0%nat ltac:(lia) ltac:(lia)). rewrite Nat.add_0_r in E0.
    destruct (firstn size (skipn n (heat_dmd_kum oe dmd))); cbn in E0; [discriminate|].
    cbn. congruence. }
  rewrite H0. erewrite map_nth_error by (apply E; assumption). f_equal.
  change (S (n + k)) with (S n + k)%nat. rewrite first_split, rsum_app. field.
Qed.

Lemma horizon_length oe dmd n size :
  length (horizon n size (heat_dmd_kum oe dmd)) = Nat.min size (length dmd - n).
Proof.
  unfold horizon, heat_dmd_kum.
  rewrite map_length, firstn_length, skipn_length, map_length, cumsum_length. reflexivity.
Qed.

Lemma produced_nth fac x k : (k < length x)%nat ->
  nth_error (cumsum (map (fun v => v * fac) x)) k = Some (rsum (firstn (S k) x) * fac).
Proof.
  intro K. rewrite cumsum_nth by (rewrite map_length; assumption).
  rewrite firstn_map, rsum_scale. reflexivity.
Qed.

Lemma before_empty_nth m fac dmd x k d : (k < length x)%nat -> nth_error dmd k = Some d ->
  nth_error (before_empty m fac dmd x) k = Some (m - d + rsum (firstn (S k) x) * fac).
Proof.
  intros K D. unfold before_empty. apply map2_nth.
  - erewrite map_nth_error by exact D. reflexivity.
  - now apply produced_nth.
Qed.

Lemma before_full_nth m fac dmd x k d : (k < length x)%nat -> nth_error dmd k = Some d ->
  nth_error (before_full m fac dmd x) k = Some (m - (rsum (firstn (S k) x) * fac - d)).
Proof.
  intros K D. unfold before_full. erewrite map_nth_error; [reflexivity|].
  apply map2_nth; [now apply produced_nth|exact D].
Qed.

Lemma before_empty_length m fac dmd x :
  length (before_empty m fac dmd x) = Nat.min (length dmd) (length x).
Proof.
  unfold before_empty. rewrite map2_length, map_length, cumsum_length, map_length. reflexivity.
Qed.
Lemma before_full_length m fac dmd x :
  length (before_full m fac dmd x) = Nat.min (length x) (length dmd).
Proof.
  unfold before_full. rewrite map_length, map2_length, cumsum_length, map_length. reflexivity.
Qed.

(** ** [any_neg], maxima, scaling *)

Lemma any_neg_false l : any_neg l = false <-> Forall (fun v => 0 <= v) l.
Proof.
  unfold any_neg. induction l as [|a l IH]; cbn [existsb].
  - split; auto.
  - rewrite orb_false_iff, IH. split.
    + intros [A B]. constructor; [|exact B]. destruct (Rlt_dec a 0); [discriminate|lra].
    + intro F. inversion F as [|u v A B]; subst. split; [|exact B].
      destruct (Rlt_dec a 0); [lra|reflexivity].
Qed.

Lemma fold_max_ge l : forall a, a <= fold_left Rmax l a /\ Forall (fun v => v <= fold_left Rmax l a) l.
Proof.
  induction l as [|b l IH]; intro a; cbn [fold_left].
  - split; [lra|constructor].
  - destruct (IH (Rmax a b)) as [A F]. pose proof (Rmax_l a b). pose proof (Rmax_r a b).
    split; [lra|]. constructor; [lra|exact F].
Qed.

Lemma lmax_ge l : Forall (fun v => v <= lmax l) l.
Proof.
  destruct l as [|a l]; [constructor|]. unfold lmax. destruct (fold_max_ge l a).
  constructor; assumption.
Qed.

Lemma fold_max_in l : forall a, fold_left Rmax l a = a \/ In (fold_left Rmax l a) l.
Proof.
  induction l as [|b l IH]; intro a; cbn [fold_left]; [now left|].
  destruct (IH (Rmax a b)) as [E|E].
  - rewrite E. unfold Rmax. destruct (Rle_dec a b); [right; now left|now left].
  - right. now right.
Qed.

Lemma lmax_in l : l <> [] -> In (lmax l) l.
Proof.
  destruct l as [|a l]; [congruence|]. intros _. unfold lmax.
  destruct (fold_max_in l a) as [E|E]; [left; now rewrite E|now right].
Qed.

Definition unit_range (v : R) : Prop := 0 <= v <= 1.

(** Plans grow from [a] to [b] within [0, 1]. *)
Definition raised (a b : list R) : Prop := Forall2 (fun u v => u <= v /\ unit_range v) a b.

Lemma raised_refl x : Forall unit_range x -> raised x x.
Proof. induction 1; constructor; [split; [lra|assumption]|assumption]. Qed.
Lemma raised_trans a b c : raised a b -> raised b c -> raised a c.
Proof.
  intros AB. revert c. induction AB as [|u v a b H AB IH]; intros c BC; inversion BC; subst;
  constructor; [|now apply IH].
  split; [lra|tauto].
Qed.
Lemma raised_range a b : raised a b -> Forall unit_range b.
Proof. induction 1; constructor; tauto. Qed.
Lemma raised_length a b : raised a b -> length a = length b.
Proof. induction 1; cbn; lia. Qed.

Lemma scale_raised (d : R) u : Forall unit_range u -> 0 < d -> d <= 1 -> Forall (fun v => v <= d) u ->
  raised u (map (fun v => v / d) u).
Proof.
  intros U D0 D1 F. induction U as [|v u V U IH]; cbn [map]; [constructor|].
  inversion F as [|p q F1 F2]; subst. constructor; [|now apply IH].
  unfold unit_range in *.
  assert (v * d <= v) by nra.
  split; [apply Rmult_le_reg_r with d; [lra|]; unfold Rdiv; rewrite Rmult_assoc, Rinv_l by lra; lra|].
  split; apply Rmult_le_reg_r with d; try lra; unfold Rdiv; rewrite Rmult_assoc, Rinv_l by lra; lra.
Qed.

Lemma sqrt_between m : 0 < m -> m <= 1 -> m <= sqrt m /\ 0 < sqrt m <= 1.
Proof.
  intros M M1. pose proof (sqrt_lt_R0 m M) as S0.
  pose proof (sqrt_sqrt m (Rlt_le _ _ M)) as SS.
  assert (S1 : sqrt m <= 1) by (rewrite <- sqrt_1; apply sqrt_le_1; lra).
  split; [nra|lra].
Qed.

Lemma lmax_unit u : u <> [] -> Forall unit_range u -> unit_range (lmax u).
Proof. intros N F. rewrite Forall_forall in F. apply F, lmax_in, N. Qed.

Lemma lmax_pos_nonempty u : 0 < lmax u -> u <> [].
Proof. intros L E. subst. cbn in L. lra. Qed.

(** The loop raises the plan; afterwards the second component is the plan itself or its clipped
    version. *)
Lemma scale_loop_raised lo atol empty fuel : forall u x v y,
  Forall unit_range u -> (x = u \/ x = clip_array lo atol u) ->
  scale_loop fuel lo atol empty u x = Some (v, y) ->
  raised u v /\ (v = u /\ y = x \/ y = clip_array lo atol v).
Proof.
  induction fuel as [|fuel IH]; intros u x v y U X E; cbn [scale_loop] in E.
  - injection E as <- <-. split; [apply raised_refl, U|left; auto].
  - destruct (any_neg (empty x)).
    + destruct (Rlt_dec 0 (lmax u)) as [L|L]; [|discriminate].
      pose proof (lmax_pos_nonempty u L) as N. destruct (lmax_unit u N U) as [_ L1].
      destruct (sqrt_between (lmax u) L L1) as (S0 & S1 & S2).
      assert (RU : raised u (map (fun v => v / sqrt (lmax u)) u)).
      { apply scale_raised; auto. eapply Forall_impl; [|apply lmax_ge]. cbn. intros; lra. }
      pose proof (raised_range _ _ RU) as RR.
      destruct (IH _ _ v y RR (or_intror eq_refl) E) as [R2 Y].
      split; [eapply raised_trans; eassumption|].
      right. destruct Y as [[-> ->]|Y]; [reflexivity|exact Y].
    + injection E as <- <-. split; [apply raised_refl, U|left; auto].
Qed.

Lemma clip01_id u : Forall unit_range u -> map (fun v => Rmin (Rmax v 0) 1) u = u.
Proof.
  intro U. rewrite <- (map_id u) at 2. apply map_ext_in. intros v V.
  rewrite Forall_forall in U. destruct (U v V). rewrite Rmax_left by lra. apply Rmin_left. lra.
Qed.

Lemma adj_raised lo atol empty full x r : Forall unit_range x ->
  adj_by_soc lo atol empty full x = Some r ->
  raised x r /\
  (any_neg (full (clip_array lo atol x)) = false -> any_neg (full (clip_array lo atol r)) = false).
Proof.
  intros U E. unfold adj_by_soc in E.
  destruct (any_neg (full (clip_array lo atol x))) eqn:F0.
  { injection E as <-. split; [apply raised_refl, U|discriminate]. }
  destruct (scale_loop 5 lo atol empty x x) as [[u y]|] eqn:L; [|discriminate].
  destruct (scale_loop_raised lo atol empty 5 x x u y U (or_introl eq_refl) L) as [RU Y].
  pose proof (raised_range _ _ RU) as UR.
  assert (G : forall u y, raised x u -> (u = x \/ y = clip_array lo atol u) ->
    raised x (map (fun v => Rmin (Rmax v 0) 1) (if any_neg (full y) then x else u)) /\
    any_neg (full (clip_array lo atol
      (map (fun v => Rmin (Rmax v 0) 1) (if any_neg (full y) then x else u)))) = false).
  { intros u' y' RU' Y'. destruct (any_neg (full y')) eqn:F1.
    - rewrite clip01_id by assumption. split; [apply raised_refl, U|exact F0].
    - rewrite clip01_id by (eapply raised_range; eassumption). split; [exact RU'|].
      destruct Y' as [->|Y']; [exact F0|]. rewrite <- Y'. exact F1. }
  destruct (any_neg (empty y)).
  - destruct (Rlt_dec 0 (lmax u)) as [LM|]; [|discriminate]. injection E as <-.
    pose proof (lmax_pos_nonempty u LM) as N. destruct (lmax_unit u N UR) as [_ L1].
    assert (RU2 : raised u (map (fun v => v / lmax u) u)).
    { apply scale_raised; auto. apply lmax_ge. }
    destruct (G (map (fun v => v / lmax u) u) (clip_array lo atol (map (fun v => v / lmax u) u)))
      as [G1 G2]; auto.
    eapply raised_trans; eassumption.
  - injection E as <-. destruct (G u y) as [G1 G2]; auto.
    destruct Y as [[-> _]|Y]; auto.
Qed.
