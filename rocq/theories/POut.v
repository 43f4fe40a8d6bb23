(** C115-C121: removal of outliers from measured series. *)
From Coq Require Import Reals List Bool Arith Lra Lia.
From Verif Require Import MOut LOut LOut2.
Import ListNotations.
Open Scope R_scope.

Lemma far_std c k l s x : lstd (ddof c) l = Some s -> out_std c k l x = far (lmean l) (k * s) x.
Proof. intros E. unfold out_std, far. rewrite E. reflexivity. Qed.
Lemma std_removed c k l : 0 < k -> (ddof c < length l)%nat ->
  cnt (out_std c k l) l = 0%nat \/ INR (cnt (out_std c k l) l) * (k * k) < INR (length l - ddof c).
Proof.
  intros K L. destruct (Nat.eq_dec (cnt (out_std c k l) l) 0) as [Z|Z]; [left; exact Z|right].
  assert (D : 0 < INR (length l - ddof c)) by (apply lt_0_INR; lia).
  assert (E : exists s, lstd (ddof c) l = Some s /\ 0 <= s /\ s * s = ssd l / INR (length l - ddof c)).
  { unfold lstd. destruct (Nat.leb_spec (length l) (ddof c)); [lia|]. eexists. split; [reflexivity|].
    split; [apply sqrt_pos|]. apply sqrt_sqrt.
    pose proof (ssd_nonneg l). apply Rmult_le_pos; [exact H0|]. left. apply Rinv_0_lt_compat, D. }
  destruct E as (s & E & S0 & S2).
  assert (C : cnt (out_std c k l) l = cnt (far (lmean l) (k * s)) l).
  { clear Z. generalize l at 2 4. intros l'. induction l'; cbn; [reflexivity|]. rewrite (far_std c k l s a E). congruence. }
  rewrite C in *. destruct (chebyshev (lmean l) (k * s) l) as [_ H]; [nra|].
  specialize (H ltac:(lia)). fold (ssd l) in H.
  assert (SS : ssd l = s * s * INR (length l - ddof c)) by (rewrite S2; field; lra).
  rewrite SS in H. set (r := INR (cnt (far (lmean l) (k * s)) l)) in *.
  set (d := INR (length l - ddof c)) in *.
  assert (0 < s * s \/ s = 0) as [P|P] by (destruct (Req_dec s 0); [right; assumption|left; nra]).
  - apply Rmult_lt_reg_l with (s * s); [exact P|]. nra.
  - subst s. nra.
Qed.

(** ** C115: a gross outlier is removed *)
(** How much [remove_outliers_std] can remove at all. *)
Theorem C115_bound : forall c k ts l kept, 0 < k -> (ddof c < length l)%nat ->
  result (remove_std c k Remove ts l) = Returned kept ->
  length kept = length l \/ INR (length l - length kept) * (k * k) < INR (length l - ddof c).
Proof.
  intros c k ts l kept K L E. cbn in E. injection E as <-. unfold mask_std.
  rewrite dropped_self, map_length, filter_cnt. pose proof (cnt_neg (out_std c k l) l).
  destruct (std_removed c k l K L) as [Z|B]; [left; lia|right].
  replace (length l - cnt (fun x => negb (out_std c k l x)) l)%nat with (cnt (out_std c k l) l) by lia.
  exact B.
Qed.
Print Assumptions C115_bound.

(** A series of up to ten values keeps every value, however far off it is. *)
Theorem C115_gross_refuted : forall ts l, (2 <= length l <= 10)%nat ->
  result (remove_std Series 3 Remove ts l) = Returned (map Some l).
Proof.
  intros ts l L. cbn. unfold mask_std. rewrite dropped_self. do 2 f_equal. apply filter_all.
  intros x Hx. assert (Z : cnt (out_std Series 3 l) l = 0%nat).
  { destruct (std_removed Series 3 l) as [Z|B]; [lra|cbn; lia|exact Z|]. cbn [ddof] in B.
    destruct (cnt (out_std Series 3 l) l) as [|c]; [reflexivity|].
    rewrite S_INR in B. pose proof (pos_INR c).
    assert (INR (length l - 1) <= INR 9) by (apply le_INR; lia). cbn [INR] in H0. lra. }
  rewrite (cnt_zero _ _ Z x Hx). reflexivity.
Qed.
Print Assumptions C115_gross_refuted.
(** Nine times 20 degC and once a billion. *)
Example C115_ex : exists l, length l = 10%nat /\ In 1000000000 l /\
  result (remove_std Series 3 Remove (map INR (seq 0 10)) l) = Returned (map Some l) /\
  cnt (within 20 20) l = 9%nat.
Proof.
  exists (1000000000 :: repeat 20 9). split; [reflexivity|]. split; [left; reflexivity|].
  split; [apply C115_gross_refuted; cbn; lia|]. cbn [cnt repeat]. unfold within.
  destruct (Rle_dec 20 1000000000); [|lra]. destruct (Rle_dec 1000000000 20); [lra|].
  destruct (Rle_dec 20 20); [|lra]. reflexivity.
Qed.

(** ** C116: the median based removal finds gross outliers *)
Lemma mad_nonneg l : 0 <= mad l.
Proof.
  unfold mad. destruct (Nat.eq_dec (length l) 0) as [Z|Z].
  { destruct l; [|discriminate Z]. unfold median. cbn. lra. }
  set (d := map (fun x => Rabs (x - median l)) l). set (M := lsum d).
  assert (D : forall y, In y d -> 0 <= y).
  { intros y Hy. unfold d in Hy. apply in_map_iff in Hy. destruct Hy as (z & <- & _). apply Rabs_pos. }
  assert (U : forall y, In y d -> y <= M).
  { unfold M. clear -D. induction d as [|a d IHd]; [easy|]. cbn. intros y [<-|Hy].
    - assert (0 <= lsum d); [|unfold lsum in *; lra]. clear IHd.
      assert (forall z, In z d -> 0 <= z) by (intros; apply D; cbn; auto). clear D.
      induction d as [|a0 d IHd]; cbn; [lra|]. assert (0 <= lsum d) by (apply IHd; intros; apply H; cbn; auto).
      specialize (H a0 (or_introl eq_refl)). unfold lsum in *. lra.
    - assert (y <= lsum d) by (apply IHd; [intros; apply D; cbn; auto|exact Hy]).
      pose proof (D a (or_introl eq_refl)). unfold lsum in *. lra. }
  apply (median_majority d 0 M). rewrite cnt_all.
  - unfold d. rewrite map_length. lia.
  - intros y Hy. apply within_true. auto.
Qed.

(** If more than half of the values lie within [r] around [c], every value further off than
    [r + 2 * threshold * dist_const * r] is removed. *)
Theorem C116_mad_gross : forall cont th dc ts l c r x kept, 0 <= th * dc ->
  (length l < 2 * cnt (within (c - r) (c + r)) l)%nat ->
  result (remove_mad cont th dc Remove ts l) = Returned kept ->
  r + th * dc * (2 * r) < Rabs (x - c) -> ~ In (Some x) kept.
Proof.
  intros cont th dc ts l c r x kept T M E X. cbn in E. injection E as <-.
  unfold mask_mad. rewrite dropped_self. intros H. apply in_map_iff in H.
  destruct H as (y & Ey & Hy). injection Ey as ->. apply filter_In in Hy. destruct Hy as [_ Hy].
  pose proof (median_majority l (c - r) (c + r) M) as Md.
  assert (D : 0 <= mad l <= 2 * r).
  { unfold mad. apply median_majority. rewrite map_length, cnt_map.
    eapply Nat.lt_le_trans; [exact M|]. apply Nat.mul_le_mono_l. apply cnt_mono.
    intros y _ Hyw. apply within_true in Hyw. apply within_true. split; [apply Rabs_pos|].
    apply Rabs_le. lra. }
  unfold out_mad in Hy. destruct (Rlt_dec (th * dc * mad l) (Rabs (x - median l))) as [|N]; [easy|].
  apply N. assert (th * dc * mad l <= th * dc * (2 * r)) by (apply Rmult_le_compat_l; lra).
  assert (Rabs (x - c) <= Rabs (x - median l) + r); [|lra].
  replace (x - c) with ((x - median l) + (median l - c)) by ring.
  eapply Rle_trans; [apply Rabs_triang|]. apply Rplus_le_compat_l, Rabs_le. lra.
Qed.
Print Assumptions C116_mad_gross.
(** The series which [remove_outliers_std] leaves as it is. *)
Example C116_ex : forall ts kept,
  result (remove_mad Series 2.5 1.4826 Remove ts (1000000000 :: repeat 20 9)) = Returned kept ->
  ~ In (Some 1000000000) kept.
Proof.
  intros ts kept E. apply (C116_mad_gross Series 2.5 1.4826 ts (1000000000 :: repeat 20 9) 20 1 1000000000 kept); try exact E; try lra.
  - cbn [cnt repeat length]. unfold within.
    destruct (Rle_dec (20 - 1) 1000000000), (Rle_dec 1000000000 (20 + 1)); try lra.
    destruct (Rle_dec (20 - 1) 20), (Rle_dec 20 (20 + 1)); try lra. lia.
  - rewrite Rabs_right; lra.
Qed.

(** ** C117: most of the data survives *)
Theorem C117_mad_half : forall cont th dc ts l kept, 1 <= th * dc ->
  result (remove_mad cont th dc Remove ts l) = Returned kept -> (length l <= 2 * length kept)%nat.
Proof.
  intros cont th dc ts l kept T E. cbn in E. injection E as <-. unfold mask_mad.
  rewrite dropped_self, map_length, filter_cnt.
  pose proof (median_half (map (fun x => Rabs (x - median l)) l)) as H. fold (mad l) in H.
  rewrite map_length, cnt_map in H. eapply Nat.le_trans; [exact H|]. apply Nat.mul_le_mono_l, cnt_mono.
  intros x _ Hx. apply leb_true in Hx. pose proof (mad_nonneg l). unfold out_mad.
  destruct (Rlt_dec (th * dc * mad l) (Rabs (x - median l))); [nra|reflexivity].
Qed.
Print Assumptions C117_mad_half.

(** With at least 1.5 standard deviations as the limit, a series of at least two values (an array
    of at least one) keeps more than half of them. *)
Theorem C117_std_half : forall c k ts l kept, 3 / 2 <= k -> (ddof c < length l)%nat ->
  result (remove_std c k Remove ts l) = Returned kept -> (length l < 2 * length kept)%nat.
Proof.
  intros c k ts l kept K L E.
  assert (Hk : (length kept <= length l)%nat).
  { cbn in E. injection E as <-. unfold mask_std. rewrite dropped_self, map_length, filter_cnt. apply cnt_le. }
  destruct (C115_bound c k ts l kept) as [Z|B]; [lra|exact L|exact E|lia|].
  apply INR_lt. rewrite minus_INR in B by lia. rewrite minus_INR in B by lia. rewrite mult_INR.
  replace (INR 2) with 2 by (cbn; lra). pose proof (pos_INR (ddof c)).
  assert (INR (length kept) <= INR (length l)) by (apply le_INR; lia).
  assert (9 / 4 <= k * k) by nra. nra.
Qed.
Print Assumptions C117_std_half.

(** A series with a single value loses it, whatever the limit. *)
Theorem C117_single_refuted : forall k ts x, result (remove_std Series k Remove ts [x]) = Returned [].
Proof. reflexivity. Qed.
Print Assumptions C117_single_refuted.
(** The default settings meet the conditions, and something is removed. *)
Example C117_ex : 1 <= 2.5 * 1.4826 /\ 3 / 2 <= 3 /\
  out_std Array (3 / 2) [0; 0; 0; 8] 8 = true.
Proof.
  split; [lra|]. split; [lra|].
  unfold out_std, lstd, lmean. cbn [ddof length Nat.leb Nat.sub].
  unfold ssd, lmean, lsum. cbn [map fold_right length INR].
  destruct (Rle_dec _ _) as [H|]; [|reflexivity]. exfalso.
  rewrite Rabs_right in H by lra.
  match type of H with context [sqrt ?e] => assert (E : sqrt e < 4) end.
  { rewrite <- (sqrt_square 4) by lra. apply sqrt_lt_1; lra. }
  lra.
Qed.

(** ** C118: ordinary data is not mistaken for outliers *)
(** If more than half of the values are equal, every other value is removed however close it is
    and whatever the threshold. *)
Theorem C118_majority_refuted : forall cont th dc ts l c kept,
  (length l < 2 * cnt (within c c) l)%nat ->
  result (remove_mad cont th dc Remove ts l) = Returned kept ->
  forall x, In (Some x) kept <-> In x l /\ x = c.
Proof.
  intros cont th dc ts l c kept M E x. cbn in E. injection E as <-. unfold mask_mad. rewrite dropped_self.
  pose proof (median_majority l c c M) as Md. assert (Em : median l = c) by lra.
  assert (D : mad l = 0).
  { assert (0 <= mad l <= 0); [|lra]. unfold mad. apply median_majority. rewrite map_length, cnt_map.
    eapply Nat.lt_le_trans; [exact M|]. apply Nat.mul_le_mono_l. apply cnt_mono.
    intros y _ Hyw. apply within_true in Hyw. apply within_true. replace (y - median l) with 0 by lra.
    rewrite Rabs_R0. lra. }
  assert (O : forall y, out_mad th dc l y = true <-> y <> c).
  { intros y. unfold out_mad. rewrite D, Em, Rmult_0_r. destruct (Rlt_dec 0 (Rabs (y - c))) as [P|P].
    - split; [intros _ ->|reflexivity]. rewrite Rminus_diag_eq, Rabs_R0 in P by reflexivity. lra.
    - split; [easy|]. intros N. exfalso. apply P, Rabs_pos_lt. lra. }
  split.
  - intros H. apply in_map_iff in H. destruct H as (y & Ey & Hy). injection Ey as ->.
    apply filter_In in Hy. destruct Hy as [H1 H2]. split; [exact H1|].
    destruct (Req_dec x c); [assumption|]. apply O in H. rewrite H in H2. easy.
  - intros [H ->]. apply in_map_iff. exists c. split; [reflexivity|]. apply filter_In. split; [exact H|].
    destruct (out_mad th dc l c) eqn:Eo; [|reflexivity]. apply O in Eo. easy.
Qed.
Print Assumptions C118_majority_refuted.
Example C118_ex : let l := [20; 20; 20; 20.1; 20.2] in (length l < 2 * cnt (within 20 20) l)%nat.
Proof.
  cbn zeta. cbn [cnt length]. unfold within. destruct (Rle_dec 20 20); [|lra].
  destruct (Rle_dec 20 20.1), (Rle_dec 20.1 20), (Rle_dec 20 20.2), (Rle_dec 20.2 20); try lra; lia.
Qed.

(** [remove_outliers_roll] with its default window and limit: both ends of every straight rising
    line of at least 17 values are taken for outliers and are lost even with 'interpolate'. *)
Theorem C118_line_refuted : forall n a b ts, (17 <= n)%nat -> 0 < a ->
  let l := map (fun i => a * INR i + b) (seq 0 n) in
  exists r, result (remove_roll Series 3 3 Interpolate ts l) = Returned r /\ length r = n /\
    nth 0 r (Some 0) = None /\ nth (n - 1) r (Some 0) = None /\
    forall i, (0 < i)%nat -> (i < n - 1)%nat -> nth i r None = Some (a * INR i + b).
Proof.
  intros n a b ts N A l. cbn [remove_roll result].
  assert (El : l = map (fun x => a * x + b) (line n)).
  { unfold l, line. rewrite map_map. reflexivity. }
  assert (M : mask_roll 3 3 l = map (fun i => (i =? 0)%nat || (i + 1 =? n)%nat)%bool (seq 0 n)).
  { rewrite El, mask_roll_affine by (auto; lia). unfold mask_roll. rewrite line_length.
    apply map_ext_in. intros i Hi. apply in_seq in Hi. unfold out_roll.
    rewrite line_diff by lia.
    destruct n as [|[|[|m]]]; try lia. rewrite line_std. set (q := INR (m + 3)).
    set (s := sqrt ((2 - 4 / q) / (q - 1))).
    assert (Q : 17 <= q).
    { unfold q. assert (INR 17 <= INR (m + 3)) by (apply le_INR; lia). replace 17 with (INR 17) by (cbn [INR]; lra). exact H. }
    assert (S0 : 0 <= s) by apply sqrt_pos.
    assert (S1 : s * s = (2 - 4 / q) / (q - 1)).
    { apply sqrt_sqrt. apply Rmult_le_pos; [|left; apply Rinv_0_lt_compat; lra].
      assert (4 / q <= 2); [|lra]. apply Rmult_le_reg_r with q; [lra|]. unfold Rdiv. rewrite Rmult_assoc, Rinv_l; lra. }
    assert (S3 : s * 3 < 1).
    { apply Rnot_le_lt. intros C. assert (1 <= 9 * (s * s)) by nra. rewrite S1 in H.
      assert (q * (q - 1) <= 9 * (2 * q - 4)); [|nra].
      replace (9 * (2 * q - 4)) with (9 * ((2 - 4 / q) / (q - 1)) * (q * (q - 1))) by (field; lra).
      rewrite <- (Rmult_1_l (q * (q - 1))) at 1. apply Rmult_le_compat_r; [nra|exact H]. }
    destruct ((i =? 0)%nat || (i + 1 =? S (S (S m)))%nat)%bool.
    - destruct (Rlt_dec (s * 3) 1); [reflexivity|lra].
    - destruct (Rlt_dec (s * 3) 0); [lra|reflexivity]. }
  assert (Ll : length l = n) by (unfold l; rewrite map_length, seq_length; reflexivity).
  eexists. split; [reflexivity|]. rewrite M.
  set (out := map (fun i => ((i =? 0)%nat || (i + 1 =? n)%nat)%bool) (seq 0 n)).
  assert (Lo : length out = length l) by (unfold out; rewrite map_length, seq_length; lia).
  assert (No : forall i, (i < n)%nat -> nth i out true = ((i =? 0)%nat || (i + 1 =? n)%nat)%bool).
  { intros i Hi. unfold out. rewrite (nth_indep _ true ((0 =? 0)%nat || (0 + 1 =? n)%nat)%bool)
      by (rewrite map_length, seq_length; lia).
    rewrite (map_nth (fun i => ((i =? 0)%nat || (i + 1 =? n)%nat)%bool)), seq_nth by lia. reflexivity. }
  set (c := marked None out l). assert (Lc : length c = n) by (unfold c; rewrite marked_length; lia).
  assert (Nc : forall i, (i < n)%nat ->
    nth i c None = if ((i =? 0)%nat || (i + 1 =? n)%nat)%bool then None else Some (a * INR i + b)).
  { intros i Hi. unfold c. rewrite marked_nth, No by lia.
    destruct ((i =? 0)%nat || (i + 1 =? n)%nat)%bool; [reflexivity|]. f_equal.
    rewrite El, nth_map_R, line_nth by (rewrite ?line_length; lia). reflexivity. }
  assert (Li : length (interpolate true ts c) = n).
  { unfold interpolate. rewrite map_length, seq_length. exact Lc. }
  split; [exact Li|].
  repeat split.
  - rewrite (nth_indep _ (Some 0) None) by lia. rewrite interpolate_nth by lia. unfold interp_at. cbn [prev_ok].
    rewrite (Nc 0%nat) by lia. reflexivity.
  - rewrite (nth_indep _ (Some 0) None) by lia. rewrite interpolate_nth by lia. unfold interp_at.
    rewrite Lc. replace (n - (n - 1))%nat with 1%nat by lia. cbn [next_ok]. rewrite (Nc (n - 1)%nat) by lia.
    replace (n - 1 + 1 =? n)%nat with true by (symmetry; apply Nat.eqb_eq; lia). rewrite orb_true_r.
    destruct (prev_ok c (n - 1)) as [[? ?]|]; reflexivity.
  - intros i H1 H2. rewrite interpolate_nth by lia. apply interp_kept; [lia|]. rewrite Nc by lia.
    destruct (Nat.eqb_spec i 0); [lia|]. destruct (Nat.eqb_spec (i + 1) n); [lia|]. reflexivity.
Qed.
Print Assumptions C118_line_refuted.

(** ** C119: the choice of the unit does not matter *)
Definition rescaled (a b : R) (o : outcome) : outcome :=
  match o with Returned l => Returned (map (option_map (fun x => a * x + b)) l) | Raised => Raised end.
Definition constant_fill (f : fill) : Prop := exists v, f = Const v.
Lemma resc_map a b l : map (resc a b) l = map (option_map (fun x => a * x + b)) l.
Proof. apply map_ext. intros [x|]; reflexivity. Qed.

Theorem C119_std : forall c k f ts l a b, 0 < a -> ~ constant_fill f ->
  result (remove_std c k f ts (map (fun x => a * x + b) l)) = rescaled a b (result (remove_std c k f ts l)).
Proof.
  intros c k f ts l a b A F. unfold remove_std. rewrite mask_std_affine by exact A.
  destruct f; cbn [result]; try (destruct c); cbn [rescaled]; try reflexivity;
    try (f_equal; rewrite <- resc_map, ?marked_resc, ?interpolate_resc, ?dropped_resc; reflexivity);
    exfalso; apply F; eexists; reflexivity.
Qed.
Print Assumptions C119_std.
Theorem C119_mad : forall c th dc f ts l a b, 0 < a -> ~ constant_fill f ->
  result (remove_mad c th dc f ts (map (fun x => a * x + b) l)) = rescaled a b (result (remove_mad c th dc f ts l)).
Proof.
  intros c th dc f ts l a b A F. unfold remove_mad. rewrite mask_mad_affine by exact A. cbn [result rescaled].
  f_equal. rewrite <- resc_map.
  assert (I : mad_index c ts (map (fun x => a * x + b) l) = mad_index c ts l).
  { unfold mad_index. rewrite map_length. reflexivity. }
  rewrite I. destruct f; rewrite ?marked_resc, ?interpolate_resc, ?dropped_resc; try reflexivity.
  exfalso; apply F; eexists; reflexivity.
Qed.
Print Assumptions C119_mad.
Theorem C119_roll : forall c w k f ts l a b, 0 < a -> (0 < w)%nat -> ~ constant_fill f ->
  result (remove_roll c w k f ts (map (fun x => a * x + b) l)) = rescaled a b (result (remove_roll c w k f ts l)).
Proof.
  intros c w k f ts l a b A W F. unfold remove_roll. cbn [result]. destruct c; [|reflexivity]. cbn [rescaled].
  rewrite mask_roll_affine by assumption. f_equal. rewrite <- resc_map.
  destruct f; rewrite ?marked_resc, ?interpolate_resc, ?dropped_resc; try reflexivity.
  exfalso; apply F; eexists; reflexivity.
Qed.
Print Assumptions C119_roll.
(** Celsius to Fahrenheit. *)
Example C119_ex : exists r r', result (remove_mad Series 2.5 1.4826 Remove [] (1000 :: repeat 20 9)) = Returned r /\
  result (remove_mad Series 2.5 1.4826 Remove [] (map (fun x => 1.8 * x + 32) (1000 :: repeat 20 9))) = Returned r' /\
  r' = map (option_map (fun x => 1.8 * x + 32)) r.
Proof.
  do 2 eexists. split; [reflexivity|]. split; [rewrite C119_mad; [reflexivity|lra|]|reflexivity].
  intros [v H]. discriminate H.
Qed.

(** ** C120: filled values follow from their neighbours *)
Definition increasing (ts : list R) : Prop :=
  forall i j, (i < j)%nat -> (j < length ts)%nat -> nth i ts 0 < nth j ts 0.
(** What 'interpolate' has to make of the values [l], of which the rows marked in [out] are
    outliers: kept values stay; a gap between two kept values gets values between them; a gap at
    the end repeats the last kept value. *)
Definition filled (out : list bool) (l : list R) (r : list (option R)) : Prop :=
  length r = length l /\
  (forall i, (i < length l)%nat -> nth i out true = false -> nth i r None = Some (nth i l 0)) /\
  (forall i p, (i < length l)%nat -> (p <= i)%nat -> nth p out true = false ->
     (forall j, (p < j)%nat -> (j <= i)%nat -> nth j out true = true) ->
     exists v, nth i r None = Some v /\
     ((forall j, (i < j)%nat -> (j < length l)%nat -> nth j out true = true) -> v = nth p l 0) /\
     (forall q, (i <= q)%nat -> (q < length l)%nat -> nth q out true = false ->
        (forall j, (p < j)%nat -> (j < q)%nat -> nth j out true = true) ->
        Rmin (nth p l 0) (nth q l 0) <= v <= Rmax (nth p l 0) (nth q l 0))).

Lemma fill_ok out l ts : length out = length l -> length ts = length l -> increasing ts ->
  filled out l (interpolate false ts (marked None out l)).
Proof.
  intros Ho Ht I. set (c := marked None out l).
  assert (Lc : length c = length l) by (apply marked_length, Ho).
  assert (Nc : forall i, (i < length l)%nat -> nth i c None = if nth i out true then None else Some (nth i l 0)).
  { intros i Hi. apply marked_nth; assumption. }
  split; [|split].
  - unfold interpolate. rewrite map_length, seq_length. exact Lc.
  - intros i Hi K. rewrite interpolate_nth by lia. apply interp_kept; [lia|]. rewrite Nc, K by lia. reflexivity.
  - intros i p Hi Hp Kp Gp. rewrite interpolate_nth by lia.
    assert (P : prev_ok c i = Some (p, nth p l 0)).
    { destruct (prev_ok c i) as [[p' v]|] eqn:E.
      - destruct (prev_ok_some _ _ _ _ E) as (H1 & H2 & H3).
        assert (p' = p).
        { destruct (Nat.lt_trichotomy p p') as [H|[H|H]]; [|auto|].
          - rewrite Nc, (Gp p') in H2 by lia. discriminate H2.
          - specialize (H3 p H Hp). rewrite Nc, Kp in H3 by lia. discriminate H3. }
        subst p'. rewrite Nc, Kp in H2 by lia. injection H2 as <-. reflexivity.
      - pose proof (prev_ok_none _ _ E p Hp) as H. rewrite Nc, Kp in H by lia. discriminate H. }
    unfold interp_at. rewrite P. rewrite Lc.
    destruct (next_ok c i (length l - i)) as [[q v]|] eqn:E.
    + destruct (next_ok_some _ _ _ _ _ E) as (H1 & H2 & H3).
      assert (Kq : nth q out true = false /\ v = nth q l 0).
      { rewrite Nc in H2 by lia. destruct (nth q out true); [discriminate|]. split; [reflexivity|congruence]. }
      destruct Kq as [Kq ->].
      assert (Q : forall q', (i <= q')%nat -> (q' < length l)%nat -> nth q' out true = false ->
        (forall j, (p < j)%nat -> (j < q')%nat -> nth j out true = true) -> p <> q -> q' = q).
      { intros q' G1 G2 G3 G4 G5. destruct (Nat.lt_trichotomy q q') as [H|[H|H]]; [|auto|].
        - rewrite G4 in Kq by lia. discriminate Kq.
        - pose proof (H3 q' G1 H) as H'. rewrite Nc, G3 in H' by lia. discriminate H'. }
      destruct (Nat.eqb_spec p q) as [Epq|Npq].
      * assert (i = p) by lia. exists (nth p l 0). split; [reflexivity|]. split; [reflexivity|].
        intros q' G1 G2 G3 G4. split; [apply Rmin_l|apply Rmax_l].
      * eexists. split; [reflexivity|]. split.
        { intros G. destruct (Nat.eq_dec q i) as [->|Nq].
          - rewrite Gp in Kq by lia. discriminate Kq.
          - rewrite G in Kq by lia. discriminate Kq. }
        intros q' G1 G2 G3 G4. rewrite (Q q' G1 G2 G3 G4 Npq).
        pose proof (I p q ltac:(lia) ltac:(lia)) as D.
        assert (U : nth p ts 0 <= nth i ts 0 <= nth q ts 0).
        { split; [destruct (Nat.eq_dec p i); [subst; lra|left; apply I; lia]|
                  destruct (Nat.eq_dec i q); [subst; lra|left; apply I; lia]]. }
        set (u := (nth i ts 0 - nth p ts 0) / (nth q ts 0 - nth p ts 0)).
        assert (Hu : 0 <= u <= 1).
        { unfold u. split.
          - apply Rmult_le_pos; [lra|]. left. apply Rinv_0_lt_compat. lra.
          - apply Rmult_le_reg_r with (nth q ts 0 - nth p ts 0); [lra|]. unfold Rdiv.
            rewrite Rmult_assoc, Rinv_l by lra. lra. }
        replace (nth p l 0 + (nth q l 0 - nth p l 0) * (nth i ts 0 - nth p ts 0) / (nth q ts 0 - nth p ts 0))
          with (nth p l 0 + (nth q l 0 - nth p l 0) * u) by (unfold u, Rdiv; ring).
        unfold Rmin, Rmax. destruct (Rle_dec (nth p l 0) (nth q l 0)); split; nra.
    + exists (nth p l 0). split; [reflexivity|]. split; [reflexivity|]. intros q G1 G2 G3 G4.
      split; [apply Rmin_l|apply Rmax_l].
Qed.

Theorem C120_std : forall k ts l r, length ts = length l -> increasing ts ->
  result (remove_std Series k Interpolate ts l) = Returned r -> filled (map (out_std Series k l) l) l r.
Proof.
  intros k ts l r L I E. cbn in E. injection E as <-. apply fill_ok; [apply map_length|exact L|exact I].
Qed.
Print Assumptions C120_std.
Theorem C120_mad : forall c th dc ts l r, (c = Series -> length ts = length l /\ increasing ts) ->
  result (remove_mad c th dc Interpolate ts l) = Returned r -> filled (map (out_mad th dc l) l) l r.
Proof.
  intros c th dc ts l r H E. cbn in E. injection E as <-. apply fill_ok; [apply map_length| |].
  - unfold mad_index. destruct c; [apply H; reflexivity|]. rewrite map_length, seq_length. reflexivity.
  - unfold mad_index. destruct c; [apply H; reflexivity|]. intros i j H1 H2.
    rewrite map_length, seq_length in H2. fold (line (length l)). rewrite !line_nth by lia. apply lt_INR, H1.
Qed.
Print Assumptions C120_mad.

(** Outliers at the beginning are not filled: the series starts with NaN. *)
Theorem C120_start_refuted : forall c th dc ts l r,
  result (remove_mad c th dc Interpolate ts l) = Returned r ->
  forall i, (i < length l)%nat -> (forall j, (j <= i)%nat -> out_mad th dc l (nth j l 0) = true) ->
  nth i r (Some 0) = None.
Proof.
  intros c th dc ts l r E i Hi B. cbn in E. injection E as <-.
  set (m := marked None (mask_mad th dc l) l).
  assert (Lm : length m = length l) by (apply marked_length; unfold mask_mad; apply map_length).
  rewrite (nth_indep _ (Some 0) None) by (unfold interpolate; rewrite map_length, seq_length; lia).
  rewrite interpolate_nth by lia. unfold interp_at. destruct (prev_ok m i) as [[p v]|] eqn:P; [|reflexivity].
  exfalso. destruct (prev_ok_some _ _ _ _ P) as (H1 & H2 & _). unfold m in H2.
  rewrite marked_nth in H2 by (unfold mask_mad; rewrite ?map_length; lia).
  unfold mask_mad in H2. rewrite (nth_indep _ true (out_mad th dc l 0)) in H2 by (rewrite map_length; lia).
  rewrite map_nth, (B p H1) in H2. discriminate H2.
Qed.
Print Assumptions C120_start_refuted.
(** One value of ten is far off: at the start it stays NaN, later on it is replaced by 20. *)
Example C120_ex : forall ts, length ts = 10%nat -> increasing ts ->
  (forall r, result (remove_mad Series 2.5 1.4826 Interpolate ts (1000 :: repeat 20 9)) = Returned r ->
     nth 0 r (Some 0) = None) /\
  out_mad 2.5 1.4826 (1000 :: repeat 20 9) 1000 = true.
Proof.
  intros ts L I.
  assert (M : let l := 1000 :: repeat 20 9 in (length l < 2 * cnt (within 20 20) l)%nat).
  { cbn zeta. cbn [cnt repeat length]. unfold within. destruct (Rle_dec 20 1000), (Rle_dec 1000 20), (Rle_dec 20 20); try lra; lia. }
  assert (O : out_mad 2.5 1.4826 (1000 :: repeat 20 9) 1000 = true).
  { destruct (out_mad 2.5 1.4826 (1000 :: repeat 20 9) 1000) eqn:E; [reflexivity|exfalso].
    assert (In (Some 1000) (dropped (mask_mad 2.5 1.4826 (1000 :: repeat 20 9)) (1000 :: repeat 20 9))).
    { unfold mask_mad. rewrite dropped_self. apply in_map_iff. exists 1000. split; [reflexivity|].
      apply filter_In. split; [left; reflexivity|rewrite E; reflexivity]. }
    apply (C118_majority_refuted Series 2.5 1.4826 ts _ 20 _ M eq_refl) in H. lra. }
  split; [|exact O].
  intros r E. apply (C120_start_refuted Series 2.5 1.4826 ts _ r E); [cbn; lia|].
  intros j Hj. replace j with 0%nat by lia. exact O.
Qed.

(** ** C121: the caller's data is left as it is *)
Lemma C121_roll : forall c w k f ts l, callers (remove_roll c w k f ts l) = map Some l.
Proof. reflexivity. Qed.
Lemma C121_mad_series : forall th dc f ts l, callers (remove_mad Series th dc f ts l) = map Some l.
Proof. reflexivity. Qed.
Lemma marked_changes out l v i : length out = length l -> (i < length l)%nat -> nth i out true = true ->
  v <> Some (nth i l 0) -> marked v out l <> map Some l.
Proof.
  intros Ho Hi K V E. apply (f_equal (fun r => nth i r None)) in E. rewrite marked_nth, K in E by assumption.
  rewrite (nth_indep _ None (Some 0)), (map_nth Some) in E by (rewrite map_length; exact Hi). auto.
Qed.
(** Every outlier found by [remove_outliers_std] is overwritten in the caller's data. *)
Theorem C121_std_refuted : forall c k f ts l x, f <> Remove -> f <> Const x ->
  In x l -> out_std c k l x = true -> callers (remove_std c k f ts l) <> map Some l.
Proof.
  intros c k f ts l x F1 F2 Hx O. destruct (In_nth_R l x Hx) as (i & Hi & <-).
  assert (K : nth i (mask_std c k l) true = true).
  { unfold mask_std. rewrite (nth_indep _ true (out_std c k l 0)), map_nth by (rewrite map_length; exact Hi). exact O. }
  assert (Lm : length (mask_std c k l) = length l) by (unfold mask_std; apply map_length).
  destruct f; cbn [remove_std callers]; try (apply marked_changes with i; auto; congruence). easy.
Qed.
Print Assumptions C121_std_refuted.
(** Likewise [remove_outliers_mad] in a numpy array, whatever the kind of filling. *)
Theorem C121_mad_array_refuted : forall th dc f ts l x, f <> Const x ->
  In x l -> out_mad th dc l x = true -> callers (remove_mad Array th dc f ts l) <> map Some l.
Proof.
  intros th dc f ts l x F2 Hx O. destruct (In_nth_R l x Hx) as (i & Hi & <-).
  assert (K : nth i (mask_mad th dc l) true = true).
  { unfold mask_mad. rewrite (nth_indep _ true (out_mad th dc l 0)), map_nth by (rewrite map_length; exact Hi). exact O. }
  assert (Lm : length (mask_mad th dc l) = length l) by (unfold mask_mad; apply map_length).
  destruct f; cbn [remove_mad callers]; apply marked_changes with i; auto; congruence.
Qed.
Print Assumptions C121_mad_array_refuted.
(** An array passed with 'interpolate' is altered although the call fails. *)
Theorem C121_array_interpolate_refuted : forall k ts l x, In x l -> out_std Array k l x = true ->
  result (remove_std Array k Interpolate ts l) = Raised /\
  callers (remove_std Array k Interpolate ts l) <> map Some l.
Proof.
  intros k ts l x H O. split; [reflexivity|]. apply (C121_std_refuted Array k Interpolate ts l x); easy.
Qed.
Print Assumptions C121_array_interpolate_refuted.
Example C121_ex : out_mad 2.5 1.4826 (1000 :: repeat 20 9) 1000 = true /\
  out_std Array 1 [0; 0; 0; 8] 8 = true.
Proof.
  split.
  - apply (C120_ex (map INR (seq 0 10))); [reflexivity|]. intros i j H1 H2.
    rewrite map_length, seq_length in H2. fold (line 10). rewrite !line_nth by lia. apply lt_INR, H1.
  - unfold out_std, lstd, lmean. cbn [ddof length Nat.leb Nat.sub].
    unfold ssd, lmean, lsum. cbn [map fold_right length INR].
    destruct (Rle_dec _ _) as [H|]; [|reflexivity]. exfalso.
    rewrite Rabs_right in H by lra.
    match type of H with context [sqrt ?e] => assert (E : sqrt e < 4) end.
    { rewrite <- (sqrt_square 4) by lra. apply sqrt_lt_1; lra. }
    lra.
Qed.
