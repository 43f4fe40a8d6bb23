(** Lemmas about dynamic boundary conditions. *)
From Coq Require Import Reals List Arith ZArith Lia Lra.
From Verif Require Import MBC SBC.
Import ListNotations.
Open Scope R_scope.

Lemma fl_spec : forall x, 0 <= x -> INR (fl x) <= x < INR (fl x) + 1.
Proof.
  intros x P. unfold fl. destruct (base_Int_part x) as [A B].
  assert (Q : (0 <= Int_part x)%Z).
  { assert (-1 < IZR (Int_part x)) by lra. apply (lt_IZR (-1)) in H. lia. }
  rewrite INR_IZR_INZ, Z2Nat.id by exact Q. lra.
Qed.
Lemma fl_unique : forall x n, INR n <= x < INR n + 1 -> fl x = n.
Proof.
  intros x n H. pose proof (pos_INR n) as P. destruct (fl_spec x ltac:(lra)) as [A B].
  assert (INR (fl x) < INR n + 1) by lra. assert (INR n < INR (fl x) + 1) by lra.
  rewrite <- S_INR in H0, H1. apply INR_lt in H0, H1. lia.
Qed.
Lemma round_ge : forall x, (fl x <= pyround x)%nat.
Proof.
  intros x. unfold pyround. destruct (Rlt_dec _ _); [lia|]. destruct (Rlt_dec _ _); [lia|].
  destruct (Nat.even (fl x)); lia.
Qed.
Lemma round_le : forall x, 0 <= x -> INR (pyround x) <= x + 1 / 2.
Proof.
  intros x P. destruct (fl_spec x P) as [A B]. unfold pyround.
  destruct (Rlt_dec _ _); [lra|]. destruct (Rlt_dec _ _); [rewrite S_INR; lra|].
  destruct (Nat.even (fl x)); [lra|rewrite S_INR; lra].
Qed.

Lemma time_pos : forall h, (forall k, 0 < h k) -> forall k, 0 <= time h k.
Proof. intros h P. induction k as [|k IH]; cbn; [lra|]. specialize (P k). lra. Qed.
Lemma time_mono : forall h, (forall k, 0 < h k) -> forall a b, (a <= b)%nat ->
  time h a <= time h b.
Proof.
  intros h P a b L. induction L as [|b L IH]; [lra|]. cbn. specialize (P b). lra.
Qed.

Lemma update_pos : forall td y last h p, bc_update td y last h = Some p ->
  fst p = last + h / td.
Proof.
  intros td y last h p E. unfold bc_update in E.
  destruct (nth_error y (fl (last + h / td))); [|discriminate].
  destruct (nth_error y (S (fl (last + h / td)))); [|discriminate].
  destruct (Rle_dec (h / td) 1); injection E as <-; reflexivity.
Qed.
Lemma bc_pos : forall td y h k p, 0 < td -> bc_at td y h k = Some p -> fst p = time h k / td.
Proof.
  intros td y h k p TP. revert p. induction k as [|k IH]; intros p E.
  - cbn [bc_at] in E. destruct (nth_error y 0); [|discriminate]. injection E as <-. cbn [fst time].
    unfold Rdiv. lra.
  - cbn [bc_at] in E. destruct (bc_at td y h k) as [[last v]|]; [|discriminate].
    apply update_pos in E. specialize (IH _ eq_refl). cbn [fst] in IH. rewrite E, IH.
    cbn [time]. unfold Rdiv. lra.
Qed.

Lemma mean_in : forall l lo hi, l <> [] -> (forall x, In x l -> lo <= x <= hi) ->
  lo <= mean l <= hi.
Proof.
  intros l lo hi N H. unfold mean.
  assert (S : INR (length l) * lo <= sum l <= INR (length l) * hi).
  { clear N. induction l as [|x l IH]; [cbn; lra|]. cbn [length sum fold_right].
    fold (sum l). rewrite S_INR. pose proof (H x (or_introl eq_refl)).
    specialize (IH (fun z I => H z (or_intror I))). lra. }
  assert (P : 0 < INR (length l)) by (apply lt_0_INR; destruct l; [contradiction|cbn; lia]).
  split.
  - apply (Rmult_le_reg_r (INR (length l))); [exact P|]. unfold Rdiv.
    rewrite Rmult_assoc, Rinv_l by lra. lra.
  - apply (Rmult_le_reg_r (INR (length l))); [exact P|]. unfold Rdiv.
    rewrite Rmult_assoc, Rinv_l by lra. lra.
Qed.

Lemma nth_error_skipn' : forall (y : list R) a i, nth_error (skipn a y) i = nth_error y (a + i).
Proof.
  induction y as [|x y IH]; intros [|a] i; cbn; auto. destruct i; reflexivity.
Qed.
Lemma nth_error_firstn' : forall (y : list R) n i v, nth_error (firstn n y) i = Some v ->
  (i < n)%nat /\ nth_error y i = Some v.
Proof.
  induction y as [|x y IH]; intros [|n] [|i] v E; cbn in E; try discriminate.
  - split; [lia|exact E].
  - destruct (IH n i v E). split; [lia|assumption].
Qed.
Lemma slice_in : forall y a b x, In x (slice y a b) ->
  exists i, (a <= i < b)%nat /\ nth_error y i = Some x.
Proof.
  intros y a b x I. apply In_nth_error in I. destruct I as [n E]. unfold slice in E.
  apply nth_error_firstn' in E. destruct E as [L E]. rewrite nth_error_skipn' in E.
  exists (a + n)%nat. split; [lia|exact E].
Qed.
Lemma slice_nonempty : forall y a b v, (a < b)%nat -> nth_error y a = Some v ->
  slice y a b <> [].
Proof.
  intros y a b v L E N. unfold slice in N.
  destruct (skipn a y) as [|z r] eqn:Q.
  - pose proof (nth_error_skipn' y a 0) as W. rewrite Q, Nat.add_0_r, E in W. discriminate.
  - destruct (b - a)%nat eqn:Z; [lia|discriminate].
Qed.

Lemma div_ge : forall a b h, 0 < h -> b * h <= a -> b <= a / h.
Proof.
  intros a b h H Q. apply (Rmult_le_reg_r h); [exact H|]. unfold Rdiv.
  rewrite Rmult_assoc, Rinv_l by lra. lra.
Qed.
Lemma div_le : forall a b h, 0 < h -> a <= b * h -> a / h <= b.
Proof.
  intros a b h H Q. apply (Rmult_le_reg_r h); [exact H|]. unfold Rdiv.
  rewrite Rmult_assoc, Rinv_l by lra. lra.
Qed.
Lemma div_lt : forall a b h, 0 < h -> a < b * h -> a / h < b.
Proof.
  intros a b h H Q. apply (Rmult_lt_reg_r h); [exact H|]. unfold Rdiv.
  rewrite Rmult_assoc, Rinv_l by lra. lra.
Qed.

(** Range of one update. *)
Lemma update_range : forall td y last h p lo hi, 0 < td -> 0 < h -> 0 <= last ->
  bc_update td y last h = Some p ->
  (forall i v, (fl last <= i <= S (fl (last + h / td)))%nat -> nth_error y i = Some v ->
     lo <= v <= hi) ->
  lo <= snd p <= hi.
Proof.
  intros td y last h p lo hi TP HP LP E H. unfold bc_update in E.
  assert (CP : 0 < h / td) by (apply Rdiv_lt_0_compat; assumption).
  set (cells := h / td) in *. set (new := last + cells) in *.
  destruct (fl_spec new ltac:(unfold new; lra)) as [A B].
  destruct (fl_spec last LP) as [C D].
  assert (FL : (fl last <= fl new)%nat).
  { apply INR_le. assert (INR (fl last) < INR (S (fl new))) by (rewrite S_INR; unfold new in *; lra).
    apply INR_lt in H0. apply le_INR. lia. }
  destruct (nth_error y (fl new)) as [a|] eqn:EA; [|discriminate].
  destruct (nth_error y (S (fl new))) as [b|] eqn:EB; [|discriminate].
  pose proof (H (fl new) a ltac:(lia) EA) as HA.
  pose proof (H (S (fl new)) b ltac:(lia) EB) as HB.
  set (lev := new - INR (fl new)) in *.
  assert (LV : 0 <= lev < 1) by (unfold lev; lra).
  assert (LM : lo <= a * (1 - lev) + b * lev <= hi) by (split; nra).
  set (lm := a * (1 - lev) + b * lev) in *. clearbody lm.
  destruct (Rle_dec cells 1) as [Q|Q]; injection E as <-; cbn [snd]; [exact LM|].
  assert (M : lo <= mean (slice y (pyround last) (S (fl new))) <= hi).
  { assert (RL : (pyround last < S (fl new))%nat).
    { pose proof (round_le last LP). apply INR_lt. rewrite S_INR. unfold new in *. lra. }
    assert (EX : exists v, nth_error y (pyround last) = Some v).
    { destruct (nth_error y (pyround last)) as [v|] eqn:Z; [eauto|].
      apply nth_error_None in Z.
      assert (W : (fl new < length y)%nat) by (apply nth_error_Some; congruence). lia. }
    destruct EX as [v EV].
    apply mean_in; [apply (slice_nonempty y _ _ v RL EV)|].
    intros x I. destruct (slice_in _ _ _ _ I) as (i & Li & Ei). apply (H i x); [|exact Ei].
    pose proof (round_ge last). lia. }
  set (mm := mean _) in *. clearbody mm.
  split; [apply div_ge|apply div_le]; try lra; nra.
Qed.

Lemma update_interp : forall td y last h p, 0 < td -> 0 < h -> 0 <= last -> h <= td ->
  bc_update td y last h = Some p -> interpolated td y ((last + h / td) * td) (snd p).
Proof.
  intros td y last h p TP HP LP L E. unfold bc_update in E.
  assert (CP : 0 < h / td) by (apply Rdiv_lt_0_compat; assumption).
  set (new := last + h / td) in *.
  destruct (fl_spec new ltac:(unfold new; lra)) as [A B].
  destruct (nth_error y (fl new)) as [a|] eqn:EA; [|discriminate].
  destruct (nth_error y (S (fl new))) as [b|] eqn:EB; [|discriminate].
  destruct (Rle_dec (h / td) 1) as [Q|Q]; [|exfalso; apply Q, div_le; lra].
  injection E as <-. cbn [snd]. exists (fl new), a, b. split; [exact EA|]. split; [exact EB|].
  rewrite S_INR. split; [split; [apply Rmult_le_compat_r|apply Rmult_lt_compat_r]; lra|].
  field. lra.
Qed.

Lemma update_some : forall td y last h, 0 <= last + h / td ->
  last + h / td < INR (length y) - 1 -> exists p, bc_update td y last h = Some p.
Proof.
  intros td y last h P L. destruct (fl_spec _ P) as [A _]. unfold bc_update.
  assert (Q : (S (fl (last + h / td)) < length y)%nat).
  { apply INR_lt. rewrite S_INR. lra. }
  destruct (nth_error y (fl (last + h / td))) as [a|] eqn:EA;
    [|apply nth_error_None in EA; lia].
  destruct (nth_error y (S (fl (last + h / td)))) as [b|] eqn:EB;
    [|apply nth_error_None in EB; lia].
  destruct (Rle_dec (h / td) 1); eexists; reflexivity.
Qed.
Lemma update_none : forall td y last h, 0 <= last + h / td ->
  INR (length y) - 1 <= last + h / td -> bc_update td y last h = None.
Proof.
  intros td y last h P L. destruct (fl_spec _ P) as [_ B]. unfold bc_update.
  assert (Q : (length y <= S (fl (last + h / td)))%nat).
  { assert (INR (length y) < INR (S (S (fl (last + h / td))))) by (rewrite !S_INR; lra).
    apply INR_lt in H. lia. }
  destruct (nth_error y (fl (last + h / td))); [|reflexivity].
  destruct (nth_error y (S (fl (last + h / td)))) eqn:EB; [|reflexivity].
  assert (S (fl (last + h / td)) < length y)%nat by (apply nth_error_Some; congruence). lia.
Qed.

(** Linear series. *)
Definition ramp (c s : R) (y : list R) : Prop :=
  forall i v, nth_error y i = Some v -> v = c + s * INR i.

Lemma ramp_sum : forall c s n y a, ramp c s y -> (a + n <= length y)%nat ->
  sum (firstn n (skipn a y)) = INR n * (c + s * (INR a + (INR n - 1) / 2)) /\
  length (firstn n (skipn a y)) = n.
Proof.
  intros c s. induction n as [|n IH]; intros y a RP L; [cbn; split; [lra|reflexivity]|].
  assert (Q : exists v, nth_error y a = Some v).
  { destruct (nth_error y a) eqn:Z; [eauto|]. apply nth_error_None in Z. lia. }
  destruct Q as [v EV].
  assert (SK : skipn a y = v :: skipn (S a) y).
  { clear -EV. revert a EV. induction y as [|x y IH]; intros [|a] EV; cbn in EV; try discriminate.
    - injection EV as ->. reflexivity.
    - cbn [skipn]. rewrite (IH a EV). reflexivity. }
  destruct (IH y (S a) RP ltac:(lia)) as [S1 S2].
  rewrite SK. cbn [firstn length]. split; [|rewrite S2; reflexivity].
  cbn [sum fold_right]. fold (sum (firstn n (skipn (S a) y))). rewrite S1, (RP a v EV), !S_INR.
  field.
Qed.
Lemma round_near : forall x, 0 <= x -> x - 1 / 2 <= INR (pyround x) <= x + 1 / 2.
Proof.
  intros x P. split; [|apply round_le, P]. destruct (fl_spec x P) as [A B]. unfold pyround.
  destruct (Rlt_dec _ _); [lra|]. destruct (Rlt_dec _ _); [rewrite S_INR; lra|].
  destruct (Nat.even (fl x)); [lra|rewrite S_INR; lra].
Qed.
Lemma update_ramp : forall td y last h p c s, 0 < td -> 0 <= last -> td < h -> ramp c s y ->
  bc_update td y last h = Some p ->
  Rabs (snd p - (c + s * (last + h / td / 2))) <= Rabs s / 2.
Proof.
  intros td y last h p c s TP LP HP RP E.
  assert (C1 : 1 < h / td).
  { apply (Rmult_lt_reg_r td); [exact TP|]. unfold Rdiv. rewrite Rmult_assoc, Rinv_l by lra. lra. }
  unfold bc_update in E. set (cells := h / td) in *. set (new := last + cells) in *.
  destruct (fl_spec new ltac:(unfold new; lra)) as [A B].
  destruct (nth_error y (fl new)) as [a|] eqn:EA; [|discriminate].
  destruct (nth_error y (S (fl new))) as [b|] eqn:EB; [|discriminate].
  destruct (Rle_dec cells 1) as [Q|Q]; [lra|]. injection E as <-. cbn [snd].
  destruct (round_near last LP) as [R1 R2].
  assert (RL : (pyround last < S (fl new))%nat).
  { apply INR_lt. rewrite S_INR. unfold new in *. lra. }
  assert (LN : (S (fl new) < length y)%nat) by (apply nth_error_Some; congruence).
  destruct (ramp_sum c s (S (fl new) - pyround last) y (pyround last) RP ltac:(lia)) as [S1 S2].
  unfold mean, slice. rewrite S1, S2. rewrite (RP _ _ EA), (RP _ _ EB).
  assert (NP : INR (S (fl new) - pyround last) = INR (fl new) + 1 - INR (pyround last)).
  { rewrite minus_INR by lia. rewrite S_INR. ring. }
  assert (NZ : 0 < INR (S (fl new) - pyround last)) by (apply lt_0_INR; lia).
  set (n := INR (S (fl new) - pyround last)) in *.
  set (r := INR (pyround last)) in *. rewrite S_INR. set (f := INR (fl new)) in *.
  set (lev := new - f) in *.
  assert (LV : 0 <= lev < 1) by (unfold lev; lra).
  replace (n * (c + s * (r + (n - 1) / 2)) / n) with (c + s * (r + f) / 2)
    by (rewrite NP in *; field; lra).
  replace (((c + s * (r + f) / 2) * (cells - lev) +
      ((c + s * f) * (1 - lev) + (c + s * (f + 1)) * lev) * lev) / cells -
      (c + s * (last + cells / 2)))
    with (s / 2 * (((r - last) * (cells - lev) + lev * lev) / cells))
    by (replace f with (last + cells - lev) by (unfold lev, new; ring); field; lra).
  rewrite Rabs_mult. unfold Rdiv at 1. rewrite Rabs_mult, (Rabs_right (/ 2)) by lra.
  set (q := ((r - last) * (cells - lev) + lev * lev) / cells).
  assert (QB : Rabs q <= 1).
  { apply Rabs_le. unfold q. split; [apply div_ge|apply div_le]; try lra; nra. }
  pose proof (Rabs_pos s). unfold Rdiv. nra.
Qed.
