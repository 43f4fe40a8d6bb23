(** Time series in a run (C148) and results in the result file (C149). *)
From Coq Require Import Reals List Arith ZArith Lia Lra.
From Verif Require Import MBC SBC LBC PBC MSeries MOut MResample PResample.
Import ListNotations.
Open Scope R_scope.

(** ** C148: a time series is used for the time it is given for *)
(** In an environment with a time dependent open port, each step which follows a step not longer than the
    sampling interval uses the linear interpolation of the series at its start. *)
Theorem C148_short v0 td y h k : 0 < td -> (forall j, 0 < h j) -> (2 <= length y)%nat ->
  match k with O => True | S j => h j <= td end -> forall v, used true v0 td y h k = Some v ->
  interpolated td y (time h k) v.
Proof.
  intros T H L S v E. destruct k as [|k].
  - unfold used, used_from, before_run in E. destruct y as [|a [|b r]]; cbn in L; try lia.
    cbn in E. injection E as <-. exists O, a, b. cbn [time]. rewrite S_INR. cbn [INR].
    repeat split; try reflexivity; try nra.
  - unfold used, used_from in E. destruct (bc_at td y h (Datatypes.S k)) as [p|] eqn:P; [|discriminate].
    cbn in E. injection E as <-. apply C36_interpolation; assumption.
Qed.
Print Assumptions C148_short.
Example C148_short_ex : used true 25 1 [10; 20; 30] (fun _ => 1 / 2) 0 = Some 10 /\
  exists v, used true 25 1 [10; 20; 30] (fun _ => 1 / 2) 1 = Some v /\ v = 15.
Proof.
  split; [reflexivity|]. unfold used, used_from. cbn [bc_at nth_error]. unfold bc_update.
  replace (0 + 1 / 2 / 1) with (1 / 2) by field.
  rewrite (fl_unique (1 / 2) 0) by (cbn; lra). cbn [nth_error].
  destruct (Rle_dec (1 / 2 / 1) 1) as [Q|Q]; [|exfalso; lra].
  eexists. split; [reflexivity|]. cbn [snd INR]. lra.
Qed.

(** Without such a port the first step uses the value from before, whatever the series says, and a repetition
    of the run starts differently. *)
Theorem C148_start_refuted v0 td y0 r h : v0 <> y0 ->
  used false v0 td (y0 :: r) h 0 = Some v0 /\
  used false v0 td (y0 :: r) h 0 <> used true v0 td (y0 :: r) h 0 /\
  used false v0 td (y0 :: r) h 0 <> used_again td (y0 :: r) h 0.
Proof.
  intros N. split; [reflexivity|]. split; intros E; cbn in E; injection E as E; exact (N E).
Qed.
Print Assumptions C148_start_refuted.
(** A pump with a mass flow series starts with a standing pump. *)
Example C148_start_ex : used false 0 60 [0.5; 0.5; 0.5] (fun _ => 60) 0 = Some 0.
Proof. reflexivity. Qed.

(** The mean over a long step is used in the step after it: a series rising by [s] per sample is used with a
    delay of half of both steps, up to half a sample. *)
Theorem C148_lag_refuted port v0 td y h k v c s : 0 < td -> (forall j, 0 < h j) -> td < h k ->
  (forall i x, nth_error y i = Some x -> x = c + s * INR i) ->
  used port v0 td y h (S k) = Some v ->
  Rabs ((c + s * ((time h (S k) + time h (S (S k))) / 2 / td)) - v - s * ((h k + h (S k)) / 2 / td)) <= Rabs s / 2.
Proof.
  intros T H L Y E. unfold used, used_from in E.
  destruct (bc_at td y h (S k)) as [p|] eqn:P; [|discriminate]. cbn in E. injection E as <-.
  pose proof (C69_ramp_mean td y h k p c s T H L Y P) as B.
  rewrite Rabs_minus_sym in B. refine (Rle_trans _ _ _ (Req_le _ _ _) B). f_equal. cbn [time]. field. lra.
Qed.
Print Assumptions C148_lag_refuted.
(** Samples 0, 1, 2, ... every second, steps of two seconds: the second step, from 2 s to 4 s, uses 1. *)
Example C148_lag_ex : exists v, used true 25 1 [0; 1; 2; 3; 4; 5] (fun _ => 2) 1 = Some v /\ v = 1.
Proof.
  unfold used, used_from. cbn [bc_at nth_error]. unfold bc_update.
  replace (0 + 2 / 1) with 2 by field.
  rewrite (fl_unique 2 2) by (cbn; lra). cbn [nth_error].
  destruct (Rle_dec (2 / 1) 1) as [Q|Q]; [exfalso; lra|].
  replace (pyround 0) with O.
  2:{ unfold pyround. rewrite (fl_unique 0 0) by (cbn; lra).
      destruct (Rlt_dec (0 - INR 0) (1 / 2)) as [Z|Z]; [reflexivity|cbn in Z; lra]. }
  eexists. split; [reflexivity|]. cbn [snd]. unfold mean, slice, sum.
  cbn [firstn skipn Nat.sub fold_right length INR]. field.
Qed.

(** ** C149: values in the result file are time means *)
(** The results are held from each step to the next; value held at time [u]: *)
Definition held (s : obs) (u : nat) : R := match last_until u s None with Some v => v | None => 0 end.
(** Mean of the held values over the interval [k f, (k + 1) f). *)
Definition time_mean (f : nat) (s : obs) (k : nat) : R := lmean (map (held s) (seq (k * f) f)).

(** Results of a run with fixed steps of [d] time units. *)
Definition fixed_run (d n : nat) (v : nat -> R) : obs := map (fun i => (i * d, v i)%nat) (seq 0 n).

Lemma filter_seq_range (p : nat -> bool) a m n : (a + m <= n)%nat ->
  (forall i, (i < n)%nat -> p i = true <-> (a <= i < a + m)%nat) -> filter p (seq 0 n) = seq a m.
Proof.
  intros L H. replace n with (a + (m + (n - a - m)))%nat by lia. rewrite !seq_app, !filter_app. cbn [Nat.add].
  assert (N : forall l, (forall i, In i l -> (i < n)%nat /\ ~ (a <= i < a + m)%nat) -> filter p l = []).
  { induction l as [|x l IH]; intros Hl; [reflexivity|]. cbn. destruct (p x) eqn:E.
    - destruct (Hl x (or_introl eq_refl)) as [A B]. apply H in E; [contradiction | exact A].
    - apply IH. intros i Hi. apply Hl. right. exact Hi. }
  rewrite (N (seq 0 a)) by (intros i Hi; apply in_seq in Hi; lia).
  rewrite (N (seq (a + m) _)) by (intros i Hi; apply in_seq in Hi; lia).
  rewrite app_nil_r. cbn [app].
  assert (F : forall l, (forall i, In i l -> (i < n)%nat /\ (a <= i < a + m)%nat) -> filter p l = l).
  { induction l as [|x l IH]; intros Hl; [reflexivity|]. cbn.
    destruct (Hl x (or_introl eq_refl)) as [A B]. rewrite (proj2 (H x A) B). f_equal.
    apply IH. intros i Hi. apply Hl. right. exact Hi. }
  apply F. intros i Hi. apply in_seq in Hi. lia.
Qed.

Lemma filter_map {A B} (g : A -> B) (p : B -> bool) l : filter p (map g l) = map g (filter (fun x => p (g x)) l).
Proof. induction l as [|x l IH]; [reflexivity|]. cbn. destruct (p (g x)); cbn; rewrite IH; reflexivity. Qed.

Lemma in_bin_fixed d m n v k : (0 < d)%nat -> (0 < m)%nat -> ((k + 1) * m <= n)%nat ->
  in_bin (m * d) (fixed_run d n v) k = map v (seq (k * m) m).
Proof.
  intros D M L. unfold in_bin, fixed_run. rewrite filter_map, map_map. cbn [fst snd]. f_equal.
  apply filter_seq_range; [lia|]. intros i Hi. rewrite Nat.eqb_eq, (Nat.mul_comm m d), (Nat.mul_comm i d).
  rewrite Nat.div_mul_cancel_l by lia.
  split; intros E.
  - subst k. pose proof (Nat.div_mod i m ltac:(lia)). pose proof (Nat.mod_upper_bound i m ltac:(lia)). nia.
  - symmetry. apply (Nat.div_unique i m k (i - k * m)); nia.
Qed.

Lemma last_until_map d v u : (0 < d)%nat -> forall n a o, (a * d <= u)%nat -> (u < (a + n) * d)%nat ->
  last_until u (map (fun i => (i * d, v i)%nat) (seq a n)) o = Some (v (u / d)%nat) \/ n = 0%nat.
Proof.
  intros D. induction n as [|n IH]; intros a o A B; [right; reflexivity|]. left.
  cbn [seq map last_until]. destruct (Nat.leb_spec (a * d) u); [|lia].
  destruct (Nat.leb_spec (S a * d) u) as [C|C].
  - destruct (IH (S a) (Some (v a)) C ltac:(nia)) as [E| ->]; [exact E | nia].
  - assert (Q : (u / d = a)%nat) by (symmetry; apply (Nat.div_unique u d a (u - a * d)); nia).
    rewrite Q. destruct n; [reflexivity|]. cbn [seq map last_until].
    destruct (Nat.leb_spec (S a * d) u); [lia | reflexivity].
Qed.

Lemma held_fixed d n v u : (0 < d)%nat -> (u < n * d)%nat -> held (fixed_run d n v) u = v (u / d)%nat.
Proof.
  intros D U. unfold held, fixed_run.
  destruct (last_until_map d v u D n 0 None ltac:(lia) ltac:(lia)) as [->| ->]; [reflexivity | lia].
Qed.

Lemma lsum_app a b : lsum (a ++ b) = lsum a + lsum b.
Proof. unfold lsum. induction a as [|x a IH]; cbn [app fold_right]; [ring|]. rewrite IH. ring. Qed.
Lemma lsum_const c l (g : nat -> R) : (forall i, In i l -> g i = c) -> lsum (map g l) = INR (length l) * c.
Proof.
  induction l as [|x l IH]; intros H; [unfold lsum; cbn; lra|]. cbn [map length]. rewrite S_INR.
  change (g x + lsum (map g l) = (INR (length l) + 1) * c). rewrite IH by (intros; apply H; right; assumption).
  rewrite (H x (or_introl eq_refl)). lra.
Qed.
Lemma lsum_blocks d v : (0 < d)%nat -> forall m a,
  lsum (map (fun u => v (u / d)%nat) (seq (a * d) (m * d))) = INR d * lsum (map v (seq a m)).
Proof.
  intros D. induction m as [|m IH]; intros a; [unfold lsum; cbn; lra|].
  replace (S m * d)%nat with (d + m * d)%nat by lia. rewrite seq_app, map_app, lsum_app.
  replace (a * d + d)%nat with (S a * d)%nat by lia. rewrite IH.
  rewrite (lsum_const (v a)).
  - rewrite seq_length. cbn [seq map]. change (lsum (v a :: map v (seq (S a) m))) with (v a + lsum (map v (seq (S a) m))). lra.
  - intros i Hi. apply in_seq in Hi. f_equal. symmetry. apply (Nat.div_unique i d a (i - a * d)); nia.
Qed.

(** With fixed steps, a whole number of them to each interval of the file, the file holds the time means. *)
Theorem C149_fixed d m n v k : (0 < d)%nat -> (0 < m)%nat -> ((k + 1) * m <= n)%nat ->
  bin_mean (m * d) (fixed_run d n v) k = Some (time_mean (m * d) (fixed_run d n v) k).
Proof.
  intros D M L. unfold bin_mean. rewrite in_bin_fixed by assumption.
  destruct m as [|m]; [lia|]. remember (S m) as M' eqn:EM.
  assert (NE : map v (seq (k * M') M') <> []) by (subst M'; discriminate).
  destruct (map v (seq (k * M') M')) as [|x r] eqn:E; [congruence|]. rewrite <- E. f_equal.
  unfold time_mean, lmean. rewrite !map_length, !seq_length.
  rewrite (map_ext_in (held (fixed_run d n v)) (fun u => v (u / d)%nat)).
  2:{ intros u Hu. apply in_seq in Hu. apply held_fixed; [exact D|]. nia. }
  replace (k * (M' * d))%nat with (k * M' * d)%nat by lia. rewrite lsum_blocks by exact D.
  rewrite mult_INR. assert (INR M' <> 0) by (apply not_0_INR; lia). assert (INR d <> 0) by (apply not_0_INR; lia).
  field. split; assumption.
Qed.
Print Assumptions C149_fixed.
(** Steps of half a second, intervals of one second. *)
Example C149_fixed_ex : fixed_run 500 4 (fun i => INR i) = [(0%nat, 0); (500%nat, 1); (1000%nat, 2); (1500%nat, 3)] /\
  bin_mean (2 * 500) (fixed_run 500 4 (fun i => INR i)) 1 = Some (5 / 2).
Proof.
  split; [unfold fixed_run; cbn; repeat f_equal; lra|].
  unfold bin_mean. rewrite in_bin_fixed by lia. cbn [seq map Nat.mul Nat.add]. f_equal. unfold lmean, lsum. cbn. lra.
Qed.

(** With adaptive steps each step counts alike, however short it is: a value [x] which holds for the last of
    [f] time units counts a half. *)
Theorem C149_adaptive_refuted f x y : (2 < f)%nat -> x <> 0 ->
  let s := [(0%nat, 0); ((f - 1)%nat, x); (f, y)] in
  bin_mean f s 0 = Some (x / 2) /\ time_mean f s 0 = x / INR f /\ x / 2 <> x / INR f.
Proof.
  intros F X s.
  assert (F2 : 2 < INR f) by (apply (lt_INR 2); lia).
  split; [|split].
  - unfold bin_mean, in_bin, s. cbn [filter map fst snd].
    rewrite (Nat.div_small 0 f) by lia. rewrite (Nat.div_small (f - 1) f) by lia. rewrite Nat.div_same by lia.
    cbn. f_equal. unfold lmean, lsum. cbn. lra.
  - unfold time_mean, lmean. rewrite map_length, seq_length. cbn [Nat.mul].
    replace f with ((f - 1) + 1)%nat at 1 by lia. rewrite seq_app, map_app, lsum_app.
    rewrite (lsum_const 0).
    + cbn [seq map Nat.add]. unfold held. unfold s. cbn [last_until].
      destruct (Nat.leb_spec 0 (f - 1)); [|lia].
      destruct (Nat.leb_spec (f - 1) (f - 1)); [|lia]. destruct (Nat.leb_spec f (f - 1)); [lia|].
      unfold lsum. cbn. field. lra.
    + intros i Hi. apply in_seq in Hi. unfold held, s. cbn [last_until].
      destruct (Nat.leb_spec 0 i); [|lia]. destruct (Nat.leb_spec (f - 1) i); [lia | reflexivity].
  - intros E. apply X. apply (f_equal (fun z => z * (2 * INR f))) in E.
    replace (x / 2 * (2 * INR f)) with (x * INR f) in E by lra.
    replace (x / INR f * (2 * INR f)) with (2 * x) in E by (field; lra). nra.
Qed.
Print Assumptions C149_adaptive_refuted.
(** One second in milliseconds: a peak of 100 kW during the last millisecond is stored as 50 kW. *)
Example C149_adaptive_ex : (2 < 1000)%nat /\ 100 <> 0.
Proof. split; [lia | lra]. Qed.
