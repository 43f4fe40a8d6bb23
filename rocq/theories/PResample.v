(** Properties of the resampling of measured series (C129-C133). *)
From Coq Require Import Reals List Bool Arith Lia Lra Sorted.
From Verif Require Import MOut LOut LOut2 MResample.
Import ListNotations.
Open Scope R_scope.

Definition ordered (s : obs) : Prop := StronglySorted (fun a b => (fst a < fst b)%nat) s.
Definition bounded (lo hi : R) (s : obs) : Prop := forall t v, In (t, v) s -> lo <= v <= hi.

(** ** Lemmas *)
Lemma last_in (s : obs) d : s <> [] -> In (last s d) s.
Proof.
  induction s as [|a [|b s] IH]; intros N; [congruence|left; reflexivity|].
  right. apply IH. discriminate.
Qed.
Lemma ordered_first s t v : ordered s -> In (t, v) s -> (t_first s <= t)%nat.
Proof.
  intros O I. destruct s as [|[u w] s]; [easy|]. unfold t_first. cbn [hd fst]. inversion O; subst. destruct I as [E|I]; [injection E as <- <-; apply le_n|].
  rewrite Forall_forall in H2. specialize (H2 _ I). cbn in H2. lia.
Qed.
Lemma ordered_last s t v : ordered s -> In (t, v) s -> (t <= t_last s)%nat.
Proof.
  induction s as [|a s IH]; intros O I; [easy|]. inversion O; subst. destruct s as [|b s].
  - destruct I as [->|[]]. cbn. lia.
  - change (t_last (a :: b :: s)) with (t_last (b :: s)). destruct I as [->|I]; [|exact (IH H1 I)].
    rewrite Forall_forall in H2. pose proof (last_in (b :: s) (0%nat, 0)) as L.
    specialize (H2 _ (L ltac:(discriminate))). unfold t_last. cbn [fst] in H2. lia.
Qed.
Lemma lsum_bounds lo hi l : (forall x, In x l -> lo <= x <= hi) ->
  INR (length l) * lo <= lsum l <= INR (length l) * hi.
Proof.
  induction l as [|x l IH]; intros H; [unfold lsum; cbn; lra|].
  cbn [length]. rewrite S_INR. unfold lsum in *. cbn [fold_right].
  pose proof (H x (or_introl eq_refl)). assert (G : forall y, In y l -> lo <= y <= hi) by (intros; apply H; right; assumption).
  specialize (IH G). lra.
Qed.
Lemma lmean_bounds lo hi l : l <> [] -> (forall x, In x l -> lo <= x <= hi) -> lo <= lmean l <= hi.
Proof.
  intros N H. pose proof (lsum_bounds lo hi l H) as [A B]. unfold lmean.
  assert (P : 0 < INR (length l)) by (apply lt_0_INR; destruct l; [congruence|cbn; lia]).
  split.
  - apply Rmult_le_reg_r with (INR (length l)); [exact P|]. unfold Rdiv. rewrite Rmult_assoc, Rinv_l by lra. lra.
  - apply Rmult_le_reg_r with (INR (length l)); [exact P|]. unfold Rdiv. rewrite Rmult_assoc, Rinv_l by lra. lra.
Qed.
Lemma in_bin_In f s k x : In x (in_bin f s k) <-> exists t, In (t, x) s /\ (t / f)%nat = k.
Proof.
  unfold in_bin. rewrite in_map_iff. split.
  - intros ((t & y) & <- & I). apply filter_In in I. destruct I as [I E]. apply Nat.eqb_eq in E. exists t. auto.
  - intros (t & I & E). exists (t, x). split; [reflexivity|]. apply filter_In. split; [exact I|]. apply Nat.eqb_eq. exact E.
Qed.
Lemma bin_mean_bounds lo hi f s k v : bounded lo hi s -> bin_mean f s k = Some v -> lo <= v <= hi.
Proof.
  intros B. unfold bin_mean. destruct (in_bin f s k) as [|x l] eqn:E; [discriminate|]. intros V. injection V as <-.
  apply lmean_bounds; [discriminate|]. intros y I. rewrite <- E in I. apply in_bin_In in I.
  destruct I as (t & I & _). exact (B t y I).
Qed.
Lemma bins_length f s : length (bins f s) = S (t_last s / f - t_first s / f).
Proof. apply seq_length. Qed.
Lemma bins_nth f s i : (i < length (bins f s))%nat -> nth i (bins f s) 0%nat = (t_first s / f + i)%nat.
Proof. intros H. rewrite bins_length in H. unfold bins. rewrite seq_nth by exact H. reflexivity. Qed.
Lemma nth_map_gen {A B} (g : A -> B) l i d e : (i < length l)%nat -> nth i (map g l) e = g (nth i l d).
Proof. intros H. rewrite (nth_indep _ e (g d)) by (rewrite map_length; exact H). apply map_nth. Qed.

Lemma interp_bounds lo hi (a : nat) n c i v : length c = n -> (i < n)%nat ->
  (forall j w, nth j c None = Some w -> lo <= w <= hi) ->
  interp_at false (map INR (seq a n)) c i = Some v -> lo <= v <= hi.
Proof.
  intros L Hi B. unfold interp_at.
  destruct (prev_ok c i) as [[p x]|] eqn:P; [|discriminate].
  apply prev_ok_some in P. destruct P as (P1 & P2 & _). pose proof (B _ _ P2) as BX.
  destruct (next_ok c i (length c - i)) as [[q y]|] eqn:Q; [|intros E; injection E as <-; exact BX].
  apply next_ok_some in Q. destruct Q as (Q1 & Q2 & _). pose proof (B _ _ Q2) as BY.
  destruct (Nat.eqb_spec p q) as [->|N]; [intros E; injection E as <-; exact BX|].
  intros E. injection E as <-.
  assert (T : forall j, (j < n)%nat -> nth j (map INR (seq a n)) 0 = INR a + INR j).
  { intros j J. rewrite (nth_map_gen INR _ j 0%nat) by (rewrite seq_length; exact J). rewrite seq_nth by exact J. apply plus_INR. }
  rewrite !T by lia.
  assert (PI : INR p <= INR i) by (apply le_INR; lia). assert (IQ : INR i <= INR q) by (apply le_INR; lia).
  assert (PQ : INR p < INR q) by (apply lt_INR; lia).
  replace (x + (y - x) * (INR a + INR i - (INR a + INR p)) / (INR a + INR q - (INR a + INR p)))
    with (x + (y - x) * ((INR i - INR p) / (INR q - INR p))) by (field; lra).
  set (w := (INR i - INR p) / (INR q - INR p)).
  assert (W : 0 <= w <= 1).
  { unfold w. split.
    - unfold Rdiv. apply Rmult_le_pos; [lra|]. left. apply Rinv_0_lt_compat. lra.
    - apply Rmult_le_reg_r with (INR q - INR p); [lra|]. unfold Rdiv. rewrite Rmult_assoc, Rinv_l by lra. lra. }
  clearbody w. nra.
Qed.
Lemma by_means_length f s : length (by_means f s) = length (bins f s).
Proof. unfold by_means, interpolate. rewrite map_length, seq_length, map_length. reflexivity. Qed.
Lemma by_means_nth f s i : (i < length (bins f s))%nat ->
  nth i (by_means f s) None = interp_at false (map INR (bins f s)) (map (bin_mean f s) (bins f s)) i.
Proof. intros H. unfold by_means. apply interpolate_nth. rewrite map_length. exact H. Qed.

Lemma last_until_spec t s : ordered s -> forall d v, last_until t s d = Some v ->
  (exists u, In (u, v) s /\ (u <= t)%nat /\ forall w x, In (w, x) s -> (w <= t)%nat -> (w <= u)%nat) \/
  (d = Some v /\ forall w x, In (w, x) s -> (t < w)%nat).
Proof.
  induction s as [|[u x] s IH]; cbn; intros O d v E; [right; split; [exact E|intros w x []]|].
  inversion O; subst. rewrite Forall_forall in H2. destruct (Nat.leb_spec u t) as [L|L].
  - left. destruct (IH H1 _ _ E) as [(w & A & B & C)|(A & B)].
    + exists w. split; [auto|]. split; [exact B|]. intros z y [Z|I] Q; [|eauto].
      injection Z as <- <-. specialize (H2 _ A). cbn in H2. lia.
    + injection A as <-. exists u. split; [auto|]. split; [exact L|]. intros z y [Z|I] Q; [injection Z as <- <-; lia|].
      specialize (B z y I). lia.
  - right. split; [exact E|]. intros w y [Z|I]; [injection Z as <- <-; exact L|]. specialize (H2 _ I). cbn in H2. lia.
Qed.
Lemma first_from_spec t s : ordered s -> forall v, first_from t s = Some v ->
  exists u, In (u, v) s /\ (t <= u)%nat /\ forall w x, In (w, x) s -> (t <= w)%nat -> (u <= w)%nat.
Proof.
  induction s as [|[u x] s IH]; cbn; intros O v E; [discriminate|].
  inversion O; subst. rewrite Forall_forall in H2. destruct (Nat.leb_spec t u) as [L|L].
  - injection E as <-. exists u. split; [auto|]. split; [exact L|]. intros w y [Z|I] Q; [injection Z as <- <-; lia|].
    specialize (H2 _ I). cbn in H2. lia.
  - destruct (IH H1 _ E) as (w & A & B & C). exists w. split; [auto|]. split; [exact B|].
    intros z y [Z|I] Q; [injection Z as <- <-; lia|]. eauto.
Qed.
Lemma first_from_some t s u v : In (u, v) s -> (t <= u)%nat -> first_from t s <> None.
Proof.
  induction s as [|[w x] s IH]; cbn; intros I L; [easy|]. destruct (Nat.leb_spec t w); [discriminate|].
  destruct I as [Z|I]; [injection Z as <- <-; lia|]. auto.
Qed.
Lemma last_until_none t s : (forall u v, In (u, v) s -> (t < u)%nat) -> last_until t s None = None.
Proof.
  destruct s as [|[u v] s]; cbn; intros H; [reflexivity|]. specialize (H u v (or_introl eq_refl)).
  destruct (Nat.leb_spec u t); [lia|reflexivity].
Qed.
Lemma nth_combine {A B} (d : A) (e : B) i : forall ts vs, (i < length ts)%nat -> (i < length vs)%nat ->
  nth i (combine ts vs) (d, e) = (nth i ts d, nth i vs e).
Proof. induction i; intros [|a ts] [|b vs] L1 L2; cbn in *; try lia; [reflexivity|]. apply IHi; lia. Qed.
Lemma in_combine_labels f s h t o : In (t, o) (resampled h f s) ->
  exists i, (i < length (bins f s))%nat /\ t = ((t_first s / f + i) * f)%nat /\
    o = nth i match h with Interpolated => by_means f s
        | ForwardFill => filled (fun t => last_until t s None) f s
        | BackwardFill => filled (fun t => first_from t s) f s end None.
Proof.
  unfold resampled. set (vs := match h with Interpolated => _ | _ => _ end). intros I.
  set (ts := map (fun k => (k * f)%nat) (bins f s)) in *.
  apply In_nth with (d := (0%nat, None)) in I. destruct I as (i & L & E).
  assert (LT : (i < length ts /\ i < length vs)%nat) by (rewrite combine_length in L; lia).
  exists i. assert (LB : (i < length (bins f s))%nat) by (unfold ts in LT; rewrite map_length in LT; tauto).
  split; [exact LB|].
  assert (G : nth i (combine ts vs) (0%nat, None) = (nth i ts 0%nat, nth i vs None)).
  { apply nth_combine; tauto. }
  rewrite G in E. split; [|exact (eq_sym (f_equal snd E))].
  transitivity (nth i ts 0%nat); [exact (eq_sym (f_equal fst E))|]. unfold ts. rewrite (nth_map_gen _ _ i 0%nat) by exact LB. rewrite bins_nth by exact LB. reflexivity.
Qed.

(** ** C129: values stay within the data *)
Theorem C129_range h f s lo hi t v : ordered s -> bounded lo hi s -> In (t, Some v) (resampled h f s) ->
  lo <= v <= hi.
Proof.
  intros O B I. apply in_combine_labels in I. destruct I as (i & L & _ & E). symmetry in E.
  assert (FD : forall look, (forall t w, look t = Some w -> exists u, In (u, w) s) ->
    nth i (filled look f s) None = Some v -> lo <= v <= hi).
  { intros look LK. unfold filled. destruct (equal_sampled f s); intros N.
    - destruct (Nat.lt_ge_cases i (length s)) as [H|H].
      + rewrite (nth_map_gen _ _ i (0%nat, 0)) in N by exact H. injection N as <-.
        pose proof (nth_In s (0%nat, 0) H) as J. destruct (nth i s (0%nat, 0)) as [u w]. exact (B u w J).
      + rewrite nth_overflow in N by (rewrite map_length; exact H). discriminate.
    - rewrite (nth_map_gen _ _ i 0%nat) in N by exact L. apply LK in N. destruct N as (u & J). exact (B u v J). }
  destruct h.
  - rewrite by_means_nth in E by exact L.
    apply (interp_bounds lo hi (t_first s / f) (length (bins f s)) (map (bin_mean f s) (bins f s)) i v);
      [apply map_length|exact L| |].
    + intros j w N. destruct (Nat.lt_ge_cases j (length (bins f s))) as [H|H].
      * rewrite (nth_map_gen _ _ j 0%nat) in N by exact H. exact (bin_mean_bounds lo hi f s _ w B N).
      * rewrite nth_overflow in N by (rewrite map_length; exact H). discriminate.
    + rewrite bins_length. exact E.
  - revert E. apply FD. intros u w H. destruct (last_until_spec u s O None w H) as [(z & A & _)|(A & _)]; [eauto|discriminate].
  - revert E. apply FD. intros u w H. destruct (first_from_spec u s O w H) as (z & A & _). eauto.
Qed.
Print Assumptions C129_range.

(** In particular a constant series stays constant. *)
Corollary C129_constant h f s c t v : ordered s -> bounded c c s -> In (t, Some v) (resampled h f s) -> v = c.
Proof. intros O B I. pose proof (C129_range h f s c c t v O B I). lra. Qed.
Print Assumptions C129_constant.

(** ** C130: no gaps *)
Lemma prev_ok_first c i : nth 0 c None <> None -> prev_ok c i <> None.
Proof. intros H P. apply H. exact (prev_ok_none c i P 0%nat ltac:(lia)). Qed.
Theorem C130_interpolated f s t o : s <> [] -> ordered s -> In (t, o) (resampled Interpolated f s) -> o <> None.
Proof.
  intros N O I. apply in_combine_labels in I. destruct I as (i & L & _ & E). rewrite by_means_nth in E by exact L.
  rewrite E. unfold interp_at. set (c := map (bin_mean f s) (bins f s)).
  assert (F : nth 0 c None <> None).
  { unfold c. rewrite (nth_map_gen _ _ 0 0%nat) by lia. rewrite bins_nth by lia. rewrite Nat.add_0_r.
    unfold bin_mean. destruct (in_bin f s (t_first s / f)) as [|x l] eqn:B; [|discriminate].
    exfalso. destruct s as [|[u x] s]; [congruence|].
    assert (J : In x (in_bin f ((u, x) :: s) (t_first ((u, x) :: s) / f))) by (apply in_bin_In; exists u; cbn; auto).
    rewrite B in J. exact J. }
  pose proof (prev_ok_first c i F) as P. destruct (prev_ok c i) as [[p a]|]; [|congruence].
  destruct (next_ok c i (length c - i)) as [[q b]|]; [destruct (p =? q)%nat|]; discriminate.
Qed.
Print Assumptions C130_interpolated.

Lemma steps_bins f s : (0 < f)%nat -> s <> [] -> steps f s = true -> length (bins f s) = length s /\
  t_last s = (t_first s + (length s - 1) * f)%nat.
Proof.
  intros F N S. assert (T : t_last s = (t_first s + (length s - 1) * f)%nat).
  { clear F. induction s as [|[t x] [|[u y] s] IH]; [congruence|cbn; lia|].
    cbn [steps] in S. apply andb_prop in S. destruct S as [S1 S2]. apply Nat.eqb_eq in S1.
    change (t_last ((t, x) :: (u, y) :: s)) with (t_last ((u, y) :: s)).
    rewrite IH by (discriminate || exact S2). cbn [t_first hd fst length]. lia. }
  split; [|exact T]. rewrite bins_length, T. rewrite Nat.div_add by lia.
  destruct s; [congruence|]. cbn [length]. lia.
Qed.
Theorem C130_backward f s t o : (0 < f)%nat -> s <> [] -> ordered s -> In (t, o) (resampled BackwardFill f s) -> o <> None.
Proof.
  intros F N O I. apply in_combine_labels in I. destruct I as (i & L & _ & E). rewrite E. unfold filled.
  destruct (equal_sampled f s) eqn:Q.
  - unfold equal_sampled in Q. apply andb_prop in Q. destruct Q as [_ Q].
    destruct (steps_bins f s F N Q) as [LB _]. rewrite (nth_map_gen _ _ i (0%nat, 0)) by lia. discriminate.
  - rewrite (nth_map_gen _ _ i 0%nat) by exact L. rewrite bins_nth by exact L. rewrite bins_length in L.
    pose proof (last_in s (0%nat, 0) N) as J. destruct (last s (0%nat, 0)) as [u v] eqn:W.
    apply (first_from_some _ s u v J).
    assert (U : t_last s = u) by (unfold t_last; rewrite W; reflexivity).
    apply Nat.le_trans with ((u / f) * f)%nat; [|rewrite Nat.mul_comm; apply Nat.mul_div_le; lia].
    apply Nat.mul_le_mono_r. pose proof (ordered_first s u v O J) as TF.
    assert (t_first s / f <= u / f)%nat by (apply Nat.div_le_mono; lia). rewrite U in L. lia.
Qed.
Print Assumptions C130_backward.

(** Forward filling ("recommended" for mass flows) gives NaN for the first value whenever the
    series does not begin exactly on an edge of a bin. *)
Theorem C130_forward_refuted f s : (0 < f)%nat -> s <> [] -> ordered s -> equal_sampled f s = false ->
  (t_first s mod f <> 0)%nat ->
  exists rest, resampled ForwardFill f s = ((t_first s / f * f)%nat, None) :: rest.
Proof.
  intros F N O Q M. unfold resampled, filled. rewrite Q. unfold bins. cbn [seq map combine].
  rewrite last_until_none; [eexists; reflexivity|]. intros u v I. pose proof (ordered_first s u v O I).
  pose proof (Nat.div_mod_eq (t_first s) f). lia.
Qed.
Print Assumptions C130_forward_refuted.

(** ** C131: values keep their time *)
(** Equally spaced values [vs] which begin at [t]. *)
Fixpoint regular (t f : nat) (vs : list R) : obs :=
  match vs with [] => [] | v :: r => (t, v) :: regular (t + f) f r end.
Lemma regular_steps f vs : forall t, steps f (regular t f vs) = true.
Proof.
  induction vs as [|v [|w vs] IH]; intros t; [reflexivity..|].
  cbn [regular steps]. rewrite Nat.eqb_refl. exact (IH (t + f)%nat).
Qed.
Lemma regular_length f vs : forall t, length (regular t f vs) = length vs.
Proof. induction vs; intros t; cbn; [reflexivity|]. rewrite IHvs. reflexivity. Qed.
Lemma regular_times f vs : forall t u v, In (u, v) (regular t f vs) -> (t <= u)%nat.
Proof.
  induction vs as [|w vs IH]; intros t u v I; [easy|]. cbn in I. destruct I as [I|I]; [injection I as <- <-; lia|].
  specialize (IH _ _ _ I). lia.
Qed.
Lemma regular_ordered f vs : (0 < f)%nat -> forall t, ordered (regular t f vs).
Proof.
  intros F. induction vs as [|w vs IH]; intros t; [constructor|]. cbn. constructor; [apply IH|].
  apply Forall_forall. intros [u v] I. apply regular_times in I. cbn. lia.
Qed.
Lemma regular_bins f vs t : (0 < f)%nat -> vs <> [] -> bins f (regular t f vs) = seq (t / f) (length vs).
Proof.
  intros F N. assert (RN : regular t f vs <> []) by (destruct vs; [congruence|discriminate]).
  destruct (steps_bins f (regular t f vs) F RN (regular_steps f vs t)) as [L _].
  rewrite bins_length, regular_length in L. unfold bins. rewrite L. destruct vs; [congruence|]. reflexivity.
Qed.
Lemma in_bin_early f vs t k : (0 < f)%nat -> (k < t / f)%nat -> in_bin f (regular t f vs) k = [].
Proof.
  intros F K. destruct (in_bin f (regular t f vs) k) as [|x l] eqn:E; [reflexivity|]. exfalso.
  assert (I : In x (in_bin f (regular t f vs) k)) by (rewrite E; left; reflexivity).
  apply in_bin_In in I. destruct I as (u & I & Q). apply regular_times in I.
  assert (t / f <= u / f)%nat by (apply Nat.div_le_mono; lia). lia.
Qed.
Lemma in_bin_regular f vs : (0 < f)%nat -> forall t,
  map (in_bin f (regular t f vs)) (seq (t / f) (length vs)) = map (fun v => [v]) vs.
Proof.
  intros F. induction vs as [|v vs IH]; intros t; [reflexivity|].
  assert (D : ((t + f) / f = S (t / f))%nat).
  { replace (t + f)%nat with (t + 1 * f)%nat by lia. rewrite Nat.div_add by lia. lia. }
  cbn [length seq map regular]. f_equal.
  - unfold in_bin. cbn [filter fst]. rewrite Nat.eqb_refl. cbn [map snd]. f_equal.
    change (map snd (filter (fun o : nat * R => (fst o / f =? t / f)%nat) (regular (t + f) f vs)))
      with (in_bin f (regular (t + f) f vs) (t / f)). apply in_bin_early; lia.
  - rewrite <- D. rewrite <- (IH (t + f)%nat). apply map_ext_in. intros k K. apply in_seq in K.
    unfold in_bin. cbn [filter fst]. destruct (Nat.eqb_spec (t / f) k); [lia|]. reflexivity.
Qed.
Lemma interpolate_full ts (vs : list R) : interpolate false ts (map Some vs) = map Some vs.
Proof.
  apply nth_ext with (d := None) (d' := None).
  { unfold interpolate. rewrite map_length, seq_length. reflexivity. }
  intros i H. unfold interpolate in H. rewrite map_length, seq_length in H. rewrite interpolate_nth by exact H.
  rewrite map_length in H. assert (E : nth i (map Some vs) None = Some (nth i vs 0)) by (apply nth_map_gen; exact H).
  rewrite E. apply interp_kept; [rewrite map_length; exact H|exact E].
Qed.
Lemma by_means_regular f vs t : (0 < f)%nat -> vs <> [] -> by_means f (regular t f vs) = map Some vs.
Proof.
  intros F N. unfold by_means. rewrite regular_bins by auto.
  replace (map (bin_mean f (regular t f vs)) (seq (t / f) (length vs))) with (map Some vs); [apply interpolate_full|].
  pose proof (in_bin_regular f vs F t) as H.
  assert (G : map (fun l : list R => match l with [] => None | _ => Some (lmean l) end)
      (map (in_bin f (regular t f vs)) (seq (t / f) (length vs))) =
      map (fun l : list R => match l with [] => None | _ => Some (lmean l) end) (map (fun v => [v]) vs)) by (rewrite H; reflexivity).
  rewrite !map_map in G. transitivity (map (fun x : R => Some (lmean [x])) vs).
  2:{ rewrite <- G. apply map_ext. intros k. unfold bin_mean. destruct (in_bin f (regular t f vs) k); reflexivity. }
  apply map_ext. intros v. f_equal. unfold lmean, lsum. cbn. field.
Qed.
Lemma combine_regular f vs : (0 < f)%nat -> forall t,
  combine (map (fun k => (k * f)%nat) (seq (t / f) (length vs))) (map Some vs) =
  map (fun o => ((fst o - t mod f)%nat, Some (snd o))) (regular t f vs).
Proof.
  intros F. induction vs as [|v vs IH]; intros t; [reflexivity|].
  assert (D : ((t + f) / f = S (t / f))%nat).
  { replace (t + f)%nat with (t + 1 * f)%nat by lia. rewrite Nat.div_add by lia. lia. }
  assert (M : ((t + f) mod f = t mod f)%nat).
  { replace (t + f)%nat with (t + 1 * f)%nat by lia. apply Nat.mod_add. lia. }
  cbn [length seq map regular combine fst snd]. f_equal.
  - f_equal. pose proof (Nat.div_mod_eq t f). lia.
  - rewrite <- D, IH, M. reflexivity.
Qed.

(** A series which has the wanted frequency and whose times lie on the edges of bins is returned
    as it is. *)
Lemma last_until_regular f vs : (0 < f)%nat -> forall t d, (t mod f = 0)%nat ->
  map (fun k => last_until (k * f) (regular t f vs) d) (seq (t / f) (length vs)) = map Some vs.
Proof.
  intros F. induction vs as [|v vs IH]; intros t d M; [reflexivity|].
  assert (D : ((t + f) / f = S (t / f))%nat).
  { replace (t + f)%nat with (t + 1 * f)%nat by lia. rewrite Nat.div_add by lia. lia. }
  assert (M2 : ((t + f) mod f = 0)%nat).
  { replace (t + f)%nat with (t + 1 * f)%nat by lia. rewrite Nat.mod_add by lia. exact M. }
  pose proof (Nat.div_mod_eq t f) as E. assert (TE : (t / f * f = t)%nat) by lia.
  cbn [length seq map regular last_until]. f_equal.
  - rewrite TE, Nat.leb_refl. destruct vs; cbn; [reflexivity|]. destruct (Nat.leb_spec (t + f) t); [lia|reflexivity].
  - rewrite <- D, <- (IH (t + f)%nat (Some v) M2). apply map_ext_in. intros k K. apply in_seq in K.
    destruct (Nat.leb_spec t (k * f)); [reflexivity|]. nia.
Qed.
Lemma first_from_regular f vs : (0 < f)%nat -> forall t, (t mod f = 0)%nat ->
  map (fun k => first_from (k * f) (regular t f vs)) (seq (t / f) (length vs)) = map Some vs.
Proof.
  intros F. induction vs as [|v vs IH]; intros t M; [reflexivity|].
  assert (D : ((t + f) / f = S (t / f))%nat).
  { replace (t + f)%nat with (t + 1 * f)%nat by lia. rewrite Nat.div_add by lia. lia. }
  assert (M2 : ((t + f) mod f = 0)%nat).
  { replace (t + f)%nat with (t + 1 * f)%nat by lia. rewrite Nat.mod_add by lia. exact M. }
  pose proof (Nat.div_mod_eq t f) as E. assert (TE : (t / f * f = t)%nat) by lia.
  cbn [length seq map regular first_from]. f_equal.
  - rewrite TE, Nat.leb_refl. reflexivity.
  - rewrite <- D, <- (IH (t + f)%nat M2). apply map_ext_in. intros k K. apply in_seq in K.
    destruct (Nat.leb_spec (k * f) t); [nia|reflexivity].
Qed.
Theorem C131_aligned h f t vs : (0 < f)%nat -> (t mod f = 0)%nat -> vs <> [] ->
  resampled h f (regular t f vs) = map (fun o => (fst o, Some (snd o))) (regular t f vs).
Proof.
  intros F M N. pose proof (combine_regular f vs F t) as C. rewrite M in C.
  replace (map (fun o : nat * R => (fst o, Some (snd o))) (regular t f vs))
    with (map (fun o : nat * R => ((fst o - 0)%nat, Some (snd o))) (regular t f vs))
    by (apply map_ext; intros o; rewrite Nat.sub_0_r; reflexivity).
  rewrite <- C. unfold resampled. rewrite regular_bins by auto. f_equal.
  assert (EQ : map (fun o => Some (snd o)) (regular t f vs) = map Some vs).
  { clear. revert t. induction vs as [|v vs IH]; intros t; cbn; [reflexivity|]. rewrite IH. reflexivity. }
  destruct h; [apply by_means_regular; auto| |]; unfold filled; rewrite regular_bins by auto;
    (destruct (equal_sampled f (regular t f vs)); [exact EQ|]).
  - apply last_until_regular; auto.
  - apply first_from_regular; auto.
Qed.
Print Assumptions C131_aligned.

(** But if the times do not lie on the edges, all values are moved back in time. *)
Theorem C131_shift_refuted h f t vs : (0 < f)%nat -> (h = Interpolated \/ (3 <= length vs)%nat) -> vs <> [] ->
  resampled h f (regular t f vs) = map (fun o => ((fst o - t mod f)%nat, Some (snd o))) (regular t f vs).
Proof.
  intros F H N. rewrite <- combine_regular by exact F. unfold resampled. rewrite regular_bins by auto. f_equal.
  assert (EQ : map (fun o => Some (snd o)) (regular t f vs) = map Some vs).
  { clear. revert t. induction vs as [|v vs IH]; intros t; cbn; [reflexivity|]. rewrite IH. reflexivity. }
  assert (ES : (3 <= length vs)%nat -> equal_sampled f (regular t f vs) = true).
  { intros L. unfold equal_sampled. rewrite regular_length, regular_steps.
    destruct (Nat.leb_spec 3 (length vs)); [reflexivity|lia]. }
  destruct h; [apply by_means_regular; auto| |];
    (destruct H as [H|H]; [discriminate|]); unfold filled; rewrite (ES H); exact EQ.
Qed.
Print Assumptions C131_shift_refuted.

(** ** C132: filling takes the last (next) measured value *)
Theorem C132_forward f s t v : ordered s -> equal_sampled f s = false ->
  In (t, Some v) (resampled ForwardFill f s) ->
  exists u, In (u, v) s /\ (u <= t)%nat /\ forall w x, In (w, x) s -> (w <= t)%nat -> (w <= u)%nat.
Proof.
  intros O Q I. apply in_combine_labels in I. destruct I as (i & L & T & E). unfold filled in E. rewrite Q in E.
  rewrite (nth_map_gen _ _ i 0%nat) in E by exact L. rewrite bins_nth in E by exact L. rewrite <- T in E. symmetry in E.
  destruct (last_until_spec t s O None v E) as [H|(A & _)]; [exact H|discriminate].
Qed.
Print Assumptions C132_forward.
Theorem C132_backward f s t v : ordered s -> equal_sampled f s = false ->
  In (t, Some v) (resampled BackwardFill f s) ->
  exists u, In (u, v) s /\ (t <= u)%nat /\ forall w x, In (w, x) s -> (t <= w)%nat -> (u <= w)%nat.
Proof.
  intros O Q I. apply in_combine_labels in I. destruct I as (i & L & T & E). unfold filled in E. rewrite Q in E.
  rewrite (nth_map_gen _ _ i 0%nat) in E by exact L. rewrite bins_nth in E by exact L. rewrite <- T in E. symmetry in E.
  exact (first_from_spec t s O v E).
Qed.
Print Assumptions C132_backward.
(** The labels are the edges of the bins from the first to the last value; every label which is not
    before the first value gets one. *)
Theorem C132_complete f s k : (0 < f)%nat -> ordered s -> equal_sampled f s = false -> s <> [] ->
  (t_first s <= k * f <= t_last s)%nat -> exists v, In ((k * f)%nat, Some v) (resampled ForwardFill f s).
Proof.
  intros F O Q N [K1 K2].
  assert (LU : exists v, last_until (k * f) s None = Some v).
  { assert (G : forall r d, d <> None -> last_until (k * f) r d <> None).
    { induction r as [|[u x] r IH]; cbn; intros d D; [exact D|]. destruct (u <=? k * f)%nat; [apply IH; discriminate|exact D]. }
    destruct s as [|[u x] s]; [congruence|]. cbn in K1 |- *. destruct (Nat.leb_spec u (k * f)); [|lia].
    destruct (last_until (k * f) s (Some x)) eqn:E; [eauto|]. exfalso. revert E. apply G. discriminate. }
  destruct LU as (v & V). exists v. unfold resampled, filled. rewrite Q.
  assert (KI : In k (bins f s)).
  { unfold bins. apply in_seq. assert (t_first s / f <= k)%nat by (apply Nat.div_le_upper_bound; lia).
    assert (k <= t_last s / f)%nat by (apply Nat.div_le_lower_bound; lia). lia. }
  revert KI. generalize (bins f s). induction l as [|j l IH]; [easy|]. intros [->|I]; cbn.
  - left. rewrite V. reflexivity.
  - right. auto.
Qed.
Print Assumptions C132_complete.

(** ** C133: all values count *)
(** With 'interpolate' every bin which holds values gets their mean. *)
Theorem C133_mean f s k : (0 < f)%nat -> ordered s -> in_bin f s k <> [] ->
  In ((k * f)%nat, Some (lmean (in_bin f s k))) (resampled Interpolated f s).
Proof.
  intros F O B. assert (K : exists i, k = (t_first s / f + i)%nat /\ (i < length (bins f s))%nat).
  { destruct (in_bin f s k) as [|x l] eqn:E; [congruence|].
    assert (I : In x (in_bin f s k)) by (rewrite E; left; reflexivity). apply in_bin_In in I. destruct I as (u & I & D).
    pose proof (ordered_first s u x O I). pose proof (ordered_last s u x O I).
    assert (t_first s / f <= u / f)%nat by (apply Nat.div_le_mono; lia).
    assert (u / f <= t_last s / f)%nat by (apply Nat.div_le_mono; lia).
    exists (k - t_first s / f)%nat. rewrite bins_length. lia. }
  destruct K as (i & -> & L).
  assert (V : nth i (by_means f s) None = Some (lmean (in_bin f s (t_first s / f + i)))).
  { rewrite by_means_nth by exact L. apply interp_kept; [rewrite map_length; exact L|].
    rewrite (nth_map_gen _ _ i 0%nat) by exact L. rewrite bins_nth by exact L. unfold bin_mean.
    destruct (in_bin f s (t_first s / f + i)); [congruence|reflexivity]. }
  rewrite <- V. rewrite <- (bins_nth f s i L).
  rewrite <- (nth_map_gen (fun k => (k * f)%nat) (bins f s) i 0%nat 0%nat L). unfold resampled.
  rewrite <- combine_nth by (rewrite map_length, by_means_length; reflexivity). apply nth_In.
  rewrite combine_length, map_length, by_means_length, Nat.min_id. exact L.
Qed.
Print Assumptions C133_mean.

(** Filling takes no notice of values between two edges which are followed by another value before the
    next edge: a pulse of any height has no effect. *)
Lemma steps_close f a u x w y b : (w < u + f)%nat -> steps f (a ++ (u, x) :: (w, y) :: b) = false.
Proof.
  intros H. induction a as [|[t z] a IH].
  - cbn [app steps]. destruct (Nat.eqb_spec w (u + f)); [lia|reflexivity].
  - cbn [app steps]. destruct (a ++ (u, x) :: (w, y) :: b) as [|[t2 z2] r] eqn:E; [destruct a; discriminate|].
    rewrite IH. apply andb_false_r.
Qed.
Lemma last_until_skip t a u x x' w y b : (u <= t -> w <= t)%nat -> forall d,
  last_until t (a ++ (u, x) :: (w, y) :: b) d = last_until t (a ++ (u, x') :: (w, y) :: b) d.
Proof.
  intros H. induction a as [|[z v] a IH]; intros d; cbn.
  - destruct (Nat.leb_spec u t) as [L|L]; [|reflexivity]. destruct (Nat.leb_spec w t) as [M|M]; [reflexivity|lia].
  - destruct (z <=? t)%nat; [apply IH|reflexivity].
Qed.
Theorem C133_pulse_refuted f a u w y b x x' k :
  ordered (a ++ (u, x) :: (w, y) :: b) -> (k * f < u)%nat -> (w <= S k * f)%nat ->
  resampled ForwardFill f (a ++ (u, x) :: (w, y) :: b) = resampled ForwardFill f (a ++ (u, x') :: (w, y) :: b).
Proof.
  intros O K1 K2.
  assert (UW : (u < w)%nat).
  { clear - O. induction a as [|c a IH]; inversion O; subst; [|auto].
    inversion H2; subst. exact H3. }
  assert (F : (0 < f)%nat) by (destruct f; lia).
  assert (TF : t_first (a ++ (u, x) :: (w, y) :: b) = t_first (a ++ (u, x') :: (w, y) :: b)) by (destruct a; reflexivity).
  assert (TL : t_last (a ++ (u, x) :: (w, y) :: b) = t_last (a ++ (u, x') :: (w, y) :: b)).
  { unfold t_last. f_equal. clear. induction a as [|c a IH]; [reflexivity|]. cbn [app].
    destruct (a ++ (u, x) :: (w, y) :: b) eqn:E1; [destruct a; discriminate|].
    destruct (a ++ (u, x') :: (w, y) :: b) eqn:E2; [destruct a; discriminate|]. cbn [last] in *. exact IH. }
  unfold resampled, filled, equal_sampled. rewrite !steps_close by lia. rewrite !andb_false_r.
  assert (B : bins f (a ++ (u, x) :: (w, y) :: b) = bins f (a ++ (u, x') :: (w, y) :: b)) by (unfold bins; rewrite TF, TL; reflexivity).
  rewrite B. f_equal. apply map_ext. intros j. apply last_until_skip. intros L.
  assert (k < j)%nat by nia. nia.
Qed.
Print Assumptions C133_pulse_refuted.

(** ** Cases *)
(** A flow measured at 10, 70 and 100 s, wanted every 60 s. *)
Definition flow : obs := [(10%nat, 1); (70%nat, 2); (100%nat, 6)].
Example flow_ordered : ordered flow.
Proof. repeat constructor; cbn; lia. Qed.
Example flow_interpolated : resampled Interpolated 60 flow = [(0%nat, Some 1); (60%nat, Some 4)].
Proof.
  unfold resampled, by_means, interpolate, interp_at, bin_mean, in_bin, lmean, lsum. cbn.
  repeat f_equal; field.
Qed.
Example flow_forward : resampled ForwardFill 60 flow = [(0%nat, None); (60%nat, Some 1)].
Proof. reflexivity. Qed.
Example flow_backward : resampled BackwardFill 60 flow = [(0%nat, Some 1); (60%nat, Some 2)].
Proof. reflexivity. Qed.
Example flow_gap : equal_sampled 60 flow = false /\ (t_first flow mod 60 <> 0)%nat.
Proof. split; [reflexivity|cbn; lia]. Qed.
(** Every 60 s from second 30 on: all times are moved back by half a minute. *)
Example shifted : resampled ForwardFill 60 (regular 30 60 [20; 21; 22]) =
  [(0%nat, Some 20); (60%nat, Some 21); (120%nat, Some 22)].
Proof. reflexivity. Qed.
(** A pulse between the edges 60 and 120. *)
Example pulse x : resampled ForwardFill 60 ([(0%nat, 1)] ++ (70%nat, x) :: (100%nat, 1) :: [(120%nat, 1)]) =
  [(0%nat, Some 1); (60%nat, Some 1); (120%nat, Some 1)].
Proof. reflexivity. Qed.
