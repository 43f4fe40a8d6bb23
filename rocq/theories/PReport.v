(** C158: the report describes the run. *)
From Coq Require Import Reals List Bool Arith Lia Lra Permutation Sorted.
From Verif Require Import MOut MPerf LOut MSolver MReport.
Import ListNotations.
Open Scope R_scope.

(** The steps a run is made of, told by the solver itself: size and kind of each step, and how many passes of the
    loop came before the accepted one. *)
Definition accepts_after (c : cfg) (o : nat -> outcome) (s : sst) (n : nat) (u : R) (k : nat) (s' : sst) : Prop :=
  exists ss : nat -> sst, ss 0%nat = s /\
  (forall i, (i < n)%nat -> attempt c (ss i) (o i) = ARetry (ss (S i))) /\
  attempt c (ss n) (o n) = AAccept u k s'.

(** A run: sizes of its steps and numbers of passes which were not accepted. *)
Inductive run (c : cfg) : sst -> list (nat -> outcome) -> list R -> list nat -> Prop :=
| run_nil s : run c s [] [] []
| run_cons s o os n ns u us k s' : accepts_after c o (enter s) n u k s' -> run c s' os us ns ->
    run c s (o :: os) (u :: us) (n :: ns).

Lemma counted_spec c : forall fuel o i s n d s', counted c fuel o i s n = Some (d, s') ->
  (n <= d_failed d)%nat /\
  exists ss : nat -> sst, ss 0%nat = s /\
  (forall j, (j < d_failed d - n)%nat -> attempt c (ss j) (o (i + j)%nat) = ARetry (ss (S j))) /\
  attempt c (ss (d_failed d - n)%nat) (o (i + (d_failed d - n))%nat) = AAccept (d_size d) (d_state d) s'.
Proof.
  induction fuel as [|fuel IH]; intros o i s n d s' E; cbn [counted] in E; [discriminate|].
  destruct (attempt c s (o i)) as [u k s1|s1|] eqn:A; [| |discriminate].
  - injection E as <- <-. cbn [d_failed d_size d_state]. split; [lia|]. exists (fun _ => s).
    rewrite Nat.sub_diag, Nat.add_0_r. split; [reflexivity|]. split; [lia|exact A].
  - destruct (IH _ _ _ _ _ _ E) as (L&ss&S0&S1&S2). split; [lia|].
    exists (fun j => match j with O => s | S j => ss j end). split; [reflexivity|].
    replace (d_failed d - n)%nat with (S (d_failed d - S n)) by lia. split.
    + intros [|j] Hj; [rewrite Nat.add_0_r, S0; exact A|].
      replace (i + S j)%nat with (S i + j)%nat by lia. apply S1. lia.
    + replace (i + S (d_failed d - S n))%nat with (S i + (d_failed d - S n))%nat by lia. exact S2.
Qed.

Lemma accept_code c s o u k s' : attempt c s o = AAccept u k s' -> In k [4; 5; 6; 7]%nat /\ u = s_h s.
Proof.
  unfold attempt. destruct o as [d|ds e].
  - destruct (Nat.eqb _ _); discriminate.
  - assert (Rj : forall x, (if Req_EM_T (s_h s) (c_min_step c) then AAccept (s_h s) 6 x else
      ARetry (mkSst (let h' := s_h s * reject_factor c e in if Rlt_dec h' (c_min_step c) then c_min_step c else h')
        (fst (fold_left (breach (s_h s)) ds (s_vN s, s_mf s))) (snd (fold_left (breach (s_h s)) ds (s_vN s, s_mf s))) (s_ssf s) (s_cnt s)))
        = AAccept u k s' -> In k [4; 5; 6; 7]%nat /\ u = s_h s).
    { intros x. destruct (Req_EM_T _ _); [|discriminate]. intros E. injection E as <- <- <-. cbn. intuition. }
    cbv zeta. destruct e as [r| |].
    + destruct (Rlt_dec 0 r).
      * destruct (Rlt_dec r 1); [|apply Rj]. intros E. injection E as <- <- <-. destruct (Rlt_dec _ _); cbn; intuition.
      * destruct (Req_EM_T r 0); [|apply Rj]. intros E. injection E as <- <- <-. cbn. intuition.
    + apply Rj.
    + apply Rj.
Qed.

Lemma steps_codes c fuel : forall os s l, steps_of c fuel os s = Some l ->
  length l = length os /\ Forall (fun d => In (d_state d) [4; 5; 6; 7]%nat) l.
Proof.
  induction os as [|o os IH]; intros s l E; cbn [steps_of] in E; [injection E as <-; split; [reflexivity|constructor]|].
  destruct (counted c fuel o 0 (enter s) 0) as [[d s']|] eqn:A; [|discriminate].
  destruct (steps_of c fuel os s') as [r|] eqn:B; [|discriminate]. injection E as <-.
  destruct (IH _ _ B) as [H1 H2]. split; [cbn; lia|]. constructor; [|exact H2].
  destruct (counted_spec _ _ _ _ _ _ _ _ A) as (_&ss&_&_&S2). apply (accept_code _ _ _ _ _ _ S2).
Qed.

Lemma occur_cons k x l : occur k (x :: l) = ((if Nat.eqb k x then 1 else 0) + occur k l)%nat.
Proof. unfold occur. cbn [filter]. destruct (Nat.eqb k x); reflexivity. Qed.

(** The four kinds of steps of the report add up to the number of steps of the run. *)
Theorem C158_kinds : forall c fuel os s l b, steps_of c fuel os s = Some l ->
  let r := write_report b l in
  (r_normal r + r_max r + r_min r + r_round r)%nat = length os.
Proof.
  intros c fuel os s l b E r. destruct (steps_codes _ _ _ _ _ E) as [L F]. rewrite <- L.
  unfold r, write_report. cbn [r_normal r_max r_min r_round]. unfold states.
  rewrite !occur_cons.
  clear - F. assert (Z : forall k, In k [4; 5; 6; 7]%nat -> (k =? (if b then 98 else 0))%nat = false).
  { intros k H. apply Nat.eqb_neq. destruct b; cbn in H; lia. }
  rewrite !Z by (cbn; tauto). cbn [Nat.add].
  induction F as [|d l H F IH]; [reflexivity|]. cbn [map length]. rewrite !occur_cons.
  cbn in H. destruct H as [<-|[<-|[<-|[<-|[]]]]]; cbn [Nat.eqb]; lia.
Qed.

(** The number of steps it gives is one too many: a run of [n] steps is reported as solved in [n + 1]. *)
Theorem C158_steps_refuted : forall c fuel os s l b, steps_of c fuel os s = Some l ->
  r_steps (write_report b l) = S (length os).
Proof. intros c fuel os s l b E. cbn. destruct (steps_codes _ _ _ _ _ E) as [L _]. now rewrite L. Qed.

(** The steps are those of the solver and the repetitions are the passes which were not accepted. *)
Theorem C158_repeated : forall c fuel os s l b, steps_of c fuel os s = Some l ->
  run c s os (map d_size l) (map d_failed l) /\ r_repeated (write_report b l) = fold_right Nat.add 0%nat (map d_failed l).
Proof.
  intros c fuel os s l b E. split; [|reflexivity].
  revert s l E. induction os as [|o os IH]; intros s l E; cbn [steps_of] in E.
  { injection E as <-. constructor. }
  destruct (counted c fuel o 0 (enter s) 0) as [[d s']|] eqn:A; [|discriminate].
  destruct (steps_of c fuel os s') as [r|] eqn:B; [|discriminate]. injection E as <-.
  cbn [map]. apply run_cons with (k := d_state d) (s' := s'); [|exact (IH _ _ B)].
  destruct (counted_spec _ _ _ _ _ _ _ _ A) as (_&ss&S0&S1&S2).
  rewrite Nat.sub_0_r in *. exists ss. cbn [Nat.add] in *.
  split; [exact S0|split; [exact S1|exact S2]].
Qed.

(** Steps reported as limited to the minimum step size are exactly those which were accepted although their error
    exceeds the tolerance (or is no number). *)
Definition too_inaccurate (e : errval) : Prop := match e with ENum r => r < 0 \/ 1 <= r | _ => True end.
Theorem C158_inaccurate : forall c s o u k s', attempt c s o = AAccept u k s' ->
  exists ds e, o = OStable ds e /\ (k = 6%nat <-> too_inaccurate e) /\ (k = 6%nat -> u = c_min_step c).
Proof.
  intros c s o u k s' E. destruct o as [d|ds e].
  - unfold attempt in E. destruct (Nat.eqb _ _); discriminate.
  - exists ds, e. split; [reflexivity|]. unfold attempt in E. cbv zeta in E. destruct e as [r| |]; cbn [too_inaccurate].
    + destruct (Rlt_dec 0 r); [destruct (Rlt_dec r 1)|destruct (Req_EM_T r 0)].
      * injection E as <- <- <-. destruct (Rlt_dec _ _); (split; [split; [discriminate|lra]|discriminate]).
      * destruct (Req_EM_T (s_h s) (c_min_step c)); [|discriminate]. injection E as <- <- <-.
        split; [split; [lra|reflexivity]|auto].
      * injection E as <- <- <-. split; [split; [discriminate|lra]|discriminate].
      * destruct (Req_EM_T (s_h s) (c_min_step c)); [|discriminate]. injection E as <- <- <-.
        split; [split; [lra|reflexivity]|auto].
    + destruct (Req_EM_T (s_h s) (c_min_step c)); [|discriminate]. injection E as <- <- <-. split; [tauto|auto].
    + destruct (Req_EM_T (s_h s) (c_min_step c)); [|discriminate]. injection E as <- <- <-. split; [tauto|auto].
Qed.

(** Steps reported as limited to the maximum need not have this size: the next one does. *)
Theorem C158_maximum_refuted : exists c l, cfg_ok c /\
  steps_of c 1 [fun _ => OStable [] (ENum (exp (- 9)))] (init_sst c) = Some l /\
  r_max (write_report false l) = 1%nat /\ Forall (fun d => d_size d = 1 /\ d_size d < c_max_step c) l.
Proof.
  set (c := mkCfg 3 (1/100) 6 (1/5) (9/10) 1).
  assert (P : 4 < err_pow (exp (-9))).
  { unfold err_pow, Rpower. rewrite ln_exp. replace (- (1/3) * -9) with 3 by lra.
    pose proof (exp_ineq1 3 ltac:(lra)). lra. }
  assert (F : 3 < 1 * accept_factor c 6 1 (exp (-9))).
  { unfold accept_factor. cbn [c_safety c_fctr_rec c INR]. replace ((1 / 1) ^ 2) with 1 by lra.
    apply Rlt_le_trans with (1 * (Rmin 6 (9 / 10 * err_pow (exp (-9))) * 1)).
    - pose proof (Rmin_glb_lt 6 (9 / 10 * err_pow (exp (-9))) 3 ltac:(lra) ltac:(lra)). lra.
    - apply Rmult_le_compat_l; [lra|apply Rmax_r]. }
  exists c, [mkDone 1 5 0]. split; [unfold cfg_ok; cbn; lra|]. split; [|split; [reflexivity|repeat constructor; cbn; lra]].
  cbn [steps_of counted]. unfold attempt, init_sst, enter. cbn [s_h s_vN s_mf s_ssf s_cnt fold_left fst snd].
  destruct (Rlt_dec 0 (exp (-9))) as [_|N]; [|exfalso; apply N, exp_pos].
  destruct (Rlt_dec (exp (-9)) 1) as [_|N].
  2:{ exfalso. apply N. rewrite <- exp_0. apply exp_increasing. lra. }
  change (c_max_factor c) with 6. change (c_max_step c) with 3.
  destruct (Rlt_dec 3 (1 * accept_factor c 6 1 (exp (-9)))); [reflexivity|contradiction].
Qed.

(** ** Times *)
Lemma times_diffs t l : diffs (times t l) = map d_size l.
Proof.
  revert t. induction l as [|d l IH]; intros t; [reflexivity|]. cbn [times map].
  specialize (IH (t + d_size d)). destruct (times (t + d_size d) l) as [|x q] eqn:Q; [destruct l; discriminate|].
  cbn [diffs] in *. rewrite IH. f_equal. destruct l; cbn in Q; injection Q as <- _; lra.
Qed.
Lemma times_snoc t l d : times t (l ++ [d]) = times t l ++ [t + lsum (map d_size l) + d_size d].
Proof.
  revert t. induction l as [|e l IH]; intros t; cbn [times app map].
  - cbn. do 2 f_equal. lra.
  - rewrite IH. change (lsum (d_size e :: map d_size l)) with (d_size e + lsum (map d_size l)).
    cbn [app]. do 3 f_equal. lra.
Qed.
Lemma lsum_app a b : lsum (a ++ b) = lsum a + lsum b.
Proof. unfold lsum. induction a; cbn; lra. Qed.

Lemma times_last t l : last (times t l) 0 = t + lsum (map d_size l).
Proof.
  destruct l as [|e l] using rev_ind; [cbn; lra|]. rewrite times_snoc, last_last, map_app, lsum_app. cbn. lra.
Qed.
Lemma times_rev t l : exists q, rev (times t l) = (t + lsum (map d_size l)) :: q.
Proof.
  destruct l as [|e l] using rev_ind; [exists []; cbn; f_equal; lra|].
  rewrite times_snoc, rev_app_distr. cbn [rev app]. eexists. f_equal. rewrite map_app, lsum_app. cbn. lra.
Qed.

Theorem C158_vector : forall l d, time_steps (times 0 (l ++ [d])) = map d_size (l ++ [d]) ++ [d_size d].
Proof.
  intros l d. unfold time_steps. rewrite times_diffs. f_equal.
  rewrite times_snoc, rev_app_distr. cbn [rev app]. destruct (times_rev 0 l) as [q ->].
  f_equal. lra.
Qed.

(** The mean step size given is that of a run which repeats its last step: it is the mean exactly if the last step
    has the mean size. *)
Theorem C158_mean_refuted : forall b l d, let r := write_report b (l ++ [d]) in
  let total := lsum (map d_size (l ++ [d])) in let n := INR (length (l ++ [d])) in
  r_mean r = (total + d_size d) / (n + 1) /\ (r_mean r = total / n <-> d_size d = total / n).
Proof.
  intros b l d r total n. assert (P : 0 < n) by (unfold n; apply lt_0_INR; rewrite app_length; cbn; lia).
  assert (M : r_mean r = (total + d_size d) / (n + 1)).
  { unfold r, write_report. cbn [r_mean]. rewrite C158_vector. unfold lmean. rewrite lsum_app.
    rewrite app_length, map_length, plus_INR. unfold total, n. cbn [length INR lsum fold_right]. f_equal. lra. }
  split; [exact M|]. rewrite M. split; intros H.
  - apply (Rmult_eq_reg_r (/ (n + 1))); [|apply Rinv_neq_0_compat; lra].
    replace (d_size d * / (n + 1)) with ((total + d_size d) / (n + 1) - total / (n + 1)) by (field; lra).
    rewrite H. field. lra.
  - rewrite H. field. lra.
Qed.

Lemma sorted_range l : StronglySorted Rle l -> l <> [] -> forall x, In x l -> x <= last l 0.
Proof.
  induction 1 as [|a l S IH F]; intros N x Hx; [contradiction|].
  destruct l as [|b l]; [destruct Hx as [->|[]]; cbn; lra|]. cbn [last].
  destruct Hx as [->|Hx]; [|apply IH; [discriminate|exact Hx]].
  rewrite Forall_forall in F. apply Rle_trans with b; [apply F; left; reflexivity|]. apply IH; [discriminate|left; reflexivity].
Qed.
Lemma nth_last (l : list R) : nth (length l - 1) l 0 = last l 0.
Proof.
  destruct l as [|a l] using rev_ind; [reflexivity|]. rewrite app_length, last_last. cbn [length].
  replace (length l + 1 - 1)%nat with (length l) by lia. rewrite app_nth2, Nat.sub_diag; [reflexivity|lia].
Qed.
Lemma times_ge t l : Forall (fun d => 0 <= d_size d) l -> Forall (fun x => t <= x) (times t l).
Proof.
  intros F. revert t. induction F as [|d l H F IH]; intros t; cbn [times]; constructor; try lra; [constructor|].
  eapply Forall_impl; [|apply IH]. cbv beta. intros. lra.
Qed.
Lemma times_sorted t l : Forall (fun d => 0 <= d_size d) l -> StronglySorted Rle (times t l).
Proof.
  intros F. revert t. induction F as [|d l H F IH]; intros t; cbn [times]; constructor; try (apply IH); [constructor|constructor|].
  eapply Forall_impl; [|apply times_ge, F]. cbv beta. intros. lra.
Qed.

(** The reported time frame is the time simulated. *)
Theorem C158_total : forall b l, Forall (fun d => 0 < d_size d) l ->
  r_total (write_report b l) = lsum (map d_size l).
Proof.
  intros b l F. unfold write_report. cbn [r_total]. unfold largest.
  assert (F' : Forall (fun d => 0 <= d_size d) l) by (eapply Forall_impl; [|exact F]; cbv beta; intros; lra).
  rewrite <- (isort_length (times 0 l)), nth_last.
  assert (N : times 0 l <> []) by (destruct l; discriminate).
  assert (N2 : isort (times 0 l) <> []).
  { intros E. apply N. apply length_zero_iff_nil. rewrite <- isort_length, E. reflexivity. }
  assert (IN : forall q : list R, q <> [] -> In (last q 0) q).
  { intros q Hq. destruct (exists_last Hq) as (a&x&->). rewrite last_last. apply in_or_app. right. left. reflexivity. }
  assert (L : last (times 0 l) 0 = lsum (map d_size l)) by (rewrite times_last; lra).
  rewrite <- L. apply Rle_antisym.
  - apply sorted_range; [apply times_sorted, F'|exact N|]. apply (Permutation_in _ (Permutation_sym (isort_perm _))), IN, N2.
  - apply sorted_range; [apply isort_sorted|exact N2|]. apply (Permutation_in _ (isort_perm _)), IN, N.
Qed.

Lemma quartile_between k l lo hi : l <> [] -> (k <= 4)%nat -> Forall (fun x => lo <= x <= hi) l ->
  lo <= quartile k l <= hi.
Proof.
  intros N K F. unfold quartile. set (h := (k * (length l - 1))%nat).
  assert (LN : (0 < length l)%nat) by (destruct l; [contradiction|cbn; lia]).
  assert (B : forall i, (i < length l)%nat -> lo <= nth i (isort l) 0 <= hi).
  { intros i Hi. rewrite Forall_forall in F. apply F. apply (Permutation_in _ (Permutation_sym (isort_perm _))).
    apply nth_In. rewrite isort_length. exact Hi. }
  assert (Q : (h / 4 <= length l - 1)%nat).
  { apply Nat.div_le_upper_bound; [lia|]. unfold h. nia. }
  pose proof (B (h / 4)%nat ltac:(lia)) as B1.
  pose proof (Nat.mod_upper_bound h 4 ltac:(lia)) as M.
  destruct (Nat.eq_dec (h mod 4) 0) as [Z|Z].
  - rewrite Z. cbn [INR]. lra.
  - assert (Q2 : (h / 4 + 1 < length l)%nat).
    { pose proof (Nat.div_mod_eq h 4). unfold h in *. nia. }
    pose proof (B _ Q2) as B2.
    assert (W : 0 <= INR (h mod 4) / 4 <= 1).
    { assert (INR (h mod 4) <= INR 4) by (apply le_INR; lia). change (INR 4) with (1+1+1+1) in H.
      pose proof (pos_INR (h mod 4)). split; lra. }
    set (a := nth (h / 4) (isort l) 0) in *. set (c := nth (h / 4 + 1) (isort l) 0) in *.
    set (w := INR (h mod 4) / 4) in *. split; nra.
Qed.

(** Quartiles are ordered. *)
Lemma sorted_step : forall s i, Sorted Rle s -> (S i < length s)%nat -> nth i s 0 <= nth (S i) s 0.
Proof.
  induction s as [|x s IH]; intros i S L; [cbn in L; lia|].
  destruct i as [|i].
  - destruct s as [|y s]; [cbn in L; lia|]. inversion S as [|? ? _ H]. inversion H. cbn. assumption.
  - inversion S. change (nth i s 0 <= nth (Datatypes.S i) s 0). apply IH; [assumption|cbn in L; lia].
Qed.
Definition between_cells (s : list R) (h : nat) : R :=
  nth (h / 4) s 0 + (nth (h / 4 + 1) s 0 - nth (h / 4) s 0) * (INR (h mod 4) / 4).
Lemma between_step : forall s h, Sorted Rle s -> (S h <= 4 * (length s - 1))%nat ->
  between_cells s h <= between_cells s (S h).
Proof.
  intros s h SS L. unfold between_cells.
  pose proof (Nat.div_mod_eq h 4) as D. pose proof (Nat.mod_upper_bound h 4 ltac:(lia)) as M.
  set (q := (h / 4)%nat) in *. set (r := (h mod 4)%nat) in *.
  assert (C : nth q s 0 <= nth (q + 1) s 0).
  { rewrite Nat.add_1_r. apply sorted_step; [exact SS|]. lia. }
  destruct (Nat.eq_dec r 3) as [E|E].
  - assert (Q : (S h / 4 = q + 1)%nat) by (rewrite D, E; symmetry; apply Nat.div_unique with (r := 0%nat); lia).
    assert (R : (S h mod 4 = 0)%nat) by (rewrite D, E; symmetry; apply Nat.mod_unique with (q := (q + 1)%nat); lia).
    rewrite Q, R, E. cbn [INR]. lra.
  - assert (Q : (S h / 4 = q)%nat) by (symmetry; apply Nat.div_unique with (r := S r); lia).
    assert (R : (S h mod 4 = S r)%nat) by (symmetry; apply Nat.mod_unique with (q := q); lia).
    rewrite Q, R, S_INR. nra.
Qed.
Lemma between_mono : forall s h h', Sorted Rle s -> (h <= h')%nat -> (h' <= 4 * (length s - 1))%nat ->
  between_cells s h <= between_cells s h'.
Proof.
  intros s h h' SS L. induction L as [|h' L IH]; intros B; [lra|].
  eapply Rle_trans; [apply IH; lia|]. apply between_step; [exact SS|lia].
Qed.
Lemma quartile_mono : forall l k k', (k <= k')%nat -> (k' <= 4)%nat -> quartile k l <= quartile k' l.
Proof.
  intros l k k' K B. change (between_cells (isort l) (k * (length l - 1)) <= between_cells (isort l) (k' * (length l - 1))).
  apply between_mono; [apply StronglySorted_Sorted, isort_sorted| |rewrite isort_length]; nia.
Qed.

(** The quartiles of the step sizes are ordered and lie in the range of the step sizes. *)
Theorem C158_quartiles : forall b l d lo hi, Forall (fun e => lo <= d_size e <= hi) (l ++ [d]) ->
  let r := write_report b (l ++ [d]) in
  lo <= r_q25 r <= hi /\ lo <= r_med r <= hi /\ lo <= r_q75 r <= hi /\ r_q25 r <= r_med r <= r_q75 r.
Proof.
  intros b l d lo hi F r. unfold r, write_report. cbn [r_q25 r_med r_q75]. rewrite C158_vector.
  assert (A : Forall (fun x => lo <= x <= hi) (map d_size (l ++ [d]) ++ [d_size d])).
  { apply Forall_app. split.
    - apply Forall_forall. intros x Hx. apply in_map_iff in Hx. destruct Hx as [e [<- He]].
      rewrite Forall_forall in F. apply F, He.
    - constructor; [|constructor]. rewrite Forall_forall in F. apply F, in_or_app. right. left. reflexivity. }
  assert (N : map d_size (l ++ [d]) ++ [d_size d] <> []) by (destruct (map d_size (l ++ [d])); discriminate).
  split; [|split; [|split; [|split; apply quartile_mono; lia]]]; (apply quartile_between; [exact N|lia|exact A]).
Qed.

(** ** Success *)
(** Runs which end normally are reported as such. *)
Theorem C158_success : forall c fuel os s l, steps_of c fuel os s = Some l ->
  r_success (write_report false l) = true /\ r_failed (write_report false l) = false.
Proof.
  intros c fuel os s l E. destruct (steps_codes _ _ _ _ _ E) as [_ F].
  assert (Z : forall k, (k = 98 \/ k = 99)%nat -> occur k (states false l) = 0%nat).
  { intros k Hk. unfold states. rewrite occur_cons.
    assert (occur k (map d_state l) = 0%nat) as ->.
    { clear - F Hk. induction F as [|d l H F IH]; [reflexivity|]. cbn [map]. rewrite occur_cons, IH.
      cbn in H. destruct (Nat.eqb_spec k (d_state d)); [lia|reflexivity]. }
    destruct Hk as [->| ->]; reflexivity. }
  unfold write_report. cbn [r_success r_failed]. rewrite !Z by auto. split; reflexivity.
Qed.
(** Runs stopped because of invalid values are reported as failed and as successful at the same time. *)
Theorem C158_success_refuted : forall c fuel os s l, steps_of c fuel os s = Some l ->
  r_success (write_report true l) = true /\ r_failed (write_report true l) = true.
Proof.
  intros c fuel os s l E. destruct (steps_codes _ _ _ _ _ E) as [_ F].
  assert (Z : occur 99 (states true l) = 0%nat).
  { unfold states. rewrite occur_cons. cbn [Nat.eqb].
    clear - F. induction F as [|d l H F IH]; [reflexivity|]. cbn [map]. rewrite occur_cons.
    cbn in H. destruct (Nat.eqb_spec 99 (d_state d)); [lia|exact IH]. }
  unfold write_report. cbn [r_success r_failed]. rewrite Z. unfold states. rewrite occur_cons. split; reflexivity.
Qed.

(** ** A run of two steps, the second one repeated once *)
Definition ex_cfg : cfg := mkCfg 3 (1/100) 6 (1/5) (9/10) 10.
Definition ex_outs : list (nat -> outcome) :=
  [fun _ => OStable [] (ENum 0); fun i => match i with O => OStable [] EInf | _ => OStable [] (ENum 0) end].
Example C158_example : exists l, steps_of ex_cfg 2 ex_outs (init_sst ex_cfg) = Some l /\
  let r := write_report false l in
  r_steps r = 3%nat /\ r_round r = 2%nat /\ r_repeated r = 1%nat /\ r_total r = 1 + 3 * (1/5) /\
  r_mean r = (1 + 3/5 + 3/5) / 3.
Proof.
  assert (E : steps_of ex_cfg 2 ex_outs (init_sst ex_cfg) = Some ([mkDone 1 7 0] ++ [mkDone (3 * (1/5)) 7 1])).
  { unfold ex_outs. cbn [steps_of counted]. unfold attempt at 1, init_sst, enter.
    cbn [s_h s_vN s_mf s_ssf s_cnt fold_left fst snd].
    destruct (Rlt_dec 0 0) as [N|_]; [lra|]. destruct (Req_EM_T 0 0) as [_|N]; [|lra].
    cbn [s_h s_vN s_mf s_ssf s_cnt]. unfold cap at 1. change (c_max_step ex_cfg) with 3. change (c_max_factor ex_cfg) with 6.
    destruct (Rlt_dec 3 (1 * 6)) as [_|N]; [|lra].
    unfold attempt at 1. cbn [s_h s_vN s_mf s_ssf s_cnt fold_left fst snd].
    change (c_min_step ex_cfg) with (1/100).
    destruct (Req_EM_T 3 (1/100)) as [N|_]; [lra|].
    unfold reject_factor. change (c_min_factor ex_cfg) with (1/5). change (c_safety ex_cfg) with (9/10).
    rewrite Rmult_0_r, Rmax_left by lra.
    destruct (Rlt_dec (3 * (1 / 5)) (1/100)) as [N|_]; [lra|].
    unfold attempt at 1. cbn [s_h s_vN s_mf s_ssf s_cnt fold_left fst snd].
    destruct (Rlt_dec 0 0) as [N|_]; [lra|]. destruct (Req_EM_T 0 0) as [_|N]; [|lra]. reflexivity. }
  eexists. split; [exact E|]. cbv zeta. split; [reflexivity|]. split; [reflexivity|]. split; [reflexivity|].
  split.
  - rewrite C158_total by (repeat constructor; cbn; lra). cbn. lra.
  - destruct (C158_mean_refuted false [mkDone 1 7 0] (mkDone (3 * (1/5)) 7 1)) as [-> _]. cbn. lra.
Qed.

Print Assumptions C158_kinds.
Print Assumptions C158_steps_refuted.
Print Assumptions C158_repeated.
Print Assumptions C158_inaccurate.
Print Assumptions C158_maximum_refuted.
Print Assumptions C158_vector.
Print Assumptions C158_mean_refuted.
Print Assumptions C158_total.
Print Assumptions C158_quartiles.
Print Assumptions C158_success.
Print Assumptions C158_success_refuted.
