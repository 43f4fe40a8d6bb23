(** Lemmas on masks, gaps and their filling. *)
From Coq Require Import Reals List Bool Arith Lra Lia.
From Verif Require Import MOut LOut.
Import ListNotations.
Open Scope R_scope.

Lemma combine_map_self {A B} (p : A -> B) l : combine (map p l) l = map (fun x => (p x, x)) l.
Proof. induction l; cbn; congruence. Qed.
Lemma dropped_self p l : dropped (map p l) l = map Some (filter (fun x => negb (p x)) l).
Proof.
  unfold dropped. rewrite combine_map_self. induction l; cbn; [reflexivity|].
  destruct (p a); cbn; rewrite IHl; reflexivity.
Qed.
Lemma filter_cnt {A} (p : A -> bool) l : length (filter p l) = cnt p l.
Proof. induction l; cbn; [reflexivity|]. destruct (p a); cbn; rewrite IHl; reflexivity. Qed.
Lemma filter_all {A} (p : A -> bool) l : (forall x, In x l -> p x = true) -> filter p l = l.
Proof. induction l; cbn; intros H; [reflexivity|]. rewrite (H a) by auto. rewrite IHl; auto. Qed.

Lemma marked_length v out l : length out = length l -> length (marked v out l) = length l.
Proof. intros H. unfold marked. rewrite map_length, combine_length. lia. Qed.
Lemma marked_nth v out l i : length out = length l -> (i < length l)%nat ->
  nth i (marked v out l) None = if nth i out true then v else Some (nth i l 0).
Proof.
  intros H Hi. unfold marked.
  set (g := fun p : bool * R => if fst p then v else Some (snd p)).
  rewrite (nth_indep _ None (g (true, 0))) by (rewrite map_length, combine_length; lia).
  rewrite map_nth, combine_nth by exact H. reflexivity.
Qed.

(** Neighbours *)
Lemma prev_ok_some c i p v : prev_ok c i = Some (p, v) ->
  (p <= i)%nat /\ nth p c None = Some v /\ forall j, (p < j)%nat -> (j <= i)%nat -> nth j c None = None.
Proof.
  induction i; cbn [prev_ok]; intros E.
  - destruct (nth 0 c None) eqn:E0; [|easy]. injection E as <- <-. repeat split; auto; intros; lia.
  - destruct (nth (S i) c None) eqn:E0.
    + injection E as <- <-. repeat split; auto; intros; lia.
    + destruct (IHi E) as (H1 & H2 & H3). repeat split; auto. intros j Hj1 Hj2.
      destruct (Nat.eq_dec j (S i)); [congruence|apply H3; lia].
Qed.
Lemma prev_ok_none c i : prev_ok c i = None -> forall j, (j <= i)%nat -> nth j c None = None.
Proof.
  induction i; cbn [prev_ok]; intros E j Hj.
  - destruct (nth 0 c None) eqn:E0; [easy|]. replace j with 0%nat by lia. exact E0.
  - destruct (nth (S i) c None) eqn:E0; [easy|].
    destruct (Nat.eq_dec j (S i)); [congruence|apply IHi; [exact E|lia]].
Qed.
Lemma next_ok_some c fuel : forall i q v, next_ok c i fuel = Some (q, v) ->
  (i <= q < i + fuel)%nat /\ nth q c None = Some v /\
  forall j, (i <= j)%nat -> (j < q)%nat -> nth j c None = None.
Proof.
  induction fuel; cbn [next_ok]; intros i q v E; [easy|]. destruct (nth i c None) eqn:E0.
  - injection E as <- <-. repeat split; auto; try lia; intros; lia.
  - destruct (IHfuel _ _ _ E) as (H1 & H2 & H3). repeat split; auto; try lia. intros j Hj1 Hj2.
    destruct (Nat.eq_dec j i); [congruence|apply H3; lia].
Qed.
Lemma next_ok_none c fuel : forall i, next_ok c i fuel = None ->
  forall j, (i <= j)%nat -> (j < i + fuel)%nat -> nth j c None = None.
Proof.
  induction fuel; cbn [next_ok]; intros i E j H1 H2; [lia|].
  destruct (nth i c None) eqn:E0; [easy|].
  destruct (Nat.eq_dec j i); [congruence|apply (IHfuel (S i)); [exact E|lia|lia]].
Qed.
Lemma interpolate_nth ins ts c i : (i < length c)%nat ->
  nth i (interpolate ins ts c) None = interp_at ins ts c i.
Proof.
  intros H. unfold interpolate.
  rewrite (nth_indep _ None (interp_at ins ts c 0)) by (rewrite map_length, seq_length; lia).
  rewrite map_nth, seq_nth by lia. reflexivity.
Qed.
Lemma interp_kept ins ts c i v : (i < length c)%nat -> nth i c None = Some v ->
  interp_at ins ts c i = Some v.
Proof.
  intros Hi H. unfold interp_at.
  assert (prev_ok c i = Some (i, v)) as -> by (destruct i; cbn [prev_ok]; rewrite H; reflexivity).
  destruct (length c - i)%nat eqn:E; [lia|]. cbn [next_ok]. rewrite H, Nat.eqb_refl. reflexivity.
Qed.

(** Rescaling by [a * x + b] *)
Definition resc (a b : R) (o : option R) : option R :=
  match o with None => None | Some x => Some (a * x + b) end.
Lemma marked_resc a b out l :
  marked None out (map (fun x => a * x + b) l) = map (resc a b) (marked None out l).
Proof.
  unfold marked. revert out. induction l; intros [|o out]; cbn; try reflexivity.
  rewrite IHl. destruct o; reflexivity.
Qed.
Lemma dropped_resc a b out l :
  dropped out (map (fun x => a * x + b) l) = map (resc a b) (dropped out l).
Proof.
  unfold dropped. revert out. induction l; intros [|o out]; cbn; try reflexivity.
  rewrite IHl, map_app. destruct o; reflexivity.
Qed.
Lemma nth_resc a b c i : nth i (map (resc a b) c) None = resc a b (nth i c None).
Proof. apply (map_nth (resc a b) c None). Qed.
Lemma prev_resc a b c i : prev_ok (map (resc a b) c) i =
  match prev_ok c i with None => None | Some (p, v) => Some (p, a * v + b) end.
Proof.
  induction i; cbn [prev_ok]; rewrite nth_resc.
  - destruct (nth 0 c None); reflexivity.
  - destruct (nth (S i) c None); [reflexivity|exact IHi].
Qed.
Lemma next_resc a b c fuel : forall i, next_ok (map (resc a b) c) i fuel =
  match next_ok c i fuel with None => None | Some (p, v) => Some (p, a * v + b) end.
Proof.
  induction fuel; intros i; cbn [next_ok]; [reflexivity|]. rewrite nth_resc.
  destruct (nth i c None); [reflexivity|apply IHfuel].
Qed.
Lemma interpolate_resc ins a b ts c :
  interpolate ins ts (map (resc a b) c) = map (resc a b) (interpolate ins ts c).
Proof.
  unfold interpolate. rewrite map_map, map_length. apply map_ext. intros i. unfold interp_at.
  rewrite prev_resc, next_resc, map_length.
  destruct (prev_ok c i) as [[p u]|]; [|reflexivity].
  destruct (next_ok c i (length c - i)) as [[q w]|].
  - destruct (p =? q)%nat; cbn; [reflexivity|]. f_equal. unfold Rdiv. ring.
  - destruct ins; reflexivity.
Qed.

Lemma out_std_affine c k a b l x : 0 < a ->
  out_std c k (map (fun x => a * x + b) l) (a * x + b) = out_std c k l x.
Proof.
  intros A. unfold out_std. rewrite lstd_affine by exact A.
  destruct (lstd (ddof c) l) eqn:E; [|reflexivity].
  assert (l <> []). { intros ->. cbn in E. discriminate E. }
  rewrite lmean_affine by assumption.
  replace (a * x + b - (a * lmean l + b)) with (a * (x - lmean l)) by ring.
  rewrite Rabs_mult, (Rabs_right a) by lra.
  destruct (Rle_dec (a * Rabs (x - lmean l)) (k * (a * r))), (Rle_dec (Rabs (x - lmean l)) (k * r));
    try reflexivity; exfalso; nra.
Qed.
Lemma mask_std_affine c k a b l : 0 < a -> mask_std c k (map (fun x => a * x + b) l) = mask_std c k l.
Proof.
  intros A. unfold mask_std. rewrite map_map. apply map_ext. intros x. apply out_std_affine, A.
Qed.
Lemma mad_affine a b l : 0 < a -> l <> [] -> mad (map (fun x => a * x + b) l) = a * mad l.
Proof.
  intros A L. unfold mad. rewrite median_affine, map_map by assumption.
  rewrite (map_ext _ (fun x => a * Rabs (x - median l) + 0)).
  2:{ intros x. replace (a * x + b - (a * median l + b)) with (a * (x - median l)) by ring.
      rewrite Rabs_mult, (Rabs_right a) by lra. ring. }
  rewrite <- (map_map (fun x => Rabs (x - median l)) (fun y => a * y + 0)).
  rewrite median_affine; [ring|exact A|]. intros E. apply map_eq_nil in E. auto.
Qed.
Lemma mask_mad_affine th dc a b l : 0 < a ->
  mask_mad th dc (map (fun x => a * x + b) l) = mask_mad th dc l.
Proof.
  intros A. unfold mask_mad. rewrite map_map. destruct l as [|x0 l0] eqn:El; [reflexivity|].
  rewrite <- El. assert (L : l <> []) by (subst; easy). apply map_ext. intros x.
  unfold out_mad. rewrite mad_affine, median_affine by assumption.
  replace (a * x + b - (a * median l + b)) with (a * (x - median l)) by ring.
  rewrite Rabs_mult, (Rabs_right a) by lra.
  replace (th * dc * (a * mad l)) with (a * (th * dc * mad l)) by ring.
  generalize (th * dc * mad l) (Rabs (x - median l)). intros u v.
  destruct (Rlt_dec (a * u) (a * v)), (Rlt_dec u v); try reflexivity; exfalso; nra.
Qed.

Lemma roll_median_affine w a b l i : 0 < a -> (0 < w)%nat ->
  roll_median w (map (fun x => a * x + b) l) i = resc a b (roll_median w l i).
Proof.
  intros A W. unfold roll_median. rewrite map_length.
  destruct ((w <=? i + (w - 1) / 2 + 1) && (i + (w - 1) / 2 <? length l))%nat eqn:E; [|reflexivity].
  cbn [resc]. f_equal. rewrite skipn_map, firstn_map. apply median_affine; [exact A|].
  apply andb_prop in E. destruct E as [E1 E2]. apply Nat.leb_le in E1. apply Nat.ltb_lt in E2.
  intros Z. apply (f_equal (@length R)) in Z. cbn [length] in Z. rewrite firstn_length, skipn_length in Z. set (d := ((w - 1) / 2)%nat) in *. lia.
Qed.
Lemma first_some_resc a b f g : (forall i, g i = resc a b (f i)) ->
  forall fuel i, first_some g i fuel = resc a b (first_some f i fuel).
Proof.
  intros H fuel. induction fuel; intros i; cbn; [reflexivity|]. rewrite H.
  destruct (f i); [reflexivity|apply IHfuel].
Qed.
Lemma last_some_resc a b f g : (forall i, g i = resc a b (f i)) ->
  forall i, last_some g i = resc a b (last_some f i).
Proof.
  intros H i. induction i; cbn [last_some]; rewrite H; [destruct (f 0%nat)|destruct (f (S i))]; auto.
Qed.
Lemma roll_diff_affine w a b l i : 0 < a -> (0 < w)%nat -> (i < length l)%nat ->
  roll_diff w (map (fun x => a * x + b) l) i = resc a 0 (roll_diff w l i).
Proof.
  intros A W Hi. unfold roll_diff, roll_filled. rewrite map_length, nth_map_R by exact Hi.
  pose proof (fun j => roll_median_affine w a b l j A W) as RM.
  rewrite (first_some_resc a b _ _ RM), (last_some_resc a b _ _ RM).
  assert (K : forall m, Rabs (a * nth i l 0 + b - (a * m + b)) = a * Rabs (nth i l 0 - m) + 0).
  { intros m. replace (a * nth i l 0 + b - (a * m + b)) with (a * (nth i l 0 - m)) by ring.
    rewrite Rabs_mult, (Rabs_right a) by lra. ring. }
  destruct (first_some (roll_median w l) i (length l - i)); cbn [resc]; [rewrite K; reflexivity|].
  destruct (last_some (roll_median w l) i); cbn [resc]; [rewrite K; reflexivity|reflexivity].
Qed.
Lemma somes_resc a b l : somes (map (resc a b) l) = map (fun x => a * x + b) (somes l).
Proof. unfold somes. induction l as [|[x|] l]; cbn; congruence. Qed.
Lemma mask_roll_affine w k a b l : 0 < a -> (0 < w)%nat ->
  mask_roll w k (map (fun x => a * x + b) l) = mask_roll w k l.
Proof.
  intros A W. unfold mask_roll. rewrite map_length. apply map_ext_in. intros i Hi.
  apply in_seq in Hi. unfold out_roll.
  assert (D : roll_diffs w (map (fun x => a * x + b) l) = map (resc a 0) (roll_diffs w l)).
  { unfold roll_diffs. rewrite map_length, map_map. apply map_ext_in. intros j Hj.
    apply in_seq in Hj. apply roll_diff_affine; auto; lia. }
  rewrite D, somes_resc, lstd_affine, roll_diff_affine by (auto; lia).
  destruct (roll_diff w l i); [|reflexivity]. cbn [resc].
  destruct (lstd 1 (somes (roll_diffs w l))); [|reflexivity].
  replace (a * r0 * k) with (a * (r0 * k)) by ring.
  generalize (r0 * k). intros u.
  destruct (Rlt_dec (a * u) (a * r + 0)), (Rlt_dec u r); try reflexivity; exfalso; nra.
Qed.

(** The straight line *)
Lemma skipn_seq0 k : forall n s, skipn k (seq s n) = seq (s + k) (n - k).
Proof.
  induction k; intros n s; cbn.
  - rewrite Nat.add_0_r, Nat.sub_0_r. reflexivity.
  - destruct n; cbn; [reflexivity|]. rewrite IHk. f_equal. lia.
Qed.
Lemma firstn_seq0 k : forall n s, (k <= n)%nat -> firstn k (seq s n) = seq s k.
Proof.
  induction k; intros n s H; cbn; [reflexivity|]. destruct n; cbn; [lia|]. rewrite IHk by lia. reflexivity.
Qed.
Definition line (n : nat) : list R := map INR (seq 0 n).
Lemma median3 x : median [x; x + 1; x + 1 + 1] = x + 1.
Proof.
  unfold median. cbn [isort insert length Nat.even].
  destruct (Rle_dec (x + 1) (x + 1 + 1)); [|lra]. cbn [insert].
  destruct (Rle_dec x (x + 1)); [|lra]. reflexivity.
Qed.
Lemma line_median n i : (1 <= i)%nat -> (i + 1 < n)%nat -> roll_median 3 (line n) i = Some (INR i).
Proof.
  intros H1 H2. unfold roll_median. change ((3 - 1) / 2)%nat with 1%nat.
  unfold line at 1. rewrite map_length, seq_length.
  rewrite (proj2 (Nat.leb_le 3 (i + 1 + 1))) by lia.
  rewrite (proj2 (Nat.ltb_lt (i + 1) n)) by lia. cbn [andb]. f_equal.
  unfold line. rewrite skipn_map, firstn_map, skipn_seq0, firstn_seq0 by lia.
  replace (0 + (i + 1 + 1 - 3))%nat with (i - 1)%nat by lia. cbn [seq map].
  rewrite !S_INR. rewrite median3. rewrite <- S_INR. f_equal. lia.
Qed.
Lemma line_edge n i : (i = 0 \/ i + 1 = n)%nat -> roll_median 3 (line n) i = None.
Proof.
  intros H. unfold roll_median. change ((3 - 1) / 2)%nat with 1%nat. unfold line. rewrite map_length, seq_length.
  destruct (Nat.leb_spec 3 (i + 1 + 1)); [|reflexivity].
  destruct (Nat.ltb_spec (i + 1) n); [lia|reflexivity].
Qed.
Lemma line_nth n i : (i < n)%nat -> nth i (line n) 0 = INR i.
Proof. intros H. unfold line. rewrite (nth_indep _ 0 (INR 0)) by (rewrite map_length, seq_length; exact H). rewrite map_nth, seq_nth by lia. reflexivity. Qed.
Lemma line_length n : length (line n) = n.
Proof. unfold line. rewrite map_length, seq_length. reflexivity. Qed.
Lemma line_diff n i : (3 <= n)%nat -> (i < n)%nat ->
  roll_diff 3 (line n) i = Some (if (i =? 0)%nat || (i + 1 =? n)%nat then 1 else 0).
Proof.
  intros Hn Hi. unfold roll_diff, roll_filled. rewrite line_length, (line_nth n i Hi).
  destruct (Nat.eqb_spec i 0) as [->|N0].
  - destruct n as [|[|n]]; try lia. cbn [Nat.sub first_some].
    rewrite line_edge by lia. rewrite line_median by lia. cbn [orb INR].
    f_equal. rewrite Rabs_left; lra.
  - destruct (Nat.eqb_spec (i + 1) n) as [E|N1].
    + replace (n - i)%nat with 1%nat by lia. cbn [first_some]. rewrite line_edge by lia.
      destruct i as [|j]; [lia|]. cbn [last_some]. rewrite line_edge by lia.
      replace (last_some (roll_median 3 (line n)) j) with (Some (INR j)).
      * f_equal. rewrite S_INR. cbn [orb]. rewrite Rabs_right; lra.
      * destruct j as [|j']; [lia|]. cbn [last_some]. rewrite line_median by lia. reflexivity.
    + destruct (n - i)%nat as [|f] eqn:Ef; [lia|]. cbn [first_some]. rewrite line_median by lia.
      cbn [orb]. f_equal. rewrite Rabs_right; lra.
Qed.
Lemma map_const (c : R) n : forall k, map (fun _ : nat => c) (seq k n) = repeat c n.
Proof. induction n; intros k; cbn; [reflexivity|]. f_equal. apply IHn. Qed.
Lemma line_diffs m : somes (roll_diffs 3 (line (S (S (S m))))) = 1 :: repeat 0 (S m) ++ [1].
Proof.
  set (n := S (S (S m))). unfold roll_diffs. rewrite line_length.
  assert (E : map (roll_diff 3 (line n)) (seq 0 n) =
              map (fun i => Some (if (i =? 0)%nat || (i + 1 =? n)%nat then 1 else 0)) (seq 0 n)).
  { apply map_ext_in. intros i Hi. apply in_seq in Hi. apply line_diff; unfold n in *; lia. }
  rewrite E. clear E.
  assert (F : forall l : list nat, somes (map (fun i => Some (if (i =? 0)%nat || (i + 1 =? n)%nat then 1 else 0)) l)
            = map (fun i => if (i =? 0)%nat || (i + 1 =? n)%nat then 1 else 0) l).
  { intros l. unfold somes. induction l; cbn; [reflexivity|]. f_equal. exact IHl. }
  rewrite F. assert (Q : seq 0 n = 0%nat :: seq 1 (S m) ++ [S (S m)]).
  { change (seq 0 n) with (0%nat :: seq 1 (S (S m))). rewrite (seq_S (S m) 1). reflexivity. }
  rewrite Q. cbn [map Nat.eqb orb]. f_equal. rewrite map_app. f_equal.
  - replace (repeat 0 (S m)) with (map (fun _ : nat => 0) (seq 1 (S m))).
    + apply map_ext_in. intros i Hi. apply in_seq in Hi.
      destruct (Nat.eqb_spec i 0); [lia|]. destruct (Nat.eqb_spec (i + 1) n); [unfold n in *; lia|]. reflexivity.
    + apply map_const.
  - cbn [map Nat.eqb orb].
    destruct (Nat.eqb_spec (S (S m) + 1) n); [reflexivity|unfold n in *; lia].
Qed.
Lemma lsum_app a b : lsum (a ++ b) = lsum a + lsum b.
Proof. unfold lsum. induction a; cbn; lra. Qed.
Lemma lsum_repeat c k : lsum (repeat c k) = INR k * c.
Proof. induction k; [cbn; lra|]. rewrite S_INR. unfold lsum in *. cbn [repeat fold_right]. lra. Qed.
Lemma line_std m : let n := INR (m + 3) in
  lstd 1 (somes (roll_diffs 3 (line (S (S (S m)))))) = Some (sqrt ((2 - 4 / n) / (n - 1))).
Proof.
  intros n. rewrite line_diffs. set (d := 1 :: repeat 0 (S m) ++ [1]).
  assert (Hl : length d = (m + 3)%nat) by (unfold d; cbn [length]; rewrite app_length, repeat_length; cbn; lia).
  unfold lstd. rewrite Hl. destruct (Nat.leb_spec (m + 3) 1); [lia|]. f_equal. f_equal.
  assert (N : 3 <= n). { unfold n. rewrite plus_INR. pose proof (pos_INR m). cbn [INR]. lra. }
  assert (Hm : lmean d = 2 / n).
  { unfold lmean. rewrite Hl. fold n. f_equal. unfold d. change (lsum (1 :: repeat 0 (S m) ++ [1]))
      with (1 + lsum (repeat 0 (S m) ++ [1])). rewrite lsum_app, lsum_repeat. cbn. lra. }
  assert (Hs : ssd d = 2 - 4 / n).
  { unfold ssd. rewrite Hm. unfold d. cbn [map]. rewrite map_app.
    assert (R : forall j (g : R -> R), map g (repeat 0 j) = repeat (g 0) j).
    { intros j g. induction j; cbn; congruence. }
    rewrite R. cbn [map].
    change (lsum (?x :: ?y)) with (x + lsum y). rewrite lsum_app, lsum_repeat. cbn [lsum fold_right].
    unfold lsum. cbn [fold_right].
    replace (INR (S m)) with (n - 2) by (unfold n; rewrite S_INR, plus_INR; cbn [INR]; lra).
    field. lra. }
  rewrite Hs. f_equal. unfold n. rewrite minus_INR by lia. cbn [INR]. reflexivity.
Qed.
