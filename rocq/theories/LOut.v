(** Lemmas on sums, medians and sorting. *)
From Coq Require Import Reals List Bool Arith Lra Lia Permutation Sorting.Sorted.
From Verif Require Import MOut.
Import ListNotations.
Open Scope R_scope.

Fixpoint cnt {A} (p : A -> bool) (l : list A) : nat :=
  match l with [] => 0%nat | x :: t => ((if p x then 1 else 0) + cnt p t)%nat end.
Lemma cnt_app {A} (p : A -> bool) a b : cnt p (a ++ b) = (cnt p a + cnt p b)%nat.
Proof. induction a; cbn; [reflexivity|]. rewrite IHa. lia. Qed.
Lemma cnt_le {A} (p : A -> bool) l : (cnt p l <= length l)%nat.
Proof. induction l; cbn; [lia|]. destruct (p a); lia. Qed.
Lemma cnt_neg {A} (p : A -> bool) l : (cnt p l + cnt (fun x => negb (p x)) l = length l)%nat.
Proof. induction l; cbn; [lia|]. destruct (p a); cbn; lia. Qed.
Lemma cnt_mono {A} (p q : A -> bool) l : (forall x, In x l -> p x = true -> q x = true) ->
  (cnt p l <= cnt q l)%nat.
Proof.
  induction l; cbn; intros H; [lia|]. pose proof (H a (or_introl eq_refl)).
  assert (cnt p l <= cnt q l)%nat by (apply IHl; auto).
  destruct (p a); [rewrite H0 by reflexivity; lia|]. destruct (q a); lia.
Qed.
Lemma cnt_map {A B} (p : B -> bool) (f : A -> B) l : cnt p (map f l) = cnt (fun x => p (f x)) l.
Proof. induction l; cbn; congruence. Qed.
Lemma cnt_perm {A} (p : A -> bool) a b : Permutation a b -> cnt p a = cnt p b.
Proof. induction 1; cbn; lia. Qed.
Lemma cnt_none {A} (p : A -> bool) l : (forall x, In x l -> p x = false) -> cnt p l = 0%nat.
Proof. induction l; cbn; intros H; [lia|]. rewrite (H a) by auto. rewrite IHl; auto. Qed.
Lemma cnt_all {A} (p : A -> bool) l : (forall x, In x l -> p x = true) -> cnt p l = length l.
Proof. induction l; cbn; intros H; [lia|]. rewrite (H a) by auto. rewrite IHl; auto. Qed.
Lemma cnt_pos {A} (p : A -> bool) l x : In x l -> p x = true -> (0 < cnt p l)%nat.
Proof.
  induction l; [easy|]. cbn. intros [<-|H] E; [rewrite E; lia|]. specialize (IHl H E). lia.
Qed.
Lemma cnt_zero {A} (p : A -> bool) l : cnt p l = 0%nat -> forall x, In x l -> p x = false.
Proof.
  intros C x H. destruct (p x) eqn:E; [|reflexivity]. pose proof (cnt_pos p l x H E). lia.
Qed.

(** Sorting *)
Lemma insert_perm x l : Permutation (x :: l) (insert x l).
Proof.
  induction l; cbn; [reflexivity|]. destruct (Rle_dec x a); [reflexivity|].
  rewrite perm_swap. apply perm_skip, IHl.
Qed.
Lemma isort_perm l : Permutation l (isort l).
Proof. induction l; cbn; [constructor|]. rewrite <- insert_perm. apply perm_skip, IHl. Qed.
Lemma isort_length l : length (isort l) = length l.
Proof. symmetry. apply Permutation_length, isort_perm. Qed.
Lemma insert_sorted x l : StronglySorted Rle l -> StronglySorted Rle (insert x l).
Proof.
  induction l; cbn; intros H; [repeat constructor|].
  inversion H as [|? ? H1 H2]; subst. destruct (Rle_dec x a).
  - constructor; [assumption|]. constructor; [assumption|].
    rewrite Forall_forall in *. intros y Hy. specialize (H2 y Hy). lra.
  - constructor; [auto|]. rewrite Forall_forall in *. intros y Hy.
    apply (Permutation_in _ (Permutation_sym (insert_perm x l))) in Hy.
    destruct Hy as [<-|Hy]; [lra|auto].
Qed.
Lemma isort_sorted l : StronglySorted Rle (isort l).
Proof. induction l; cbn; [constructor|]. apply insert_sorted, IHl. Qed.
Lemma sorted_nth l : StronglySorted Rle l -> forall i j, (i <= j)%nat -> (j < length l)%nat ->
  nth i l 0 <= nth j l 0.
Proof.
  induction 1 as [|a l Hs IH Ha]; intros i j Hij Hj; cbn in Hj; [lia|].
  destruct i, j; cbn; [lra| |lia|apply IH; lia].
  rewrite Forall_forall in Ha. apply Ha, nth_In. lia.
Qed.

Lemma In_nth_R (l : list R) x : In x l -> exists i, (i < length l)%nat /\ nth i l 0 = x.
Proof. intros H. destruct (In_nth l x 0 H) as (i & H1 & H2). eauto. Qed.
Lemma nth_skipn_R (l : list R) j i : nth i (skipn j l) 0 = nth (j + i) l 0.
Proof.
  revert l. induction j; intros [|a l]; cbn; try reflexivity.
  - destruct i; reflexivity.
  - apply IHj.
Qed.
Lemma nth_firstn_R (l : list R) j i : (i < j)%nat -> nth i (firstn j l) 0 = nth i l 0.
Proof.
  revert l i. induction j; intros [|a l] [|i] H; cbn; try lia; try reflexivity. apply IHj. lia.
Qed.
Lemma cnt_low (p : R -> bool) l j :
  (forall i, (j <= i)%nat -> (i < length l)%nat -> p (nth i l 0) = false) -> (cnt p l <= j)%nat.
Proof.
  intros H. rewrite <- (firstn_skipn j l), cnt_app, (cnt_none p (skipn j l)).
  - pose proof (cnt_le p (firstn j l)). rewrite firstn_length in H0. lia.
  - intros x Hx. apply In_nth_R in Hx. destruct Hx as (i & Hi & <-). rewrite nth_skipn_R.
    rewrite skipn_length in Hi. apply H; lia.
Qed.
Lemma cnt_high (p : R -> bool) l j : (j <= length l)%nat ->
  (forall i, (i < j)%nat -> p (nth i l 0) = false) -> (cnt p l <= length l - j)%nat.
Proof.
  intros Hj H. rewrite <- (firstn_skipn j l) at 1. rewrite cnt_app, (cnt_none p (firstn j l)).
  - pose proof (cnt_le p (skipn j l)). rewrite skipn_length in H0. lia.
  - intros x Hx. apply In_nth_R in Hx. destruct Hx as (i & Hi & <-).
    rewrite firstn_length in Hi. rewrite nth_firstn_R by lia. apply H; lia.
Qed.

Definition within (lo hi x : R) : bool :=
  if Rle_dec lo x then (if Rle_dec x hi then true else false) else false.
Lemma within_true lo hi x : within lo hi x = true <-> lo <= x <= hi.
Proof. unfold within. destruct (Rle_dec lo x), (Rle_dec x hi); split; intros; try easy; lra. Qed.

Lemma half_split n : (n = 2 * (n / 2) \/ n = 2 * (n / 2) + 1)%nat /\
  (Nat.even n = true <-> n = (2 * (n / 2))%nat).
Proof.
  pose proof (Nat.div_mod_eq n 2) as E. pose proof (Nat.mod_upper_bound n 2 ltac:(lia)) as U.
  split; [lia|]. rewrite Nat.even_spec. split.
  - intros [k Hk]. subst. rewrite Nat.mul_comm, Nat.div_mul by lia. lia.
  - intros H. exists (n / 2)%nat. exact H.
Qed.

(** The median lies in every interval which holds more than half of the values. *)
Lemma median_majority l lo hi : (length l < 2 * cnt (within lo hi) l)%nat ->
  lo <= median l <= hi.
Proof.
  intros H. unfold median. set (s := isort l).
  assert (Hl : length s = length l) by apply isort_length.
  assert (Hs : StronglySorted Rle s) by apply isort_sorted.
  rewrite (cnt_perm _ _ _ (isort_perm l)) in H. fold s in H. rewrite <- Hl in *.
  pose proof (cnt_le (within lo hi) s) as Hc.
  assert (UP : forall j, (length s <= 2 * (length s - j))%nat ->
             (2 * j <= length s)%nat -> (j < length s)%nat -> nth j s 0 <= hi).
  { intros j H1 H1' H2. apply Rnot_lt_le. intros C.
    assert (cnt (within lo hi) s <= j)%nat; [|lia]. apply cnt_low. intros i Hi1 Hi2.
    pose proof (sorted_nth s Hs j i Hi1 Hi2) as L. unfold within.
    destruct (Rle_dec lo (nth i s 0)), (Rle_dec (nth i s 0) hi); try reflexivity. lra. }
  assert (LO : forall j, (length s <= 2 * (j + 1))%nat -> (j < length s)%nat -> lo <= nth j s 0).
  { intros j H1 H2. apply Rnot_lt_le. intros C.
    assert (cnt (within lo hi) s <= length s - (j + 1))%nat; [|lia].
    apply cnt_high; [lia|]. intros i Hi.
    pose proof (sorted_nth s Hs i j ltac:(lia) H2) as L. unfold within.
    destruct (Rle_dec lo (nth i s 0)), (Rle_dec (nth i s 0) hi); try reflexivity. lra. }
  destruct (half_split (length s)) as [E Ev]. set (h := (length s / 2)%nat) in *.
  destruct (Nat.even (length s)) eqn:Ee.
  - pose proof (proj1 Ev eq_refl) as E2.
    pose proof (UP h ltac:(lia) ltac:(lia) ltac:(lia)). pose proof (LO (h - 1)%nat ltac:(lia) ltac:(lia)).
    pose proof (sorted_nth s Hs (h - 1) h ltac:(lia) ltac:(lia)). lra.
  - assert (length s = 2 * h + 1)%nat.
    { destruct E as [E|E]; [|exact E]. apply Ev in E. congruence. }
    split; [apply LO|apply UP]; lia.
Qed.

(** At least half of the values are not larger than the median. *)
Definition leb (a x : R) : bool := if Rle_dec x a then true else false.
Lemma leb_true a x : leb a x = true <-> x <= a.
Proof. unfold leb. destruct (Rle_dec x a); split; intros; try easy; lra. Qed.
Lemma median_half l : (length l <= 2 * cnt (leb (median l)) l)%nat.
Proof.
  set (m := median l). rewrite (cnt_perm _ _ _ (isort_perm l)).
  rewrite <- (isort_length l). set (s := isort l) in *.
  assert (Hs : StronglySorted Rle s) by apply isort_sorted.
  assert (Hl : length s = length l) by apply isort_length.
  pose proof (cnt_neg (leb m) s) as CN.
  assert (2 * cnt (fun x => negb (leb m x)) s <= length s)%nat; [|lia].
  destruct (half_split (length s)) as [E Ev]. set (h := (length s / 2)%nat) in *.
  assert (M : m = if Nat.even (length s) then (nth (h - 1) s 0 + nth h s 0) / 2 else nth h s 0).
  { unfold m, median. fold s. rewrite <- Hl. reflexivity. }
  destruct (Nat.eq_dec (length s) 0) as [Z|Z].
  { destruct s; [cbn; lia|cbn in Z; lia]. }
  assert (H : forall j, (j < length s)%nat -> nth j s 0 <= m ->
            (cnt (fun x => negb (leb m x)) s <= length s - (j + 1))%nat).
  { intros j Hj Hm. apply cnt_high; [lia|]. intros i Hi.
    pose proof (sorted_nth s Hs i j ltac:(lia) Hj).
    rewrite (proj2 (leb_true m (nth i s 0))); [reflexivity|lra]. }
  destruct (Nat.even (length s)) eqn:Ee.
  - pose proof (proj1 Ev eq_refl) as E2.
    pose proof (sorted_nth s Hs (h - 1) h ltac:(lia) ltac:(lia)).
    specialize (H (h - 1)%nat ltac:(lia) ltac:(lra)). lia.
  - specialize (H h ltac:(lia) ltac:(lra)). lia.
Qed.

(** Order-preserving maps. *)
Lemma insert_map (f : R -> R) : (forall x y, x <= y <-> f x <= f y) ->
  forall l x, insert (f x) (map f l) = map f (insert x l).
Proof.
  intros F l x. induction l; cbn; [reflexivity|]. pose proof (F x a).
  destruct (Rle_dec (f x) (f a)), (Rle_dec x a); cbn; try tauto; congruence.
Qed.
Lemma isort_map (f : R -> R) : (forall x y, x <= y <-> f x <= f y) ->
  forall l, isort (map f l) = map f (isort l).
Proof. intros F l. induction l; cbn; [reflexivity|]. rewrite IHl. apply insert_map, F. Qed.
Lemma nth_map_R (f : R -> R) l i : (i < length l)%nat -> nth i (map f l) 0 = f (nth i l 0).
Proof. intros H. rewrite (nth_indep _ 0 (f 0)) by (rewrite map_length; exact H). apply map_nth. Qed.
Lemma affine_mono a b : 0 < a -> forall x y, x <= y <-> a * x + b <= a * y + b.
Proof. intros A x y. split; intros; nra. Qed.
Lemma median_affine a b l : 0 < a -> l <> [] ->
  median (map (fun x => a * x + b) l) = a * median l + b.
Proof.
  intros A L. unfold median. rewrite isort_map by (apply affine_mono, A). rewrite map_length.
  assert (P : (0 < length l)%nat) by (destruct l; [easy|cbn; lia]).
  destruct (half_split (length l)) as [E Ev]. pose proof (isort_length l).
  destruct (Nat.even (length l)) eqn:Ee.
  - pose proof (proj1 Ev eq_refl). rewrite !nth_map_R by lia. field.
  - rewrite nth_map_R by (rewrite isort_length; lia). reflexivity.
Qed.

(** Sums *)
Lemma lsum_map_plus (f g : R -> R) l : lsum (map (fun x => f x + g x) l) = lsum (map f l) + lsum (map g l).
Proof. induction l; cbn; [lra|]. unfold lsum in *. lra. Qed.
Lemma lsum_scal c (f : R -> R) l : lsum (map (fun x => c * f x) l) = c * lsum (map f l).
Proof. induction l; cbn; [lra|]. unfold lsum in *. lra. Qed.
Lemma lsum_const c (l : list R) : lsum (map (fun _ => c) l) = INR (length l) * c.
Proof.
  induction l; [cbn; lra|]. cbn [map length]. rewrite S_INR. unfold lsum in *. cbn. lra.
Qed.
Lemma lsum_ext (f g : R -> R) l : (forall x, In x l -> f x = g x) -> lsum (map f l) = lsum (map g l).
Proof. intros H. f_equal. apply map_ext_in, H. Qed.
Lemma lmean_affine a b l : l <> [] -> lmean (map (fun x => a * x + b) l) = a * lmean l + b.
Proof.
  intros L. unfold lmean. rewrite map_length, (lsum_map_plus (fun x => a * x) (fun _ => b)).
  rewrite (lsum_scal a (fun x => x)), lsum_const, map_id.
  assert (0 < INR (length l)) by (destruct l; [easy|apply lt_0_INR; cbn; lia]). field. lra.
Qed.
Lemma ssd_affine a b l : l <> [] -> ssd (map (fun x => a * x + b) l) = a * a * ssd l.
Proof.
  intros L. unfold ssd. rewrite map_map, lmean_affine by exact L. rewrite <- lsum_scal.
  apply lsum_ext. intros x _. ring.
Qed.
Lemma ssd_nonneg l : 0 <= ssd l.
Proof.
  unfold ssd. generalize (lmean l). intros m. induction l; cbn; [lra|]. unfold lsum in *. cbn.
  pose proof (Rle_0_sqr (a - m)) as Q. unfold Rsqr in Q. lra.
Qed.
Lemma lstd_affine d a b l : 0 < a -> lstd d (map (fun x => a * x + b) l) =
  match lstd d l with None => None | Some s => Some (a * s) end.
Proof.
  intros A. unfold lstd. rewrite map_length. destruct (Nat.leb_spec (length l) d); [reflexivity|].
  f_equal. rewrite ssd_affine by (destruct l; cbn in *; [lia|easy]).
  assert (0 < INR (length l - d)) by (apply lt_0_INR; lia).
  replace (a * a * ssd l / INR (length l - d)) with ((a * a) * (ssd l / INR (length l - d))) by (field; lra).
  rewrite sqrt_mult_alt by nra. rewrite sqrt_square by lra. reflexivity.
Qed.

(** Values which deviate by more than [t] from [m]. *)
Definition far (m t x : R) : bool := if Rle_dec (Rabs (x - m)) t then false else true.
Lemma chebyshev m t l : 0 <= t ->
  INR (cnt (far m t) l) * (t * t) <= lsum (map (fun x => (x - m) * (x - m)) l) /\
  ((0 < cnt (far m t) l)%nat -> INR (cnt (far m t) l) * (t * t) < lsum (map (fun x => (x - m) * (x - m)) l)).
Proof.
  intros T. induction l as [|x l [I1 I2]]; [cbn; split; [lra|lia]|]. cbn [cnt map].
  unfold lsum in *. cbn [fold_right]. fold (lsum (map (fun x => (x - m) * (x - m)) l)) in *.
  unfold far at 1 3 5. destruct (Rle_dec (Rabs (x - m)) t).
  - cbn [plus]. pose proof (Rle_0_sqr (x - m)) as Q. unfold Rsqr in Q. split; [lra|].
    intros P. specialize (I2 P). lra.
  - apply Rnot_le_lt in n. rewrite plus_INR. cbn [INR].
    assert (t * t < (x - m) * (x - m)).
    { replace ((x - m) * (x - m)) with (Rabs (x - m) * Rabs (x - m)).
      - pose proof (Rabs_pos (x - m)). nra.
      - rewrite <- Rabs_mult, Rabs_right; [reflexivity|]. pose proof (Rle_0_sqr (x - m)). unfold Rsqr in *. lra. }
    split; intros; nra.
Qed.
