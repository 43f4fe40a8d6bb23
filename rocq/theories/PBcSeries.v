(** Properties of the making of boundary condition series (C134). *)
From Coq Require Import List Arith Bool Lia.
From Verif Require Import MBcSeries.
Import ListNotations.

(** With a pandas which multisim accepts, no call returns a series. *)
Theorem C134_never_refuted A w b d (bc : list A) : forall l, make false w b d bc <> Series_of l.
Proof.
  intros l. unfold make. destruct (length bc =? 0); [discriminate|].
  destruct (_ =? d); [discriminate|]. destruct (d <? _); [discriminate|].
  destruct w; [discriminate|]. destruct (_ =? 0); discriminate.
Qed.
Print Assumptions C134_never_refuted.

(** Even with an older one values which cover exactly the wanted duration are refused. *)
Theorem C134_exact_refuted A how w b d (bc : list A) : bc <> [] -> (length bc - 1) * b = d ->
  make how w b d bc = UnboundLocalError.
Proof.
  intros N E. unfold make. destruct bc; [congruence|]. cbn [length Nat.eqb] in *. rewrite E, Nat.eqb_refl. reflexivity.
Qed.
Print Assumptions C134_exact_refuted.
(** ... and a single value cannot be repeated. *)
Theorem C134_single_refuted A how b d (x : A) : 0 < d -> make how Stack b d [x] = ZeroDivisionError.
Proof. intros D. unfold make. cbn. destruct d; [lia|]. reflexivity. Qed.
Print Assumptions C134_single_refuted.

(** In the remaining cases the series handed to the resampling covers the wanted duration without gaps
    and repeats the given values. *)
Lemma stacked_length {A} n (s : list A) : forall l, length (stacked n s l) = length l + n * length s.
Proof. induction n; intros l; cbn; [lia|]. rewrite IHn, app_length. lia. Qed.
Lemma stacked_app {A} n (s : list A) : forall l, stacked n s l = l ++ stacked n s [].
Proof.
  induction n; intros l; cbn; [rewrite app_nil_r; reflexivity|].
  rewrite (IHn (l ++ s)), (IHn s). rewrite <- app_assoc. reflexivity.
Qed.
Lemma stacked_nth {A} n (s : list A) d0 : s <> [] -> forall i, i < length s * S n ->
  nth i (stacked n s s) d0 = nth (i mod length s) s d0.
Proof.
  intros N. assert (P : 0 < length s) by (destruct s; [congruence|cbn; lia]).
  induction n; intros i L.
  - cbn. rewrite Nat.mod_small by lia. reflexivity.
  - cbn [stacked]. rewrite stacked_app. rewrite <- app_assoc. rewrite <- stacked_app.
    destruct (Nat.lt_ge_cases i (length s)) as [H|H].
    + rewrite app_nth1 by exact H. rewrite Nat.mod_small by exact H. reflexivity.
    + rewrite app_nth2 by exact H. rewrite IHn by nia.
      replace (i mod length s) with ((i - length s + 1 * length s) mod length s) by (f_equal; lia).
      rewrite Nat.mod_add by lia. reflexivity.
Qed.
Lemma timed_nth {A} b (l : list A) d0 i : i < length l -> nth i (timed b l) (0, d0) = (i * b, nth i l d0).
Proof.
  intros H. unfold timed. rewrite combine_nth by (rewrite map_length, seq_length; reflexivity). f_equal.
  rewrite (nth_indep _ 0 ((fun i => i * b) 0)) by (rewrite map_length, seq_length; exact H).
  rewrite (map_nth (fun i => i * b)). rewrite seq_nth by exact H. reflexivity.
Qed.
Lemma timed_length {A} b (l : list A) : length (timed b l) = length l.
Proof. unfold timed. rewrite combine_length, map_length, seq_length. lia. Qed.
Lemma cut_firstn {A} b d (l : list A) : 0 < b -> forall k,
  cut d (combine (map (fun i => i * b) (seq k (length l))) l) =
  firstn (S (d / b) - k) (combine (map (fun i => i * b) (seq k (length l))) l).
Proof.
  intros B. induction l as [|x l IH]; intros k; cbn [length seq map combine].
  - rewrite firstn_nil. reflexivity.
  - unfold cut in *. cbn [filter fst]. destruct (Nat.leb_spec (k * b) d) as [H|H].
    + assert (k <= d / b) by (apply Nat.div_le_lower_bound; lia).
      destruct (S (d / b) - k) as [|m] eqn:E; [lia|]. cbn [firstn]. f_equal.
      rewrite IH. f_equal. lia.
    + assert (d / b < k) by (apply Nat.div_lt_upper_bound; lia).
      rewrite IH. replace (S (d / b) - k) with 0 by lia. replace (S (d / b) - S k) with 0 by lia. reflexivity.
Qed.
Lemma cut_timed {A} b d (l : list A) : 0 < b -> cut d (timed b l) = firstn (S (d / b)) (timed b l).
Proof. intros B. unfold timed. rewrite cut_firstn by exact B. rewrite Nat.sub_0_r. reflexivity. Qed.
Lemma ceil_covers a c : 0 < c -> a <= ceil_div a c * c.
Proof.
  intros C. unfold ceil_div. pose proof (Nat.div_mod_eq (a + c - 1) c) as E.
  pose proof (Nat.mod_upper_bound (a + c - 1) c ltac:(lia)). nia.
Qed.

Lemma nth_firstn_gen {A} (d0 : A) k : forall l i, i < k -> nth i (firstn k l) d0 = nth i l d0.
Proof. induction k; intros [|x l] [|i] H; cbn; auto; try lia. apply IHk. lia. Qed.
Theorem C134_cover A w b d (bc : list A) l d0 : 0 < b -> make true w b d bc = Series_of l ->
  length l = S (d / b) /\
  forall i, i <= d / b -> nth i l (0, d0) = (i * b, nth (i mod length bc) bc d0).
Proof.
  intros B. unfold make. destruct (Nat.eqb_spec (length bc) 0) as [|N]; [discriminate|].
  set (m := length bc) in *. destruct (Nat.eqb_spec ((m - 1) * b) d) as [|ND]; [discriminate|].
  destruct (Nat.ltb_spec d ((m - 1) * b)) as [H|H].
  - intros E. injection E as <-. rewrite cut_timed by exact B.
    assert (DB : d / b < m - 1) by (apply Nat.div_lt_upper_bound; lia).
    split. { rewrite firstn_length, timed_length. fold m. lia. }
    intros i I. rewrite nth_firstn_gen by lia. rewrite timed_nth by (fold m; lia).
    rewrite Nat.mod_small by lia. reflexivity.
  - destruct w; [discriminate|]. destruct (Nat.eqb_spec ((m - 1) * b) 0) as [|NZ]; [discriminate|].
    intros E. injection E as <-. rewrite cut_timed by exact B. set (k := ceil_div d ((m - 1) * b)).
    pose proof (ceil_covers d ((m - 1) * b) (proj1 (Nat.neq_0_lt_0 _) NZ)) as C. fold k in C.
    assert (DB : d / b < m * S k).
    { apply Nat.div_lt_upper_bound; [lia|]. assert (KM : k * (m - 1) < m * S k) by (clear - N; nia).
      apply Nat.le_lt_trans with (1 := C). rewrite Nat.mul_assoc, (Nat.mul_comm b).
      apply Nat.mul_lt_mono_pos_r; [exact B|exact KM]. }
    assert (LS : length (stacked k bc bc) = m * S k) by (rewrite stacked_length; fold m; lia).
    split. { rewrite firstn_length, timed_length, LS. lia. }
    intros i I. rewrite nth_firstn_gen by lia. rewrite timed_nth by lia.
    rewrite stacked_nth; [reflexivity| |fold m; lia]. intros Z. apply N. unfold m. rewrite Z. reflexivity.
Qed.
Print Assumptions C134_cover.

(** Not vacuous: three values of one step, wanted for five steps. *)
Example C134_case : make true Stack 10 50 [7; 8; 9] =
  Series_of [(0, 7); (10, 8); (20, 9); (30, 7); (40, 8); (50, 9)] /\ make false Stack 10 50 [7; 8; 9] = TypeError.
Proof. split; reflexivity. Qed.
