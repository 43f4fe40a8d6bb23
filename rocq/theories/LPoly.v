(** Verified interval check for polynomial bounds on a range: the checker
    runs on rationals inside the kernel, its soundness is proved here. *)
From Coq Require Import Reals QArith Qreals List Lra Lia Bool.
Import ListNotations.
Local Open Scope R_scope.

(** Polynomial with real coefficients, lowest first, Horner form. *)
Fixpoint peval (cs : list R) (x : R) : R :=
  match cs with [] => 0 | c :: r => c + x * peval r x end.

Definition qeval (cs : list Q) (x : R) : R := peval (map Q2R cs) x.

Definition qmin (a b : Q) : Q := if Qle_bool a b then a else b.
Definition qmax (a b : Q) : Q := if Qle_bool a b then b else a.

(** Enclosure of the values over [a, b] for 0 <= a <= b. *)
Fixpoint hI (cs : list Q) (a b : Q) : Q * Q :=
  match cs with
  | [] => (0%Q, 0%Q)
  | c :: r =>
      let (l, u) := hI r a b in
      (Qred (c + qmin (l * a) (l * b)), Qred (c + qmax (u * a) (u * b)))
  end.

Lemma qmin_R a b : Q2R (qmin a b) = Rmin (Q2R a) (Q2R b).
Proof.
  unfold qmin. destruct (Qle_bool a b) eqn:E.
  - apply Qle_bool_iff, Qle_Rle in E. now rewrite Rmin_left.
  - assert (H : ~ (a <= b)%Q) by (intro H; apply Qle_bool_iff in H; congruence).
    apply Qnot_le_lt, Qlt_Rlt in H. rewrite Rmin_right; [reflexivity|lra].
Qed.
Lemma qmax_R a b : Q2R (qmax a b) = Rmax (Q2R a) (Q2R b).
Proof.
  unfold qmax. destruct (Qle_bool a b) eqn:E.
  - apply Qle_bool_iff, Qle_Rle in E. now rewrite Rmax_right.
  - assert (H : ~ (a <= b)%Q) by (intro H; apply Qle_bool_iff in H; congruence).
    apply Qnot_le_lt, Qlt_Rlt in H. rewrite Rmax_left; [reflexivity|lra].
Qed.
Lemma Qred_R q : Q2R (Qred q) = Q2R q.
Proof. apply Qeq_eqR, Qred_correct. Qed.

Lemma hI_sound a b x : 0 <= Q2R a -> Q2R a <= x <= Q2R b -> forall cs,
  Q2R (fst (hI cs a b)) <= qeval cs x <= Q2R (snd (hI cs a b)).
Proof.
  intros A X. induction cs as [|c r IH].
  - cbn. unfold qeval, Q2R; cbn. lra.
  - cbn [hI]. destruct (hI r a b) as [l u] eqn:E. cbn [fst snd] in *.
    unfold qeval in *; cbn [map peval].
    rewrite !Qred_R, !Q2R_plus, qmin_R, qmax_R, !Q2R_mult.
    set (y := peval (map Q2R r) x) in *.
    assert (L : Rmin (Q2R l * Q2R a) (Q2R l * Q2R b) <= x * y).
    { destruct (Rle_dec 0 (Q2R l)).
      - eapply Rle_trans; [apply Rmin_l|]. nra.
      - eapply Rle_trans; [apply Rmin_r|]. nra. }
    assert (U : x * y <= Rmax (Q2R u * Q2R a) (Q2R u * Q2R b)).
    { destruct (Rle_dec 0 (Q2R u)).
      - eapply Rle_trans; [|apply Rmax_r]. nra.
      - eapply Rle_trans; [|apply Rmax_l]. nra. }
    lra.
Qed.

(** [n] pieces of width [h] starting at [a]: every enclosure is positive. *)
Fixpoint check_pos (cs : list Q) (a h : Q) (n : nat) : bool :=
  match n with
  | O => true
  | S n' =>
      let b := Qred (a + h) in
      (negb (Qle_bool (fst (hI cs a b)) 0) && check_pos cs b h n')%bool
  end.

Lemma check_pos_sound cs h : 0 <= Q2R h -> forall n a, 0 <= Q2R a ->
  check_pos cs a h n = true ->
  forall x, Q2R a <= x <= Q2R a + INR n * Q2R h -> (0 < n)%nat -> 0 < qeval cs x.
Proof.
  intro H. induction n as [|n IH]; intros a A C x X N; [lia|].
  cbn [check_pos] in C. apply andb_prop in C. destruct C as [C1 C2].
  assert (B : Q2R (Qred (a + h)) = Q2R a + Q2R h) by (now rewrite Qred_R, Q2R_plus).
  rewrite S_INR in X.
  destruct (Rle_dec x (Q2R a + Q2R h)) as [Le|Gt].
  - pose proof (hI_sound a (Qred (a + h)) x A ltac:(lra) cs) as S.
    assert (P : 0 < Q2R (fst (hI cs a (Qred (a + h))))).
    { apply negb_true_iff in C1.
      assert (~ (fst (hI cs a (Qred (a + h))) <= 0)%Q)
        by (intro K; apply Qle_bool_iff in K; congruence).
      apply Qnot_le_lt, Qlt_Rlt in H0. now replace (Q2R 0) with 0 in H0 by (unfold Q2R; cbn; lra). }
    lra.
  - destruct n as [|n].
    + cbn in X. lra.
    + apply (IH (Qred (a + h))); [lra|assumption|rewrite B; lra|lia].
Qed.

(** Coefficients of the derivative. *)
Fixpoint pderiv_aux (k : nat) (cs : list Q) : list Q :=
  match cs with
  | [] => []
  | c :: r => (inject_Z (Z.of_nat k) * c)%Q :: pderiv_aux (S k) r
  end.
Definition qderiv (cs : list Q) : list Q := pderiv_aux 1 (tl cs).

Lemma inject_nat k : Q2R (inject_Z (Z.of_nat k)) = INR k.
Proof. unfold Q2R, inject_Z; cbn. rewrite INR_IZR_INZ. lra. Qed.

Lemma pderiv_shift : forall cs k x,
  qeval (pderiv_aux (S k) cs) x = qeval cs x + qeval (pderiv_aux k cs) x.
Proof.
  induction cs as [|c r IH]; intros k x; unfold qeval in *; cbn [pderiv_aux map peval].
  - lra.
  - rewrite IH, !Q2R_mult, !inject_nat, S_INR. ring.
Qed.

Lemma qeval_derivable : forall cs x,
  derivable_pt_lim (qeval cs) x (qeval (qderiv cs) x).
Proof.
  induction cs as [|c r IH]; intro x.
  - unfold qeval, qderiv; cbn. apply (derivable_pt_lim_const 0).
  - unfold qderiv; cbn [tl].
    assert (E : qeval (pderiv_aux 1 r) x = 0 + (1 * qeval r x + x * qeval (qderiv r) x)).
    { destruct r as [|d r]; [unfold qeval; cbn; lra|].
      unfold qderiv; cbn [tl]. unfold qeval at 1. cbn [pderiv_aux map peval].
      fold (qeval (pderiv_aux 2 r) x). rewrite pderiv_shift.
      rewrite Q2R_mult, inject_nat. unfold qeval; cbn [map peval INR]. ring. }
    rewrite E.
    change (qeval (c :: r)) with (fun y => Q2R c + y * qeval r y).
    apply (derivable_pt_lim_plus (fun _ => Q2R c) (fun y => y * qeval r y)).
    + apply derivable_pt_lim_const.
    + apply (derivable_pt_lim_mult (fun y => y) (qeval r)).
      * apply derivable_pt_lim_id.
      * apply IH.
Qed.

Lemma qeval_increasing cs a b :
  (forall x, a <= x <= b -> 0 < qeval (qderiv cs) x) ->
  forall x y, a <= x -> x < y -> y <= b -> qeval cs x < qeval cs y.
Proof.
  intros D x y A XY B.
  destruct (MVT_cor2 (qeval cs) (qeval (qderiv cs)) x y XY) as (c & E & C).
  { intros; apply qeval_derivable. }
  specialize (D c ltac:(lra)). nra.
Qed.

Definition qneg (cs : list Q) : list Q := map Qopp cs.
Lemma qneg_eval : forall cs x, qeval (qneg cs) x = - qeval cs x.
Proof.
  induction cs as [|c r IH]; intro x; unfold qeval, qneg in *; cbn [map peval]; [lra|].
  rewrite IH, Q2R_opp. ring.
Qed.
Lemma qderiv_neg cs x : qeval (qderiv (qneg cs)) x = - qeval (qderiv cs) x.
Proof.
  unfold qderiv. destruct cs as [|c r]; [unfold qeval; cbn; lra|]. cbn [tl qneg map].
  generalize 1%nat. induction r as [|d r IH]; intro k; unfold qeval in *; cbn [map pderiv_aux peval]; [lra|].
  rewrite IH, !Q2R_mult, Q2R_opp. ring.
Qed.

Lemma qeval_decreasing cs a b :
  (forall x, a <= x <= b -> 0 < qeval (qneg (qderiv cs)) x) ->
  forall x y, a <= x -> x < y -> y <= b -> qeval cs y < qeval cs x.
Proof.
  intros D x y A XY B.
  assert (I : qeval (qneg cs) x < qeval (qneg cs) y).
  { apply (qeval_increasing (qneg cs) a b); try assumption.
    intros z Z. rewrite qderiv_neg, <- qneg_eval. now apply D. }
  rewrite !qneg_eval in I. lra.
Qed.

(** Entry point: the polynomial is positive on [a, b], checked on [n] pieces
    of width [h]. *)
Definition check_on (cs : list Q) (a b h : Q) (n : nat) : bool :=
  (Nat.leb 1 n && Qle_bool 0 h && Qle_bool 0 a
   && Qle_bool b (a + inject_Z (Z.of_nat n) * h) && check_pos cs a h n)%bool.

Lemma check_on_sound cs a b h n : check_on cs a b h n = true ->
  forall x, Q2R a <= x <= Q2R b -> 0 < qeval cs x.
Proof.
  unfold check_on. intros C x X.
  apply andb_prop in C; destruct C as [C C5].
  apply andb_prop in C; destruct C as [C C4].
  apply andb_prop in C; destruct C as [C C3].
  apply andb_prop in C; destruct C as [C1 C2].
  apply Nat.leb_le in C1.
  apply Qle_bool_iff, Qle_Rle in C2, C3, C4.
  rewrite Q2R_plus, Q2R_mult, inject_nat in C4.
  replace (Q2R 0) with 0 in * by (unfold Q2R; cbn; lra).
  apply check_pos_sound with (h := h) (n := n) (a := a); auto; try lra; lia.
Qed.
