(** Concrete instance for the C05 local error bound: one cell, slope [f v = v], solution [exp]. *)
From Coq Require Import Reals List Arith Lra Lia.
From Coquelicot Require Import Coquelicot.
From Verif Require Import MHeun SHeun LHeunOrder.
Import ListNotations.
Open Scope R_scope.

Lemma Derive_n_exp : forall k s, Derive_n exp k s = exp s.
Proof.
  induction k; intros s; [reflexivity|]. cbn.
  rewrite (Derive_ext _ exp) by exact IHk.
  apply is_derive_unique, is_derive_exp.
Qed.
Lemma ex_derive_n_exp : forall k s, ex_derive_n exp k s.
Proof.
  destruct k; intros s; [exact I|]. cbn.
  apply (ex_derive_ext exp); [intros; symmetry; apply Derive_n_exp|].
  eexists; apply is_derive_exp.
Qed.

Lemma ex_order :
  let n := 1%nat in let f := fun v : vec => v in let y := fun (_ : nat) => exp in
  let t := 0 in let h := 1/2 in let L := 1 in let M2 := exp (1/2) in let M3 := exp (1/2) in
  0 < h /\ 0 <= L /\
  (forall v, length v = n -> length (f v) = n) /\
  (forall v w B, length v = n -> length w = n ->
     (forall j, (j < n)%nat -> Rabs (nth j v 0 - nth j w 0) <= B) ->
     forall i, (i < n)%nat -> Rabs (nth i (f v) 0 - nth i (f w) 0) <= L * B) /\
  (forall i s, (i < n)%nat -> t <= s <= t + h ->
     Derive (y i) s = nth i (f (state y n s)) 0 /\
     (forall k, (k <= 3)%nat -> ex_derive_n (y i) k s) /\
     Rabs (Derive_n (y i) 2 s) <= M2 /\ Rabs (Derive_n (y i) 3 s) <= M3).
Proof.
  intros n f y t h L M2 M3; unfold n, f, y, t, h, L, M2, M3.
  repeat split; try lra; auto.
  - intros v w B _ _ H i Hi. rewrite Rmult_1_l; auto.
  - assert (i = 0%nat) by lia; subst. unfold state; cbn.
    apply is_derive_unique, is_derive_exp.
  - intros; apply ex_derive_n_exp.
  - rewrite Derive_n_exp, Rabs_pos_eq by (left; apply exp_pos).
    destruct (proj2 H0) as [Hl|He]; [left; apply exp_increasing; lra|rewrite He, Rplus_0_l; lra].
  - rewrite Derive_n_exp, Rabs_pos_eq by (left; apply exp_pos).
    destruct (proj2 H0) as [Hl|He]; [left; apply exp_increasing; lra|rewrite He, Rplus_0_l; lra].
Qed.

(** Nonnegative derivative from 0 on gives nonnegative values. *)
Lemma nonneg_from_derive : forall (h dh : R -> R) x,
  (forall t, is_derive h t (dh t)) -> (forall t, 0 <= t -> 0 <= dh t) -> h 0 = 0 ->
  0 <= x -> 0 <= h x.
Proof.
  intros h dh x Hd Hp H0 Hx.
  destruct (MVT_gen h 0 x dh) as (c & Hc & E).
  - intros; apply Hd.
  - intros t _. apply derivable_continuous_pt. exists (dh t). apply is_derive_Reals, Hd.
  - rewrite Rmin_left, Rmax_right in Hc by lra.
    rewrite H0 in E. specialize (Hp c (proj1 Hc)). nra.
Qed.

Lemma exp_neg_bounds : forall z, 0 <= z -> 0 <= (1 - z + z ^ 2 / 2) - exp (- z) <= z ^ 3 / 6.
Proof.
  assert (B0 : forall t, 0 <= t -> 0 <= 1 - exp (- t)).
  { intros t Ht. destruct Ht as [Ht|<-].
    - generalize (exp_increasing (-t) 0). rewrite exp_0. lra.
    - rewrite Ropp_0, exp_0; lra. }
  assert (B1 : forall t, 0 <= t -> 0 <= exp (- t) - (1 - t)).
  { intros t Ht.
    apply (nonneg_from_derive (fun t => exp (- t) - (1 - t)) (fun t => 1 - exp (- t))); auto.
    - intros; auto_derive; trivial; ring.
    - rewrite Ropp_0, exp_0; lra. }
  assert (B2 : forall t, 0 <= t -> 0 <= (1 - t + t ^ 2 / 2) - exp (- t)).
  { intros t Ht.
    apply (nonneg_from_derive (fun t => (1 - t + t ^ 2 / 2) - exp (- t)) (fun t => exp (- t) - (1 - t))); auto.
    - intros; auto_derive; trivial; field.
    - rewrite Ropp_0, exp_0; lra. }
  intros z Hz; split; [auto|].
  enough (0 <= z ^ 3 / 6 - ((1 - z + z ^ 2 / 2) - exp (- z))) by lra.
  apply (nonneg_from_derive (fun t => t ^ 3 / 6 - ((1 - t + t ^ 2 / 2) - exp (- t)))
           (fun t => t ^ 2 / 2 + (1 - t) - exp (- t))); auto.
  - intros; auto_derive; trivial; field.
  - intros t Ht. specialize (B2 t Ht). lra.
  - rewrite Ropp_0, exp_0; lra.
Qed.
