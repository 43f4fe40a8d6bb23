From Coq Require Import Reals List Arith Lia Lra Psatz.
From Coquelicot Require Import Coquelicot.
From Verif Require Import MHeun SHeun.
Import ListNotations.
Open Scope R_scope.

Lemma vmap2_length f : forall a b, length a = length b -> length (vmap2 f a b) = length a.
Proof. induction a as [|x a IH]; intros [|y b] H; try discriminate; cbn; auto. Qed.

Lemma vmap2_nth f : forall a b i, length a = length b -> (i < length a)%nat ->
  nth i (vmap2 f a b) 0 = f (nth i a 0) (nth i b 0).
Proof.
  induction a as [|x a IH]; intros [|y b] i H Hi; try discriminate; cbn in *; [lia|].
  destruct i as [|i]; [reflexivity|]. apply IH; lia.
Qed.

Lemma vscale_length k a : length (vscale k a) = length a.
Proof. apply map_length. Qed.

Lemma vscale_nth k a i : nth i (vscale k a) 0 = k * nth i a 0.
Proof.
  unfold vscale. rewrite <- (Rmult_0_r k) at 1.
  exact (map_nth (fun x => k * x) a 0 i).
Qed.

Lemma euler_nth h y d i : length y = length d -> (i < length y)%nat ->
  nth i (euler h y d) 0 = nth i y 0 + h * nth i d 0.
Proof.
  intros H Hi. unfold euler, vadd. rewrite vmap2_nth; rewrite ?vscale_length; auto.
  rewrite vscale_nth. reflexivity.
Qed.

Lemma euler_length h y d : length y = length d -> length (euler h y d) = length y.
Proof. intros H. unfold euler, vadd. apply vmap2_length. rewrite vscale_length. exact H. Qed.

Lemma heun_nth h y d0 d1 i : length y = length d0 -> length y = length d1 ->
  (i < length y)%nat ->
  nth i (heun h y d0 d1) 0 = nth i y 0 + h / 2 * (nth i d0 0 + nth i d1 0).
Proof.
  intros H0 H1 Hi. unfold heun, vadd.
  assert (L : length (vmap2 Rplus d0 d1) = length y) by (rewrite vmap2_length; lia).
  rewrite vmap2_nth; rewrite ?vscale_length; auto.
  rewrite vscale_nth, vmap2_nth; auto; lia.
Qed.

(** State vector of [n] trajectories at time [s]. *)
Definition state (y : nat -> R -> R) (n : nat) (s : R) : vec :=
  map (fun i => y i s) (seq 0 n).

Lemma state_length y n s : length (state y n s) = n.
Proof. unfold state. rewrite map_length, seq_length. reflexivity. Qed.

Lemma state_nth y n s i : (i < n)%nat -> nth i (state y n s) 0 = y i s.
Proof.
  intros H. unfold state.
  rewrite (nth_indep _ 0 (y 0%nat s)) by (rewrite map_length, seq_length; exact H).
  rewrite (map_nth (fun i => y i s)). rewrite seq_nth by exact H. reflexivity.
Qed.

Lemma taylor1 f t h (Hh : 0 < h) M2 :
  (forall s, t <= s <= t + h -> forall k, (k <= 2)%nat -> ex_derive_n f k s) ->
  (forall s, t <= s <= t + h -> Rabs (Derive_n f 2 s) <= M2) ->
  Rabs (f (t + h) - (f t + h * Derive f t)) <= h ^ 2 / 2 * M2.
Proof.
  intros Hd Hm.
  destruct (Taylor_Lagrange f 1 t (t + h)) as [z [Hz E]]; [lra|exact Hd|].
  rewrite E. replace (t + h - t) with h by ring. cbn [sum_f_R0].
  match goal with |- Rabs ?x <= _ => replace x with (h ^ 2 / 2 * Derive_n f 2 z) end.
  2:{ change (Derive_n f 1 t) with (Derive f t). change (Derive_n f 0 t) with (f t).
      replace (INR (fact 2)) with 2 by (cbn; ring).
      replace (INR (fact 1)) with 1 by (cbn; ring).
      replace (INR (fact 0)) with 1 by (cbn; ring).
      field. }
  rewrite Rabs_mult. rewrite (Rabs_right (h ^ 2 / 2)) by nra.
  apply Rmult_le_compat_l; [nra|]. apply Hm. lra.
Qed.

Lemma taylor2 f t h (Hh : 0 < h) M3 :
  (forall s, t <= s <= t + h -> forall k, (k <= 3)%nat -> ex_derive_n f k s) ->
  (forall s, t <= s <= t + h -> Rabs (Derive_n f 3 s) <= M3) ->
  Rabs (f (t + h) - (f t + h * Derive f t + h ^ 2 / 2 * Derive_n f 2 t)) <= h ^ 3 / 6 * M3.
Proof.
  intros Hd Hm.
  destruct (Taylor_Lagrange f 2 t (t + h)) as [z [Hz E]]; [lra|exact Hd|].
  rewrite E. replace (t + h - t) with h by ring. cbn [sum_f_R0].
  match goal with |- Rabs ?x <= _ => replace x with (h ^ 3 / 6 * Derive_n f 3 z) end.
  2:{ change (Derive_n f 1 t) with (Derive f t). change (Derive_n f 0 t) with (f t).
      replace (INR (fact 3)) with 6 by (cbn; ring).
      replace (INR (fact 2)) with 2 by (cbn; ring).
      replace (INR (fact 1)) with 1 by (cbn; ring).
      replace (INR (fact 0)) with 1 by (cbn; ring).
      field. }
  rewrite Rabs_mult. rewrite (Rabs_right (h ^ 3 / 6)).
  2:{ apply Rle_ge. apply Rmult_le_pos; [apply pow_le; lra|lra]. }
  apply Rmult_le_compat_l; [apply Rmult_le_pos; [apply pow_le; lra|lra]|]. apply Hm. lra.
Qed.

Lemma Derive_n_shift f k s : Derive_n (Derive f) k s = Derive_n f (S k) s.
Proof.
  revert s. induction k as [|k IH]; intros s; [reflexivity|].
  cbn [Derive_n]. apply Derive_ext. intros u. apply IH.
Qed.

Lemma ex_derive_n_shift f k s : ex_derive_n f (S k) s ->
  ex_derive_n (Derive f) k s.
Proof.
  destruct k as [|k]; [cbn; auto|]. cbn [ex_derive_n]. intros H.
  eapply ex_derive_ext; [|exact H]. intros u. cbn beta. symmetry. apply Derive_n_shift.
Qed.

(** The trapezoidal rule on a trajectory. *)
Lemma trapez f t h (Hh : 0 < h) M3 :
  (forall s, t <= s <= t + h -> forall k, (k <= 3)%nat -> ex_derive_n f k s) ->
  (forall s, t <= s <= t + h -> Rabs (Derive_n f 3 s) <= M3) ->
  Rabs (f (t + h) - f t - h / 2 * (Derive f t + Derive f (t + h))) <= h ^ 3 * (5 / 12) * M3.
Proof.
  intros Hd Hm.
  pose proof (taylor2 f t h Hh M3 Hd Hm) as A.
  assert (B : Rabs (Derive f (t + h) - (Derive f t + h * Derive (Derive f) t))
              <= h ^ 2 / 2 * M3).
  { apply taylor1; [exact Hh| |].
    - intros s Hs [|k] Hk; [exact I|]. apply ex_derive_n_shift. apply Hd; [exact Hs|lia].
    - intros s Hs. rewrite Derive_n_shift. apply Hm. exact Hs. }
  change (Derive (Derive f) t) with (Derive_n (Derive f) 1 t) in B.
  rewrite Derive_n_shift in B.
  set (a := f (t + h) - (f t + h * Derive f t + h ^ 2 / 2 * Derive_n f 2 t)) in *.
  set (b := Derive f (t + h) - (Derive f t + h * Derive_n f 2 t)) in *.
  match goal with |- Rabs ?x <= _ => replace x with (a - h / 2 * b) by (unfold a, b; field) end.
  apply Rle_trans with (Rabs a + Rabs (h / 2 * b)).
  { unfold Rminus. eapply Rle_trans; [apply Rabs_triang|]. rewrite Rabs_Ropp. lra. }
  rewrite Rabs_mult, (Rabs_right (h / 2)) by lra.
  assert (h / 2 * Rabs b <= h / 2 * (h ^ 2 / 2 * M3)) by (apply Rmult_le_compat_l; lra).
  cbn [pow] in *. nra.
Qed.

Lemma heun_local_error (n : nat) (f : vec -> vec) (y : nat -> R -> R) (t h L M2 M3 : R) :
  0 < h -> 0 <= L ->
  (forall v, length v = n -> length (f v) = n) ->
  (forall v w B, length v = n -> length w = n ->
     (forall j, (j < n)%nat -> Rabs (nth j v 0 - nth j w 0) <= B) ->
     forall i, (i < n)%nat -> Rabs (nth i (f v) 0 - nth i (f w) 0) <= L * B) ->
  (forall i s, (i < n)%nat -> t <= s <= t + h ->
     Derive (y i) s = nth i (f (state y n s)) 0 /\
     (forall k, (k <= 3)%nat -> ex_derive_n (y i) k s) /\
     Rabs (Derive_n (y i) 2 s) <= M2 /\ Rabs (Derive_n (y i) 3 s) <= M3) ->
  forall i, (i < n)%nat ->
  let y0 := state y n t in
  Rabs (y i (t + h) - nth i (heun h y0 (f y0) (f (euler h y0 (f y0)))) 0)
  <= h ^ 3 * (5 / 12 * M3 + L * M2 / 4).
Proof.
  intros Hh HL Hlen Hlip Hsol i Hi y0.
  assert (Ly : length y0 = n) by apply state_length.
  assert (Lf : length (f y0) = n) by (apply Hlen; exact Ly).
  assert (Le : length (euler h y0 (f y0)) = n) by (rewrite euler_length; lia).
  rewrite heun_nth; [|lia|rewrite (Hlen _ Le); lia|lia].
  assert (Ht : t <= t <= t + h) by lra. assert (Hth : t <= t + h <= t + h) by lra.
  unfold y0 at 1. rewrite state_nth by exact Hi.
  destruct (Hsol i t Hi Ht) as [Ed0 _].
  destruct (Hsol i (t + h) Hi Hth) as [Ed1 _].
  assert (T1 : Rabs (y i (t + h) - y i t - h / 2 * (Derive (y i) t + Derive (y i) (t + h)))
               <= h ^ 3 * (5 / 12) * M3).
  { apply trapez; auto.
    - intros s Hs k Hk. destruct (Hsol i s Hi Hs) as (_&A&_). apply A; exact Hk.
    - intros s Hs. destruct (Hsol i s Hi Hs) as (_&_&_&A). exact A. }
  assert (T2 : Rabs (nth i (f (state y n (t + h))) 0 - nth i (f (euler h y0 (f y0))) 0)
               <= L * (h ^ 2 / 2 * M2)).
  { apply Hlip; auto; [apply state_length|].
    intros j Hj. rewrite state_nth by exact Hj. rewrite euler_nth by lia.
    unfold y0 at 1. rewrite state_nth by exact Hj.
    destruct (Hsol j t Hj Ht) as [Ej _]. fold y0 in Ej. rewrite <- Ej.
    apply taylor1; auto.
    - intros s Hs k Hk. destruct (Hsol j s Hj Hs) as (_&A&_). apply A; lia.
    - intros s Hs. destruct (Hsol j s Hj Hs) as (_&_&A&_). exact A. }
  fold y0 in Ed0. rewrite Ed0, Ed1 in T1.
  set (a := y i (t + h)) in *. set (b := nth i (f y0) 0) in *.
  set (c := nth i (f (state y n (t + h))) 0) in *.
  set (d := nth i (f (euler h y0 (f y0))) 0) in *.
  replace (a - (y i t + h / 2 * (b + d)))
    with ((a - y i t - h / 2 * (b + c)) + h / 2 * (c - d)) by field.
  eapply Rle_trans; [apply Rabs_triang|].
  rewrite (Rabs_mult (h / 2)), (Rabs_right (h / 2)) by lra.
  assert (h / 2 * Rabs (c - d) <= h / 2 * (L * (h ^ 2 / 2 * M2)))
    by (apply Rmult_le_compat_l; lra).
  cbn [pow] in *. nra.
Qed.

(** Linear relaxation of all cells towards [Tinf] with rate [a]. *)
Definition relax (a Tinf : R) (v : vec) : vec := map (fun x => a * (Tinf - x)) v.

Lemma relax_nth a Tinf v i : (i < length v)%nat ->
  nth i (relax a Tinf v) 0 = a * (Tinf - nth i v 0).
Proof.
  intros H. unfold relax.
  rewrite (nth_indep _ 0 (a * (Tinf - 0))) by (rewrite map_length; exact H).
  rewrite (map_nth (fun x => a * (Tinf - x))). reflexivity.
Qed.

Lemma heun_relax a Tinf h y i : (i < length y)%nat ->
  let z := a * h in
  nth i (heun h y (relax a Tinf y) (relax a Tinf (euler h y (relax a Tinf y)))) 0 - Tinf
  = (1 - z + z ^ 2 / 2) * (nth i y 0 - Tinf).
Proof.
  intros Hi z.
  assert (L : length (relax a Tinf y) = length y) by (unfold relax; apply map_length).
  assert (Le : length (euler h y (relax a Tinf y)) = length y) by (apply euler_length; lia).
  assert (L2 : length (relax a Tinf (euler h y (relax a Tinf y))) = length y)
    by (unfold relax at 1; rewrite map_length; exact Le).
  rewrite heun_nth by lia. rewrite !relax_nth by lia. rewrite euler_nth by lia.
  rewrite relax_nth by lia. unfold z. field.
Qed.
