(** Slopes of joined functions. *)
From Coq Require Import Reals List Arith Lra Lia.
From Verif Require Import SFlow MPorts MCond SCond LCond LCond2 LCond3.
Import ListNotations.
Open Scope R_scope.

Lemma der_local f g x l e : 0 < e -> (forall y, Rabs (y - x) < e -> f y = g y) ->
  derivable_pt_lim g x l -> derivable_pt_lim f x l.
Proof.
  intros He E D eps Hp. destruct (D eps Hp) as [de Q].
  assert (P : 0 < Rmin de e) by (apply Rmin_pos; [apply (cond_pos de)|exact He]).
  exists (mkposreal _ P). intros h Hh Hd. cbn in Hd.
  pose proof (Rmin_l de e). pose proof (Rmin_r de e).
  rewrite (E (x + h)) by (replace (x + h - x) with h by ring; lra).
  rewrite (E x) by (rewrite Rminus_diag_eq, Rabs_R0; [exact He|reflexivity]).
  apply Q; [exact Hh|lra].
Qed.

Lemma close_eq a b : (forall eps, 0 < eps -> Rabs (a - b) < 2 * eps) -> a = b.
Proof.
  intros H. destruct (Req_dec a b) as [E|N]; [exact E|].
  assert (P : 0 < Rabs (a - b)) by (apply Rabs_pos_lt; lra).
  specialize (H (Rabs (a - b) / 4) ltac:(lra)). lra.
Qed.

Lemma join_der c f g lf lg : derivable_pt_lim f c lf -> derivable_pt_lim g c lg -> f c = g c ->
  ((exists l, derivable_pt_lim (join c f g) c l) <-> lf = lg).
Proof.
  intros F G E. split.
  - intros [l D].
    assert (A : lf = l).
    { apply close_eq. intros eps He. destruct (D eps He) as [d1 Q1]. destruct (F eps He) as [d2 Q2].
      set (h := - (Rmin d1 d2 / 2)).
      assert (P : 0 < Rmin d1 d2) by (apply Rmin_pos; [apply (cond_pos d1)|apply (cond_pos d2)]).
      pose proof (Rmin_l d1 d2). pose proof (Rmin_r d1 d2).
      assert (Ah : Rabs h = Rmin d1 d2 / 2) by (unfold h; rewrite Rabs_Ropp, Rabs_right; lra).
      specialize (Q1 h ltac:(unfold h; lra) ltac:(rewrite Ah; lra)).
      specialize (Q2 h ltac:(unfold h; lra) ltac:(rewrite Ah; lra)).
      unfold join in Q1. destruct (Rlt_dec c c); [lra|]. destruct (Rlt_dec c (c + h)); [unfold h in *; lra|].
      set (q := (f (c + h) - f c) / h) in *. clearbody q.
      unfold Rabs in *. destruct (Rcase_abs (q - l)), (Rcase_abs (q - lf)), (Rcase_abs (lf - l)); lra. }
    assert (B : lg = l).
    { apply close_eq. intros eps He. destruct (D eps He) as [d1 Q1]. destruct (G eps He) as [d2 Q2].
      set (h := Rmin d1 d2 / 2).
      assert (P : 0 < Rmin d1 d2) by (apply Rmin_pos; [apply (cond_pos d1)|apply (cond_pos d2)]).
      pose proof (Rmin_l d1 d2). pose proof (Rmin_r d1 d2).
      assert (Ah : Rabs h = Rmin d1 d2 / 2) by (unfold h; rewrite Rabs_right; lra).
      specialize (Q1 h ltac:(unfold h; lra) ltac:(rewrite Ah; lra)).
      specialize (Q2 h ltac:(unfold h; lra) ltac:(rewrite Ah; lra)).
      unfold join in Q1. destruct (Rlt_dec c c); [lra|]. destruct (Rlt_dec c (c + h)); [|unfold h in *; lra].
      rewrite E in Q1.
      set (q := (g (c + h) - g c) / h) in *. clearbody q.
      unfold Rabs in *. destruct (Rcase_abs (q - l)), (Rcase_abs (q - lg)), (Rcase_abs (lg - l)); lra. }
    congruence.
  - intros <-. exists lf. intros eps He. destruct (F eps He) as [d1 Q1]. destruct (G eps He) as [d2 Q2].
    assert (P : 0 < Rmin d1 d2) by (apply Rmin_pos; [apply (cond_pos d1)|apply (cond_pos d2)]).
    exists (mkposreal _ P). intros h Hh Hd. cbn in Hd.
    pose proof (Rmin_l d1 d2). pose proof (Rmin_r d1 d2).
    unfold join. destruct (Rlt_dec c c); [lra|]. destruct (Rlt_dec c (c + h)).
    + rewrite E. apply Q2; [exact Hh|lra].
    + apply Q1; [exact Hh|lra].
Qed.

Lemma unmixed_smooth r o Tw Tg dv l :
  derivable_pt_lim (fun d => pipeline r o [Tw; Tg; d; dv]) thresh l ->
  ((exists k, derivable_pt_lim (unmixed r o Tw Tg dv) thresh k) <-> l = 0).
Proof.
  intros D.
  destruct (join_der thresh (quad (pipeline r o [Tw; Tg; thresh; dv]) Tg)
    (fun d => pipeline r o [Tw; Tg; d; dv]) 0 l) as [A B].
  - replace 0 with (200 * (Tg - pipeline r o [Tw; Tg; thresh; dv]) * (thresh - thresh)) at 1 by ring.
    apply quad_der.
  - exact D.
  - apply quad_thresh.
  - split.
    + intros [k Hk]. symmetry. apply A. exists k.
      exact (derivable_pt_lim_ext _ _ _ _ (fun _ => eq_refl) Hk).
    + intros H. destruct (B (eq_sym H)) as [k Hk]. exists k.
      exact (derivable_pt_lim_ext _ _ _ _ (fun _ => eq_refl) Hk).
Qed.

Lemma lin_der s x : derivable_pt_lim (fun d => d * s) x s.
Proof.
  pose proof (derivable_pt_lim_mult id (fct_cte s) x 1 0 (derivable_pt_lim_id x)
    (derivable_pt_lim_const s x)) as H.
  replace (1 * fct_cte s x + id x * 0) with s in H by (unfold fct_cte, id; ring). exact H.
Qed.

Lemma der_scale U s x : 0 < s ->
  ((exists k, derivable_pt_lim (fun m => U (m / s)) (x * s) k) <-> (exists k, derivable_pt_lim U x k)).
Proof.
  intros S. split; intros [k D].
  - exists (k * s).
    refine (derivable_pt_lim_ext _ _ _ _ _
      (derivable_pt_lim_comp (fun d => d * s) (fun m => U (m / s)) x s k _ D)).
    + intros d. unfold comp. f_equal. field. lra.
    + apply lin_der.
  - exists (k * / s).
    refine (derivable_pt_lim_comp (fun m => m / s) U (x * s) (/ s) k _ _).
    + apply lin_der.
    + replace (x * s / s) with x by (field; lra). exact D.
Qed.
