(** Lemmas about the controllers. *)
From Coq Require Import Reals List Arith Bool Lia Lra.
From Verif Require Import MCtrl SCtrl.
Import ListNotations.
Open Scope R_scope.

(** ** Clipping and slope *)

Lemma clip_in : forall lo hi x, lo <= hi -> lo <= clip lo hi x <= hi.
Proof.
  intros lo hi x L. unfold clip. destruct (Rlt_dec x lo); [lra|]. destruct (Rlt_dec hi x); lra.
Qed.
Lemma clip_id : forall lo hi x, lo <= x <= hi -> clip lo hi x = x.
Proof.
  intros lo hi x L. unfold clip. destruct (Rlt_dec x lo); [lra|]. destruct (Rlt_dec hi x); lra.
Qed.
Lemma clip_mono : forall lo hi x y, lo <= hi -> x <= y ->
  0 <= clip lo hi y - clip lo hi x <= y - x.
Proof.
  intros lo hi x y L Q. unfold clip. destruct (Rlt_dec x lo), (Rlt_dec y lo);
    destruct (Rlt_dec hi x), (Rlt_dec hi y); lra.
Qed.
Lemma clip_keeps : forall lo hi a b x, a <= x <= b -> lo <= b -> a <= hi ->
  a <= clip lo hi x <= b.
Proof.
  intros lo hi a b x X A B. unfold clip.
  destruct (Rlt_dec x lo); [lra|]. destruct (Rlt_dec hi x); lra.
Qed.

Lemma div_le : forall a b h, 0 < h -> a / h <= b <-> a <= b * h.
Proof.
  intros a b h H. split; intros Q.
  - apply (Rmult_le_compat_r h) in Q; [|lra]. unfold Rdiv in Q.
    rewrite Rmult_assoc, Rinv_l in Q by lra. lra.
  - apply (Rmult_le_reg_r h); [exact H|]. unfold Rdiv.
    rewrite Rmult_assoc, Rinv_l by lra. lra.
Qed.
Lemma le_div : forall a b h, 0 < h -> b <= a / h <-> b * h <= a.
Proof.
  intros a b h H. split; intros Q.
  - apply (Rmult_le_compat_r h) in Q; [|lra]. unfold Rdiv in Q.
    rewrite Rmult_assoc, Rinv_l in Q by lra. lra.
  - apply (Rmult_le_reg_r h); [exact H|]. unfold Rdiv.
    rewrite Rmult_assoc, Rinv_l by lra. lra.
Qed.

(** The slope limit is the clipping of the change. *)
Lemma limit_spec : forall c prev h cv n p, f_slope c = Some (n, p) -> 0 < h -> n < 0 < p ->
  limit c prev h cv = prev + clip (n * h) (p * h) (cv - prev).
Proof.
  intros c prev h cv n p E H S. unfold limit. rewrite E. unfold clip.
  pose proof (div_le (cv - prev) p h H) as A. pose proof (le_div (cv - prev) n h H) as B.
  assert (n * h < p * h) by (apply Rmult_lt_compat_r; lra).
  destruct (Rle_dec n ((cv - prev) / h)) as [Q|Q].
  - apply B in Q. destruct (Rlt_dec (cv - prev) (n * h)); [lra|].
    destruct (Rle_dec ((cv - prev) / h) p) as [W|W].
    + apply A in W. destruct (Rlt_dec (p * h) (cv - prev)); lra.
    + destruct (Rlt_dec (p * h) (cv - prev)) as [_|N]; [lra|].
      exfalso. apply W, A. lra.
  - destruct (Rlt_dec (cv - prev) (n * h)) as [_|N]; [|exfalso; apply Q, B; lra].
    destruct (Rlt_dec p ((cv - prev) / h)); [exfalso; lra|reflexivity].
Qed.
Lemma limit_none : forall c prev h cv, f_slope c = None -> limit c prev h cv = cv.
Proof. intros. unfold limit. rewrite H. reflexivity. Qed.

(** Between the previous value and the wish. *)
Lemma limit_between : forall c prev h cv, 0 < h ->
  match f_slope c with None => True | Some (n, p) => n < 0 < p end ->
  Rmin prev cv <= limit c prev h cv <= Rmax prev cv.
Proof.
  intros c prev h cv H S. destruct (f_slope c) as [[n p]|] eqn:E.
  - rewrite (limit_spec c prev h cv n p E H S).
    assert (n * h < 0) by nra. assert (0 < p * h) by nra.
    unfold clip, Rmin, Rmax. destruct (Rle_dec prev cv);
      destruct (Rlt_dec (cv - prev) (n * h)); destruct (Rlt_dec (p * h) (cv - prev)); lra.
  - rewrite limit_none by exact E. unfold Rmin, Rmax. destruct (Rle_dec prev cv); lra.
Qed.

(** ** One step *)

(** State after the error handling and before the algorithm. *)
Definition seen (c : cfg) (s : st) (i : inp) : st :=
  let dd := if Req_EM_T (f_dead c) 0 then s_dead s
            else dead_step (i_junk i) (f_dead c) (i_h i) (i_pv i) (s_dead s) in
  mkSt (s_cv s) (i_sp i - (if Req_EM_T (f_dead c) 0 then i_pv i else d_val dd))
       (s_err s) (if f_disc c then s_err1 s else s_err2 s) (s_i s)
       (if f_disc c then s_pi s else s_i s) (s_deriv s) dd (s_act s).

Definition core (c : cfg) (s : st) (i : inp) : R * R * R :=
  match f_kind c with
  | PID g =>
      let '(cv, it, de) := run_pid c g (seen c s i) (i_h i) in
      if blocked c i then (f_off c, 0, de) else (cv, it, de)
  | BangBang rev hy =>
      (if blocked c i then f_off c else run_bb c rev hy (s_cv s) i, s_i s, s_deriv s)
  | TwoSensors al av dl =>
      (if blocked c i then f_off c else run_ts c al av dl (s_cv s) i, s_i s, s_deriv s)
  end.

Lemma ctrl_core : forall c s i,
  ctrl c s i =
  let '(cv, it, de) := core c s i in
  let cv' := limit c (s_cv s) (i_h i) cv in
  let s1 := seen c s i in
  mkSt cv' (s_err s1) (s_err1 s1) (s_err2 s1) it (s_pi s1) de (s_dead s1)
       (clip (f_ll c) (f_ul c) cv').
Proof. reflexivity. Qed.

Lemma ctrl_cv : forall c s i,
  s_cv (ctrl c s i) = limit c (s_cv s) (i_h i) (fst (fst (core c s i))).
Proof. intros. rewrite ctrl_core. destruct (core c s i) as [[cv it] de]. reflexivity. Qed.
Lemma ctrl_act : forall c s i,
  s_act (ctrl c s i) = clip (f_ll c) (f_ul c) (s_cv (ctrl c s i)).
Proof. intros. rewrite ctrl_core. destruct (core c s i) as [[cv it] de]. reflexivity. Qed.
Lemma ctrl_i : forall c s i, s_i (ctrl c s i) = snd (fst (core c s i)).
Proof. intros. rewrite ctrl_core. destruct (core c s i) as [[cv it] de]. reflexivity. Qed.
Lemma ctrl_deriv : forall c s i, s_deriv (ctrl c s i) = snd (core c s i).
Proof. intros. rewrite ctrl_core. destruct (core c s i) as [[cv it] de]. reflexivity. Qed.
Lemma ctrl_rest : forall c s i,
  s_err (ctrl c s i) = s_err (seen c s i) /\ s_err1 (ctrl c s i) = s_err1 (seen c s i) /\
  s_err2 (ctrl c s i) = s_err2 (seen c s i) /\ s_pi (ctrl c s i) = s_pi (seen c s i) /\
  s_dead (ctrl c s i) = s_dead (seen c s i).
Proof.
  intros. rewrite ctrl_core. destruct (core c s i) as [[cv it] de]. repeat split; reflexivity.
Qed.
Lemma wish_core : forall c s i, wish c s i = fst (fst (core c s i)).
Proof.
  intros c s i. unfold wish. rewrite ctrl_cv. rewrite limit_none by reflexivity. reflexivity.
Qed.
Lemma ctrl_wish : forall c s i, s_cv (ctrl c s i) = limit c (s_cv s) (i_h i) (wish c s i).
Proof. intros. rewrite wish_core. apply ctrl_cv. Qed.

(** ** Saturation *)

Lemma run_pid_in : forall c g s h, f_min c < f_max c ->
  f_min c <= fst (fst (run_pid c g s h)) <= f_max c.
Proof.
  intros c g s h L. unfold run_pid.
  destruct (f_disc c); [destruct (is0 (g_ki g))|]; cbn [fst snd]; apply clip_in; lra.
Qed.
Lemma run_bb_in : forall c rev hy cv i, f_inv c = false -> f_min c < f_max c ->
  f_min c <= f_off c <= f_max c -> f_min c <= cv <= f_max c ->
  f_min c <= run_bb c rev hy cv i <= f_max c.
Proof.
  intros c rev hy cv i I L O V. unfold run_bb, sgn. rewrite I, Rmult_1_l.
  destruct (Rlt_dec _ _); [destruct rev; lra|]. destruct (Rlt_dec _ _); [destruct rev; lra|lra].
Qed.
Lemma run_ts_in : forall c al av dl cv i, f_inv c = false -> f_min c < f_max c ->
  f_min c <= f_off c <= f_max c -> f_min c <= cv <= f_max c ->
  f_min c <= run_ts c al av dl cv i <= f_max c.
Proof.
  intros c al av dl cv i I L O V. unfold run_ts, sgn. rewrite I, Rmult_1_l.
  destruct (below dl (i_pv i) (i_sp i)); [lra|]. destruct (below al (i_on i) av); lra.
Qed.

Definition is_pid (k : kind) : Prop := match k with PID _ => True | _ => False end.

Lemma core_in : forall c s i, f_min c < f_max c -> f_min c <= f_off c <= f_max c ->
  (is_pid (f_kind c) \/ f_inv c = false) -> f_min c <= s_cv s <= f_max c ->
  f_min c <= fst (fst (core c s i)) <= f_max c.
Proof.
  intros c s i L O K V. unfold core. destruct (f_kind c) as [g|rev hy|al av dl].
  - pose proof (run_pid_in c g (seen c s i) (i_h i) L) as Q.
    destruct (run_pid c g (seen c s i) (i_h i)) as [[cv it] de].
    destruct (blocked c i); cbn [fst snd] in *; assumption.
  - destruct K as [K|K]; [destruct K|]. destruct (blocked c i); cbn [fst snd]; [exact O|].
    apply run_bb_in; assumption.
  - destruct K as [K|K]; [destruct K|]. destruct (blocked c i); cbn [fst snd]; [exact O|].
    apply run_ts_in; assumption.
Qed.
Lemma ctrl_in : forall c s i, cfg_ok c -> 0 < i_h i -> f_min c <= f_off c <= f_max c ->
  (is_pid (f_kind c) \/ f_inv c = false) -> f_min c <= s_cv s <= f_max c ->
  f_min c <= s_cv (ctrl c s i) <= f_max c.
Proof.
  intros c s i (L & _ & _ & S & _) H O K V. rewrite ctrl_cv.
  pose proof (core_in c s i L O K V) as Q.
  pose proof (limit_between c (s_cv s) (i_h i) (fst (fst (core c s i))) H S) as B.
  revert B. unfold Rmin, Rmax. destruct (Rle_dec (s_cv s) (fst (fst (core c s i)))); lra.
Qed.

(** ** Anti-windup *)

Lemma clip_aw_in : forall a x, 0 < a -> Rabs (clip_aw (Some a) x) <= a.
Proof.
  intros a x A. cbn [clip_aw]. pose proof (clip_in (- a) a x ltac:(lra)).
  apply Rabs_le. lra.
Qed.

(** ** Derivative filter *)

Lemma filtered_in : forall rc h prev raw lo hi, 0 < h ->
  match rc with None => True | Some t => 0 < t end ->
  lo <= prev <= hi -> lo <= raw <= hi -> lo <= filtered rc h prev raw <= hi.
Proof.
  intros [t|] h prev raw lo hi H T P Q; [|exact Q]. cbn [filtered].
  set (a := h / (t + h)).
  assert (A : 0 <= a <= 1).
  { unfold a. split.
    - apply Rmult_le_pos; [lra|]. left. apply Rinv_0_lt_compat. lra.
    - apply div_le; lra. }
  replace (prev + a * (raw - prev)) with ((1 - a) * prev + a * raw) by ring. split; nra.
Qed.
