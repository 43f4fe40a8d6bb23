(** Outlet temperatures of the condensing heat exchanger as functions of the water flow. *)
From Coq Require Import Reals List ZArith Bool Arith Lra Lia.
From Verif Require Import SFlow LFlow MWater LWater MPorts LPorts MCond SCond LCond.
Import ListNotations.
Open Scope R_scope.

(** * The flows seen by the regression *)
Lemma rnd_01 x : 0 <= x < 1 -> rnd x = 0%Z \/ rnd x = 1%Z.
Proof.
  intros H. pose proof (rnd_near x) as N.
  assert (- 1 < rnd x)%Z by (apply lt_IZR; lra).
  assert (rnd x < 2)%Z by (apply lt_IZR; lra). lia.
Qed.

Lemma rnd_IZR z : rnd (IZR z) = z.
Proof.
  pose proof (rnd_near (IZR z)) as N.
  assert (z - 1 < rnd (IZR z))%Z by (apply lt_IZR; rewrite minus_IZR; lra).
  assert (rnd (IZR z) < z + 1)%Z by (apply lt_IZR; rewrite plus_IZR; lra). lia.
Qed.

Lemma low_cases lo x : 0 < lo -> 0 <= x < lo ->
  (low lo x = 0 /\ x <= lo / 2) \/ (low lo x = lo /\ lo / 2 <= x).
Proof.
  intros L H. unfold low.
  assert (Q : x / lo * lo = x) by (field; lra).
  assert (P : 0 <= x / lo < 1).
  { split; [apply Rle_mult_inv_pos; lra|]. apply (Rmult_lt_reg_r lo); lra. }
  pose proof (rnd_near (x / lo)) as N.
  destruct (rnd_01 _ P) as [E|E]; rewrite E in *; [left|right]; split; try lra; nra.
Qed.

Lemma gas_sel p dvg : cpar_ok p -> dvg / cp_sg p <= cp_ghi p ->
  exists dv, gas_flow p (dvg / cp_sg p) = Some dv.
Proof.
  intros _ H. unfold gas_flow. destruct (Req_EM_T _ _); [|destruct (Rlt_dec _ (cp_glo p))];
    try (destruct (Rlt_dec _ _); [lra|]); eauto.
Qed.

(** * Without the bypass *)
(** Outlets below and above the threshold for running flows. *)
Definition unmixed (r : reg) (o : nat) (Tw Tg dv d : R) : R :=
  if Rlt_dec thresh d then pipeline r o [Tw; Tg; d; dv]
  else quad (pipeline r o [Tw; Tg; thresh; dv]) Tg d.

Lemma outlets_is r Tw Tg d dv : reg_ok r -> d <> 0 -> dv <> 0 ->
  outlets r Tw Tg d dv = Some (unmixed r 0 Tw Tg dv d, unmixed r 1 Tw Tg dv d).
Proof.
  intros K Hd Hv. unfold outlets, unmixed, quad_poly.
  destruct (Req_EM_T d 0); [contradiction|]. destruct (Req_EM_T dv 0); [contradiction|].
  destruct (Rlt_dec thresh d); rewrite predict_is by (try assumption; reflexivity); reflexivity.
Qed.

Lemma quad_thresh a y0 : quad a y0 thresh = a.
Proof. unfold quad. ring. Qed.

Lemma quad_form a y0 d : quad a y0 d = a + (y0 - a) * (1 - 10 * d) ^ 2.
Proof. unfold quad, thresh. field. Qed.

(** * Continuity *)
Lemma cont_ext f g x : (forall y, f y = g y) -> continuity_pt g x -> continuity_pt f x.
Proof.
  intros E C eps He. destruct (C eps He) as (al & Ha & Q). exists al. split; [exact Ha|].
  intros y Hy. rewrite !E. now apply Q.
Qed.

(** Two branches joined at [c]. *)
Definition join (c : R) (f g : R -> R) (x : R) : R := if Rlt_dec c x then g x else f x.

Lemma join_cont c f g x : (x <= c -> continuity_pt f x) -> (c <= x -> continuity_pt g x) ->
  (x = c -> f c = g c) -> continuity_pt (join c f g) x.
Proof.
  intros Cf Cg E eps He.
  destruct (Rtotal_order x c) as [L|[L|L]].
  - destruct (Cf (Rlt_le _ _ L) eps He) as (al & Ha & Q).
    exists (Rmin al (c - x)). split; [apply Rmin_pos; lra|].
    intros y [Hy D]. unfold join. pose proof (Rmin_l al (c - x)). pose proof (Rmin_r al (c - x)).
    cbn [dist R_met Base] in *. unfold R_dist in *.
    assert (y < c) by (unfold Rabs in D; destruct (Rcase_abs _); lra).
    destruct (Rlt_dec c y); [lra|]. destruct (Rlt_dec c x); [lra|].
    apply Q. split; [exact Hy|lra].
  - destruct (Cf ltac:(lra) eps He) as (al & Ha & Q). destruct (Cg ltac:(lra) eps He) as (be & Hb & P).
    exists (Rmin al be). split; [apply Rmin_pos; lra|].
    intros y [Hy D]. unfold join. pose proof (Rmin_l al be). pose proof (Rmin_r al be).
    cbn [dist R_met Base] in *.
    destruct (Rlt_dec c x); [lra|]. destruct (Rlt_dec c y).
    + rewrite L, (E L), <- L. apply P. split; [exact Hy|lra].
    + apply Q. split; [exact Hy|lra].
  - destruct (Cg (Rlt_le _ _ L) eps He) as (al & Ha & Q).
    exists (Rmin al (x - c)). split; [apply Rmin_pos; lra|].
    intros y [Hy D]. unfold join. pose proof (Rmin_l al (x - c)). pose proof (Rmin_r al (x - c)).
    cbn [dist R_met Base] in *. unfold R_dist in *.
    assert (c < y) by (unfold Rabs in D; destruct (Rcase_abs _); lra).
    destruct (Rlt_dec c y); [|lra]. destruct (Rlt_dec c x); [|lra].
    apply Q. split; [exact Hy|lra].
Qed.

(** Only the values near the point matter. *)
Lemma cont_local f g x e : 0 < e -> (forall y, Rabs (y - x) < e -> f y = g y) ->
  continuity_pt g x -> continuity_pt f x.
Proof.
  intros He E C eps Hp. destruct (C eps Hp) as (al & Ha & Q).
  exists (Rmin al e). split; [apply Rmin_pos; lra|].
  intros y [Hy D]. pose proof (Rmin_l al e). pose proof (Rmin_r al e).
  cbn [dist R_met Base] in *. unfold R_dist in *.
  rewrite (E y) by lra. rewrite (E x) by (rewrite Rminus_diag_eq, Rabs_R0; [exact He|reflexivity]).
  apply Q. split; [exact Hy|lra].
Qed.

(** The regression is a polynomial of the flow, thus differentiable. *)
Lemma monomial_der c Tw Tg dv x : exists l, derivable_pt_lim (fun d => monomial c [Tw; Tg; d; dv]) x l.
Proof.
  induction c as [|v c [l IH]].
  - exists 0. apply derivable_pt_lim_const.
  - destruct (Nat.eq_dec v 2) as [->|N].
    + eexists. exact (derivable_pt_lim_mult id (fun d => monomial c [Tw; Tg; d; dv]) x 1 l
                        (derivable_pt_lim_id x) IH).
    + eexists. refine (derivable_pt_lim_ext _ _ _ _ _
        (derivable_pt_lim_scal (fun d => monomial c [Tw; Tg; d; dv]) (nth v [Tw; Tg; 0; dv] 0) x l IH)).
      intros d. cbn [monomial fold_right]. unfold mult_real_fct.
      destruct v as [|[|[|v]]]; try reflexivity. congruence.
Qed.

Lemma rsum_der n (f : nat -> R -> R) x : (forall j, exists l, derivable_pt_lim (f j) x l) ->
  exists l, derivable_pt_lim (fun d => rsum n (fun j => f j d)) x l.
Proof.
  intros H. induction n as [|n [l IH]].
  - exists 0. apply derivable_pt_lim_const.
  - destruct (H n) as [k K]. exists (l + k). cbn [rsum].
    first [exact (derivable_pt_lim_plus _ _ x _ _ IH K)
          | rewrite Rplus_comm; exact (derivable_pt_lim_plus _ _ x _ _ K IH)].
Qed.

Lemma pipeline_der r o Tw Tg dv x :
  exists l, derivable_pt_lim (fun d => pipeline r o [Tw; Tg; d; dv]) x l.
Proof.
  destruct (rsum_der (length (rg_combos r))
    (fun j d => poly_coef r o j * monomial (nth j (rg_combos r) []) [Tw; Tg; d; dv]) x) as [l H].
  { intros j. destruct (monomial_der (nth j (rg_combos r) []) Tw Tg dv x) as [l H].
    eexists. exact (derivable_pt_lim_scal _ (poly_coef r o j) x l H). }
  exists (0 + l).
  refine (derivable_pt_lim_ext _ _ _ _ _ (derivable_pt_lim_plus _ _ x _ _
    (derivable_pt_lim_const (poly_const r o) x) H)).
  intros d. unfold plus_fct, fct_cte. now rewrite pipeline_poly.
Qed.

Lemma pipeline_cont r o Tw Tg dv x : continuity_pt (fun d => pipeline r o [Tw; Tg; d; dv]) x.
Proof.
  destruct (pipeline_der r o Tw Tg dv x) as [l H]. apply derivable_continuous_pt.
  exists l. exact H.
Qed.

Lemma quad_der a y0 x : derivable_pt_lim (quad a y0) x (200 * (y0 - a) * (x - thresh)).
Proof.
  intros eps He. pose proof (Rabs_pos (100 * (y0 - a))) as P.
  assert (D : 0 < eps / (Rabs (100 * (y0 - a)) + 1)) by (apply Rdiv_lt_0_compat; lra).
  exists (mkposreal _ D). intros h Hh Hd. cbn in Hd.
  replace ((quad a y0 (x + h) - quad a y0 x) / h - 200 * (y0 - a) * (x - thresh))
    with (100 * (y0 - a) * h) by (rewrite !quad_form; unfold thresh; field; exact Hh).
  rewrite Rabs_mult.
  apply Rle_lt_trans with (Rabs (100 * (y0 - a)) * (eps / (Rabs (100 * (y0 - a)) + 1))).
  - apply Rmult_le_compat_l; lra.
  - apply (Rmult_lt_reg_r (Rabs (100 * (y0 - a)) + 1)); [lra|].
    replace (Rabs (100 * (y0 - a)) * (eps / (Rabs (100 * (y0 - a)) + 1)) * (Rabs (100 * (y0 - a)) + 1))
      with (Rabs (100 * (y0 - a)) * eps) by (field; lra).
    nra.
Qed.

Lemma unmixed_cont r o Tw Tg dv x : continuity_pt (unmixed r o Tw Tg dv) x.
Proof.
  apply (cont_ext _ (join thresh (quad (pipeline r o [Tw; Tg; thresh; dv]) Tg)
                       (fun d => pipeline r o [Tw; Tg; d; dv]))); [reflexivity|].
  apply join_cont.
  - intros _. apply derivable_continuous_pt. eexists. apply quad_der.
  - intros _. apply pipeline_cont.
  - intros _. apply quad_thresh.
Qed.
