(** Condensing heat exchanger: C92-C100. *)
From Coq Require Import Reals List ZArith Bool Arith Lra Lia.
From Verif Require Import SFlow LFlow MWater LWater MPorts LPorts SMix MCond SCond LCond LCond2 LCond3 LCond4.
Import ListNotations.
Open Scope R_scope.

(** * An example pipeline *)
(** Monomials 1, water inlet, gas inlet, gas inlet times water flow; three components; the water
    outlet is half the water inlet plus a quarter of the gas inlet minus a fifth of the product,
    the gas outlet the same with plus a tenth of the product. *)
Definition ex_reg : reg :=
  {| rg_combos := [[]; [0]; [1]; [1; 2]]%nat; rg_mean := [1; 10; 20; 5];
     rg_comps := [[0; 1; 0; 0]; [0; 0; 1; 0]; [0; 0; 0; 1]];
     rg_icpt := [9; 21 / 2]; rg_coef := [[1 / 2; 1 / 4; - (1 / 5)]; [1 / 2; 1 / 4; 1 / 10]] |}.

Lemma ex_reg_ok : reg_ok ex_reg.
Proof.
  unfold reg_ok, ex_reg. cbn [rg_combos rg_mean rg_comps rg_icpt rg_coef last length].
  repeat apply conj; try reflexivity; try congruence.
  - intros c H. cbn [In] in H.
    decompose [or] H; subst; try contradiction; (split; [cbn [length]; lia|]);
      intros v Hv; cbn [In] in Hv; lia.
  - intros k H. cbn [In] in H. decompose [or] H; subst; try contradiction; reflexivity.
  - intros k H. cbn [In] in H. decompose [or] H; subst; try contradiction; reflexivity.
Qed.

Lemma ex_reg_at Tw Tg d dv :
  pipeline ex_reg 0 [Tw; Tg; d; dv] = Tw / 2 + Tg / 4 - Tg * d / 5 /\
  pipeline ex_reg 1 [Tw; Tg; d; dv] = Tw / 2 + Tg / 4 + Tg * d / 10.
Proof.
  unfold pipeline. cbn [ex_reg rg_combos rg_mean rg_comps rg_icpt rg_coef length rsum nth monomial fold_right].
  split; field.
Qed.

(** Flows from 0 to 105 % for water and from 40 % to 105 % for the flue gas, scaled with 0.1 kg/s
    and 70 Nm3/h. *)
Definition ex_par : cpar :=
  {| cp_reg := ex_reg; cp_sw := 1 / 10; cp_sg := 70 / 3600; cp_wlo := 0; cp_whi := 105 / 100;
     cp_glo := 4 / 10; cp_ghi := 105 / 100 |}.
Lemma ex_par_ok : cpar_ok ex_par.
Proof.
  unfold cpar_ok, ex_par. cbn [cp_reg cp_sw cp_sg cp_wlo cp_whi cp_glo cp_ghi].
  split; [apply ex_reg_ok|]. lra.
Qed.
Lemma ex_par_made : exists r, make_cpar ex_reg 70 (1 / 700) 0 (105 / 100) (4 / 10) (105 / 100) = Some r
  /\ cp_sw r = 1 / 10 /\ cp_sg r = 70 / 3600.
Proof.
  unfold make_cpar. repeat (destruct (Rlt_dec _ _) || destruct (Rle_dec _ _)); try lra.
  eexists. split; [reflexivity|]. cbn. lra.
Qed.
Lemma ex_gas : gas_flow ex_par ((70 / 3600) / cp_sg ex_par) = Some 1.
Proof.
  replace (70 / 3600 / cp_sg ex_par) with 1 by (cbn; field). unfold gas_flow. cbn.
  destruct (Req_EM_T _ _); [lra|]. destruct (Rlt_dec _ _); [lra|]. destruct (Rlt_dec _ _); [lra|reflexivity].
Qed.

(** ** C92: the compiled prediction is the fitted pipeline *)
(** For every pipeline of matching shapes and all inputs, the prediction with padded index arrays
    neither fails nor differs from the textbook pipeline, which is one polynomial of the inputs. *)
Theorem C92_pipeline : forall r X, reg_ok r -> length X = 4%nat ->
  predict r X = Some (pipeline r 0 X, pipeline r 1 X) /\
  forall o, pipeline r o X = poly_const r o +
    rsum (length (rg_combos r)) (fun j => poly_coef r o j * monomial (nth j (rg_combos r) []) X).
Proof. intros r X K L. split; [now apply predict_is|]. intros o. apply pipeline_poly. Qed.
Example C92_ex : predict ex_reg [30; 100; 1; 1] = Some (20, 50).
Proof.
  rewrite (proj1 (C92_pipeline ex_reg [30; 100; 1; 1] ex_reg_ok eq_refl)).
  destruct (ex_reg_at 30 100 1 1) as [-> ->]. do 2 f_equal; lra.
Qed.
(** The filling of the index array is never used; a last combination shorter than another one
    is refused. *)
Theorem C92_short_last : forall cs c, In c cs -> (length (last cs []) < length c)%nat ->
  make_combs cs = None.
Proof.
  intros cs c H L. unfold make_combs. destruct cs as [|c0 cs0] eqn:E; [reflexivity|].
  rewrite <- E in *. clear E c0 cs0. set (w := length (last cs [])) in *. clearbody w.
  enough (all_some (map (pad_row w) cs) = None) as -> by reflexivity.
  induction cs as [|a cs IH]; [contradiction|]. cbn [map all_some].
  destruct H as [->|H].
  - unfold pad_row. now rewrite (proj2 (Nat.leb_gt _ _) L).
  - destruct (pad_row w a); [|reflexivity]. now rewrite IH.
Qed.
Example C92_short_ex : make_combs [[0; 1]; [2]]%nat = None.
Proof. apply (C92_short_last _ [0; 1]%nat); cbn; auto. Qed.
Print Assumptions C92_pipeline.
Print Assumptions C92_short_last.

(** ** C93: outlet temperatures change continuously with a running water flow *)
Theorem C93_continuous : forall p Tw Tg dmw dvg dv, cpar_ok p ->
  gas_flow p (dvg / cp_sg p) = Some dv -> dv <> 0 -> 0 < dmw -> cp_wlo p * cp_sw p < dmw ->
  0 < cp_whi p -> 0 <= Tw <= 100 ->
  0 <= water_out p Tw Tg (cp_whi p * cp_sw p) dvg <= 100 ->
  continuity_pt (fun m => water_out p Tw Tg m dvg) dmw /\
  continuity_pt (fun m => gas_out p Tw Tg m dvg) dmw.
Proof.
  intros p Tw Tg dmw dvg dv K E V X L H RT RX. pose proof K as (KR & Sw & Sg & W & G).
  assert (PD : forall m, m / cp_sw p = m * / cp_sw p) by reflexivity.
  pose proof (Rinv_0_lt_compat _ Sw) as IS.
  set (lo := Rmax 0 (cp_wlo p * cp_sw p)).
  assert (Lo : lo < dmw) by (unfold lo, Rmax; destruct (Rle_dec _ _); lra).
  assert (N : forall m, Rabs (m - dmw) < dmw - lo -> cond_solve p Tw Tg m dvg =
    Some (join (cp_whi p) (unmixed (cp_reg p) 0 Tw Tg dv) (mixed p Tw Tg dv) (m / cp_sw p),
        unmixed (cp_reg p) 1 Tw Tg dv (Rmin (m / cp_sw p) (cp_whi p)))).
  { intros m Hm. assert (lo < m) by (unfold Rabs in Hm; destruct (Rcase_abs _); lra).
    assert (0 < m /\ cp_wlo p * cp_sw p < m) as [M1 M2].
    { unfold lo in *. pose proof (Rmax_l 0 (cp_wlo p * cp_sw p)).
      pose proof (Rmax_r 0 (cp_wlo p * cp_sw p)). lra. }
    apply solve_running; try assumption.
    - now apply Rdiv_lt_0_compat.
    - apply (Rmult_le_reg_r (cp_sw p)); [lra|]. unfold Rdiv. rewrite Rmult_assoc, Rinv_l by lra. lra. }
  assert (WX : water_out p Tw Tg (cp_whi p * cp_sw p) dvg = unmixed (cp_reg p) 0 Tw Tg dv (cp_whi p)).
  { unfold water_out. assert (Q : cp_whi p * cp_sw p / cp_sw p = cp_whi p) by (field; lra).
    rewrite (solve_running p Tw Tg _ dvg dv) by (try assumption; rewrite Q; lra).
    rewrite Q. unfold join. destruct (Rlt_dec (cp_whi p) (cp_whi p)); [lra|reflexivity]. }
  rewrite WX in RX.
  pose proof (cp_bounds Tw RT) as C1. pose proof (cp_bounds _ RX) as C2.
  assert (LIN : continuity_pt (fun m => m / cp_sw p) dmw).
  { apply derivable_continuous_pt. reg. }
  split.
  - apply (cont_local _ (comp (join (cp_whi p) (unmixed (cp_reg p) 0 Tw Tg dv) (mixed p Tw Tg dv))
                              (fun m => m / cp_sw p)) dmw (dmw - lo)); [lra| |].
    { intros m Hm. unfold water_out, comp. now rewrite (N m Hm). }
    apply continuity_pt_comp; [exact LIN|]. apply join_cont.
    + intros _. apply unmixed_cont.
    + intros Q. unfold mixed. apply mix_cont; lra.
    + intros _. unfold mixed. rewrite Rminus_diag_eq by reflexivity. rewrite mix_zero by lra. reflexivity.
  - apply (cont_local _ (comp (unmixed (cp_reg p) 1 Tw Tg dv)
             (comp (join (cp_whi p) id (fun _ => cp_whi p)) (fun m => m / cp_sw p))) dmw (dmw - lo)); [lra| |].
    { intros m Hm. unfold gas_out, comp. rewrite (N m Hm). f_equal. unfold join, id, Rmin.
      destruct (Rle_dec _ _), (Rlt_dec _ _); lra. }
    apply continuity_pt_comp; [|apply unmixed_cont].
    apply continuity_pt_comp; [exact LIN|]. apply join_cont.
    + intros _. apply derivable_continuous_pt, derivable_pt_id.
    + intros _. apply derivable_continuous_pt, derivable_pt_const.
    + reflexivity.
Qed.
Example C93_ex : continuity_pt (fun m => water_out ex_par 30 100 m (70 / 3600)) (1 / 100).
Proof.
  apply (C93_continuous ex_par 30 100 (1 / 100) (70 / 3600) 1 ex_par_ok ex_gas); cbn; try lra.
  unfold water_out.
  rewrite (solve_running ex_par 30 100 _ _ 1 ex_par_ok ex_gas) by (cbn; lra).
  unfold join. cbn [ex_par cp_whi cp_sw cp_reg].
  destruct (Rlt_dec _ _); [lra|]. unfold unmixed, thresh.
  destruct (Rlt_dec _ _); [|lra]. destruct (ex_reg_at 30 100 (105 / 100 * (1 / 10) / (1 / 10)) 1) as [-> _]. lra.
Qed.
Print Assumptions C93_continuous.

(** ** C94: no kink where the regression ends *)
(** The outlet temperature is differentiable at the threshold exactly if the regression is flat
    there: below the threshold the slope is always 0. *)
Theorem C94_smooth_partial : forall p Tw Tg dvg dv l, cpar_ok p ->
  gas_flow p (dvg / cp_sg p) = Some dv -> dv <> 0 -> cp_wlo p < 1 / 10 < cp_whi p ->
  derivable_pt_lim (fun d => pipeline (cp_reg p) 0 [Tw; Tg; d; dv]) (1 / 10) l ->
  ((exists k, derivable_pt_lim (fun m => water_out p Tw Tg m dvg) (1 / 10 * cp_sw p) k) <-> l = 0).
Proof.
  intros p Tw Tg dvg dv l K E V H D. pose proof K as (KR & Sw & Sg & W & G).
  fold thresh in *. rewrite <- (unmixed_smooth _ _ _ _ _ _ D).
  rewrite <- (der_scale (unmixed (cp_reg p) 0 Tw Tg dv) (cp_sw p) thresh Sw).
  set (e := Rmin (thresh - cp_wlo p) (cp_whi p - thresh) * cp_sw p).
  assert (He : 0 < e) by (apply Rmult_lt_0_compat; [apply Rmin_pos; lra|exact Sw]).
  assert (N : forall m, Rabs (m - thresh * cp_sw p) < e ->
    water_out p Tw Tg m dvg = unmixed (cp_reg p) 0 Tw Tg dv (m / cp_sw p)).
  { intros m Hm. unfold e in Hm.
    assert (Q : m / cp_sw p * cp_sw p = m) by (field; lra).
    set (x := m / cp_sw p) in *.
    assert (Hx : Rabs (x - thresh) < Rmin (thresh - cp_wlo p) (cp_whi p - thresh)).
    { apply (Rmult_lt_reg_r (cp_sw p)); [lra|].
      rewrite <- (Rabs_right (cp_sw p)) at 1 by lra. rewrite <- Rabs_mult.
      now replace ((x - thresh) * cp_sw p) with (m - thresh * cp_sw p) by (rewrite <- Q; ring). }
    pose proof (Rmin_l (thresh - cp_wlo p) (cp_whi p - thresh)).
    pose proof (Rmin_r (thresh - cp_wlo p) (cp_whi p - thresh)).
    assert (cp_wlo p < x < cp_whi p) by (unfold Rabs in Hx; destruct (Rcase_abs _); lra).
    unfold water_out. rewrite (solve_running p Tw Tg m dvg dv) by (try assumption; fold x; lra).
    fold x. unfold join. destruct (Rlt_dec _ _); [lra|reflexivity]. }
  split; intros [k Hk]; exists k.
  - apply (der_local _ (fun m => water_out p Tw Tg m dvg) _ _ e He); [|exact Hk].
    intros y Hy. symmetry. now apply N.
  - apply (der_local _ (fun m => unmixed (cp_reg p) 0 Tw Tg dv (m / cp_sw p)) _ _ e He); [exact N|exact Hk].
Qed.
(** Such a slope always exists, and in the example it is not 0. *)
Lemma C94_slope : forall p Tw Tg dv, exists l,
  derivable_pt_lim (fun d => pipeline (cp_reg p) 0 [Tw; Tg; d; dv]) (1 / 10) l.
Proof. intros. apply pipeline_der. Qed.
Theorem C94_kink_refuted : exists p Tw Tg dvg dv, cpar_ok p /\
  gas_flow p (dvg / cp_sg p) = Some dv /\ dv <> 0 /\ cp_wlo p < 1 / 10 < cp_whi p /\
  ~ exists k, derivable_pt_lim (fun m => water_out p Tw Tg m dvg) (1 / 10 * cp_sw p) k.
Proof.
  exists ex_par, 30, 100, (70 / 3600), 1. split; [apply ex_par_ok|]. split; [apply ex_gas|].
  split; [lra|]. split; [cbn; lra|].
  assert (D : derivable_pt_lim (fun d => pipeline (cp_reg ex_par) 0 [30; 100; d; 1]) (1 / 10) (- 20)).
  { refine (derivable_pt_lim_ext (fun d => d * (- 20) + 40) _ _ _ _ _).
    - intros d. cbn [ex_par cp_reg]. destruct (ex_reg_at 30 100 d 1) as [-> _]. lra.
    - pose proof (derivable_pt_lim_plus (fun d => d * -20) (fct_cte 40) (1 / 10) _ _
        (lin_der _ _) (derivable_pt_lim_const 40 _)) as H. rewrite Rplus_0_r in H. exact H. }
  rewrite (C94_smooth_partial ex_par 30 100 (70 / 3600) 1 (-20) ex_par_ok ex_gas); [lra|lra|cbn; lra|exact D].
Qed.
(** A flat regression: the condition can be met. *)
Example C94_ex : exists k, derivable_pt_lim (fun m => water_out ex_par 30 0 m (70 / 3600))
  (1 / 10 * cp_sw ex_par) k.
Proof.
  apply (C94_smooth_partial ex_par 30 0 (70 / 3600) 1 0 ex_par_ok ex_gas); [lra|cbn; lra| |reflexivity].
  refine (derivable_pt_lim_ext (fct_cte 15) _ _ _ _ (derivable_pt_lim_const 15 _)).
  intros d. cbn [ex_par cp_reg]. destruct (ex_reg_at 30 0 d 1) as [-> _]. unfold fct_cte. lra.
Qed.
Print Assumptions C94_smooth_partial.
Print Assumptions C94_kink_refuted.

(** ** C95: the outlet temperature of the water down to standstill *)
(** At standstill of the water or of the flue gas the outlets are the inlets. *)
Theorem C95_standstill : forall p Tw Tg dmw dvg dv, cpar_ok p ->
  gas_flow p (dvg / cp_sg p) = Some dv -> (dmw = 0 \/ dv = 0) ->
  forall w g, cond_solve p Tw Tg dmw dvg = Some (w, g) ->
  g = Tg /\ (dmw / cp_sw p <= cp_whi p -> w = Tw).
Proof.
  intros p Tw Tg dmw dvg dv K E Z w g S. pose proof K as (KR & Sw & Sg & W & G).
  unfold cond_solve in S. rewrite E in S.
  assert (A : forall x, fst (water_flow p (dmw / cp_sw p)) = x -> dmw = 0 -> x = 0).
  { intros x <- ->. unfold water_flow. replace (0 / cp_sw p) with 0 by (field; lra).
    destruct (Req_EM_T _ _).
    - destruct (Rlt_dec _ _); [cbn; lra|reflexivity].
    - destruct (Rlt_dec _ _); [|lra]. cbn [fst]. unfold low. replace (0 / cp_wlo p) with (IZR 0) by (field; lra).
      rewrite rnd_IZR. ring. }
  assert (B : dmw / cp_sw p <= cp_whi p -> snd (water_flow p (dmw / cp_sw p)) = None).
  { intros H. unfold water_flow. destruct (Req_EM_T _ _); [|destruct (Rlt_dec _ _); [reflexivity|]];
      (destruct (Rlt_dec _ _); [lra|reflexivity]). }
  destruct (water_flow p (dmw / cp_sw p)) as [dm byp] eqn:EW. cbn [fst snd] in *.
  assert (O : outlets (cp_reg p) Tw Tg dm dv = Some (Tw, Tg)).
  { unfold outlets. destruct (Req_EM_T dm 0) as [|N]; [reflexivity|].
    destruct (Req_EM_T dv 0) as [|N']; [reflexivity|]. destruct Z as [Z|Z]; [|lra].
    exfalso. apply N. now apply (A dm). }
  rewrite O in S. injection S as <- <-. split; [reflexivity|].
  intros H. rewrite (B H). reflexivity.
Qed.
Example C95_ex : cond_solve ex_par 30 100 0 (70 / 3600) = Some (30, 100).
Proof.
  unfold cond_solve. rewrite ex_gas.
  replace (0 / cp_sw ex_par) with 0 by (cbn; lra). unfold water_flow. cbn [ex_par cp_wlo cp_whi cp_reg].
  destruct (Req_EM_T 0 0); [|lra]. destruct (Rlt_dec _ _); [lra|].
  unfold outlets. destruct (Req_EM_T 0 0); [reflexivity|lra].
Qed.
(** With a lower bound 0, a vanishing water flow leaves at the flue gas inlet temperature, but
    standing water at the water inlet temperature: the limit differs from the value whenever the
    two differ.  The flue gas outlet has no such jump. *)
Theorem C95_limit : forall p Tw Tg dvg dv, cpar_ok p -> cp_wlo p = 0 -> 0 < cp_whi p ->
  gas_flow p (dvg / cp_sg p) = Some dv -> dv <> 0 ->
  forall eps, 0 < eps -> exists del, 0 < del /\ forall m, 0 < m < del ->
  Rabs (water_out p Tw Tg m dvg - Tg) < eps /\ Rabs (gas_out p Tw Tg m dvg - Tg) < eps.
Proof.
  intros p Tw Tg dvg dv K Z H E V eps He. pose proof K as (KR & Sw & Sg & W & G).
  assert (Q : forall o, unmixed (cp_reg p) o Tw Tg dv 0 = Tg).
  { intros o. unfold unmixed, thresh. destruct (Rlt_dec _ _); [lra|]. rewrite quad_form. ring. }
  assert (D : forall o, exists del, 0 < del /\ forall x, 0 < x < del ->
    Rabs (unmixed (cp_reg p) o Tw Tg dv x - Tg) < eps).
  { intros o. destruct (unmixed_cont (cp_reg p) o Tw Tg dv 0 eps He) as (al & Ha & P).
    exists al. split; [exact Ha|]. intros x Hx. specialize (P x).
    rewrite Q in P. apply P. split.
    - split; [exact I|lra].
    - cbn [dist R_met Base]. unfold R_dist. rewrite Rminus_0_r, Rabs_right; lra. }
  destruct (D 0%nat) as (d0 & P0 & Q0). destruct (D 1%nat) as (d1 & P1 & Q1).
  exists (Rmin (cp_whi p) (Rmin d0 d1) * cp_sw p). split.
  { apply Rmult_lt_0_compat; [|exact Sw]. repeat apply Rmin_pos; assumption. }
  intros m Hm. assert (X : m / cp_sw p * cp_sw p = m) by (field; lra).
  set (x := m / cp_sw p) in *.
  pose proof (Rmin_l (cp_whi p) (Rmin d0 d1)). pose proof (Rmin_r (cp_whi p) (Rmin d0 d1)).
  pose proof (Rmin_l d0 d1). pose proof (Rmin_r d0 d1).
  assert (X0 : 0 < x) by (apply (Rmult_lt_reg_r (cp_sw p)); lra).
  assert (X1 : x < Rmin (cp_whi p) (Rmin d0 d1)) by (apply (Rmult_lt_reg_r (cp_sw p)); lra).
  assert (S := solve_running p Tw Tg m dvg dv K E V). fold x in S.
  unfold water_out, gas_out. rewrite S by lra. rewrite Rmin_left by lra.
  unfold join. destruct (Rlt_dec _ _); [lra|]. split; [apply Q0|apply Q1]; lra.
Qed.
Theorem C95_jump_refuted : forall p Tw Tg dvg dv, cpar_ok p -> cp_wlo p = 0 -> 0 < cp_whi p ->
  gas_flow p (dvg / cp_sg p) = Some dv -> dv <> 0 -> Tw <> Tg ->
  water_out p Tw Tg 0 dvg = Tw /\
  forall del, 0 < del -> exists m, 0 < m < del /\
    Rabs (Tg - Tw) / 2 < Rabs (water_out p Tw Tg m dvg - water_out p Tw Tg 0 dvg).
Proof.
  intros p Tw Tg dvg dv K Z H E V N. pose proof K as (KR & Sw & Sg & W & G).
  assert (O : water_out p Tw Tg 0 dvg = Tw).
  { unfold water_out. destruct (cond_solve p Tw Tg 0 dvg) as [[w g]|] eqn:S.
    - apply (C95_standstill p Tw Tg 0 dvg dv K E (or_introl eq_refl) w g S).
      unfold Rdiv. rewrite Rmult_0_l. lra.
    - exfalso. unfold cond_solve in S. rewrite E in S.
      unfold water_flow in S. replace (0 / cp_sw p) with 0 in S by (field; lra).
      destruct (Req_EM_T (cp_wlo p) 0); [|contradiction]. destruct (Rlt_dec _ _); [lra|].
      unfold outlets in S. destruct (Req_EM_T 0 0); [discriminate|lra]. }
  split; [exact O|]. rewrite O. intros del Hd.
  assert (P : 0 < Rabs (Tg - Tw)) by (apply Rabs_pos_lt; lra).
  destruct (C95_limit p Tw Tg dvg dv K Z H E V (Rabs (Tg - Tw) / 2) ltac:(lra)) as (d & D0 & D1).
  pose proof (Rmin_l d del). pose proof (Rmin_r d del). pose proof (Rmin_pos d del D0 Hd).
  exists (Rmin d del / 2). split; [lra|].
  destruct (D1 (Rmin d del / 2) ltac:(lra)) as [A _].
  set (y := water_out p Tw Tg (Rmin d del / 2) dvg) in *. clearbody y.
  unfold Rabs in *. destruct (Rcase_abs (Tg - Tw)), (Rcase_abs (y - Tg)), (Rcase_abs (y - Tw)); lra.
Qed.
Example C95_jump_ex : water_out ex_par 30 100 0 (70 / 3600) = 30.
Proof. apply (C95_jump_refuted ex_par 30 100 (70 / 3600) 1 ex_par_ok); cbn; try lra. apply ex_gas. Qed.
Print Assumptions C95_standstill.
Print Assumptions C95_limit.
Print Assumptions C95_jump_refuted.

(** ** C96: low water flows stay between the edge of the regression and the flue gas inlet *)
Theorem C96_low_flow : forall p Tw Tg dmw dvg dv, cpar_ok p ->
  gas_flow p (dvg / cp_sg p) = Some dv -> dv <> 0 -> 1 / 10 <= cp_whi p ->
  0 < dmw / cp_sw p <= 1 / 10 -> cp_wlo p <= dmw / cp_sw p ->
  between (water_out p Tw Tg (1 / 10 * cp_sw p) dvg) Tg (water_out p Tw Tg dmw dvg) /\
  between (gas_out p Tw Tg (1 / 10 * cp_sw p) dvg) Tg (gas_out p Tw Tg dmw dvg) /\
  (forall m2, dmw <= m2 -> m2 / cp_sw p <= 1 / 10 ->
     between (water_out p Tw Tg m2 dvg) Tg (water_out p Tw Tg dmw dvg)).
Proof.
  intros p Tw Tg dmw dvg dv K E V H X L. pose proof K as (KR & Sw & Sg & W & G).
  assert (R : forall m, 0 < m / cp_sw p <= 1 / 10 -> cp_wlo p <= m / cp_sw p ->
    water_out p Tw Tg m dvg = quad (pipeline (cp_reg p) 0 [Tw; Tg; thresh; dv]) Tg (m / cp_sw p) /\
    gas_out p Tw Tg m dvg = quad (pipeline (cp_reg p) 1 [Tw; Tg; thresh; dv]) Tg (m / cp_sw p)).
  { intros m Hm Lm. unfold water_out, gas_out.
    rewrite (solve_running p Tw Tg m dvg dv) by (try assumption; lra).
    rewrite Rmin_left by lra. unfold join. destruct (Rlt_dec _ _); [lra|].
    unfold unmixed, thresh. destruct (Rlt_dec _ _); [lra|]. split; reflexivity. }
  assert (B : forall a d e, 0 < d <= e -> e <= 1 / 10 -> between (quad a Tg e) Tg (quad a Tg d)).
  { intros a d e D1 D2. rewrite !quad_form. unfold between, Rmin, Rmax.
    assert (0 <= (1 - 10 * e) ^ 2 <= (1 - 10 * d) ^ 2) by nra.
    assert ((1 - 10 * d) ^ 2 <= 1) by nra.
    set (u := (1 - 10 * e) ^ 2) in *. set (v := (1 - 10 * d) ^ 2) in *. clearbody u v.
    destruct (Rle_dec a Tg) as [O|O].
    - assert ((Tg - a) * u <= (Tg - a) * v) by (apply Rmult_le_compat_l; lra).
      assert ((Tg - a) * v <= (Tg - a) * 1) by (apply Rmult_le_compat_l; lra).
      destruct (Rle_dec _ _); lra.
    - assert ((a - Tg) * u <= (a - Tg) * v) by (apply Rmult_le_compat_l; lra).
      assert ((a - Tg) * v <= (a - Tg) * 1) by (apply Rmult_le_compat_l; lra).
      destruct (Rle_dec _ _); lra. }
  assert (T : 1 / 10 * cp_sw p / cp_sw p = 1 / 10) by (field; lra).
  destruct (R dmw X L) as [-> ->].
  destruct (R (1 / 10 * cp_sw p)) as [-> ->]; try (rewrite T; lra).
  rewrite T. split; [apply B; lra|]. split; [apply B; lra|].
  intros m2 M1 M2. assert (dmw / cp_sw p <= m2 / cp_sw p).
  { apply Rmult_le_compat_r; [|exact M1]. apply Rlt_le, Rinv_0_lt_compat, Sw. }
  destruct (R m2) as [-> _]; try lra. apply B; lra.
Qed.
Example C96_ex : between (water_out ex_par 30 100 (1 / 10 * (1 / 10)) (70 / 3600)) 100
  (water_out ex_par 30 100 (5 / 1000) (70 / 3600)).
Proof. apply (C96_low_flow ex_par 30 100 (5 / 1000) (70 / 3600) 1 ex_par_ok ex_gas); cbn; lra. Qed.
Print Assumptions C96_low_flow.

(** The constructor accepts exactly positive scales and ordered ranges without negative flows, and
    what it accepts meets the conditions of the theorems below. *)
Theorem C97_made : forall r mg mw wlo whi glo ghi, reg_ok r ->
  (forall p, make_cpar r mg mw wlo whi glo ghi = Some p -> cpar_ok p /\
     cp_wlo p = wlo /\ cp_whi p = whi /\ cp_glo p = glo /\ cp_ghi p = ghi) /\
  ((exists p, make_cpar r mg mw wlo whi glo ghi = Some p) <->
   0 < mg /\ 0 < mw /\ 0 <= wlo <= whi /\ 0 <= glo <= ghi).
Proof.
  intros r mg mw wlo whi glo ghi K. unfold make_cpar.
  destruct (Rlt_dec 0 mg) as [A|A]; [|split; [discriminate|split; [intros [p E]; discriminate|lra]]].
  destruct (Rlt_dec 0 mw) as [B|B]; [|split; [discriminate|split; [intros [p E]; discriminate|lra]]].
  destruct (Rle_dec 0 glo) as [C|C]; [|split; [discriminate|split; [intros [p E]; discriminate|lra]]].
  destruct (Rle_dec glo ghi) as [D|D]; [|split; [discriminate|split; [intros [p E]; discriminate|lra]]].
  destruct (Rle_dec 0 wlo) as [F|F]; [|split; [discriminate|split; [intros [p E]; discriminate|lra]]].
  destruct (Rle_dec wlo whi) as [G|G]; [|split; [discriminate|split; [intros [p E]; discriminate|lra]]].
  split; [|split; [lra|eauto]].
  intros p E. injection E as <-. cbn. split; [|repeat split; reflexivity].
  unfold cpar_ok. cbn. split; [exact K|]. split; [nra|lra].
Qed.
Print Assumptions C97_made.

(** ** C97: the exchanger is only run with flows of its range *)
(** Of a water flow that is not negative, the part through the exchanger and the bypassed part
    add up to the flow if it is not below the range; the part through the exchanger is 0 or in
    the range; below the range it is the nearer of 0 and the lower bound. *)
Theorem C97_water : forall p x dm byp, cpar_ok p -> 0 <= x -> water_flow p x = (dm, byp) ->
  (dm = 0 \/ cp_wlo p <= dm <= cp_whi p) /\
  (cp_wlo p <= x -> dm + match byp with Some e => e | None => 0 end = x) /\
  (byp <> None <-> cp_whi p < x) /\
  (x < cp_wlo p -> Rabs (x - dm) <= Rabs (x - 0) /\ Rabs (x - dm) <= Rabs (x - cp_wlo p)).
Proof.
  intros p x dm byp K X E. pose proof K as (KR & Sw & Sg & W & G). unfold water_flow in E.
  destruct (Req_EM_T (cp_wlo p) 0) as [Z|Z].
  - destruct (Rlt_dec (cp_whi p) x) as [H|H]; injection E as <- <-;
      (split; [right; lra|]); (split; [intros _; lra|]); (split; [split; intros Q; congruence || lra|lra]).
  - destruct (Rlt_dec x (cp_wlo p)) as [L|L].
    + injection E as <- <-. destruct (low_cases (cp_wlo p) x ltac:(lra) ltac:(lra)) as [[-> A]|[-> A]].
      * split; [now left|]. split; [lra|]. split; [split; intros Q; congruence || lra|].
        intros _. split; [lra|]. rewrite Rminus_0_r. rewrite Rabs_right by lra. rewrite Rabs_left1 by lra. lra.
      * split; [right; lra|]. split; [lra|]. split; [split; intros Q; congruence || lra|].
        intros _. split; [|lra]. rewrite Rminus_0_r. rewrite (Rabs_right x) by lra. rewrite Rabs_left1 by lra. lra.
    + destruct (Rlt_dec (cp_whi p) x) as [H|H]; injection E as <- <-;
      (split; [right; lra|]); (split; [intros _; lra|]); (split; [split; intros Q; congruence || lra|lra]).
Qed.
(** The same for the flue gas, which is not bypassed: higher flows raise. *)
Theorem C97_gas : forall p x, cpar_ok p -> 0 <= x ->
  (gas_flow p x = None <-> cp_ghi p < x) /\
  forall dv, gas_flow p x = Some dv ->
  (dv = 0 \/ cp_glo p <= dv <= cp_ghi p) /\ (cp_glo p <= x -> dv = x) /\
  (x < cp_glo p -> Rabs (x - dv) <= Rabs (x - 0) /\ Rabs (x - dv) <= Rabs (x - cp_glo p)).
Proof.
  intros p x K X. pose proof K as (KR & Sw & Sg & W & G). unfold gas_flow.
  destruct (Req_EM_T (cp_glo p) 0) as [Z|Z].
  - destruct (Rlt_dec (cp_ghi p) x) as [H|H]; (split; [split; intros Q; congruence || lra|]);
      intros dv E; [discriminate|]. injection E as <-. split; [right; lra|]. split; [reflexivity|lra].
  - destruct (Rlt_dec x (cp_glo p)) as [L|L].
    + split; [split; intros Q; congruence || lra|]. intros dv E. injection E as <-.
      destruct (low_cases (cp_glo p) x ltac:(lra) ltac:(lra)) as [[-> A]|[-> A]].
      * split; [now left|]. split; [lra|].
        intros _. split; [lra|]. rewrite Rminus_0_r. rewrite Rabs_right by lra. rewrite Rabs_left1 by lra. lra.
      * split; [right; lra|]. split; [lra|].
        intros _. split; [|lra]. rewrite Rminus_0_r. rewrite (Rabs_right x) by lra. rewrite Rabs_left1 by lra. lra.
    + destruct (Rlt_dec (cp_ghi p) x) as [H|H]; (split; [split; intros Q; congruence || lra|]);
        intros dv E; [discriminate|]. injection E as <-. split; [right; lra|]. split; [reflexivity|lra].
Qed.
Example C97_ex : gas_flow ex_par (15 / 100) = Some 0 /\ gas_flow ex_par (2 / 10) = Some 0 /\
  gas_flow ex_par (25 / 100) = Some (4 / 10) /\ gas_flow ex_par 2 = None /\
  water_flow ex_par 2 = (105 / 100, Some (2 - 105 / 100)).
Proof.
  assert (N : forall x z, Rabs (x - IZR z) < 1 / 2 -> rnd x = z).
  { intros x z H. pose proof (rnd_near x) as Q.
    assert (IZR z - 1 < IZR (rnd x) < IZR z + 1) by (unfold Rabs in H; destruct (Rcase_abs _); lra).
    assert (z - 1 < rnd x)%Z by (apply lt_IZR; rewrite minus_IZR; lra).
    assert (rnd x < z + 1)%Z by (apply lt_IZR; rewrite plus_IZR; lra). lia. }
  assert (A : forall x z, x < 4 / 10 -> rnd (x / (4 / 10)) = z -> gas_flow ex_par x = Some (IZR z * (4 / 10))).
  { intros x z H <-. unfold gas_flow, low. cbn [ex_par cp_glo cp_ghi].
    destruct (Req_EM_T _ _); [lra|]. destruct (Rlt_dec _ _); [reflexivity|lra]. }
  repeat split.
  - rewrite (A _ 0%Z); [f_equal; lra|lra|]. apply N. unfold Rabs. destruct (Rcase_abs _); lra.
  - rewrite (A _ 0%Z); [f_equal; lra|lra|].
    replace (2 / 10 / (4 / 10)) with (1 / 2) by lra. unfold rnd.
    assert (I : Int_part (1 / 2) = 0%Z).
    { pose proof (base_Int_part (1 / 2)) as [P Q].
      assert (- 1 < Int_part (1 / 2))%Z by (apply lt_IZR; lra).
      assert (Int_part (1 / 2) < 1)%Z by (apply lt_IZR; lra). lia. }
    rewrite I. destruct (Rlt_dec _ _); [lra|]. destruct (Rlt_dec _ _); [lra|reflexivity].
  - rewrite (A _ 1%Z); [f_equal; lra|lra|]. apply N. unfold Rabs. destruct (Rcase_abs _); lra.
  - unfold gas_flow. cbn [ex_par cp_glo cp_ghi]. destruct (Req_EM_T _ _); [lra|].
    destruct (Rlt_dec _ _); [lra|]. destruct (Rlt_dec _ _); [reflexivity|lra].
  - unfold water_flow. cbn [ex_par cp_wlo cp_whi]. destruct (Req_EM_T _ _); [|lra].
    destruct (Rlt_dec _ _); [reflexivity|lra].
Qed.
Print Assumptions C97_water.
Print Assumptions C97_gas.

(** ** C98: reversed flows *)
(** The check after the run refuses every run with a reversed flow. *)
Theorem C98_check_partial : forall p ins rs Tw Tg dmw dvg, cond_run p ins = Some rs ->
  In (Tw, Tg, dmw, dvg) ins -> dmw < 0 \/ dvg < 0 -> ~ check_results p rs.
Proof.
  intros p ins. induction ins as [|[[[a b] c] d] ins IH]; intros rs Tw Tg dmw dvg E H N C; [contradiction|].
  cbn [cond_run] in E. destruct (cond_solve p a b c d) as [[w g]|]; [|discriminate].
  destruct (cond_run p ins) as [rs'|]; [|discriminate]. injection E as <-.
  apply Forall_inv_tail in C as C2. apply Forall_inv in C as C1. cbn in C1.
  destruct H as [H|H].
  - injection H as -> -> -> ->. lra.
  - exact (IH rs' Tw Tg dmw dvg eq_refl H N C2).
Qed.
Example C98_ex : exists rs, cond_run ex_par [(30, 100, - (1 / 10), 70 / 3600)] = Some rs /\
  ~ check_results ex_par rs.
Proof.
  assert (Q : exists w, cond_solve ex_par 30 100 (- (1 / 10)) (70 / 3600) = Some w).
  { unfold cond_solve. rewrite ex_gas. unfold water_flow. cbn [ex_par cp_wlo cp_whi cp_sw cp_reg].
    destruct (Req_EM_T 0 0); [|lra]. destruct (Rlt_dec _ _); [lra|].
    rewrite outlets_is by (try apply ex_reg_ok; lra). eauto. }
  destruct Q as [[w g] Q]. eexists. split.
  - cbn [cond_run]. rewrite Q. reflexivity.
  - apply (C98_check_partial ex_par [(30, 100, - (1 / 10), 70 / 3600)] _ 30 100 (- (1 / 10)) (70 / 3600));
      [cbn [cond_run]; rewrite Q; reflexivity|now left|lra].
Qed.
(** During the run nothing stops a reversed water flow (a flue gas flow above its range raises at
    once), and the outlet temperature passes every bound: for all ranges, and all pipelines
    predicting less than the flue gas inlet temperature at the threshold. *)
Theorem C98_reversed_refuted : forall p Tw Tg dvg dv bound, cpar_ok p ->
  gas_flow p (dvg / cp_sg p) = Some dv -> dv <> 0 ->
  pipeline (cp_reg p) 0 [Tw; Tg; 1 / 10; dv] < Tg ->
  exists dmw, dmw < 0 /\ bound < water_out p Tw Tg dmw dvg.
Proof.
  intros p Tw Tg dvg dv bound K E V A. pose proof K as (KR & Sw & Sg & W & G).
  fold thresh in A. set (a := pipeline (cp_reg p) 0 [Tw; Tg; thresh; dv]) in *.
  (* flows passed on unchanged *)
  assert (U : forall k, (0 < k)%Z -> exists x, water_flow p x = (x, None) /\
    x = - (if Req_EM_T (cp_wlo p) 0 then 1 else cp_wlo p) * IZR k).
  { intros k Hk. eexists. split; [|reflexivity]. apply IZR_lt in Hk.
    unfold water_flow. destruct (Req_EM_T (cp_wlo p) 0) as [Z|Z].
    - destruct (Rlt_dec _ _); [nra|reflexivity].
    - destruct (Rlt_dec _ _) as [L|L]; [|nra]. unfold low. f_equal.
      replace (- cp_wlo p * IZR k / cp_wlo p) with (IZR (- k)) by (rewrite opp_IZR; field; lra).
      rewrite rnd_IZR, opp_IZR. ring. }
  set (s := if Req_EM_T (cp_wlo p) 0 then 1 else cp_wlo p) in *.
  assert (S : 0 < s) by (unfold s; destruct (Req_EM_T _ _); lra).
  set (need := (Rabs (bound - a) / (Tg - a) + 1) / s).
  set (k := up (Rabs need)).
  assert (KB : Rabs need < IZR k) by apply archimed.
  pose proof (Rabs_pos need) as Np.
  assert (Kp : (0 < k)%Z) by (apply lt_IZR; lra).
  destruct (U k Kp) as (x & WX & EX).
  assert (X0 : x < 0) by (rewrite EX; apply IZR_lt in Kp; nra).
  exists (x * cp_sw p). split; [nra|].
  assert (Q : x * cp_sw p / cp_sw p = x) by (field; lra).
  unfold water_out, cond_solve. rewrite Q, WX, E, outlets_is by (try assumption; lra).
  unfold unmixed. destruct (Rlt_dec thresh x) as [T|T]; [unfold thresh in T; lra|].
  fold a. rewrite quad_form.
  assert (XB : Rabs (bound - a) / (Tg - a) + 1 < - x).
  { rewrite EX. pose proof (Rle_abs need). assert (NS : need * s = Rabs (bound - a) / (Tg - a) + 1)
      by (unfold need; field; lra). rewrite <- NS. nra. }
  set (q := Rabs (bound - a) / (Tg - a)) in *.
  assert (QM : q * (Tg - a) = Rabs (bound - a)) by (unfold q; field; lra).
  assert (Q0 : 0 <= q) by (apply Rle_mult_inv_pos; [apply Rabs_pos|lra]).
  pose proof (Rle_abs (bound - a)) as RB.
  assert (q < (1 - 10 * x) ^ 2) by nra.
  nra.
Qed.
Example C98_reversed_ex : exists dmw, dmw < 0 /\ 1000 < water_out ex_par 30 100 dmw (70 / 3600).
Proof.
  apply (C98_reversed_refuted ex_par 30 100 (70 / 3600) 1 1000 ex_par_ok ex_gas); [lra|].
  cbn [ex_par cp_reg]. destruct (ex_reg_at 30 100 (1 / 10) 1) as [-> _]. lra.
Qed.
Print Assumptions C98_check_partial.
Print Assumptions C98_reversed_refuted.

(** ** C99: the check after the run accepts what the run accepted *)
(** Flows not negative, flue gas flows strictly below the upper end of the range and temperatures
    strictly between 0 and 150 are necessary and sufficient. *)
Theorem C99_accept_partial : forall p ins rs, cond_run p ins = Some rs ->
  (forall Tw Tg dmw dvg, In (Tw, Tg, dmw, dvg) ins ->
     0 < Tw < 150 /\ 0 < Tg < 150 /\ 0 <= dmw /\ 0 <= dvg /\ dvg / cp_sg p < cp_ghi p /\
     0 < water_out p Tw Tg dmw dvg < 150 /\ 0 < gas_out p Tw Tg dmw dvg < 150) <->
  check_results p rs.
Proof.
  intros p ins. induction ins as [|[[[a b] c] d] ins IH]; intros rs E.
  - injection E as <-. split; [constructor|]. intros _ ? ? ? ? [].
  - cbn [cond_run] in E. destruct (cond_solve p a b c d) as [[w g]|] eqn:S; [|discriminate].
    destruct (cond_run p ins) as [rs'|]; [|discriminate]. injection E as <-.
    specialize (IH rs' eq_refl). split.
    + intros H. constructor.
      * specialize (H a b c d (or_introl eq_refl)). unfold water_out, gas_out in H. rewrite S in H. cbn. tauto.
      * apply IH. intros. apply H. now right.
    + intros C Tw Tg dmw dvg [H|H].
      * injection H as -> -> -> ->. apply Forall_inv in C. cbn in C. unfold water_out, gas_out. rewrite S. tauto.
      * apply Forall_inv_tail in C. exact (proj2 IH C Tw Tg dmw dvg H).
Qed.
(** The run accepts a flue gas flow at the upper end of its range, the check never does: with the
    range given up to 1, a run at rated flow is refused afterwards. *)
Theorem C99_rated_refuted : forall p Tw Tg dmw, cpar_ok p -> 0 < cp_ghi p ->
  0 <= dmw / cp_sw p <= cp_whi p ->
  exists rs, cond_run p [(Tw, Tg, dmw, cp_ghi p * cp_sg p)] = Some rs /\ ~ check_results p rs.
Proof.
  intros p Tw Tg dmw K H X. pose proof K as (KR & Sw & Sg & W & G).
  assert (Q : cp_ghi p * cp_sg p / cp_sg p = cp_ghi p) by (field; lra).
  assert (S : exists w, cond_solve p Tw Tg dmw (cp_ghi p * cp_sg p) = Some w).
  { unfold cond_solve. rewrite Q.
    assert (gas_flow p (cp_ghi p) = Some (cp_ghi p)) as ->.
    { unfold gas_flow. destruct (Req_EM_T _ _); [|destruct (Rlt_dec _ _); [lra|]];
        (destruct (Rlt_dec _ _); [lra|reflexivity]). }
    destruct (water_flow p (dmw / cp_sw p)) as [dm byp].
    destruct (Req_dec dm 0) as [Z|Z].
    - unfold outlets. destruct (Req_EM_T dm 0); [eauto|contradiction].
    - rewrite outlets_is by (try assumption; lra). eauto. }
  destruct S as [[w g] S]. eexists. split.
  - cbn [cond_run]. rewrite S. reflexivity.
  - intros C. apply Forall_inv in C. cbn in C. rewrite Q in C. lra.
Qed.
Example C99_ex : exists rs, cond_run ex_par [(30, 100, 5 / 100, 70 / 3600)] = Some rs /\ check_results ex_par rs.
Proof.
  assert (S : cond_solve ex_par 30 100 (5 / 100) (70 / 3600) = Some (30, 45)).
  { rewrite (solve_running ex_par 30 100 _ _ 1 ex_par_ok ex_gas) by (cbn; lra).
    unfold join. cbn [ex_par cp_whi cp_sw cp_reg]. rewrite Rmin_left by lra.
    destruct (Rlt_dec _ _); [lra|]. unfold unmixed, thresh. destruct (Rlt_dec _ _); [|lra].
    destruct (ex_reg_at 30 100 (5 / 100 / (1 / 10)) 1) as [-> ->]. do 2 f_equal; lra. }
  eexists. split; [cbn [cond_run]; rewrite S; reflexivity|].
  constructor; [|constructor]. cbn. lra.
Qed.
Print Assumptions C99_accept_partial.
Print Assumptions C99_rated_refuted.

(** ** C100: mixing with the bypassed water *)
(** The mixture lies between the water inlet and the exchanger's outlet, and carries the heat both
    bring if the mixture is given the mean heat capacity. *)
Theorem C100_bypass_partial : forall p Tw Tg dmw dvg dv, cpar_ok p -> 0 < cp_whi p ->
  gas_flow p (dvg / cp_sg p) = Some dv -> dv <> 0 -> cp_whi p < dmw / cp_sw p -> 0 <= Tw <= 100 ->
  let Tx := water_out p Tw Tg (cp_whi p * cp_sw p) dvg in
  0 <= Tx <= 100 ->
  let T := water_out p Tw Tg dmw dvg in
  between Tw Tx T /\
  let b := dmw - cp_whi p * cp_sw p in
  let h := cp_whi p * cp_sw p in
  b * cp_water Tw * Tw + h * cp_water Tx * Tx = (b * cp_water Tw + h * cp_water Tx) * T.
Proof.
  intros p Tw Tg dmw dvg dv K H E V X RT Tx RX T. pose proof K as (KR & Sw & Sg & W & G).
  assert (TX : Tx = unmixed (cp_reg p) 0 Tw Tg dv (cp_whi p)).
  { unfold Tx, water_out. assert (Q : cp_whi p * cp_sw p / cp_sw p = cp_whi p) by (field; lra).
    rewrite (solve_running p Tw Tg _ dvg dv) by (try assumption; rewrite Q; lra).
    rewrite Q. unfold join. destruct (Rlt_dec (cp_whi p) (cp_whi p)); [lra|reflexivity]. }
  assert (TT : T = mix_bypass Tw Tx (dmw / cp_sw p - cp_whi p) (cp_whi p)).
  { unfold T, water_out. rewrite (solve_running p Tw Tg dmw dvg dv) by (try assumption; lra).
    unfold join. destruct (Rlt_dec _ _); [|lra]. unfold mixed. now rewrite <- TX. }
  pose proof (cp_bounds Tw RT) as C1. pose proof (cp_bounds Tx RX) as C2.
  clearbody T Tx. subst T. split; [apply mix_between; lra|].
  cbv zeta. unfold mix_bypass.
  assert (0 < cp_water Tw * (dmw / cp_sw p - cp_whi p)) by (apply Rmult_lt_0_compat; lra).
  assert (0 < cp_water Tx * cp_whi p) by (apply Rmult_lt_0_compat; lra).
  set (x := dmw / cp_sw p) in *. assert (DX : dmw = x * cp_sw p) by (unfold x; field; lra).
  rewrite DX. clearbody x. field. lra.
Qed.
(** Measured with the heat capacity of the mixture itself, as the heat meters do, heat is lost or
    gained. *)
Theorem C100_enthalpy_refuted : exists Tw Tx ex through, 0 < ex /\ 0 < through /\ 0 <= Tw <= 100 /\
  0 <= Tx <= 100 /\
  ~ exact_mix ex Tw through Tx (mix_bypass Tw Tx ex through).
Proof.
  exists 0, 100, (cp_water 100), (cp_water 0).
  pose proof (cp_bounds 0 ltac:(lra)) as A. pose proof (cp_bounds 100 ltac:(lra)) as B.
  repeat split; try lra.
  assert (M : mix_bypass 0 100 (cp_water 100) (cp_water 0) = 50).
  { unfold mix_bypass. set (u := cp_water 0) in *. set (v := cp_water 100) in *. clearbody u v.
    assert (0 < u * v) by (apply Rmult_lt_0_compat; lra). field. nra. }
  rewrite M. unfold exact_mix, hflow. intros Q.
  assert (P : 2 * (cp_water 0 * cp_water 100) = (cp_water 100 + cp_water 0) * cp_water 50) by lra.
  revert P. unfold cp_water. lra.
Qed.
Print Assumptions C100_bypass_partial.
Print Assumptions C100_enthalpy_refuted.
