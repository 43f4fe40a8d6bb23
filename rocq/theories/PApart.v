(** C183: networks without connection in one simulation environment do not influence each other. *)
From Coq Require Import Reals List Arith ZArith Lra Lia.
From Verif Require Import MSolver MHeun SHeun LHeun LSolver SApart LApart.
Import ListNotations.
Local Open Scope R_scope.

Section P.
Context {Buf : Type}.
Implicit Types A B : model Buf.

(** One attempt of the common environment is, for each network, its own attempt with the same step
    size; ports, results and working arrays of the networks stay side by side. *)
Theorem C183_step n A B h a b m' ds e : fits n A a -> shaped B b ->
  mo_rtol A = mo_rtol B -> mo_atol A = mo_atol B ->
  num_attempt (both n A B) h (both_mem a b) = (m', OStable ds e) ->
  exists a' da ea b' db eb,
    num_attempt A h a = (a', OStable da ea) /\ num_attempt B h b = (b', OStable db eb) /\
    m' = both_mem a' b' /\ ds = da ++ db.
Proof.
  intros F S0 R1 R2 H. destruct (stable_both n A B h a b m' ds e F S0 R1 R2 H)
    as (a'&da&ea&b'&db&eb&H1&H2&H3&H4&_).
  exists a', da, ea, b', db, eb. repeat split; assumption.
Qed.
Print Assumptions C183_step.

(** Over any number of attempts, accepted or rejected: the networks go through the states which
    they go through alone with the same step sizes. *)
Theorem C183_course_partial n k A B l a b m' : fits n A a -> fits k B b ->
  mo_rtol A = mo_rtol B -> mo_atol A = mo_atol B ->
  course (both n A B) l (both_mem a b) m' ->
  exists a' b', m' = both_mem a' b' /\ course A l a a' /\ course B l b b'.
Proof. intros F G R1 R2 H. exact (course_both n k A B l R1 R2 a b m' F G H). Qed.
Print Assumptions C183_course_partial.

(** Parts whose differential does not read working arrays: whatever the solver rejected before, an
    accepted step of the common environment writes for each network the row of one undisturbed
    step of this network alone. *)
Theorem C183_solver_partial n A B fa fb c fuel a b s u m' s' :
  Forall2 pure_part (mo_e A) fa -> Forall2 pure_part (mo_e B) fb -> fits n A a -> shaped B b ->
  heun_adaptive (both n A B) c fuel (both_mem a b) s = FAccepted u m' s' ->
  exists rA nA iA pA rB nB iB pB,
    clean_step fa (mo_n A) (mo_i A) (update_ports (mo_ports A)) u (m_prevE a) (m_prevI a) (m_ports a)
      = (rA, nA, iA, pA) /\
    clean_step fb (mo_n B) (mo_i B) (update_ports (mo_ports B)) u (m_prevE b) (m_prevI b) (m_ports b)
      = (rB, nB, iB, pB) /\
    m_resE m' = rA ++ rB /\ m_nres m' = nA ++ nB /\ m_ires m' = iA ++ iB /\ m_ports m' = pA ++ pB.
Proof.
  intros PA PB (SA & LP & LB & W) SB H.
  pose proof SA as (A1&A2&A3&A4&A5&A6&A7). pose proof SB as (B1&B2&B3&B4&B5&B6&B7).
  destruct (heun_adaptive_clean (both n A B) c (map (first_s n) fa ++ map (second_s n) fb) fuel
    (both_mem a b) s u m' s' (pure_both n A B fa fb PA PB)) as [Q _]; [|exact H|].
  { unfold shaped. cbn [both both_mem mo_e mo_i m_prevE m_T m_df0 m_df1 m_resE m_buf m_prevI].
    rewrite !app_length, !map_length. repeat split; lia. }
  cbn [both_mem m_prevE m_prevI m_ports] in Q.
  assert (LF : length fa = length (mo_e A)) by (clear - PA; induction PA; cbn; congruence).
  rewrite clean_both in Q; try assumption; try lia.
  destruct (clean_step fa (mo_n A) (mo_i A) (update_ports (mo_ports A)) u (m_prevE a) (m_prevI a) (m_ports a))
    as [[[rA nA] iA] pA].
  destruct (clean_step fb (mo_n B) (mo_i B) (update_ports (mo_ports B)) u (m_prevE b) (m_prevI b) (m_ports b))
    as [[[rB nB] iB] pB].
  inversion Q. exists rA, nA, iA, pA, rB, nB, iB, pB. repeat split; congruence.
Qed.
Print Assumptions C183_solver_partial.

Lemma err_nonneg (ps : list (epart Buf)) rtol atol h ports : forall prev T df0 df1 res buf e, 0 <= e ->
  0 <= snd (correct rtol atol h ports ps prev T df0 df1 res buf e).
Proof.
  assert (Q : forall res T w prev, 0 <= trnc_err rtol atol res T w prev).
  { induction res as [|r res IH]; intros T w prev; [cbn; lra|].
    destruct T as [|t T]; [cbn; lra|]. destruct w as [|x w]; [cbn; lra|]. destruct prev as [|y prev]; [cbn; lra|].
    cbn [trnc_err]. specialize (IH T w prev). pose proof (pow2_ge_0 ((r - t) * x / (Rmax y r * rtol + atol))). lra. }
  induction ps as [|p ps IH]; intros prev T df0 df1 res buf e E; [exact E|].
  destruct prev as [|y prev]; [exact E|]. destruct T as [|t T]; [exact E|]. destruct df0 as [|d0 df0]; [exact E|].
  destruct df1 as [|d1 df1]; [exact E|]. destruct res as [|r res]; [exact E|]. destruct buf as [|b buf]; [exact E|].
  cbn [correct]. destruct (ep_diff p h ports t b) as [[dd br] b1].
  pose proof (Q (vadd y (vscale (h / 2) (vadd d0 dd))) t (ep_weight p) y) as Q1.
  specialize (IH prev T df0 df1 res buf _ (Rplus_le_le_0_compat _ _ E Q1)).
  destruct (correct rtol atol h ports ps prev T df0 df1 res buf _) as [[[[[? ?] ?] ?] ?] ?]. exact IH.
Qed.
Lemma attempt_err_nonneg (mo : model Buf) h m : 0 <= attempt_err mo h m.
Proof.
  unfold attempt_err.
  destruct (predict h (m_ports m) (mo_e mo) (m_prevE m) (m_T m) (m_df0 m) (m_buf m)) as [[[T1 df0] b1] r].
  apply err_nonneg. lra.
Qed.

(** The squared error of the common attempt is the mean of the squared errors of the networks,
    weighted with their numbers of cells: accepted if both networks alone accept the step, not
    accepted if both reject it. *)
Theorem C183_error n A B h a b a' b' da db ea eb : fits n A a -> shaped B b ->
  mo_rtol A = mo_rtol B -> mo_atol A = mo_atol B -> 0 < mo_cells A -> 0 < mo_cells B ->
  num_attempt A h a = (a', OStable da (ENum ea)) -> num_attempt B h b = (b', OStable db (ENum eb)) ->
  exists e, num_attempt (both n A B) h (both_mem a b) = (both_mem a' b', OStable (da ++ db) (ENum e)) /\
    0 <= e /\ e * e * (mo_cells A + mo_cells B) = ea * ea * mo_cells A + eb * eb * mo_cells B /\
    (ea < 1 -> eb < 1 -> e < 1) /\ (1 <= ea -> 1 <= eb -> 1 <= e).
Proof.
  intros F S0 R1 R2 CA CB HA HB.
  rewrite (attempt_both n A B h a b a' b' da db (ENum ea) (ENum eb) F S0 R1 R2 HA HB).
  apply attempt_err_is in HA. apply attempt_err_is in HB. unfold sys_err in *.
  inversion HA as [EA]. inversion HB as [EB]. cbn [both mo_cells].
  pose proof (attempt_err_nonneg A h a) as NA. pose proof (attempt_err_nonneg B h b) as NB.
  rewrite <- EA, <- EB.
  set (x := attempt_err A h a) in *. set (y := attempt_err B h b) in *. clearbody x y.
  assert (XA : ea * ea * mo_cells A = x).
  { rewrite EA, sqrt_sqrt; [field; lra|]. apply Rmult_le_pos; [exact NA|]. left. apply Rinv_0_lt_compat, CA. }
  assert (XB : eb * eb * mo_cells B = y).
  { rewrite EB, sqrt_sqrt; [field; lra|]. apply Rmult_le_pos; [exact NB|]. left. apply Rinv_0_lt_compat, CB. }
  assert (PA : 0 <= ea) by (rewrite EA; apply sqrt_pos). assert (PB : 0 <= eb) by (rewrite EB; apply sqrt_pos).
  set (e := sqrt ((x + y) / (mo_cells A + mo_cells B))).
  assert (PE : 0 <= e) by apply sqrt_pos.
  assert (XE : e * e * (mo_cells A + mo_cells B) = ea * ea * mo_cells A + eb * eb * mo_cells B).
  { unfold e. rewrite sqrt_sqrt; [rewrite XA, XB; field; lra|]. apply Rmult_le_pos; [lra|].
    left. apply Rinv_0_lt_compat. lra. }
  exists e. clearbody e. split; [reflexivity|]. split; [exact PE|]. split; [exact XE|]. split; intros U V.
  - apply Rnot_le_lt. intro W.
    assert (QA : ea * ea < 1) by nra. assert (QB : eb * eb < 1) by nra. assert (QE : 1 <= e * e) by nra.
    pose proof (Rmult_lt_compat_r (mo_cells A) _ _ CA QA). pose proof (Rmult_lt_compat_r (mo_cells B) _ _ CB QB).
    pose proof (Rmult_le_compat_r (mo_cells A + mo_cells B) _ _ ltac:(lra) QE). lra.
  - apply Rnot_lt_le. intro W.
    assert (QA : 1 <= ea * ea) by nra. assert (QB : 1 <= eb * eb) by nra. assert (QE : e * e < 1) by nra.
    pose proof (Rmult_le_compat_r (mo_cells A) _ _ (Rlt_le _ _ CA) QA).
    pose proof (Rmult_le_compat_r (mo_cells B) _ _ (Rlt_le _ _ CB) QB).
    pose proof (Rmult_lt_compat_r (mo_cells A + mo_cells B) _ _ ltac:(lra) QE). lra.
Qed.
Print Assumptions C183_error.

Lemma trnc_rest rtol atol T k : trnc_err rtol atol (repeat T k) (repeat T k) (repeat 1 k) (repeat T k) = 0.
Proof.
  induction k as [|k IH]; [reflexivity|]. cbn [repeat trnc_err]. rewrite IH.
  replace ((T - T) * 1 / (Rmax T T * rtol + atol)) with 0 by (unfold Rdiv; ring). ring.
Qed.
Lemma vec_rest T h k : vadd (repeat T k) (vscale h (repeat 0 k)) = repeat T k.
Proof.
  induction k as [|k IH]; [reflexivity|]. cbn. f_equal; [lra|exact IH].
Qed.
Lemma zero_rest k : vadd (repeat 0 k) (repeat 0 k) = repeat 0 k.
Proof. induction k as [|k IH]; [reflexivity|]. cbn. f_equal; [lra|exact IH]. Qed.
Lemma rest_stays k bf rtol atol T h :
  num_attempt (at_rest (Buf := Buf) k bf rtol atol) h (rest_mem k bf T)
  = (rest_mem k bf T, OStable [] (sys_err (at_rest k bf rtol atol) 0)).
Proof.
  unfold num_attempt. cbn. rewrite vec_rest, zero_rest, vec_rest, trnc_rest, Rplus_0_l. reflexivity.
Qed.

(** A network gets results which the tolerances exclude when it is simulated alone: every step
    rejected for its error (4144-4163) is accepted as soon as enough cells at rest, without any
    connection to it, are part of the environment; the row written is the rejected one. *)
Theorem C183_tolerance_refuted n A c s a a' e bf T : fits n A a -> 0 < mo_cells A -> 1 <= e ->
  s_h s <> c_min_step c -> num_attempt A (s_h s) a = (a', OStable [] (ENum e)) ->
  (exists s1, attempt c s (OStable [] (ENum e)) = ARetry s1) /\
  exists k0, forall k, (k0 <= k)%nat -> exists e' code s2,
    num_attempt (both n A (at_rest k bf (mo_rtol A) (mo_atol A))) (s_h s) (both_mem a (rest_mem k bf T))
      = (both_mem a' (rest_mem k bf T), OStable [] (ENum e')) /\
    attempt c s (OStable [] (ENum e')) = AAccept (s_h s) code s2 /\
    m_resE (both_mem a' (rest_mem k bf T)) = m_resE a' ++ [repeat T k].
Proof.
  intros F CA E NM HA. split.
  { unfold attempt. cbn [fold_left]. destruct (Rlt_dec 0 e) as [P|N]; [|lra].
    destruct (Rlt_dec e 1) as [Q|Q]; [lra|]. destruct (Req_EM_T (s_h s) (c_min_step c)) as [X|X]; [contradiction|].
    eexists; reflexivity. }
  assert (PE : 0 < e * e * mo_cells A) by (apply Rmult_lt_0_compat; nra).
  assert (EX : exists k0 : nat, 1 + e * e * mo_cells A < INR k0).
  { exists (Z.to_nat (up (1 + e * e * mo_cells A))). destruct (archimed (1 + e * e * mo_cells A)) as [U _].
    rewrite INR_IZR_INZ, Z2Nat.id; [lra|]. apply le_IZR. lra. }
  destruct EX as (k0 & K3).
  exists k0. intros k K.
  assert (K4 : INR k0 <= INR k) by (apply le_INR; exact K).
  assert (HB := rest_stays k bf (mo_rtol A) (mo_atol A) T (s_h s)).
  assert (Z : sys_err (at_rest k bf (mo_rtol A) (mo_atol A)) 0 = ENum 0).
  { unfold sys_err. unfold Rdiv. rewrite Rmult_0_l, sqrt_0. reflexivity. }
  rewrite Z in HB.
  assert (SB : shaped (at_rest k bf (mo_rtol A) (mo_atol A)) (rest_mem k bf T)) by (repeat split; reflexivity).
  destruct (C183_error n A _ (s_h s) a _ a' _ [] [] e 0 F SB eq_refl eq_refl CA ltac:(cbn [at_rest mo_cells]; lra) HA HB)
    as (e' & H1 & H2 & H3 & _ & _).
  cbn [at_rest mo_cells] in H3. cbn [app] in H1.
  assert (P1 : 0 < e'). { destruct H2 as [H2|H2]; [exact H2|]. exfalso. subst e'. lra. }
  assert (P2 : e' < 1). { apply Rnot_le_lt. intro W. assert (1 <= e' * e') by nra. nra. }
  exists e'. eexists. eexists. split; [exact H1|]. split; [|reflexivity].
  unfold attempt. cbn [fold_left]. destruct (Rlt_dec 0 e') as [P|N]; [|contradiction].
  destruct (Rlt_dec e' 1) as [Q|Q]; [|contradiction]. reflexivity.
Qed.
Print Assumptions C183_tolerance_refuted.
End P.

(** A cell cooling from 100 to 20 degrees at a tenth per second and sixteen cells at rest. *)
Definition cool : epart unit := mkEpart (fun _ _ T _ => (map (fun t => (20 - t) / 10) T, None, tt)) [1].
Definition cool_net (at_ : R) : model unit := mkModel [cool] [] [] [] (1/1000) at_ 1.
Definition cool_mem (t : R) : mem unit := mkMem [] [] [[t]] [] [[0]] [[0]] [[0]] [tt] [[0]] [] [] [] [].
Definition cool_res (t : R) : mem unit :=
  mkMem [] [] [[t]] [] [[t + 95 / 1000 * (20 - t)]] [[(20 - t) / 10]] [[9 / 100 * (20 - t)]] [tt]
        [[t + 95 / 1000 * (20 - t)]] [] [] [] [].
Lemma cool_fits at_ t : fits 0 (cool_net at_) (cool_mem t).
Proof. repeat split; constructor. Qed.
Lemma cool_step at_ t : exists e, num_attempt (cool_net at_) 1 (cool_mem t) = (cool_res t, OStable [] (ENum e)) /\
  e * e = (5 / 1000 * (20 - t) / (Rmax t (t + 95 / 1000 * (20 - t)) * (1/1000) + at_)) ^ 2 /\ 0 <= e.
Proof.
  unfold num_attempt. cbn -[pow Rdiv Rmult Rplus Rminus sys_err cool_res].
  unfold sys_err. cbn [mo_cells cool_net].
  replace (t + 1 * ((20 - t) / 10)) with (t + 100 / 1000 * (20 - t)) by field.
  replace ((20 - (t + 100 / 1000 * (20 - t))) / 10) with (9 / 100 * (20 - t)) by field.
  replace (t + 1 / 2 * ((20 - t) / 10 + 9 / 100 * (20 - t))) with (t + 95 / 1000 * (20 - t)) by field.
  eexists. split; [reflexivity|]. rewrite sqrt_sqrt; [split; [|apply sqrt_pos]|].
  - rewrite Rplus_0_l, Rplus_0_r. unfold Rdiv at 1. rewrite Rinv_1, Rmult_1_r.
    replace ((t + 95 / 1000 * (20 - t) - (t + 100 / 1000 * (20 - t))) * 1) with (- (5 / 1000 * (20 - t))) by field.
    unfold Rdiv. rewrite Ropp_mult_distr_l_reverse. ring.
  - rewrite Rplus_0_l, Rplus_0_r. apply Rmult_le_pos; [apply pow2_ge_0|]. lra.
Qed.
Example ex_C183_tolerance : exists e e' s1 s2 code,
  num_attempt (cool_net (1/1000000)) 1 (cool_mem 100) = (cool_res 100, OStable [] (ENum e)) /\
  attempt cfg_default (mkSst 1 None 2 0 0) (OStable [] (ENum e)) = ARetry s1 /\
  num_attempt (both 0 (cool_net (1/1000000)) (at_rest 16 tt (1/1000) (1/1000000))) 1
    (both_mem (cool_mem 100) (rest_mem 16 tt 60))
    = (both_mem (cool_res 100) (rest_mem 16 tt 60), OStable [] (ENum e')) /\
  attempt cfg_default (mkSst 1 None 2 0 0) (OStable [] (ENum e')) = AAccept 1 code s2.
Proof.
  destruct (cool_step (1/1000000) 100) as (e & H & E & P). rewrite Rmax_left in E by lra.
  assert (HB := rest_stays 16 tt (1/1000) (1/1000000) 60 1).
  assert (Z : sys_err (at_rest 16 tt (1/1000) (1/1000000)) 0 = ENum 0).
  { unfold sys_err, Rdiv. rewrite Rmult_0_l, sqrt_0. reflexivity. }
  rewrite Z in HB.
  destruct (C183_error 0 (cool_net (1/1000000)) _ 1 _ _ _ _ [] [] e 0 (cool_fits _ _)
    (ltac:(repeat split; reflexivity) : shaped (at_rest 16 tt (1/1000) (1/1000000)) (rest_mem 16 tt 60))
    eq_refl eq_refl ltac:(cbn; lra) ltac:(cbn; lra) H HB) as (e' & H1 & H2 & H3 & _ & _).
  cbn [at_rest cool_net mo_cells] in H3. replace (INR 16) with 16 in H3 by (cbn; lra).
  assert (G1 : 15 < e * e < 16) by (rewrite E; split; field_simplify; lra). clear E.
  assert (P0 : 0 < e') by (destruct H2 as [H2|H2]; [exact H2|]; exfalso; subst e'; lra).
  assert (P1 : 1 <= e) by (apply Rnot_lt_le; intro W; assert (e * e < 1) by nra; lra).
  assert (P2 : e' < 1) by (apply Rnot_le_lt; intro W; assert (1 <= e' * e') by nra; lra).
  assert (Q1 : exists s1, attempt cfg_default (mkSst 1 None 2 0 0) (OStable [] (ENum e)) = ARetry s1).
  { unfold attempt. cbn [fold_left s_h cfg_default c_min_step]. destruct (Rlt_dec 0 e) as [U|U]; [|lra].
    destruct (Rlt_dec e 1) as [V|V]; [lra|]. destruct (Req_EM_T 1 1e-8) as [X|X]; [exfalso; lra|]. eexists; reflexivity. }
  assert (Q2 : exists code s2, attempt cfg_default (mkSst 1 None 2 0 0) (OStable [] (ENum e')) = AAccept 1 code s2).
  { unfold attempt. cbn [fold_left s_h]. destruct (Rlt_dec 0 e') as [U|U]; [|contradiction].
    destruct (Rlt_dec e' 1) as [V|V]; [|contradiction]. eexists; eexists; reflexivity. }
  destruct Q1 as [s1 Q1]. destruct Q2 as (code & s2 & Q2).
  exists e, e', s1, s2, code. repeat split; assumption.
Qed.
Example ex_C183_course : exists m',
  course (both 0 (cool_net 1) (cool_net 1)) [(1, true); (1, false); (1, true)]
    (both_mem (cool_mem 100) (cool_mem 40)) m' /\
  exists a' b', m' = both_mem a' b' /\ course (cool_net 1) [(1, true); (1, false); (1, true)] (cool_mem 100) a' /\
    course (cool_net 1) [(1, true); (1, false); (1, true)] (cool_mem 40) b'.
Proof.
  assert (K : exists m', course (both 0 (cool_net 1) (cool_net 1)) [(1, true); (1, false); (1, true)]
    (both_mem (cool_mem 100) (cool_mem 40)) m').
  { eexists. eapply co_yes; [reflexivity|]. eapply co_no; [reflexivity|]. eapply co_yes; [reflexivity|]. apply co_nil. }
  destruct K as [m' K]. exists m'. split; [exact K|].
  apply (C183_course_partial 0 0 _ _ _ _ _ _ (cool_fits _ _) (cool_fits _ _) eq_refl eq_refl K).
Qed.
Example ex_C183_solver : exists u m' s',
  heun_adaptive (both 0 (cool_net 1) (cool_net 1)) cfg_default 5 (both_mem (cool_mem 100) (cool_mem 40))
    (mkSst 1 None 2 0 0) = FAccepted u m' s' /\ m_resE m' = [[924 / 10]; [381 / 10]].
Proof.
  destruct (cool_step 1 100) as (e & H & E & P). destruct (cool_step 1 40) as (f & G & E1 & P1).
  rewrite Rmax_left in E, E1 by lra.
  destruct (C183_error 0 (cool_net 1) (cool_net 1) 1 _ _ _ _ [] [] e f (cool_fits _ _) (proj1 (cool_fits _ _))
    eq_refl eq_refl ltac:(cbn; lra) ltac:(cbn; lra) H G) as (e' & H1 & H2 & H3 & H4 & _).
  assert (X : e * e < 1) by (rewrite E; field_simplify; lra). assert (Y : 0 < e * e) by (rewrite E; field_simplify; lra).
  assert (X1 : f * f < 1) by (rewrite E1; field_simplify; lra).
  assert (L : e' < 1) by (apply H4; apply Rnot_le_lt; intro W; nra).
  assert (Z : 0 < e').
  { destruct H2 as [H2|H2]; [exact H2|]. exfalso. subst e'. cbn [cool_net mo_cells] in H3. nra. }
  clear H3 H4 E E1 X Y X1.
  change (heun_adaptive (both 0 (cool_net 1) (cool_net 1)) cfg_default 5 (both_mem (cool_mem 100) (cool_mem 40))
    (mkSst 1 None 2 0 0)) with (full_loop (both 0 (cool_net 1) (cool_net 1)) cfg_default 5
    (both_mem (cool_mem 100) (cool_mem 40)) (enter (mkSst 1 None 2 0 0))).
  cbn [full_loop]. replace (s_h (enter (mkSst 1 None 2 0 0))) with 1 by reflexivity. rewrite H1.
  assert (Q : exists code s2, attempt cfg_default (enter (mkSst 1 None 2 0 0)) (OStable ([] ++ []) (ENum e'))
    = AAccept 1 code s2).
  { unfold attempt. cbn [fold_left app]. destruct (Rlt_dec 0 e') as [U|U]; [|contradiction].
    destruct (Rlt_dec e' 1) as [V|V]; [|contradiction]. eexists; eexists; reflexivity. }
  destruct Q as (code & s2 & Q). rewrite Q. do 3 eexists. split; [reflexivity|].
  cbn [both_mem m_resE cool_res app]. f_equal; [f_equal; lra|]. f_equal. f_equal. lra.
Qed.
