From Coq Require Import Reals List Arith Lia Lra Psatz.
From Verif Require Import MSolver LSolver MHeun SHeun LHeun LHeunOrder LHeunEx.
Import ListNotations.
Open Scope R_scope.

Lemma nth_map_combine {A B C} (f : A * B -> C) (a : list A) (b : list B) p da db dc :
  length a = length b -> (p < length a)%nat ->
  nth p (map f (combine a b)) dc = f (nth p a da, nth p b db).
Proof.
  intros H Hp. rewrite (nth_indep _ dc (f (da, db))).
  - rewrite (map_nth f). rewrite combine_nth by exact H. reflexivity.
  - rewrite map_length, combine_length. lia.
Qed.

Lemma trnc_err_nonneg rtol atol : forall r t w y, 0 <= trnc_err rtol atol r t w y.
Proof.
  induction r as [|a r IH]; intros [|b t] [|x w] [|z y]; cbn [trnc_err]; try lra.
  specialize (IH t w y). pose proof (pow2_ge_0 ((a - b) * x / (Rmax z a * rtol + atol))). lra.
Qed.

(** Every cell's share is below the sum. *)
Lemma trnc_err_cell rtol atol : forall r t w y i,
  (i < length r)%nat -> length t = length r -> length w = length r -> length y = length r ->
  ((nth i r 0 - nth i t 0) * nth i w 0 / (Rmax (nth i y 0) (nth i r 0) * rtol + atol)) ^ 2
  <= trnc_err rtol atol r t w y.
Proof.
  induction r as [|a r IH]; intros [|b t] [|x w] [|z y] i Hi H1 H2 H3; cbn in H1, H2, H3, Hi;
    try lia.
  cbn [trnc_err].
  pose proof (trnc_err_nonneg rtol atol r t w y).
  pose proof (pow2_ge_0 ((a - b) * x / (Rmax z a * rtol + atol))).
  destruct i as [|i]; cbn [nth]; [lra|].
  specialize (IH t w y i). lra || (assert (L := IH ltac:(lia) ltac:(lia) ltac:(lia) ltac:(lia)); lra).
Qed.

(** [s] stays below the count [n] (both zero for no cells). *)
Definition below (s : R) (n : nat) : Prop := (n = 0%nat /\ s = 0) \/ s < INR n.

Lemma below_plus a n b k : below a n -> below b k -> below (a + b) (n + k).
Proof.
  unfold below. rewrite plus_INR.
  intros [[-> ->]|A] [[-> ->]|B]; [left; split; [reflexivity|lra]|right..]; cbn [INR]; lra.
Qed.

(** If every cell is within its tolerance the sum stays below the number of cells. *)
Lemma trnc_err_below rtol atol : forall r t w y,
  length t = length r -> length w = length r -> length y = length r ->
  (forall i, (i < length r)%nat ->
    let tol := Rmax (nth i y 0) (nth i r 0) * rtol + atol in
    0 < tol /\ Rabs ((nth i r 0 - nth i t 0) * nth i w 0) < tol) ->
  below (trnc_err rtol atol r t w y) (length r).
Proof.
  induction r as [|a r IH]; intros [|b t] [|x w] [|z y] H1 H2 H3 H;
    cbn in H1, H2, H3; try lia; cbn [trnc_err length].
  - left; auto.
  - change (S (length r)) with (1 + length r)%nat. apply below_plus.
    2:{ apply IH; try lia. intros i Hi. apply (H (S i)). cbn; lia. }
    right. pose proof (H 0%nat ltac:(cbn; lia)) as A. cbn [nth] in A.
    destruct A as [A1 A2]. set (tol := Rmax z a * rtol + atol) in *.
    assert (C : Rabs ((a - b) * x / tol) < 1).
    { unfold Rdiv. rewrite Rabs_mult, Rabs_inv, (Rabs_right tol) by lra.
      apply Rmult_lt_reg_r with tol; [exact A1|].
      rewrite Rmult_assoc, Rinv_l by lra. lra. }
    rewrite <- pow2_abs. pose proof (Rabs_pos ((a - b) * x / tol)). cbn [INR]. nra.
Qed.

Section T.
Context {Buf : Type}.

Definition part_err (rtol atol : R) (p : epart Buf) (r t y : vec) : R :=
  trnc_err rtol atol r t (ep_weight p) y.

(** Sum of the parts' errors. *)
Fixpoint sum_err (rtol atol : R) (ps : list (epart Buf)) (res T prev : list vec) : R :=
  match ps, res, T, prev with
  | p :: ps', r :: res', t :: T', y :: prev' =>
      part_err rtol atol p r t y + sum_err rtol atol ps' res' T' prev'
  | _, _, _, _ => 0
  end.

Lemma correct_err rtol atol h ports (ps : list (epart Buf)) :
  forall prev T df0 df1 res buf err T2 df1' res' b' ds e,
  length prev = length ps -> length T = length ps -> length df0 = length ps ->
  length df1 = length ps -> length res = length ps -> length buf = length ps ->
  correct rtol atol h ports ps prev T df0 df1 res buf err = (T2, df1', res', b', ds, e) ->
  e = err + sum_err rtol atol ps res' T prev.
Proof.
  induction ps as [|p ps IH];
    intros prev T df0 df1 res buf err T2 df1' res' b' ds e L1 L2 L3 L4 L5 L6 H;
    destruct prev as [|y prev], T as [|t T], df0 as [|d df0], df1 as [|g df1],
      res as [|r res], buf as [|b buf]; try discriminate; cbn [correct] in H.
  - inversion H; subst. cbn. lra.
  - destruct (ep_diff p h ports t b) as [[dd br] b1].
    match type of H with context [correct _ _ _ _ _ _ _ _ _ _ _ ?e'] =>
      destruct (correct rtol atol h ports ps prev T df0 df1 res buf e')
        as [[[[[T3 df13] res3] b3] ds3] e3] eqn:EC end.
    inversion H; subst; clear H.
    apply IH in EC; cbn in *; try lia. rewrite EC. unfold part_err. lra.
Qed.

Lemma sum_err_nonneg rtol atol : forall ps res T prev, 0 <= sum_err rtol atol ps res T prev.
Proof.
  induction ps as [|p ps IH]; intros [|r res] [|t T] [|y prev]; cbn [sum_err]; try lra.
  specialize (IH res T prev). pose proof (trnc_err_nonneg rtol atol r t (ep_weight p) y).
  unfold part_err. lra.
Qed.

Lemma sum_err_part rtol atol dp : forall ps res T prev i,
  (i < length ps)%nat -> length res = length ps -> length T = length ps ->
  length prev = length ps ->
  part_err rtol atol (nth i ps dp) (nth i res []) (nth i T []) (nth i prev [])
  <= sum_err rtol atol ps res T prev.
Proof.
  induction ps as [|p ps IH]; intros [|r res] [|t T] [|y prev] i Hi H1 H2 H3;
    cbn in Hi, H1, H2, H3; try lia.
  cbn [sum_err]. pose proof (sum_err_nonneg rtol atol ps res T prev).
  pose proof (trnc_err_nonneg rtol atol r t (ep_weight p) y).
  destruct i as [|i]; cbn [nth]; [lra|].
  pose proof (IH res T prev i ltac:(lia) ltac:(lia) ltac:(lia) ltac:(lia)).
  unfold part_err in *. lra.
Qed.

(** Number of cells. *)
Definition ncells (V : list vec) : nat := fold_right (fun v n => (length v + n)%nat) 0%nat V.

Lemma sum_err_below rtol atol dp : forall ps res T prev,
  length res = length ps -> length T = length ps -> length prev = length ps ->
  (forall i, (i < length ps)%nat ->
   below (part_err rtol atol (nth i ps dp) (nth i res []) (nth i T []) (nth i prev []))
         (length (nth i res []))) ->
  below (sum_err rtol atol ps res T prev) (ncells res).
Proof.
  induction ps as [|p ps IH]; intros [|r res] [|t T] [|y prev] H1 H2 H3 H;
    cbn in H1, H2, H3; try lia; cbn [sum_err ncells fold_right].
  - left; auto.
  - apply below_plus; [exact (H 0%nat ltac:(cbn; lia))|].
    apply IH; try lia. intros i Hi. apply (H (S i)). cbn; lia.
Qed.

(** Cell-wise Euler prediction of a part with slope [f]. *)
Definition predicted (f : slope) (h : R) (ports y : vec) : vec := euler h y (f h ports y).

Lemma num_attempt_err (mo : model Buf) fs h m m' ds e :
  Forall2 pure_part (mo_e mo) fs -> shaped mo m ->
  num_attempt mo h m = (m', OStable ds e) ->
  exists T1, length T1 = length (mo_e mo) /\
  (forall p df, (p < length (mo_e mo))%nat ->
     nth p T1 [] = predicted (nth p fs df) h (m_ports m) (nth p (m_prevE m) [])) /\
  e = ENum (sqrt (sum_err (mo_rtol mo) (mo_atol mo) (mo_e mo) (m_resE m') T1 (m_prevE m)
                  / mo_cells mo)).
Proof.
  intros Hp (S1&S2&S3&S4&S5&S6&S7) H. unfold num_attempt in H.
  destruct (predict h (m_ports m) (mo_e mo) (m_prevE m) (m_T m) (m_df0 m) (m_buf m))
    as [[[T1 df0] buf1] br] eqn:EP.
  destruct br as [d|]; [discriminate|].
  pose proof (predict_len h (m_ports m) (mo_e mo) _ _ _ _ _ _ _ _ S1 S2 S3 S6 EP)
    as (P1&P2&P3).
  apply (predict_ok h (m_ports m) (mo_e mo) fs Hp) in EP; auto.
  destruct EP as (I1&I2&_).
  match type of H with context [correct ?a ?b ?c ?d ?e0 ?f ?g ?i ?j ?k ?l ?n] =>
      destruct (correct a b c d e0 f g i j k l n)
        as [[[[[T2 df1] res] buf2] ds'] err] eqn:EC end.
  apply correct_err in EC; auto.
  inversion H; subst m' ds' e; clear H. cbn [m_resE].
  exists T1. split; [exact P1|]. split.
  - intros p df Hpp. rewrite I2.
    assert (Lf : length fs = length (mo_e mo)) by (clear - Hp; induction Hp; cbn; congruence).
    assert (Ld : length df0 = length (mo_e mo)) by exact P2.
    rewrite (@nth_map_combine vec vec vec _ _ _ _ [] [] []);
      [|rewrite S1, Ld; reflexivity|rewrite S1; exact Hpp].
    cbn [fst snd]. unfold predicted. f_equal.
    rewrite I1. rewrite (@nth_map_combine slope vec vec _ _ _ _ df [] []);
      [reflexivity|rewrite S1, Lf; reflexivity|rewrite Lf; exact Hpp].
  - unfold sys_err. rewrite EC. rewrite Rplus_0_l. reflexivity.
Qed.

Lemma ratio_bound x tol k : tol <> 0 -> 0 <= k -> (x / tol) ^ 2 < k ^ 2 -> Rabs x < k * Rabs tol.
Proof.
  intros Ht Hk H.
  assert (A : Rabs (x / tol) < k).
  { apply Rnot_le_lt. intros N. pose proof (pow_incr k (Rabs (x / tol)) 2 (conj Hk N)) as P.
    rewrite pow2_abs in P. lra. }
  unfold Rdiv in A. rewrite Rabs_mult, Rabs_inv in A.
  assert (0 < Rabs tol) by (apply Rabs_pos_lt; exact Ht).
  apply Rmult_lt_reg_r with (/ Rabs tol); [apply Rinv_0_lt_compat; assumption|].
  replace (k * Rabs tol * / Rabs tol) with k by (field; lra). exact A.
Qed.

Lemma tolerance (mo : model Buf) c fs : Forall2 pure_part (mo_e mo) fs -> 0 < mo_cells mo ->
  forall fuel (m : mem Buf) s u (m' : mem Buf) s', shaped mo m -> m_ports m = m_bkp m ->
  full_loop mo c fuel m s = FAccepted u m' s' -> u <> c_min_step c ->
  forall p i de df, (p < length (mo_e mo))%nat ->
  let y := nth p (m_prevE m) [] in let r := nth p (m_resE m') [] in
  let t := predicted (nth p fs df) u (m_ports m) y in
  let w := ep_weight (nth p (mo_e mo) de) in
  (i < length r)%nat -> length t = length r -> length w = length r -> length y = length r ->
  let tol := Rmax (nth i y 0) (nth i r 0) * mo_rtol mo + mo_atol mo in
  tol <> 0 ->
  Rabs ((nth i r 0 - nth i t 0) * nth i w 0) < sqrt (mo_cells mo) * Rabs tol.
Proof.
  intros Hp Hcells. induction fuel as [|f IH]; intros m s u m' s' Hs Hb H Hu; cbn in H;
    [discriminate|].
  destruct (num_attempt mo (s_h s) m) as [m1 o] eqn:EN.
  pose proof (num_attempt_shaped _ _ _ _ _ Hs EN) as (N1&N2&N3&N4).
  destruct (attempt c s o) as [u0 k s0|s0|] eqn:EA; [| |discriminate].
  - inversion H; subst; clear H.
    destruct o as [d|ds e].
    { unfold attempt in EA. destruct (Nat.eqb _ _); discriminate. }
    destruct (num_attempt_err mo fs _ _ _ _ _ Hp Hs EN) as (T1&LT&PT&Ee).
    intros p i de df Hpp y r t w Hi Lt Lw Ly tol Htol.
    set (S := sum_err _ _ _ _ _ _) in Ee.
    assert (HS : 0 <= S) by apply sum_err_nonneg.
    assert (EU : u = s_h s /\ sqrt (S / mo_cells mo) < 1).
    { subst e. unfold attempt in EA.
      destruct (Rlt_dec 0 (sqrt (S / mo_cells mo))) as [A|A].
      - destruct (Rlt_dec (sqrt (S / mo_cells mo)) 1) as [B|B].
        + inversion EA; auto.
        + destruct (Req_EM_T (s_h s) (c_min_step c)) as [C|C]; [|discriminate].
          inversion EA. exfalso. apply Hu. congruence.
      - destruct (Req_EM_T (sqrt (S / mo_cells mo)) 0) as [B|B].
        + inversion EA. split; [reflexivity|lra].
        + exfalso. pose proof (sqrt_pos (S / mo_cells mo)). lra. }
    destruct EU as [-> HE].
    assert (HS1 : S < mo_cells mo).
    { apply Rnot_le_lt. intros N.
      assert (1 <= S / mo_cells mo).
      { apply Rmult_le_reg_r with (mo_cells mo); [exact Hcells|]. unfold Rdiv.
        rewrite Rmult_assoc, Rinv_l by lra. lra. }
      assert (sqrt 1 <= sqrt (S / mo_cells mo)) by (apply sqrt_le_1; lra).
      rewrite sqrt_1 in *. lra. }
    pose proof N1 as (Q1&Q2&Q3&Q4&Q5&Q6&Q7). pose proof Hs as (S1&S2&S3&S4&S5&S6&S7).
    pose proof (sum_err_part (mo_rtol mo) (mo_atol mo) de (mo_e mo) (m_resE m') T1
      (m_prevE m) p Hpp Q5 LT S1) as B1.
    unfold part_err in B1. rewrite (PT p df Hpp) in B1. fold y r t w in B1.
    pose proof (trnc_err_cell (mo_rtol mo) (mo_atol mo) r t w y i Hi Lt Lw Ly) as B2.
    fold tol in B2. fold S in B1.
    apply ratio_bound; [exact Htol|apply sqrt_pos|].
    rewrite pow2_sqrt by lra. eapply Rle_lt_trans; [exact B2|].
    eapply Rle_lt_trans; [exact B1|exact HS1].
  - intros p i de df Hpp.
    assert (S' : shaped mo (restore m1)) by exact N1.
    pose proof (IH (restore m1) s0 u m' s' S' eq_refl H Hu p i de df Hpp) as R.
    unfold restore in R; cbn [m_prevE m_ports] in R.
    rewrite N2, N3, <- Hb in R. exact R.
Qed.

(** Conversely a stable attempt whose cells are all within their tolerance is accepted. *)
Lemma within_accepted (mo : model Buf) c fs h m m' ds e s de df :
  Forall2 pure_part (mo_e mo) fs -> shaped mo m -> s_h s = h ->
  num_attempt mo h m = (m', OStable ds e) -> 
  mo_cells mo = INR (ncells (m_resE m')) -> 0 < mo_cells mo ->
  (forall p, (p < length (mo_e mo))%nat ->
    let y := nth p (m_prevE m) [] in let r := nth p (m_resE m') [] in
    let t := predicted (nth p fs df) h (m_ports m) y in
    let w := ep_weight (nth p (mo_e mo) de) in
    length t = length r /\ length w = length r /\ length y = length r /\
    forall i, (i < length r)%nat ->
    let tol := Rmax (nth i y 0) (nth i r 0) * mo_rtol mo + mo_atol mo in
    0 < tol /\ Rabs ((nth i r 0 - nth i t 0) * nth i w 0) < tol) ->
  exists k s', attempt c s (OStable ds e) = AAccept h k s'.
Proof.
  intros Hp Hs Hh EN Hc Hpos H.
  destruct (num_attempt_err mo fs _ _ _ _ _ Hp Hs EN) as (T1&LT&PT&Ee).
  pose proof (num_attempt_shaped _ _ _ _ _ Hs EN) as ((Q1&Q2&Q3&Q4&Q5&Q6&Q7)&N2&N3&N4).
  pose proof Hs as (S1&S2&S3&S4&S5&S6&S7).
  set (S := sum_err _ _ _ _ _ _) in Ee.
  assert (HS0 : 0 <= S) by apply sum_err_nonneg.
  assert (HS : S < mo_cells mo).
  { assert (B : below S (ncells (m_resE m'))).
    { apply (sum_err_below _ _ de); auto.
      intros p Hpp. rewrite (PT p df Hpp). specialize (H p Hpp). cbv zeta in H.
      destruct H as (Lt&Lw&Ly&H). apply trnc_err_below; auto. }
    rewrite Hc in *. destruct B as [[B1 B2]|B]; [|exact B].
    rewrite B1 in Hpos. cbn in Hpos. lra. }
  assert (HE : sqrt (S / mo_cells mo) < 1).
  { rewrite <- sqrt_1. apply sqrt_lt_1; try lra.
    - apply Rmult_le_pos; [exact HS0|]. left. apply Rinv_0_lt_compat. exact Hpos.
    - apply Rmult_lt_reg_r with (mo_cells mo); [exact Hpos|]. unfold Rdiv.
      rewrite Rmult_assoc, Rinv_l by lra. lra. }
  subst e. unfold attempt. rewrite Hh.
  destruct (Rlt_dec 0 (sqrt (S / mo_cells mo))) as [A|A].
  - destruct (Rlt_dec (sqrt (S / mo_cells mo)) 1) as [B|B]; [|contradiction].
    eexists; eexists; reflexivity.
  - destruct (Req_EM_T (sqrt (S / mo_cells mo)) 0) as [B|B].
    + eexists; eexists; reflexivity.
    + exfalso. pose proof (sqrt_pos (S / mo_cells mo)). lra.
Qed.
End T.
