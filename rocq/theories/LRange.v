(** Temperature ranges of whole networks (C156). *)
From Coq Require Import Reals List Arith Bool Lia Lra.
From Verif Require Import MFlow MWater MDiff SFlow SDiff MSolver MHeun MRange SRange LFlow LWater LDiff
  LDiff2 LDiff3 LDiff4 LDiff5 LDiff7 LSolver LHeun.
Import ListNotations.
Open Scope R_scope.

Lemma vlen f a b : length (vmap2 f a b) = Nat.min (length a) (length b).
Proof. revert b. induction a as [|x a IH]; intros [|y b]; cbn; auto. Qed.

Lemma F2len {A B} (R : A -> B -> Prop) l l' : Forall2 R l l' -> length l = length l'.
Proof. induction 1; cbn; congruence. Qed.

Section Range.
Variables lo hi : R.
Local Notation ins := (inside lo hi).

Lemma inside_nth n v c : ins n v -> (c < n)%nat -> lo <= nth c v 0 <= hi.
Proof. intros [L F] Hc. rewrite Forall_forall in F. apply F, nth_In. lia. Qed.

Lemma upd_len i x a : length (upd i x a) = length a.
Proof. revert i. induction a as [|y a IH]; intros [|i]; cbn; auto. Qed.
Lemma upd_inside n i x a : lo <= x <= hi -> ins n a -> ins n (upd i x a).
Proof.
  intros Hx [L F]. split; [rewrite upd_len; exact L|]. clear L. revert i.
  induction F as [|y a Hy F IH]; intros [|i]; cbn; constructor; auto.
Qed.

Lemma rows_get ns V p c : rows lo hi ns V -> (c < nth p ns 0)%nat -> lo <= getv V p c <= hi.
Proof.
  intros H. revert p. induction H as [|n v ns V Hv H IH]; intros p Hc.
  - destruct p; cbn in Hc; lia.
  - destruct p as [|p]; [apply (inside_nth n); assumption|apply IH, Hc].
Qed.

Lemma ports_inside z ps E N I ports : wired z ps -> rows lo hi (sz_e z) E -> rows lo hi (sz_n z) N ->
  rows lo hi (sz_i z) I -> ins (sz_p z) ports -> ins (sz_p z) (update_ports ps E N I ports).
Proof.
  intros W HE HN HI. unfold update_ports. revert ports. induction ps as [|[k s] ps IH]; intros ports Hp;
    [exact Hp|]. cbn [fold_left]. apply IH.
  - intros k' s' Hin. apply (W k' s'). right. exact Hin.
  - apply upd_inside; [|exact Hp]. specialize (W k s (or_introl eq_refl)). cbn [snd].
    destruct s; [apply (rows_get (sz_e z))|apply (rows_get (sz_n z))|apply (rows_get (sz_i z))]; assumption.
Qed.

Lemma heun_half y d0 d1 h : forall n, length y = n -> length d0 = n -> length d1 = n ->
  ins n y -> ins n (vadd (vadd y (vscale h d0)) (vscale h d1)) ->
  ins n (vadd y (vscale (h / 2) (vadd d0 d1))).
Proof.
  unfold inside, vadd, vscale.
  revert d0 d1. induction y as [|a y IH]; intros [|b d0] [|e d1] n L0 L1 L2 [_ F] [_ G]; cbn in *; subst n;
    try discriminate; [split; auto|].
  inversion F; subst. inversion G; subst.
  destruct (IH d0 d1 (length y)) as [K1 K2]; try lia; try (split; [lia|assumption]).
  - split; [|assumption]. rewrite !vlen, !map_length. lia.
  - split; [f_equal; exact K1|]. constructor; [lra|exact K2].
Qed.
End Range.

(** ** One attempt *)
Section Attempt.
Context {Buf : Type}.
Variables (lo hi hmax : R) (z : sizes) (Ps : list (Buf -> Prop)).
Local Notation ins := (inside lo hi).
Local Notation parts es ps := (Forall2 (fun nP p => keeps lo hi hmax (sz_p z) (fst nP) (snd nP) p) es ps).

Lemma predict_inside h ports : 0 <= h <= hmax -> ins (sz_p z) ports ->
  forall ns Qs (ps : list (epart Buf)) prev T df0 buf T1 d1 b1 br,
  length Qs = length ns -> parts (combine ns Qs) ps ->
  rows lo hi ns prev -> length T = length ns -> length df0 = length ns -> Forall2 (fun P b => P b) Qs buf ->
  predict h ports ps prev T df0 buf = (T1, d1, b1, br) ->
  Forall2 (fun P b => P b) Qs b1 /\ length T1 = length ns /\ length d1 = length ns /\
  match br with
  | Some v => 1 < v
  | None => rows lo hi ns T1 /\ Forall2 (fun n d => length d = n) ns d1 /\
            Forall2 (fun td y => fst td = vadd y (vscale h (snd td))) (combine T1 d1) prev
  end.
Proof.
  intros Hh Hp. induction ns as [|n ns IH]; intros Qs ps prev T df0 buf T1 d1 b1 br LQ HP HV LT LD HB E.
  - destruct Qs; [|discriminate]. inversion HP; subst. inversion HV; subst. inversion HB; subst.
    destruct T; [|discriminate]. destruct df0; [|discriminate]. cbn in E. inversion E; subst.
    repeat split; constructor.
  - destruct Qs as [|Q Qs]; [discriminate|]. cbn [combine] in HP.
    inversion HP as [|? p ? ps' Kp HP']; subst. inversion HV as [|? y ? prev' Hy HV']; subst.
    inversion HB as [|? b ? buf' Hb HB']; subst.
    destruct T as [|t0 T]; [discriminate|]. destruct df0 as [|e0 df0]; [discriminate|].
    cbn [predict] in E. cbn [fst snd] in Kp. specialize (Kp h ports y b Hh Hp Hy Hb).
    destruct (ep_diff p h ports y b) as [[d br0] bb] eqn:ED. destruct Kp as (K1&K2&K3&K4).
    destruct br0 as [v|].
    + inversion E; subst. cbn in *. repeat split; try lia; [constructor; assumption|exact K4].
    + destruct (predict h ports ps' prev' T df0 buf') as [[[T' d'] bs] r] eqn:EP.
      inversion E; subst. cbn in LQ, LT, LD.
      destruct (IH Qs ps' prev' T df0 buf' T' d' bs br ltac:(lia) HP' HV' ltac:(lia) ltac:(lia) HB' EP)
        as (I1&I2&I3&I4).
      cbn. repeat split; try lia; [constructor; assumption|].
      destruct br as [v|]; [exact I4|]. destruct I4 as (J1&J2&J3).
      repeat split; constructor; auto.
Qed.

Lemma correct_inside rtol atol h ports : 0 <= h <= hmax -> ins (sz_p z) ports ->
  forall ns Qs (ps : list (epart Buf)) prev T df0 df1 rs buf err T2 d1 res b1 ds e,
  length Qs = length ns -> parts (combine ns Qs) ps ->
  rows lo hi ns prev -> rows lo hi ns T -> Forall2 (fun n d => length d = n) ns df0 ->
  Forall2 (fun td y => fst td = vadd y (vscale h (snd td))) (combine T df0) prev ->
  length df1 = length ns -> length rs = length ns -> Forall2 (fun P b => P b) Qs buf ->
  correct rtol atol h ports ps prev T df0 df1 rs buf err = (T2, d1, res, b1, ds, e) ->
  rows lo hi ns res /\ length T2 = length ns /\ length d1 = length ns /\
  Forall2 (fun P b => P b) Qs b1 /\ Forall (fun d => 1 < d) ds.
Proof.
  intros Hh Hp. induction ns as [|n ns IH];
    intros Qs ps prev T df0 df1 rs buf err T2 d1 res b1 ds e LQ HP HV HT HD HTD L1 LR HB E.
  - destruct Qs; [|discriminate]. inversion HP; subst. inversion HV; subst. inversion HB; subst.
    inversion HT; subst. inversion HD; subst.
    destruct df1; [|discriminate]. destruct rs; [|discriminate]. cbn in E. inversion E; subst.
    repeat split; constructor.
  - destruct Qs as [|Q Qs]; [discriminate|]. cbn [combine] in HP.
    inversion HP as [|? p ? ps' Kp HP']; subst. inversion HV as [|? y ? prev' Hy HV']; subst.
    inversion HB as [|? b ? buf' Hb HB']; subst. inversion HT as [|? t ? T' Ht HT']; subst.
    inversion HD as [|? d0 ? df0' Hd0 HD']; subst. cbn [combine] in HTD.
    inversion HTD as [|? ? ? ? Etd HTD']; subst. cbn [fst snd] in Etd.
    destruct df1 as [|x1 df1]; [discriminate|]. destruct rs as [|x2 rs]; [discriminate|].
    cbn [correct] in E. cbn [fst snd] in Kp. specialize (Kp h ports t b Hh Hp Ht Hb).
    destruct (ep_diff p h ports t b) as [[d br0] bb] eqn:ED. destruct Kp as (K1&K2&K3&K4).
    match type of E with context [correct ?a ?b ?c ?d ?e0 ?f ?g ?i ?j ?k ?l ?n] =>
      destruct (correct a b c d e0 f g i j k l n) as [[[[[T3 df3] res3] buf3] ds3] err3] eqn:EC end.
    inversion E; subst. cbn in LQ, L1, LR.
    destruct (IH Qs ps' prev' T' df0' df1 rs buf' _ _ _ _ _ _ _ ltac:(lia) HP' HV' HT' HD' HTD'
      ltac:(lia) ltac:(lia) HB' EC) as (I1&I2&I3&I4&I5).
    cbn. repeat split; try lia; try (constructor; assumption).
    + constructor; [|exact I1]. apply heun_half with (n := length d0); try assumption; try reflexivity.
      apply Hy.
    + destruct br0 as [v|]; [constructor; assumption|exact I5].
Qed.

Lemma imap_inside {A} (f : A -> vec -> vec) : forall ns (ps : list A) xs,
  Forall2 (fun n p => forall x, ins n x -> ins n (f p x)) ns ps -> rows lo hi ns xs ->
  rows lo hi ns (imap f ps xs).
Proof.
  induction ns as [|n ns IH]; intros ps xs HP HX; inversion HP; subst; inversion HX; subst; cbn;
    constructor; auto.
  apply IH; assumption.
Qed.

Lemma attempt_inside mo h m m' o : keeping lo hi hmax z Ps mo -> ready lo hi z Ps m -> 0 <= h <= hmax ->
  num_attempt mo h m = (m', o) ->
  reported_ok o /\ m_bkp m' = m_bkp m /\
  ready lo hi z Ps (mkMem (m_ports m) (m_bkp m) (m_prevE m) (m_prevI m) (m_T m') (m_df0 m') (m_df1 m')
    (m_buf m') (m_resE m') (m_nT m') (m_nres m') (m_iT m') (m_ires m')) /\
  m_prevE m' = m_prevE m /\ m_prevI m' = m_prevI m /\
  match o with
  | OStable _ _ => inside lo hi (sz_p z) (m_ports m') /\ rows lo hi (sz_e z) (m_resE m') /\
      rows lo hi (sz_n z) (m_nres m') /\ rows lo hi (sz_i z) (m_ires m')
  | OUnstable _ => True
  end.
Proof.
  intros (KE&KL&KN&KI&KW) (R1&R2&R3&R4&R5&R6&R7&R8) Hh E. unfold num_attempt in E.
  destruct (predict h (m_ports m) (mo_e mo) (m_prevE m) (m_T m) (m_df0 m) (m_buf m))
    as [[[T1 df0] buf1] br] eqn:EP.
  destruct (predict_inside h (m_ports m) Hh R1 (sz_e z) Ps (mo_e mo) _ _ _ _ _ _ _ _ KL KE R2 R5 R6 R4 EP)
    as (P1&P2&P3&P4).
  destruct br as [d|].
  - inversion E; subst. cbn [m_bkp m_prevE m_prevI m_T m_df0 m_df1 m_buf m_resE m_nT m_nres m_iT m_ires].
    unfold ready. cbn [m_ports m_bkp m_prevE m_prevI m_T m_df0 m_df1 m_buf m_resE m_nT m_nres m_iT m_ires].
    repeat split; try assumption; apply R1.
  - destruct P4 as (Q1&Q2&Q3).
    set (iT := imap (fun f y => f (h / 2) (m_ports m) y) (mo_i mo) (m_prevI m)) in *.
    set (nT1 := map (fun f => f h (m_ports m)) (mo_n mo)) in *.
    assert (HN : forall ports, ins (sz_p z) ports -> rows lo hi (sz_n z) (map (fun f => f h ports) (mo_n mo))).
    { intros ports Hp. clear - KN Hp. induction KN as [|n f ns fs K KN IH]; cbn; constructor; auto.
      all: try (apply K, Hp). }
    assert (HI : forall ports xs, ins (sz_p z) ports -> rows lo hi (sz_i z) xs ->
      rows lo hi (sz_i z) (imap (fun f y => f (h / 2) ports y) (mo_i mo) xs)).
    { intros ports xs Hp Hx. apply imap_inside; [|exact Hx].
      clear - KI Hp. induction KI as [|n f ns fs K KI IH]; constructor; [|exact IH].
      intros x Hx. apply K; assumption. }
    assert (I1 : rows lo hi (sz_i z) iT) by (apply HI; assumption).
    assert (N1 : rows lo hi (sz_n z) nT1) by (apply HN; assumption).
    pose proof (ports_inside lo hi z (mo_ports mo) T1 nT1 iT (m_ports m) KW Q1 N1 I1 R1) as O1.
    set (ports1 := update_ports (mo_ports mo) T1 nT1 iT (m_ports m)) in *.
    match type of E with context [correct ?a ?b ?c ?d ?e0 ?f ?g ?i ?j ?k ?l ?n] =>
      destruct (correct a b c d e0 f g i j k l n) as [[[[[T2 df1] res] buf2] ds] err] eqn:EC end.
    destruct (correct_inside _ _ h ports1 Hh O1 (sz_e z) Ps (mo_e mo) _ _ _ _ _ _ _ _ _ _ _ _ _
      KL KE R2 Q1 Q2 Q3 R7 R8 P1 EC) as (C1&C2&C3&C4&C5).
    inversion E; subst. cbn [m_ports m_bkp m_prevE m_prevI m_T m_df0 m_df1 m_buf m_resE m_nT m_nres m_iT m_ires].
    unfold ready. cbn [m_ports m_bkp m_prevE m_prevI m_T m_df0 m_df1 m_buf m_resE m_nT m_nres m_iT m_ires].
    assert (LR : length res = length (sz_e z)) by (symmetry; apply (F2len _ _ _ C1)).
    split; [split; [exact C5|apply sqrt_pos]|].
    split; [reflexivity|]. split; [repeat split; try assumption; apply R1|].
    split; [reflexivity|]. split; [reflexivity|].
    assert (I2 := HI ports1 iT O1 I1). assert (N2 := HN ports1 O1).
    split; [|split; [exact C1|split; [exact N2|exact I2]]].
    apply ports_inside; assumption.
Qed.

Lemma loop_inside mo c : cfg_ok c -> c_max_step c <= hmax -> keeping lo hi hmax z Ps mo ->
  forall fuel m s u m' s', ready lo hi z Ps m -> m_bkp m = m_ports m -> inv c s -> s_h s <= hmax ->
  full_loop mo c fuel m s = FAccepted u m' s' ->
  inv c s' /\ s_h s' <= hmax /\ 0 < u <= hmax /\
  inside lo hi (sz_p z) (m_ports m') /\ rows lo hi (sz_e z) (m_resE m') /\
  rows lo hi (sz_n z) (m_nres m') /\ rows lo hi (sz_i z) (m_ires m') /\
  Forall2 (fun P b => P b) Ps (m_buf m') /\
  length (m_T m') = length (sz_e z) /\ length (m_df0 m') = length (sz_e z) /\
  length (m_df1 m') = length (sz_e z) /\ length (m_resE m') = length (sz_e z).
Proof.
  intros Hc Hmax HK. induction fuel as [|fu IH]; intros m s u m' s' HR HB HI Hs H; cbn in H; [discriminate|].
  destruct (num_attempt mo (s_h s) m) as [m1 o] eqn:EN.
  assert (Hh : 0 <= s_h s <= hmax) by (destruct HI as [HI _]; lra).
  destruct (attempt_inside mo (s_h s) m m1 o HK HR Hh EN) as (A1&A2&A3&A4&A5&A6).
  assert (OK : outcome_ok o /\ match o with OStable _ e => err_valid e | _ => True end).
  { destruct (reported_stream (fun _ => o) (fun _ => A1) 0%nat) as [X Y]. split; [exact X|exact Y]. }
  pose proof (attempt_inv c s o Hc (proj1 OK) (proj2 OK) HI) as AI.
  destruct (attempt c s o) as [u0 k s0|s0|] eqn:EA; [| |discriminate].
  - inversion H; subst. destruct AI as (B1&B2&B3&_). subst u.
    assert (ST : exists ds e, o = OStable ds e).
    { unfold attempt in EA. destruct o as [d|ds e]; [destruct (Nat.eqb _ _); discriminate|eauto]. }
    destruct ST as [ds [e ->]]. destruct A6 as (D1&D2&D3&D4).
    destruct A3 as (_&_&_&F4&F5&F6&F7&F8).
    cbn [m_T m_df0 m_df1 m_buf m_resE] in F4, F5, F6, F7, F8.
    split; [exact B2|]. split; [lra|]. split; [destruct HI; lra|].
    split; [exact D1|]. split; [exact D2|]. split; [exact D3|]. split; [exact D4|].
    split; [exact F4|]. repeat split; assumption.
  - destruct AI as (B1&B2&_).
    apply (IH (restore m1) s0 u m' s'); try assumption.
    + unfold restore. destruct A3 as (F1&F2&F3&F4&F5&F6&F7&F8).
      cbn [m_ports m_prevE m_prevI m_T m_df0 m_df1 m_buf m_resE] in *.
      unfold ready. cbn [m_ports m_prevE m_prevI m_T m_df0 m_df1 m_buf m_resE].
      rewrite A2, A4, A5, HB. repeat split; try assumption; apply F1.
    + reflexivity.
    + eapply Rle_trans; [exact B2|]. apply Rmax_lub; [exact Hs|].
      destruct Hc as (_&[_ X]&_). lra.
Qed.

Lemma handover_ready m1 m2 : handover lo hi m1 m2 ->
  inside lo hi (sz_p z) (m_ports m1) -> rows lo hi (sz_e z) (m_resE m1) -> rows lo hi (sz_i z) (m_ires m1) ->
  Forall2 (fun P b => P b) Ps (m_buf m1) ->
  length (m_T m1) = length (sz_e z) -> length (m_df0 m1) = length (sz_e z) ->
  length (m_df1 m1) = length (sz_e z) -> length (m_resE m1) = length (sz_e z) -> ready lo hi z Ps m2.
Proof.
  intros (B1&B2&B3&B4&B5&B6&B7&B8) [L F] HE HI HB L1 L2 L3 L4. unfold ready.
  rewrite B1, B2, B3, B4, B5, B6, B7. repeat split; try assumption.
  - rewrite <- L. symmetry. apply (F2len _ _ _ B8).
  - clear - B8 F. induction B8 as [|x y xs ys Hxy B8 IH]; [constructor|].
    inversion F; subst. constructor; [|apply IH; assumption]. destruct Hxy as [-> | Hy]; assumption.
Qed.

Lemma run_inside c : cfg_ok c -> c_max_step c <= hmax ->
  forall m s m' s', net_run lo hi (keeping lo hi hmax z Ps) c m s m' s' ->
  ready lo hi z Ps m -> inv c s -> s_h s <= hmax ->
  ready lo hi z Ps m' /\ s_h s' <= hmax.
Proof.
  intros Hc Hmax m s m' s' HR. induction HR as [|mo fuel m s u m1 s1 m2 m3 s3 HK HS HB HR IH];
    intros R I Hs; [split; assumption|].
  unfold heun_adaptive in HS.
  assert (R' : ready lo hi z Ps (mkMem (m_ports m) (m_ports m) (m_prevE m) (m_prevI m) (m_T m) (m_df0 m) (m_df1 m)
           (m_buf m) (m_resE m) (m_nT m) (m_nres m) (m_iT m) (m_ires m))) by exact R.
  destruct (loop_inside mo c Hc Hmax HK fuel _ _ _ _ _ R' eq_refl (enter_inv c s I) Hs HS)
    as (A1&A2&A3&A4&A5&A6&A7&A8&A9&A10&A11&A12).
  apply IH; try assumption.
  apply (handover_ready m1 m2); assumption.
Qed.
End Attempt.
