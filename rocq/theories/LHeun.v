From Coq Require Import Reals List Arith Lia Lra.
From Verif Require Import MSolver MHeun SHeun.
Import ListNotations.
Open Scope R_scope.

Section L.
Context {Buf : Type}.

(** [f] describes part [p] if its slope does not depend on the working buffers. *)
Definition pure_part (p : epart Buf) (f : slope) : Prop :=
  forall h ports T b, fst (fst (ep_diff p h ports T b)) = f h ports T.

Lemma predict_ok h ports ps fs (Hp : Forall2 pure_part ps fs) :
  forall prev T df0 buf T1 d1 b1,
  length prev = length ps -> length T = length ps -> length df0 = length ps ->
  length buf = length ps ->
  predict h ports ps prev T df0 buf = (T1, d1, b1, None) ->
  d1 = map (fun fy => fst fy h ports (snd fy)) (combine fs prev) /\
  T1 = map (fun yd => euler h (fst yd) (snd yd)) (combine prev d1) /\
  length b1 = length ps.
Proof.
  induction Hp as [|p f ps fs Hpf Hp IH]; intros prev T df0 buf T1 d1 b1 L1 L2 L3 L4 H;
    destruct prev as [|y prev], T as [|t T], df0 as [|d df0], buf as [|b buf];
    try discriminate; cbn [predict] in H.
  - inversion H; subst. cbn. auto.
  - specialize (Hpf h ports y b).
    destruct (ep_diff p h ports y b) as [[dd br] b'] eqn:E. cbn in Hpf. subst dd.
    destruct br as [v|]; [discriminate|].
    destruct (predict h ports ps prev T df0 buf) as [[[T2 d2] b2] r] eqn:EP.
    inversion H; subst; clear H.
    destruct (IH prev T df0 buf T2 d2 b2) as (I1&I2&I3); cbn in *; try lia; auto.
    subst d2 T2. cbn. repeat split; auto.
Qed.

Lemma predict_len h ports (ps : list (epart Buf)) :
  forall prev T df0 buf T1 d1 b1 r,
  length prev = length ps -> length T = length ps -> length df0 = length ps ->
  length buf = length ps ->
  predict h ports ps prev T df0 buf = (T1, d1, b1, r) ->
  length T1 = length ps /\ length d1 = length ps /\ length b1 = length ps.
Proof.
  induction ps as [|p ps IH]; intros prev T df0 buf T1 d1 b1 r L1 L2 L3 L4 H;
    destruct prev as [|y prev], T as [|t T], df0 as [|d df0], buf as [|b buf];
    try discriminate; cbn [predict] in H.
  - inversion H; subst; auto.
  - destruct (ep_diff p h ports y b) as [[dd br] b'].
    destruct br as [v|].
    + inversion H; subst; cbn in *; lia.
    + destruct (predict h ports ps prev T df0 buf) as [[[T2 d2] b2] r2] eqn:EP.
      inversion H; subst; clear H.
      destruct (IH prev T df0 buf T2 d2 b2 r) as (I1&I2&I3); cbn in *; try lia; auto.
Qed.

Lemma correct_ok rtol atol h ports ps fs (Hp : Forall2 pure_part ps fs) :
  forall prev T df0 df1 res buf err T2 df1' res' b' ds e,
  length prev = length ps -> length T = length ps -> length df0 = length ps ->
  length df1 = length ps -> length res = length ps -> length buf = length ps ->
  correct rtol atol h ports ps prev T df0 df1 res buf err = (T2, df1', res', b', ds, e) ->
  res' = map (fun yd => heun h (fst yd) (fst (snd yd)) (snd (snd yd)))
             (combine prev (combine df0
               (map (fun fy => fst fy h ports (snd fy)) (combine fs T)))) /\
  T2 = res' /\ length df1' = length ps /\ length b' = length ps.
Proof.
  induction Hp as [|p f ps fs Hpf Hp IH];
    intros prev T df0 df1 res buf err T2 df1' res' b' ds e L1 L2 L3 L4 L5 L6 H;
    destruct prev as [|y prev], T as [|t T], df0 as [|d df0], df1 as [|g df1],
      res as [|r res], buf as [|b buf];
    try discriminate; cbn [correct] in H.
  - inversion H; subst. cbn. auto.
  - specialize (Hpf h ports t b).
    destruct (ep_diff p h ports t b) as [[dd br] b1] eqn:E. cbn in Hpf. subst dd.
    match type of H with context [correct _ _ _ _ _ _ _ _ _ _ _ ?e'] =>
      destruct (correct rtol atol h ports ps prev T df0 df1 res buf e')
        as [[[[[T3 df13] res3] b3] ds3] e3] eqn:EC end.
    inversion H; subst; clear H.
    apply IH in EC; cbn in *; try lia.
    destruct EC as (I1&I2&I3&I4). subst T3 res3. cbn. repeat split; auto.
Qed.

Lemma correct_len rtol atol h ports (ps : list (epart Buf)) :
  forall prev T df0 df1 res buf err T2 df1' res' b' ds e,
  length prev = length ps -> length T = length ps -> length df0 = length ps ->
  length df1 = length ps -> length res = length ps -> length buf = length ps ->
  correct rtol atol h ports ps prev T df0 df1 res buf err = (T2, df1', res', b', ds, e) ->
  length T2 = length ps /\ length df1' = length ps /\ length res' = length ps /\
  length b' = length ps.
Proof.
  induction ps as [|p ps IH];
    intros prev T df0 df1 res buf err T2 df1' res' b' ds e L1 L2 L3 L4 L5 L6 H;
    destruct prev as [|y prev], T as [|t T], df0 as [|d df0], df1 as [|g df1],
      res as [|r res], buf as [|b buf];
    try discriminate; cbn [correct] in H.
  - inversion H; subst. cbn. auto.
  - destruct (ep_diff p h ports t b) as [[dd br] b1] eqn:E.
    match type of H with context [correct _ _ _ _ _ _ _ _ _ _ _ ?e'] =>
      destruct (correct rtol atol h ports ps prev T df0 df1 res buf e')
        as [[[[[T3 df13] res3] b3] ds3] e3] eqn:EC end.
    inversion H; subst; clear H.
    apply IH in EC; cbn in *; lia.
Qed.

Lemma imap_combine {A} (f : A -> vec -> vec) (ps : list A) xs :
  length xs = length ps ->
  imap f ps xs = map (fun px => f (fst px) (snd px)) (combine ps xs).
Proof.
  revert xs. induction ps as [|p ps IH]; intros [|x xs] H; try discriminate; cbn; auto.
  f_equal. apply IH. cbn in H. lia.
Qed.

(** Memory shapes. *)
Definition shaped (mo : model Buf) (m : mem Buf) : Prop :=
  let n := length (mo_e mo) in
  length (m_prevE m) = n /\ length (m_T m) = n /\ length (m_df0 m) = n /\
  length (m_df1 m) = n /\ length (m_resE m) = n /\ length (m_buf m) = n /\
  length (m_prevI m) = length (mo_i mo).

Lemma num_attempt_shaped mo h m m' o : shaped mo m -> num_attempt mo h m = (m', o) ->
  shaped mo m' /\ m_bkp m' = m_bkp m /\ m_prevE m' = m_prevE m /\ m_prevI m' = m_prevI m.
Proof.
  intros (S1&S2&S3&S4&S5&S6&S7) H. unfold num_attempt in H.
  destruct (predict h (m_ports m) (mo_e mo) (m_prevE m) (m_T m) (m_df0 m) (m_buf m))
    as [[[T1 df0] buf1] br] eqn:EP.
  apply predict_len in EP; auto. destruct EP as (P1&P2&P3).
  destruct br as [d|].
  - inversion H; subst; clear H. unfold shaped; cbn. repeat split; auto.
  - match type of H with context [correct ?a ?b ?c ?d ?e0 ?f ?g ?i ?j ?k ?l ?n] =>
      destruct (correct a b c d e0 f g i j k l n)
        as [[[[[T2 df1] res] buf2] ds] err] eqn:EC end.
    apply correct_len in EC; auto. destruct EC as (Q1&Q2&Q3&Q4).
    inversion H; subst; clear H. unfold shaped; cbn. repeat split; auto.
Qed.

Lemma num_attempt_stable mo fs h m m' ds e :
  Forall2 pure_part (mo_e mo) fs -> shaped mo m ->
  num_attempt mo h m = (m', OStable ds e) ->
  clean_step fs (mo_n mo) (mo_i mo) (update_ports (mo_ports mo)) h
    (m_prevE m) (m_prevI m) (m_ports m)
  = (m_resE m', m_nres m', m_ires m', m_ports m') /\ m_T m' = m_resE m'.
Proof.
  intros Hp (S1&S2&S3&S4&S5&S6&S7) H. unfold num_attempt in H.
  destruct (predict h (m_ports m) (mo_e mo) (m_prevE m) (m_T m) (m_df0 m) (m_buf m))
    as [[[T1 df0] buf1] br] eqn:EP.
  destruct br as [d|]; [discriminate|].
  pose proof (predict_len h (m_ports m) (mo_e mo) _ _ _ _ _ _ _ _ S1 S2 S3 S6 EP)
    as (P1&P2&P3).
  apply (predict_ok h (m_ports m) (mo_e mo) fs Hp) in EP; auto.
  destruct EP as (I1&I2&_).
  match type of H with context [correct ?a ?b ?c ?d ?e0 ?f ?g ?i ?j ?k ?l ?n] =>
      destruct (correct a b c d e0 f g i j k l n)
        as [[[[[T2 df1] res] buf2] ds'] err] eqn:EC end.
  apply (correct_ok _ _ _ _ (mo_e mo) fs Hp) in EC; auto.
  destruct EC as (J1&J2&_).
  inversion H; subst m' ds' e; clear H. cbn [m_resE m_nres m_ires m_ports m_T].
  split; [|exact J2]. unfold clean_step.
  set (iT := imap (fun f y => f (h / 2) (m_ports m) y) (mo_i mo) (m_prevI m)) in *.
  assert (EiT : map (fun fy => fst fy (h / 2) (m_ports m) (snd fy))
                    (combine (mo_i mo) (m_prevI m)) = iT).
  { unfold iT. rewrite imap_combine by exact S7. reflexivity. }
  assert (LiT : length iT = length (mo_i mo)).
  { rewrite <- EiT, map_length, combine_length. lia. }
  rewrite EiT. rewrite <- I1, <- I2, <- J1.
  match goal with |- context [imap (fun f y => f (h / 2) ?P y) (mo_i mo) iT] =>
    assert (E2 : map (fun fy => fst fy (h / 2) P (snd fy)) (combine (mo_i mo) iT)
                 = imap (fun f y => f (h / 2) P y) (mo_i mo) iT)
      by (rewrite imap_combine by exact LiT; reflexivity) end.
  rewrite E2. reflexivity.
Qed.

Lemma full_loop_clean mo c fs : Forall2 pure_part (mo_e mo) fs ->
  forall fuel m s u m' s', shaped mo m -> m_ports m = m_bkp m ->
  full_loop mo c fuel m s = FAccepted u m' s' ->
  clean_step fs (mo_n mo) (mo_i mo) (update_ports (mo_ports mo)) u
    (m_prevE m) (m_prevI m) (m_ports m)
  = (m_resE m', m_nres m', m_ires m', m_ports m') /\
  m_T m' = m_resE m' /\ m_prevE m' = m_prevE m.
Proof.
  intros Hp. induction fuel as [|f IH]; intros m s u m' s' Hs Hb H; cbn in H; [discriminate|].
  destruct (num_attempt mo (s_h s) m) as [m1 o] eqn:EN.
  pose proof (num_attempt_shaped _ _ _ _ _ Hs EN) as (N1&N2&N3&N4).
  destruct (attempt c s o) as [u0 k s0|s0|] eqn:EA; [| |discriminate].
  - inversion H; subst; clear H.
    assert (Hu : u = s_h s /\ exists ds e, o = OStable ds e).
    { unfold attempt in EA. destruct o as [d|ds e]; [destruct (Nat.eqb _ _); discriminate|].
      split; [|eauto].
      destruct e as [r| |];
        repeat match type of EA with context [if ?b then _ else _] => destruct b end;
        try discriminate; inversion EA; reflexivity. }
    destruct Hu as [-> [ds [e ->]]].
    destruct (num_attempt_stable mo fs _ _ _ _ _ Hp Hs EN) as [A1 A2].
    repeat split; auto.
  - destruct (IH (restore m1) s0 u m' s') as [I1 [I2 I3]]; auto.
    unfold restore in *; cbn [m_prevE m_prevI m_ports] in *.
    rewrite N2, N3, N4 in *. rewrite <- Hb in I1. auto.
Qed.

Lemma heun_adaptive_clean mo c fs fuel m s u m' s' :
  Forall2 pure_part (mo_e mo) fs -> shaped mo m ->
  heun_adaptive mo c fuel m s = FAccepted u m' s' ->
  clean_step fs (mo_n mo) (mo_i mo) (update_ports (mo_ports mo)) u
    (m_prevE m) (m_prevI m) (m_ports m)
  = (m_resE m', m_nres m', m_ires m', m_ports m') /\
  m_T m' = m_resE m' /\ m_prevE m' = m_prevE m.
Proof.
  intros Hp Hs H. unfold heun_adaptive in H.
  apply (full_loop_clean mo c fs Hp) in H; auto.
Qed.

(** Raising restores the ports. *)
Lemma full_loop_raise mo c : forall fuel m s m', shaped mo m ->
  full_loop mo c fuel m s = FRaised m' -> m_ports m' = m_bkp m /\ m_prevE m' = m_prevE m.
Proof.
  induction fuel as [|f IH]; intros m s m' Hs H; cbn in H; [discriminate|].
  destruct (num_attempt mo (s_h s) m) as [m1 o] eqn:EN.
  pose proof (num_attempt_shaped _ _ _ _ _ Hs EN) as (N1&N2&N3&N4).
  destruct (attempt c s o) as [u0 k s0|s0|] eqn:EA; [discriminate| |].
  - apply IH in H; [|exact N1]. cbn [restore m_bkp m_prevE] in H.
    rewrite N2, N3 in H. exact H.
  - inversion H; subst; clear H. cbn [restore m_ports m_prevE]. auto.
Qed.

End L.
