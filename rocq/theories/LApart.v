(** Lemmas: an attempt with two networks that are not connected is an attempt with each of them. *)
From Coq Require Import Reals List Arith Lia Lra.
From Verif Require Import MSolver MHeun SHeun LHeun SApart.
Import ListNotations.
Open Scope R_scope.

Section L.
Context {Buf : Type}.
Implicit Types A B : model Buf.

Lemma predict_both (ps qs : list (epart Buf)) h ports prev T df0 buf prev2 T2 df2 buf2 :
  length prev = length ps -> length T = length ps -> length df0 = length ps -> length buf = length ps ->
  predict h ports (ps ++ qs) (prev ++ prev2) (T ++ T2) (df0 ++ df2) (buf ++ buf2)
  = let '(a, b, c, r) := predict h ports ps prev T df0 buf in
    match r with
    | Some v => (a ++ T2, b ++ df2, c ++ buf2, Some v)
    | None => let '(a2, b2, c2, r2) := predict h ports qs prev2 T2 df2 buf2 in
              (a ++ a2, b ++ b2, c ++ c2, r2)
    end.
Proof.
  revert prev T df0 buf. induction ps as [|p ps IH]; intros prev T df0 buf L1 L2 L3 L4.
  - destruct prev, T, df0, buf; try discriminate. cbn [app predict].
    destruct (predict h ports qs prev2 T2 df2 buf2) as [[[a2 b2] c2] r2] eqn:E.
    destruct qs; reflexivity.
  - destruct prev as [|y prev], T as [|t T], df0 as [|d df0], buf as [|b buf]; try discriminate.
    cbn [app predict]. destruct (ep_diff p h ports y b) as [[d1 br] b1]. destruct br as [v|]; [reflexivity|].
    rewrite IH by (cbn in *; lia).
    destruct (predict h ports ps prev T df0 buf) as [[[a c] e] r].
    destruct r; [reflexivity|].
    destruct (predict h ports qs prev2 T2 df2 buf2) as [[[a2 b2] c2] r2]. reflexivity.
Qed.
Lemma predict_first n (ps : list (epart Buf)) h pa pb prev T df0 buf : length pa = n ->
  predict h (pa ++ pb) (map (first_e n) ps) prev T df0 buf = predict h pa ps prev T df0 buf.
Proof.
  intro L. revert prev T df0 buf. induction ps as [|p ps IH]; intros; [reflexivity|].
  cbn [map predict]. destruct prev, T, df0, buf; try reflexivity.
  cbn [first_e ep_diff]. rewrite firstn_app, L, Nat.sub_diag, firstn_O, app_nil_r, <- L, firstn_all, L.
  destruct (ep_diff p h pa v b) as [[d1 [w|]] b1]; [reflexivity|]. rewrite IH. reflexivity.
Qed.
Lemma predict_second n (ps : list (epart Buf)) h pa pb prev T df0 buf : length pa = n ->
  predict h (pa ++ pb) (map (second_e n) ps) prev T df0 buf = predict h pb ps prev T df0 buf.
Proof.
  intro L. revert prev T df0 buf. induction ps as [|p ps IH]; intros; [reflexivity|].
  cbn [map predict]. destruct prev, T, df0, buf; try reflexivity.
  cbn [second_e ep_diff]. rewrite skipn_app, L, Nat.sub_diag, skipn_O, <- L, skipn_all, L. cbn [app].
  destruct (ep_diff p h pb v b) as [[d1 [w|]] b1]; [reflexivity|]. rewrite IH. reflexivity.
Qed.
Lemma correct_err (ps : list (epart Buf)) rtol atol h ports prev T df0 df1 res buf e :
  correct rtol atol h ports ps prev T df0 df1 res buf e
  = let '(a, b, c, d, ds, e0) := correct rtol atol h ports ps prev T df0 df1 res buf 0 in
    (a, b, c, d, ds, e + e0).
Proof.
  revert prev T df0 df1 res buf e. induction ps as [|p ps IH]; intros.
  - cbn [correct]. f_equal. lra.
  - cbn [correct]. destruct prev, T, df0, df1, res, buf;
      try (cbv beta iota; f_equal; lra).
    destruct (ep_diff p h ports v0 b) as [[d1 br] b1].
    set (t := trnc_err _ _ _ _ _ _). rewrite (IH _ _ _ _ _ _ (e + t)), (IH _ _ _ _ _ _ (0 + t)).
    destruct (correct rtol atol h ports ps prev T df0 df1 res buf 0) as [[[[[a0 b0] c0] d0] ds] e0].
    f_equal. lra.
Qed.
Lemma correct_both (ps qs : list (epart Buf)) rtol atol h ports prev T df0 df1 res buf e
  prev2 T2 df02 df12 res2 buf2 :
  length prev = length ps -> length T = length ps -> length df0 = length ps -> length df1 = length ps ->
  length res = length ps -> length buf = length ps ->
  correct rtol atol h ports (ps ++ qs) (prev ++ prev2) (T ++ T2) (df0 ++ df02) (df1 ++ df12)
    (res ++ res2) (buf ++ buf2) e
  = let '(a, b, c, d, ds, e1) := correct rtol atol h ports ps prev T df0 df1 res buf e in
    let '(a2, b2, c2, d2, ds2, e2) := correct rtol atol h ports qs prev2 T2 df02 df12 res2 buf2 e1 in
    (a ++ a2, b ++ b2, c ++ c2, d ++ d2, ds ++ ds2, e2).
Proof.
  revert prev T df0 df1 res buf e. induction ps as [|p ps IH]; intros prev T df0 df1 res buf e L1 L2 L3 L4 L5 L6.
  - destruct prev, T, df0, df1, res, buf; try discriminate. cbn [app correct].
    destruct (correct rtol atol h ports qs prev2 T2 df02 df12 res2 buf2 e) as [[[[[a2 b2] c2] d2] ds2] e2] eqn:E.
    destruct qs; exact E || (rewrite <- E; reflexivity).
  - destruct prev as [|y prev], T as [|t T], df0 as [|d df0], df1 as [|f df1], res as [|r res], buf as [|b buf];
      try discriminate.
    cbn [app correct]. destruct (ep_diff p h ports t b) as [[d1 br] b1].
    rewrite IH by (cbn in *; lia).
    destruct (correct rtol atol h ports ps prev T df0 df1 res buf _) as [[[[[a0 b0] c0] d0] ds] e1].
    destruct (correct rtol atol h ports qs prev2 T2 df02 df12 res2 buf2 e1) as [[[[[a2 b2] c2] d2] ds2] e2].
    destruct br; reflexivity.
Qed.
Lemma correct_first n (ps : list (epart Buf)) rtol atol h pa pb prev T df0 df1 res buf e : length pa = n ->
  correct rtol atol h (pa ++ pb) (map (first_e n) ps) prev T df0 df1 res buf e
  = correct rtol atol h pa ps prev T df0 df1 res buf e.
Proof.
  intro L. revert prev T df0 df1 res buf e. induction ps as [|p ps IH]; intros; [reflexivity|].
  cbn [map correct]. destruct prev, T, df0, df1, res, buf; try reflexivity.
  cbn [first_e ep_diff ep_weight]. rewrite firstn_app, L, Nat.sub_diag, firstn_O, app_nil_r, <- L, firstn_all, L.
  destruct (ep_diff p h pa v0 b) as [[d1 br] b1]. rewrite IH. reflexivity.
Qed.
Lemma correct_second n (ps : list (epart Buf)) rtol atol h pa pb prev T df0 df1 res buf e : length pa = n ->
  correct rtol atol h (pa ++ pb) (map (second_e n) ps) prev T df0 df1 res buf e
  = correct rtol atol h pb ps prev T df0 df1 res buf e.
Proof.
  intro L. revert prev T df0 df1 res buf e. induction ps as [|p ps IH]; intros; [reflexivity|].
  cbn [map correct]. destruct prev, T, df0, df1, res, buf; try reflexivity.
  cbn [second_e ep_diff ep_weight]. rewrite skipn_app, L, Nat.sub_diag, skipn_O, <- L, skipn_all, L. cbn [app].
  destruct (ep_diff p h pb v0 b) as [[d1 br] b1]. rewrite IH. reflexivity.
Qed.
Lemma imap_both {P} (f : P -> vec -> vec) ps qs xs ys : length xs = length ps ->
  imap f (ps ++ qs) (xs ++ ys) = imap f ps xs ++ imap f qs ys.
Proof.
  revert xs. induction ps as [|p ps IH]; intros [|x xs] L; try discriminate; [destruct qs; reflexivity|].
  cbn [app imap]. rewrite IH by (cbn in L; lia). reflexivity.
Qed.
Lemma imap_map {P Q} (f : P -> vec -> vec) (g : Q -> P) ps xs :
  imap f (map g ps) xs = imap (fun q => f (g q)) ps xs.
Proof. revert xs. induction ps as [|p ps IH]; intros [|x xs]; try reflexivity. cbn. rewrite IH. reflexivity. Qed.
Lemma imap_ext {P} (f g : P -> vec -> vec) ps xs : (forall p x, f p x = g p x) -> imap f ps xs = imap g ps xs.
Proof. intro H. revert xs. induction ps as [|p ps IH]; intros [|x xs]; try reflexivity. cbn. rewrite H, IH. reflexivity. Qed.
Lemma imap_length {P} (f : P -> vec -> vec) ps xs : length (imap f ps xs) = length xs.
Proof. revert xs. induction ps as [|p ps IH]; intros [|x xs]; try reflexivity. cbn. rewrite IH. reflexivity. Qed.
Lemma getv_l X Y p c : (p < length X)%nat -> getv (X ++ Y) p c = getv X p c.
Proof. intro H. unfold getv. rewrite app_nth1 by exact H. reflexivity. Qed.
Lemma getv_r X Y p c : getv (X ++ Y) (length X + p) c = getv Y p c.
Proof. unfold getv. rewrite app_nth2 by lia. f_equal. f_equal. lia. Qed.
Lemma upd_l i x a b : (i < length a)%nat -> upd i x (a ++ b) = upd i x a ++ b.
Proof.
  revert i. induction a as [|y a IH]; intros i H; [cbn in H; lia|].
  destruct i; [reflexivity|]. cbn [app upd]. rewrite IH by (cbn in H; lia). reflexivity.
Qed.
Lemma upd_r i x a b : upd (length a + i) x (a ++ b) = a ++ upd i x b.
Proof. induction a as [|y a IH]; [reflexivity|]. cbn [length app upd Nat.add]. rewrite IH. reflexivity. Qed.
Lemma upd_length i x a : length (upd i x a) = length a.
Proof. revert i. induction a as [|y a IH]; intros [|i]; try reflexivity. cbn. rewrite IH. reflexivity. Qed.
Lemma update_ports_length ps E N I ports : length (update_ports ps E N I ports) = length ports.
Proof.
  revert ports. induction ps as [|[t s] ps IH]; intro ports; [reflexivity|].
  unfold update_ports. cbn [fold_left]. etransitivity; [apply IH|apply upd_length].
Qed.

Definition src_in (ne nn ni : nat) (s : src) : Prop :=
  match s with SrcE p _ => (p < ne)%nat | SrcN p _ => (p < nn)%nat | SrcI p _ => (p < ni)%nat end.
Lemma update_both psA psB E1 E2 N1 N2 I1 I2 pa pb :
  Forall (fun ts => (fst ts < length pa)%nat /\ src_in (length E1) (length N1) (length I1) (snd ts)) psA ->
  update_ports (psA ++ map (fun ts => ((length pa + fst ts)%nat,
      shift_src (length E1) (length N1) (length I1) (snd ts))) psB)
    (E1 ++ E2) (N1 ++ N2) (I1 ++ I2) (pa ++ pb)
  = update_ports psA E1 N1 I1 pa ++ update_ports psB E2 N2 I2 pb.
Proof.
  intro F.
  assert (G1 : forall pa', length pa' = length pa ->
    fold_left (fun acc ts => upd (fst ts) (match snd ts with SrcE p c => getv (E1 ++ E2) p c
      | SrcN p c => getv (N1 ++ N2) p c | SrcI p c => getv (I1 ++ I2) p c end) acc) psA (pa' ++ pb)
    = update_ports psA E1 N1 I1 pa' ++ pb).
  { induction F as [|[t s] ps [F1 F2] F IH]; intros pa' L; [reflexivity|].
    unfold update_ports. cbn [fold_left fst snd]. cbn [fst snd] in F1, F2.
    rewrite upd_l by lia.
    replace (match s with SrcE p c => getv (E1 ++ E2) p c | SrcN p c => getv (N1 ++ N2) p c
             | SrcI p c => getv (I1 ++ I2) p c end)
      with (match s with SrcE p c => getv E1 p c | SrcN p c => getv N1 p c | SrcI p c => getv I1 p c end)
      by (destruct s; cbn in F2; rewrite getv_l by exact F2; reflexivity).
    rewrite IH by (rewrite upd_length; exact L). reflexivity. }
  unfold update_ports at 1. rewrite fold_left_app, G1 by reflexivity.
  set (q := update_ports psA E1 N1 I1 pa). assert (Lq : length q = length pa) by apply update_ports_length.
  clearbody q. clear F G1. revert pb. induction psB as [|[t s] ps IH]; intro pb; [reflexivity|].
  cbn [map fold_left fst snd]. unfold update_ports. cbn [fold_left fst snd].
  rewrite <- Lq, upd_r, Lq.
  replace (match shift_src (length E1) (length N1) (length I1) s with SrcE p c => getv (E1 ++ E2) p c
           | SrcN p c => getv (N1 ++ N2) p c | SrcI p c => getv (I1 ++ I2) p c end)
    with (match s with SrcE p c => getv E2 p c | SrcN p c => getv N2 p c | SrcI p c => getv I2 p c end)
    by (destruct s; cbn [shift_src]; rewrite getv_r; reflexivity).
  apply IH.
Qed.

Lemma map_first_n n (ps : list npart) h (pa pb : vec) : length pa = n ->
  map (fun f : R -> vec -> vec => f h (pa ++ pb)) (map (first_n n) ps) = map (fun f : R -> vec -> vec => f h pa) ps.
Proof.
  intro L. rewrite map_map. apply map_ext. intro f. unfold first_n.
  rewrite firstn_app, L, Nat.sub_diag, firstn_O, app_nil_r, <- L, firstn_all. reflexivity.
Qed.
Lemma map_second_n n (ps : list npart) h (pa pb : vec) : length pa = n ->
  map (fun f : R -> vec -> vec => f h (pa ++ pb)) (map (second_n n) ps) = map (fun f : R -> vec -> vec => f h pb) ps.
Proof.
  intro L. rewrite map_map. apply map_ext. intro f. unfold second_n.
  rewrite skipn_app, L, Nat.sub_diag, skipn_O, <- L, skipn_all. reflexivity.
Qed.
Lemma imap_both_i n (is js : list ipart) h (pa pb : vec) (xs ys : list vec) : length pa = n -> length xs = length is ->
  imap (fun (f : R -> vec -> vec -> vec) (y : vec) => f h (pa ++ pb) y) (map (first_i n) is ++ map (second_i n) js) (xs ++ ys)
  = imap (fun (f : R -> vec -> vec -> vec) (y : vec) => f h pa y) is xs ++ imap (fun (f : R -> vec -> vec -> vec) (y : vec) => f h pb y) js ys.
Proof.
  intros L X. rewrite imap_both by (rewrite map_length; exact X). rewrite !imap_map. f_equal; apply imap_ext; intros p x.
  - unfold first_i. rewrite firstn_app, L, Nat.sub_diag, firstn_O, app_nil_r, <- L, firstn_all. reflexivity.
  - unfold second_i. rewrite skipn_app, L, Nat.sub_diag, skipn_O, <- L, skipn_all. reflexivity.
Qed.

(** The sum of squares behind the reported error. *)
Definition attempt_err (mo : model Buf) (h : R) (m : mem Buf) : R :=
  let '(T1, df0, buf1, _) :=
    predict h (m_ports m) (mo_e mo) (m_prevE m) (m_T m) (m_df0 m) (m_buf m) in
  let iT := imap (fun f y => f (h / 2) (m_ports m) y) (mo_i mo) (m_prevI m) in
  let nT1 := map (fun f => f h (m_ports m)) (mo_n mo) in
  let ports1 := update_ports (mo_ports mo) T1 nT1 iT (m_ports m) in
  snd (correct (mo_rtol mo) (mo_atol mo) h ports1 (mo_e mo) (m_prevE m) T1 df0
                (m_df1 m) (m_resE m) buf1 0).
Lemma attempt_err_is mo h m m' ds e : num_attempt mo h m = (m', OStable ds e) ->
  e = sys_err mo (attempt_err mo h m).
Proof.
  unfold num_attempt, attempt_err.
  destruct (predict h (m_ports m) (mo_e mo) (m_prevE m) (m_T m) (m_df0 m) (m_buf m)) as [[[T1 df0] b1] [v|]];
    [discriminate|].
  destruct (correct _ _ _ _ _ _ _ _ _ _ _ _) as [[[[[a b] c] d] ds'] err]. cbn [snd].
  intro H. inversion H; subst. reflexivity.
Qed.

Lemma attempt_both n A B h a b a' b' da db ea eb :
  fits n A a -> shaped B b -> mo_rtol A = mo_rtol B -> mo_atol A = mo_atol B ->
  num_attempt A h a = (a', OStable da ea) -> num_attempt B h b = (b', OStable db eb) ->
  num_attempt (both n A B) h (both_mem a b)
  = (both_mem a' b', OStable (da ++ db) (sys_err (both n A B) (attempt_err A h a + attempt_err B h b))).
Proof.
  intros (SA & LP & LB & W) SB Er Ea HA HB.
  pose proof SA as (A1&A2&A3&A4&A5&A6&A7). pose proof SB as (B1&B2&B3&B4&B5&B6&B7).
  unfold num_attempt, attempt_err in *. cbn [both both_mem m_ports m_bkp m_prevE m_prevI m_T m_df0 m_df1 m_buf
    m_resE m_nT m_nres m_iT m_ires mo_e mo_n mo_i mo_ports mo_rtol mo_atol mo_cells].
  rewrite predict_both by (rewrite map_length; assumption).
  rewrite predict_first, predict_second by exact LP.
  destruct (predict h (m_ports a) (mo_e A) (m_prevE a) (m_T a) (m_df0 a) (m_buf a)) as [[[TA dfA] bA] [v|]] eqn:PA;
    [discriminate|].
  destruct (predict h (m_ports b) (mo_e B) (m_prevE b) (m_T b) (m_df0 b) (m_buf b)) as [[[TB dfB] bB] [v|]] eqn:PB;
    [discriminate|].
  apply predict_len in PA; auto. destruct PA as (PA1&PA2&PA3).
  apply predict_len in PB; auto. destruct PB as (PB1&PB2&PB3).
  rewrite imap_both_i by assumption. rewrite map_app, map_first_n, map_second_n by exact LP.
  set (iA := imap (fun f y => f (h / 2) (m_ports a) y) (mo_i A) (m_prevI a)) in *.
  set (iB := imap (fun f y => f (h / 2) (m_ports b) y) (mo_i B) (m_prevI b)) in *.
  set (nA := map (fun f => f h (m_ports a)) (mo_n A)) in *.
  set (nB := map (fun f => f h (m_ports b)) (mo_n B)) in *.
  assert (LiA : length iA = length (mo_i A)) by (unfold iA; rewrite imap_length; exact A7).
  assert (LnA : length nA = length (mo_n A)) by (unfold nA; apply map_length).
  assert (U : forall E1 N1 I1 p1 E2 N2 I2 p2, length E1 = length (mo_e A) -> length N1 = length (mo_n A) ->
    length I1 = length (mo_i A) -> length p1 = n ->
    update_ports (mo_ports A ++ map (fun ts => ((n + fst ts)%nat,
      shift_src (length (mo_e A)) (length (mo_n A)) (length (mo_i A)) (snd ts))) (mo_ports B))
      (E1 ++ E2) (N1 ++ N2) (I1 ++ I2) (p1 ++ p2)
    = update_ports (mo_ports A) E1 N1 I1 p1 ++ update_ports (mo_ports B) E2 N2 I2 p2).
  { intros E1 N1 I1 p1 E2 N2 I2 p2 Q1 Q2 Q3 Q4. rewrite <- Q1, <- Q2, <- Q3, <- Q4. apply update_both.
    rewrite Forall_forall in W |- *. intros ts I. specialize (W ts I). destruct W as [W1 W2].
    split; [lia|]. unfold src_in. rewrite Q1, Q2, Q3. exact W2. }
  rewrite U by (assumption || reflexivity).
  set (pA := update_ports (mo_ports A) TA nA iA (m_ports a)) in *.
  set (pB := update_ports (mo_ports B) TB nB iB (m_ports b)) in *.
  assert (LpA : length pA = n) by (unfold pA; rewrite update_ports_length; exact LP).
  rewrite correct_both by (rewrite map_length; assumption).
  rewrite correct_first by exact LpA.
  destruct (correct (mo_rtol A) (mo_atol A) h pA (mo_e A) (m_prevE a) TA dfA (m_df1 a) (m_resE a) bA 0)
    as [[[[[T2A d1A] rA] b2A] dsA] eA] eqn:CA.
  cbv beta iota. rewrite correct_second by exact LpA. rewrite correct_err.
  destruct (correct (mo_rtol B) (mo_atol B) h pB (mo_e B) (m_prevE b) TB dfB (m_df1 b) (m_resE b) bB 0)
    as [[[[[T2B d1B] rB] b2B] dsB] eB] eqn:CB.
  rewrite Er, Ea, CB. cbv beta iota.
  apply correct_len in CA; auto. destruct CA as (C1&C2&C3&C4).
  rewrite imap_both_i by assumption. rewrite map_app, map_first_n, map_second_n by exact LpA.
  rewrite U; try (assumption || (rewrite map_length; reflexivity) || (rewrite imap_length; exact LiA)).
  cbn [snd]. inversion HA; subst; clear HA. inversion HB; subst; clear HB.
  unfold both_mem. cbn [m_ports m_bkp m_prevE m_prevI m_T m_df0 m_df1 m_buf
    m_resE m_nT m_nres m_iT m_ires]. reflexivity.
Qed.

(** An objection of one network stops the attempt. *)
Lemma unstable_first n A B h a b a' d : fits n A a -> num_attempt A h a = (a', OUnstable d) ->
  snd (num_attempt (both n A B) h (both_mem a b)) = OUnstable d.
Proof.
  intros (SA & LP & LB & W) HA. pose proof SA as (A1&A2&A3&A4&A5&A6&A7).
  unfold num_attempt in *. cbn [both both_mem m_ports m_prevE m_T m_df0 m_buf mo_e].
  rewrite predict_both by (rewrite map_length; assumption). rewrite predict_first by exact LP.
  destruct (predict h (m_ports a) (mo_e A) (m_prevE a) (m_T a) (m_df0 a) (m_buf a)) as [[[TA dfA] bA] [v|]].
  - inversion HA; subst. reflexivity.
  - destruct (correct _ _ _ _ _ _ _ _ _ _ _ _) as [[[[[? ?] ?] ?] ?] ?]. discriminate.
Qed.
Lemma unstable_second n A B h a b a' da ea b' d : fits n A a -> num_attempt A h a = (a', OStable da ea) ->
  num_attempt B h b = (b', OUnstable d) ->
  snd (num_attempt (both n A B) h (both_mem a b)) = OUnstable d.
Proof.
  intros (SA & LP & LB & W) HA HB. pose proof SA as (A1&A2&A3&A4&A5&A6&A7).
  unfold num_attempt in *. cbn [both both_mem m_ports m_prevE m_T m_df0 m_buf mo_e].
  rewrite predict_both by (rewrite map_length; assumption).
  rewrite predict_first, predict_second by exact LP.
  destruct (predict h (m_ports a) (mo_e A) (m_prevE a) (m_T a) (m_df0 a) (m_buf a)) as [[[TA dfA] bA] [v|]];
    [inversion HA|].
  destruct (predict h (m_ports b) (mo_e B) (m_prevE b) (m_T b) (m_df0 b) (m_buf b)) as [[[TB dfB] bB] [v|]].
  - inversion HB; subst. reflexivity.
  - clear HA. destruct (correct (mo_rtol B) _ _ _ _ _ _ _ _ _ _ _) as [[[[[? ?] ?] ?] ?] ?]. discriminate.
Qed.
Lemma stable_both n A B h a b m' ds e : fits n A a -> shaped B b ->
  mo_rtol A = mo_rtol B -> mo_atol A = mo_atol B ->
  num_attempt (both n A B) h (both_mem a b) = (m', OStable ds e) ->
  exists a' da ea b' db eb, num_attempt A h a = (a', OStable da ea) /\
    num_attempt B h b = (b', OStable db eb) /\ m' = both_mem a' b' /\ ds = da ++ db /\
    e = sys_err (both n A B) (attempt_err A h a + attempt_err B h b).
Proof.
  intros F SB Er Ea H.
  destruct (num_attempt A h a) as [a' [d|da ea]] eqn:HA.
  { pose proof (unstable_first n A B h a b a' d F HA) as U. rewrite H in U. discriminate. }
  destruct (num_attempt B h b) as [b' [d|db eb]] eqn:HB.
  { pose proof (unstable_second n A B h a b a' da ea b' d F HA HB) as U. rewrite H in U. discriminate. }
  pose proof (attempt_both n A B h a b a' b' da db ea eb F SB Er Ea HA HB) as Q. rewrite H in Q.
  inversion Q; subst. exists a', da, ea, b', db, eb. repeat split; reflexivity.
Qed.
Lemma attempt_fits n (mo : model Buf) h m m' ds e : fits n mo m -> num_attempt mo h m = (m', OStable ds e) ->
  fits n mo (next_row m') /\ fits n mo (restore m').
Proof.
  intros (S0 & LP & LB & W) H. destruct (num_attempt_shaped mo h m m' _ S0 H) as (S1 & Eb & Ep & Ei).
  assert (Q : length (m_ports m') = length (m_ports m) /\ length (m_ires m') = length (m_prevI m)).
  { unfold num_attempt in H.
    destruct (predict h (m_ports m) (mo_e mo) (m_prevE m) (m_T m) (m_df0 m) (m_buf m)) as [[[T1 df0] b1] [v|]];
      [discriminate|].
    destruct (correct _ _ _ _ _ _ _ _ _ _ _ _) as [[[[[a b] c] d] ds'] err].
    inversion H; subst. cbn [m_ports m_ires]. rewrite !update_ports_length, !imap_length. split; reflexivity. }
  destruct Q as [Q1 Q2]. destruct S0 as (_&_&_&_&_&_&S07).
  destruct S1 as (T1&T2&T3&T4&T5&T6&T7). split; (split; [|split; [|split; [|exact W]]]).
  - unfold shaped, next_row. cbn. repeat split; try assumption. lia.
  - cbn. lia.
  - cbn. lia.
  - unfold shaped, restore. cbn. repeat split; assumption.
  - cbn. rewrite Eb. exact LB.
  - cbn. rewrite Eb. exact LB.
Qed.
Lemma course_both n k A B l : mo_rtol A = mo_rtol B -> mo_atol A = mo_atol B ->
  forall a b m', fits n A a -> fits k B b -> course (both n A B) l (both_mem a b) m' ->
  exists a' b', m' = both_mem a' b' /\ course A l a a' /\ course B l b b'.
Proof.
  intros Er Ea. induction l as [|[h [|]] l IH]; intros a b m' FA FB H; inversion H; subst; clear H.
  - exists a, b. repeat split; constructor.
  - destruct (stable_both n A B h a b m1 ds e FA (proj1 FB) Er Ea ltac:(eassumption))
      as (a1&da&ea&b1&db&eb&HA&HB&E&_&_). subst m1.
    destruct (IH (next_row a1) (next_row b1) m') as (a2&b2&Q1&Q2&Q3).
    + apply (attempt_fits n A h a a1 da ea FA HA).
    + apply (attempt_fits k B h b b1 db eb FB HB).
    + assumption.
    + exists a2, b2. split; [exact Q1|]. split; econstructor; eassumption.
  - destruct (stable_both n A B h a b m1 ds e FA (proj1 FB) Er Ea ltac:(eassumption))
      as (a1&da&ea&b1&db&eb&HA&HB&E&_&_). subst m1.
    destruct (IH (restore a1) (restore b1) m') as (a2&b2&Q1&Q2&Q3).
    + apply (attempt_fits n A h a a1 da ea FA HA).
    + apply (attempt_fits k B h b b1 db eb FB HB).
    + assumption.
    + exists a2, b2. split; [exact Q1|]. split; eapply co_no; eassumption.
Qed.

(** ** Parts without memory *)
Definition first_s (n : nat) (f : slope) : slope := fun h ports T => f h (firstn n ports) T.
Definition second_s (n : nat) (f : slope) : slope := fun h ports T => f h (skipn n ports) T.
Lemma pure_both n A B fa fb : Forall2 pure_part (mo_e A) fa -> Forall2 pure_part (mo_e B) fb ->
  Forall2 pure_part (mo_e (both n A B)) (map (first_s n) fa ++ map (second_s n) fb).
Proof.
  intros HA HB. cbn [both mo_e]. apply Forall2_app.
  - induction HA as [|p f ps fs H HA IH]; cbn; constructor; [|exact IH].
    intros h ports T b. apply H.
  - induction HB as [|p f ps fs H HB IH]; cbn; constructor; [|exact IH].
    intros h ports T b. apply H.
Qed.
Lemma combine_app {X Y} (a c : list X) (b d : list Y) : length a = length b ->
  combine (a ++ c) (b ++ d) = combine a b ++ combine c d.
Proof. revert b. induction a; intros [|y b] L; try discriminate; [reflexivity|]. cbn. rewrite IHa by (cbn in L; lia). reflexivity. Qed.
Lemma first_app n (pa pb : vec) : length pa = n -> firstn n (pa ++ pb) = pa.
Proof. intro L. rewrite firstn_app, L, Nat.sub_diag, firstn_O, app_nil_r, <- L. apply firstn_all. Qed.
Lemma second_app n (pa pb : vec) : length pa = n -> skipn n (pa ++ pb) = pb.
Proof. intro L. rewrite skipn_app, L, Nat.sub_diag, skipn_O, <- L, skipn_all. reflexivity. Qed.
Lemma slopes_both n (fa fb : list slope) h (pa pb : vec) (X Y : list vec) : length pa = n -> length X = length fa ->
  map (fun fy : slope * vec => fst fy h (pa ++ pb) (snd fy))
    (combine (map (first_s n) fa ++ map (second_s n) fb) (X ++ Y))
  = map (fun fy : slope * vec => fst fy h pa (snd fy)) (combine fa X) ++ map (fun fy : slope * vec => fst fy h pb (snd fy)) (combine fb Y).
Proof.
  intros L LX. rewrite combine_app by (rewrite map_length; symmetry; exact LX). rewrite map_app. f_equal.
  - clear LX. revert X. induction fa as [|f fa IH]; intros [|x X]; try reflexivity. cbn [map combine fst snd].
    rewrite IH. unfold first_s. rewrite first_app by exact L. reflexivity.
  - clear LX. revert Y. induction fb as [|f fb IH]; intros [|x Y]; try reflexivity. cbn [map combine fst snd].
    rewrite IH. unfold second_s. rewrite second_app by exact L. reflexivity.
Qed.
Lemma slopes_both_i n (fa fb : list ipart) h (pa pb : vec) (X Y : list vec) : length pa = n -> length X = length fa ->
  map (fun fy : ipart * vec => fst fy h (pa ++ pb) (snd fy))
    (combine (map (first_i n) fa ++ map (second_i n) fb) (X ++ Y))
  = map (fun fy : ipart * vec => fst fy h pa (snd fy)) (combine fa X) ++ map (fun fy : ipart * vec => fst fy h pb (snd fy)) (combine fb Y).
Proof. exact (slopes_both n fa fb h pa pb X Y). Qed.
Lemma clean_both n A B (fa fb : list slope) h (EA EB IA IB : list vec) (pa pb : vec) :
  length pa = n -> length EA = length fa -> length fa = length (mo_e A) -> length IA = length (mo_i A) ->
  Forall (fun ts => (fst ts < n)%nat /\ src_in (length (mo_e A)) (length (mo_n A)) (length (mo_i A)) (snd ts)) (mo_ports A) ->
  clean_step (map (first_s n) fa ++ map (second_s n) fb) (mo_n (both n A B)) (mo_i (both n A B))
    (update_ports (mo_ports (both n A B))) h (EA ++ EB) (IA ++ IB) (pa ++ pb)
  = let '(r1, n1, i1, q1) := clean_step fa (mo_n A) (mo_i A) (update_ports (mo_ports A)) h EA IA pa in
    let '(r2, n2, i2, q2) := clean_step fb (mo_n B) (mo_i B) (update_ports (mo_ports B)) h EB IB pb in
    (r1 ++ r2, n1 ++ n2, i1 ++ i2, q1 ++ q2).
Proof.
  intros LP LE LF LI W. unfold clean_step. cbn [both mo_n mo_i mo_ports].
  rewrite slopes_both, slopes_both_i by assumption.
  set (sA := map (fun fy : slope * vec => fst fy h pa (snd fy)) (combine fa EA)).
  set (sB := map (fun fy : slope * vec => fst fy h pb (snd fy)) (combine fb EB)).
  assert (LsA : length sA = length fa) by (unfold sA; rewrite map_length, combine_length; lia).
  rewrite (combine_app EA EB sA sB) by lia. rewrite (map_app (fun yd : vec * vec => euler h (fst yd) (snd yd))).
  set (prA := map (fun yd : vec * vec => euler h (fst yd) (snd yd)) (combine EA sA)).
  set (prB := map (fun yd : vec * vec => euler h (fst yd) (snd yd)) (combine EB sB)).
  assert (LprA : length prA = length fa) by (unfold prA; rewrite map_length, combine_length; lia).
  set (iA := map (fun fy : ipart * vec => fst fy (h / 2) pa (snd fy)) (combine (mo_i A) IA)).
  set (iB := map (fun fy : ipart * vec => fst fy (h / 2) pb (snd fy)) (combine (mo_i B) IB)).
  assert (LiA : length iA = length (mo_i A)) by (unfold iA; rewrite map_length, combine_length; lia).
  rewrite map_app, map_first_n, map_second_n by exact LP.
  assert (U : forall E1 N1 I1 p1 E2 N2 I2 p2, length E1 = length (mo_e A) -> length N1 = length (mo_n A) ->
    length I1 = length (mo_i A) -> length p1 = n ->
    update_ports (mo_ports A ++ map (fun ts => ((n + fst ts)%nat,
      shift_src (length (mo_e A)) (length (mo_n A)) (length (mo_i A)) (snd ts))) (mo_ports B))
      (E1 ++ E2) (N1 ++ N2) (I1 ++ I2) (p1 ++ p2)
    = update_ports (mo_ports A) E1 N1 I1 p1 ++ update_ports (mo_ports B) E2 N2 I2 p2).
  { intros E1 N1 I1 p1 E2 N2 I2 p2 Q1 Q2 Q3 Q4. rewrite <- Q1, <- Q2, <- Q3, <- Q4. apply update_both.
    rewrite Q1, Q2, Q3, Q4. exact W. }
  rewrite U by (try assumption; try (rewrite map_length; reflexivity); lia).
  set (nA := map (fun f : R -> vec -> vec => f h pa) (mo_n A)).
  set (nB := map (fun f : R -> vec -> vec => f h pb) (mo_n B)).
  set (pA := update_ports (mo_ports A) prA nA iA pa). set (pB := update_ports (mo_ports B) prB nB iB pb).
  assert (LpA : length pA = n) by (unfold pA; rewrite update_ports_length; exact LP).
  rewrite slopes_both, slopes_both_i by assumption.
  set (s1A := map (fun fy : slope * vec => fst fy h pA (snd fy)) (combine fa prA)).
  set (s1B := map (fun fy : slope * vec => fst fy h pB (snd fy)) (combine fb prB)).
  assert (Ls1A : length s1A = length fa) by (unfold s1A; rewrite map_length, combine_length; lia).
  rewrite (combine_app sA sB s1A s1B) by lia.
  rewrite (combine_app EA EB (combine sA s1A) (combine sB s1B)) by (rewrite combine_length; lia).
  rewrite (map_app (fun yd : vec * (vec * vec) => heun h (fst yd) (fst (snd yd)) (snd (snd yd)))).
  rewrite map_app, map_first_n, map_second_n by exact LpA.
  rewrite U; [reflexivity| | | |exact LpA].
  - rewrite map_length, !combine_length. lia.
  - apply map_length.
  - rewrite map_length, combine_length. lia.
Qed.
End L.
