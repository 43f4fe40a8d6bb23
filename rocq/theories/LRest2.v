(** Networks left to themselves (C185): steps and runs. *)
From Coq Require Import Reals List Arith Bool Lra Lia.
From Verif Require Import MFlow MWater MDiff SFlow SDiff MSolver MHeun MRange SRange SRest LFlow LPoly LWater LDiff LDiff2 LDiff3
  LDiff4 LDiff5 LDiff7 LSolver LHeun LRange LRange2 LRest PRange.
Import ListNotations.
Open Scope R_scope.

Lemma inside_sub lo hi lo' hi' n v : inside lo hi n v -> lo' <= lo -> hi <= hi' -> inside lo' hi' n v.
Proof. intros [L F] H1 H2. split; [exact L|]. eapply Forall_impl; [|exact F]. cbn. intros; lra. Qed.
Lemma rows_sub lo hi lo' hi' ns V : rows lo hi ns V -> lo' <= lo -> hi <= hi' -> rows lo' hi' ns V.
Proof. intros H H1 H2. induction H; constructor; [eapply inside_sub; eassumption|assumption]. Qed.

Lemma F2impl {A B} (P Q : A -> B -> Prop) l l' : (forall a b, P a b -> Q a b) -> Forall2 P l l' -> Forall2 Q l l'.
Proof. intros H. induction 1; constructor; auto. Qed.

(** ** Ports after an update *)
Definition src_val (E N I : list vec) (s : src) : R :=
  match s with SrcE p c => getv E p c | SrcN p c => getv N p c | SrcI p c => getv I p c end.
Lemma upd_nth k i x a : nth k (upd i x a) 0 = if (k =? i)%nat then (if (k <? length a)%nat then x else 0) else nth k a 0.
Proof.
  revert k i. induction a as [|y a IH]; intros k i.
  - replace (upd i x []) with (@nil R) by (destruct i; reflexivity). destruct (k =? i)%nat, k; reflexivity.
  - destruct i as [|i], k as [|k]; cbn [upd nth length Nat.eqb Nat.ltb Nat.leb]; try reflexivity. rewrite IH. reflexivity.
Qed.
Lemma ports_at (P : R -> Prop) ps E N I : forall ports k, (k < length ports)%nat ->
  (forall s, In (k, s) ps -> P (src_val E N I s)) -> ((exists s, In (k, s) ps) \/ P (nth k ports 0)) ->
  P (nth k (update_ports ps E N I ports) 0).
Proof.
  unfold update_ports. induction ps as [|[i s] ps IH]; intros ports k Hk HS HD.
  - destruct HD as [[s []]|HD]; exact HD.
  - cbn [fold_left fst snd]. apply IH.
    + rewrite upd_len. exact Hk.
    + intros s' H. apply HS. right. exact H.
    + rewrite upd_nth. destruct (Nat.eqb_spec k i) as [->|Ne].
      * right. apply Nat.ltb_lt in Hk. rewrite Hk. apply (HS s). left. reflexivity.
      * destruct HD as [[s' [H|H]]|HD]; [injection H as -> _; contradiction|left; eauto|right; exact HD].
Qed.
Lemma ports_len ps E N I ports : length (update_ports ps E N I ports) = length ports.
Proof.
  unfold update_ports. revert ports. induction ps as [|[i s] ps IH]; intros ports; [reflexivity|].
  cbn [fold_left]. rewrite IH. apply upd_len.
Qed.
Lemma inside_all lo hi n v : length v = n -> (forall k, (k < n)%nat -> lo <= nth k v 0 <= hi) -> inside lo hi n v.
Proof.
  intros L H. split; [exact L|]. apply Forall_forall. intros x Hx. destruct (In_nth v x 0 Hx) as (k & Hk & <-).
  apply H. lia.
Qed.

(** ** One attempt *)
Section Step.
Context {Buf : Type}.
Variables (Ts dl dh c hmax : R) (np : nat).
Hypothesis HDl : 0 <= dl.
Hypothesis HDh : 0 <= dh.
Hypothesis Hc : 0 <= c.
Local Notation ins1 := (inside (Ts - dl) (Ts + dh)).
Local Notation rws1 := (rows (Ts - dl) (Ts + dh)).
Local Notation ins k := (inside (Ts - k * dl) (Ts + k * dh)).
Local Notation rws k := (rows (Ts - k * dl) (Ts + k * dh)).
(** An Euler step brings every cell closer. *)
Definition closer (n : nat) (P : Buf -> Prop) (p : epart Buf) : Prop :=
  forall h ports T b, 0 <= h <= hmax -> ins1 np ports -> ins1 n T -> P b ->
  ins (1 - c * h) n (vadd T (vscale h (fst (fst (ep_diff p h ports T b))))).
Local Notation parts es ps :=
  (Forall2 (fun nP p => keeps (Ts - dl) (Ts + dh) hmax np (fst nP) (snd nP) p /\ closer (fst nP) (snd nP) p) es ps).

Lemma predict_closer h ports : 0 <= h <= hmax -> ins1 np ports ->
  forall ns Qs (ps : list (epart Buf)) prev T df0 buf T1 d1 b1,
  length Qs = length ns -> parts (combine ns Qs) ps ->
  rws1 ns prev -> length T = length ns -> length df0 = length ns -> Forall2 (fun P b => P b) Qs buf ->
  predict h ports ps prev T df0 buf = (T1, d1, b1, None) -> rws (1 - c * h) ns T1.
Proof.
  intros Hh Hp. induction ns as [|n ns IH]; intros Qs ps prev T df0 buf T1 d1 b1 LQ HP HV LT LD HB E.
  - destruct Qs; [|discriminate]. inversion HP; subst. inversion HV; subst. inversion HB; subst.
    destruct T; [|discriminate]. cbn in E. inversion E; subst. constructor.
  - destruct Qs as [|Q Qs]; [discriminate|]. cbn [combine] in HP.
    inversion HP as [|? p ? ps' [Kp Cp] HP']; subst. inversion HV as [|? y ? prev' Hy HV']; subst.
    inversion HB as [|? b ? buf' Hb HB']; subst.
    destruct T as [|t0 T]; [discriminate|]. destruct df0 as [|e0 df0]; [discriminate|].
    cbn [predict] in E. cbn [fst snd] in Kp, Cp. specialize (Cp h ports y b Hh Hp Hy Hb).
    destruct (ep_diff p h ports y b) as [[d br0] bb] eqn:ED. cbn [fst] in Cp.
    destruct br0 as [v|]; [discriminate|].
    destruct (predict h ports ps' prev' T df0 buf') as [[[T' d'] bs] r] eqn:EP.
    inversion E; subst. cbn in LQ, LT, LD. constructor; [exact Cp|].
    eapply IH; [| |exact HV'| | |exact HB'|exact EP]; try lia; exact HP'.
Qed.

Lemma heun_closer y d0 d1 h : forall n, length y = n -> length d0 = n -> length d1 = n ->
  ins1 n y -> ins (1 - c * h) n (vadd (vadd y (vscale h d0)) (vscale h d1)) ->
  ins (1 - c * h / 2) n (vadd y (vscale (h / 2) (vadd d0 d1))).
Proof.
  unfold inside, vadd, vscale.
  revert d0 d1. induction y as [|a y IH]; intros [|b d0] [|e d1] n L0 L1 L2 [_ F] [_ G]; cbn in *; subst n;
    try discriminate; [split; auto|].
  inversion F; subst. inversion G; subst.
  destruct (IH d0 d1 (length y)) as [K1 K2]; try lia; try (split; [lia|assumption]).
  - split; [|assumption]. rewrite !vlen, !map_length. lia.
  - split; [f_equal; exact K1|]. constructor; [nra|exact K2].
Qed.

Lemma correct_closer rtol atol h ports : 0 <= h <= hmax -> ins1 np ports ->
  forall ns Qs (ps : list (epart Buf)) prev T df0 df1 rs buf err T2 d1 res b1 ds e,
  length Qs = length ns -> parts (combine ns Qs) ps ->
  rws1 ns prev -> rws1 ns T -> Forall2 (fun n d => length d = n) ns df0 ->
  Forall2 (fun td y => fst td = vadd y (vscale h (snd td))) (combine T df0) prev ->
  length df1 = length ns -> length rs = length ns -> Forall2 (fun P b => P b) Qs buf ->
  correct rtol atol h ports ps prev T df0 df1 rs buf err = (T2, d1, res, b1, ds, e) ->
  rws (1 - c * h / 2) ns res.
Proof.
  intros Hh Hp. induction ns as [|n ns IH];
    intros Qs ps prev T df0 df1 rs buf err T2 d1 res b1 ds e LQ HP HV HT HDf HTD L1 LR HB E.
  - destruct Qs; [|discriminate]. inversion HP; subst. inversion HV; subst. inversion HB; subst.
    inversion HT; subst. inversion HDf; subst.
    destruct df1; [|discriminate]. destruct rs; [|discriminate]. cbn in E. inversion E; subst. constructor.
  - destruct Qs as [|Q Qs]; [discriminate|]. cbn [combine] in HP.
    inversion HP as [|? p ? ps' [Kp Cp] HP']; subst. inversion HV as [|? y ? prev' Hy HV']; subst.
    inversion HB as [|? b ? buf' Hb HB']; subst. inversion HT as [|? t ? T' Ht HT']; subst.
    inversion HDf as [|? d0 ? df0' Hd0 HD']; subst. cbn [combine] in HTD.
    inversion HTD as [|? ? ? ? Etd HTD']; subst. cbn [fst snd] in Etd.
    destruct df1 as [|x1 df1]; [discriminate|]. destruct rs as [|x2 rs]; [discriminate|].
    cbn [correct] in E. cbn [fst snd] in Kp, Cp. specialize (Kp h ports t b Hh Hp Ht Hb). specialize (Cp h ports t b Hh Hp Ht Hb).
    destruct (ep_diff p h ports t b) as [[d br0] bb] eqn:ED. destruct Kp as (K1&K2&K3&K4). cbn [fst] in Cp.
    match type of E with context [correct ?a ?b ?c ?d ?e0 ?f ?g ?i ?j ?k ?l ?n] =>
      destruct (correct a b c d e0 f g i j k l n) as [[[[[T3 df3] res3] buf3] ds3] err3] eqn:EC end.
    inversion E; subst. cbn in LQ, L1, LR. constructor.
    + apply heun_closer; try reflexivity; try assumption. apply Hy.
    + eapply IH; [| |exact HV'|exact HT'|exact HD'|exact HTD'| | |exact HB'|exact EC]; try lia; exact HP'.
Qed.
End Step.

Section Net.
Variables (Ts dl dh c hmax : R) (outer : nat -> Prop) (gs : list geo) (z : sizes).
Hypothesis HDl : 0 <= dl.
Hypothesis HDh : 0 <= dh.
Hypothesis Hlo : 0 <= Ts - dl.
Hypothesis Hhi : Ts + dh <= 100.
Hypothesis Hc : 0 <= c.
Hypothesis Ez : sz_e z = map g_n gs.
Hypothesis Ei : sz_i z = [].
Local Notation ins1 := (inside (Ts - dl) (Ts + dh)).
Local Notation rws1 := (rows (Ts - dl) (Ts + dh)).
Local Notation ins k := (inside (Ts - k * dl) (Ts + k * dh)).
Local Notation rws k := (rows (Ts - k * dl) (Ts + k * dh)).
Local Notation alone := (left_alone geo_ok Ts dl dh c hmax outer gs z).

Lemma alone_parts mo : alone mo ->
  Forall2 (fun nP p => keeps (Ts - dl) (Ts + dh) hmax (sz_p z) (fst nP) (snd nP) p /\
     closer Ts dl dh c hmax (sz_p z) (fst nP) (snd nP) p) (combine (sz_e z) (map surv gs)) (mo_e mo).
Proof.
  intros (ps & E & HP & _). rewrite E, Ez. clear - HP Hlo Hhi HDl HDh.
  induction HP as [|g p gs ps (N & S & L) HP IH]; cbn; constructor; [|exact IH]. cbn [fst snd].
  assert (N' : node_ok geo_ok (Ts - dl) (Ts + dh) (sz_p z) g p).
  { destruct N as (A1&A2&A3&A4). split; [exact A1|split; [exact A2|split; [lra|exact A4]]]. }
  split; [apply node_keeps; assumption|].
  intros h ports T [b f] Hh Hp HT [B F]. cbn [fst snd] in B, F.
  pose proof N as (Eg&G&HA&HI&HK). cbn [node_part ep_diff snd fst]. rewrite Eg.
  set (Tp := fun i => nth (nd_ids p i) ports 0). set (r := node_res p (ext T) Tp (b, f)).
  assert (RT : forall j, (j < g_n g)%nat -> Ts - dl <= ext T (Datatypes.S j) <= Ts + dh).
  { intros j Hj. unfold ext. cbn [Nat.sub]. rewrite Nat.sub_0_r. apply (inside_nth (Ts - dl) (Ts + dh) (g_n g)); assumption. }
  assert (RP : forall i, (i < g_np g)%nat -> Ts - dl <= Tp i <= Ts + dh).
  { intros i Hi. apply (inside_nth (Ts - dl) (Ts + dh) (sz_p z)); [exact Hp|apply HI, Hi]. }
  destruct HT as [LT FT].
  destruct (euler_list (Ts - (1 - c * h) * dl) (Ts + (1 - c * h) * dh) h (r_tot r) (g_n g) T 0 LT) as [E1 E2].
  - intros j Hj. pose proof (node_shrinks Ts dl dh c hmax (sz_p z) g p N S L HDl HDh Hlo Hhi (ext T) Tp b f h Hh B F RT RP j Hj) as M.
    fold r in M. unfold ext in M. cbn [Nat.sub] in M. rewrite Nat.sub_0_r in M. exact M.
  - split; assumption.
Qed.
Lemma alone_keeping mo : alone mo -> keeping (Ts - dl) (Ts + dh) hmax z (map surv gs) mo.
Proof.
  intros A. pose proof (alone_parts mo A) as Q. destruct A as (ps & E & HP & HN & HI & HW & _).
  split; [eapply F2impl; [|exact Q]; intros a b [H _]; exact H|].
  split; [rewrite Ez, !map_length; reflexivity|]. split; [|split; [rewrite HI, Ei; constructor|exact HW]].
  clear - HN HDl HDh. induction HN as [|n f ns fs (link & L1 & L2 & L3) HN IH]; constructor; [|exact IH].
  intros h ports Hp. apply L3; [lra|lra|apply Hp|]. intros i Hi. rewrite Forall_forall in L2.
  apply (inside_nth _ _ (sz_p z)); [exact Hp|apply L2, Hi].
Qed.

(** Outer ports at the temperature of the surroundings. *)
Definition outer_ok (ports : vec) : Prop := forall k, (k < sz_p z)%nat -> outer k -> nth k ports 0 = Ts.

Lemma attempt_closer mo h m m' ds e : alone mo -> ready (Ts - dl) (Ts + dh) z (map surv gs) m -> outer_ok (m_ports m) ->
  0 <= h <= hmax -> c * h <= 1 -> num_attempt mo h m = (m', OStable ds e) ->
  rws (1 - c * h / 2) (sz_e z) (m_resE m') /\ ins (1 - c * h / 2) (sz_p z) (m_ports m') /\
  outer_ok (m_ports m').
Proof.
  intros A HR HO Hh Hch E. pose proof (alone_keeping mo A) as HK. pose proof (alone_parts mo A) as HPt.
  pose proof HK as (KE&KL&KN&KI&KW). pose proof HR as (R1&R2&R3&R4&R5&R6&R7&R8). unfold num_attempt in E.
  destruct A as (ps & EE & HP & HN & HI & HW & HS).
  destruct (predict h (m_ports m) (mo_e mo) (m_prevE m) (m_T m) (m_df0 m) (m_buf m))
    as [[[T1 df0] buf1] br] eqn:EP.
  destruct (predict_inside (Ts - dl) (Ts + dh) hmax z h (m_ports m) Hh R1 (sz_e z) (map surv gs) (mo_e mo) _ _ _ _ _ _ _ _ KL KE R2 R5 R6 R4 EP)
    as (P1&P2&P3&P4).
  destruct br as [d|]; [discriminate|]. destruct P4 as (Q1&Q2&Q3).
  assert (SH : 0 <= c * h) by (apply Rmult_le_pos; lra).
  assert (SC : forall x, 0 <= x -> 0 <= (1 - c * h) * x <= (1 - c * h / 2) * x /\ (1 - c * h / 2) * x <= x) by (intros; nra).
  pose proof (SC dl HDl) as D1. pose proof (SC dh HDh) as D2.
  pose proof (predict_closer Ts dl dh c hmax (sz_p z) h (m_ports m) Hh R1 (sz_e z) (map surv gs) (mo_e mo) _ _ _ _ _ _ _ KL HPt R2 R5 R6 R4 EP) as C1.
  rewrite HI in E. cbn [imap] in E.
  set (nT1 := map (fun f => f h (m_ports m)) (mo_n mo)) in *.
  assert (HNN : forall ports, ins1 (sz_p z) ports -> rws1 (sz_n z) (map (fun f => f h ports) (mo_n mo))).
  { intros ports Hp. clear - KN Hp. induction KN as [|n f ns fs K KN IH]; cbn; constructor; auto.
    all: try (apply K, Hp). }
  assert (N1 : rws1 (sz_n z) nT1) by (apply HNN; assumption).
  assert (I1 : rws1 (sz_i z) (m_prevI m)) by exact R3.
  pose proof (ports_inside (Ts - dl) (Ts + dh) z (mo_ports mo) T1 nT1 (m_prevI m) (m_ports m) KW Q1 N1 I1 R1) as O1.
  set (ports1 := update_ports (mo_ports mo) T1 nT1 (m_prevI m) (m_ports m)) in *.
  match type of E with context [correct ?a ?b ?c ?d ?e0 ?f ?g ?i ?j ?k ?l ?n] =>
    destruct (correct a b c d e0 f g i j k l n) as [[[[[T2 df1] res] buf2] ds'] err] eqn:EC end.
  pose proof (correct_closer Ts dl dh c hmax (sz_p z) _ _ h ports1 Hh O1 (sz_e z) (map surv gs) (mo_e mo) _ _ _ _ _ _ _ _ _ _ _ _ _
      KL HPt R2 Q1 Q2 Q3 R7 R8 P1 EC) as C2.
  assert (LP : length (m_ports m) = sz_p z) by apply R1.
  assert (O2 : outer_ok ports1).
  { intros k Hk Hok. unfold ports1. apply (ports_at (fun x => x = Ts)); [rewrite LP; exact Hk| |right; apply HO; assumption].
    intros s Hs. exfalso. apply (proj1 (HS k Hk)); [exists s; exact Hs|exact Hok]. }
  (* parts between pipes *)
  assert (N2 : rws (1 - c * h) (sz_n z) (map (fun f => f h ports1) (mo_n mo))).
  { clear - HN Q1 C1 O2 D1 D2 Hh Ei HW LP R1 HS HDl HDh.
    assert (LN : forall i, (i < sz_p z)%nat -> from_cells (mo_ports mo) outer i -> Ts - (1 - c * h) * dl <= nth i ports1 0 <= Ts + (1 - c * h) * dh).
    { intros i Hi [Ho|[Ex Fc]].
      - rewrite (O2 i Hi Ho). lra.
      - unfold ports1. apply (ports_at (fun x => Ts - (1 - c * h) * dl <= x <= Ts + (1 - c * h) * dh)); [rewrite LP; exact Hi| |left; exact Ex].
        intros s Hs. destruct (Fc s Hs) as (p & q & ->). cbn [src_val]. pose proof (HW _ _ Hs) as W.
        apply (rows_get _ _ (sz_e z)); [exact C1|exact W]. }
    assert (LN1 : length ports1 = sz_p z) by (unfold ports1; rewrite ports_len; exact LP).
    clearbody ports1. clear - HN LN LN1 D1 D2.
    induction HN as [|n f ns fs (link & L1 & L2 & L3) HN IH]; cbn; constructor.
    - apply L3; [lra|lra|exact LN1|]. intros i Hi. rewrite Forall_forall in L1, L2.
      apply LN; [apply L2, Hi|apply L1, Hi].
    - exact IH. }
  inversion E; subst. cbn [m_resE m_ports].
  split; [exact C2|].
  assert (LP1 : length ports1 = sz_p z) by apply O1.
  split.
  - apply inside_all; [rewrite ports_len; exact LP1|]. intros k Hk.
    apply (ports_at (fun x => Ts - (1 - c * h / 2) * dl <= x <= Ts + (1 - c * h / 2) * dh)); [rewrite LP1; exact Hk| |].
    + intros s Hs. pose proof (HW _ _ Hs) as W. destruct s as [p q|p q|p q]; cbn [src_val].
      * apply (rows_get _ _ (sz_e z)); [exact C2|exact W].
      * pose proof (rows_get _ _ (sz_n z) _ p q N2 W). lra.
      * rewrite Ei in W. destruct p; cbn in W; lia.
    + destruct (Classical_Prop.classic (outer k)) as [Ho|Ho].
      * right. rewrite (O2 k Hk Ho). lra.
      * left. apply (HS k Hk), Ho.
  - intros k Hk Hok. apply (ports_at (fun x => x = Ts)); [rewrite LP1; exact Hk| |right; apply O2; assumption].
    intros s Hs. exfalso. apply (proj1 (HS k Hk)); [exists s; exact Hs|exact Hok].
Qed.

Lemma loop_closer mo cf : cfg_ok cf -> c_max_step cf <= hmax -> c * hmax <= 1 -> alone mo ->
  forall fuel m s u m' s', ready (Ts - dl) (Ts + dh) z (map surv gs) m -> outer_ok (m_ports m) ->
  m_bkp m = m_ports m -> inv cf s -> s_h s <= hmax ->
  full_loop mo cf fuel m s = FAccepted u m' s' ->
  rws (1 - c * u / 2) (sz_e z) (m_resE m') /\ ins (1 - c * u / 2) (sz_p z) (m_ports m') /\
  outer_ok (m_ports m').
Proof.
  intros Hcf Hmax Hch HA. pose proof (alone_keeping mo HA) as HK.
  induction fuel as [|fu IH]; intros m s u m' s' HR HO HB HI Hs H; cbn in H; [discriminate|].
  destruct (num_attempt mo (s_h s) m) as [m1 o] eqn:EN.
  assert (Hh : 0 <= s_h s <= hmax) by (destruct HI as [HI _]; lra).
  destruct (attempt_inside (Ts - dl) (Ts + dh) hmax z (map surv gs) mo (s_h s) m m1 o HK HR Hh EN) as (A1&A2&A3&A4&A5&A6).
  assert (OK : outcome_ok o /\ match o with OStable _ e => err_valid e | _ => True end).
  { destruct (reported_stream (fun _ => o) (fun _ => A1) 0%nat) as [X Y]. split; [exact X|exact Y]. }
  pose proof (attempt_inv cf s o Hcf (proj1 OK) (proj2 OK) HI) as AI.
  destruct (attempt cf s o) as [u0 k s0|s0|] eqn:EA; [| |discriminate].
  - inversion H; subst. destruct AI as (B1&B2&B3&_). subst u.
    assert (ST : exists ds e, o = OStable ds e).
    { unfold attempt in EA. destruct o as [d|ds e]; [destruct (Nat.eqb _ _); discriminate|eauto]. }
    destruct ST as [ds [e ->]].
    apply (attempt_closer mo (s_h s) m m' ds e); try assumption. nra.
  - destruct AI as (B1&B2&_).
    apply (IH (restore m1) s0 u m' s'); try assumption.
    + unfold restore. destruct A3 as (F1&F2&F3&F4&F5&F6&F7&F8).
      cbn [m_ports m_prevE m_prevI m_T m_df0 m_df1 m_buf m_resE] in *.
      unfold ready. cbn [m_ports m_prevE m_prevI m_T m_df0 m_df1 m_buf m_resE].
      rewrite A2, A4, A5, HB. repeat split; try assumption; apply F1.
    + unfold restore. cbn [m_ports]. rewrite A2, HB. exact HO.
    + reflexivity.
    + eapply Rle_trans; [exact B2|]. apply Rmax_lub; [exact Hs|].
      destruct Hcf as (_&[_ X]&_). lra.
Qed.
End Net.

Lemma alone_sub Ts dl dh dl' dh' c hmax outer gs z mo : left_alone geo_ok Ts dl dh c hmax outer gs z mo ->
  dl' <= dl -> dh' <= dh -> left_alone geo_ok Ts dl' dh' c hmax outer gs z mo.
Proof.
  intros (ps & E & HP & HN & HI & HW & HS) H1 H2. exists ps. split; [exact E|]. split.
  { eapply F2impl; [|exact HP]. intros g p (A & B & C). split; [exact A|]. split.
    - eapply short_sub; [exact B|lra|lra].
    - eapply loses_sub; [exact C|lra|lra]. }
  split; [|split; [exact HI|split; [exact HW|exact HS]]].
  eapply F2impl; [|exact HN]. intros n f (link & L1 & L2 & L3). exists link. split; [exact L1|split; [exact L2|]].
  intros lo hi h ports G1 G2. apply L3; lra.
Qed.

Section Run.
Variables (Ts c hmax dl0 dh0 : R) (outer : nat -> Prop) (gs : list geo) (z : sizes) (cf : cfg).
Hypothesis Hc : 0 <= c.
Hypothesis Hch : c * hmax <= 1.
Hypothesis Ez : sz_e z = map g_n gs.
Hypothesis Ei : sz_i z = [].
Hypothesis Hcf : cfg_ok cf.
Hypothesis Hmax : c_max_step cf <= hmax.
Hypothesis Hlo : 0 <= Ts - dl0.
Hypothesis Hhi : Ts + dh0 <= 100.
Lemma run_closer t m s m' s' : rest_run Ts (left_alone geo_ok Ts dl0 dh0 c hmax outer gs z) cf t m s m' s' ->
  forall dl dh, 0 <= dl <= dl0 -> 0 <= dh <= dh0 -> ready (Ts - dl) (Ts + dh) z (map surv gs) m ->
  outer_ok Ts outer z (m_ports m) -> inv cf s -> s_h s <= hmax ->
  let e := exp (- (c / 2 * t)) in
  rows (Ts - e * dl) (Ts + e * dh) (sz_e z) (m_prevE m') /\ inside (Ts - e * dl) (Ts + e * dh) (sz_p z) (m_ports m').
Proof.
  intros HR. induction HR as [m s|mo fuel m s u m1 s1 m2 t m3 s3 HK HS HB HR IH]; intros dl dh HDl HDh R HO I Hs e.
  { unfold e. rewrite Rmult_0_r, Ropp_0, exp_0, !Rmult_1_l. destruct R as (R1&R2&_). split; assumption. }
  unfold heun_adaptive in HS.
  pose proof (alone_sub Ts dl0 dh0 dl dh c hmax outer gs z mo HK ltac:(lra) ltac:(lra)) as HA.
  assert (R' : ready (Ts - dl) (Ts + dh) z (map surv gs) (mkMem (m_ports m) (m_ports m) (m_prevE m) (m_prevI m) (m_T m) (m_df0 m) (m_df1 m)
           (m_buf m) (m_resE m) (m_nT m) (m_nres m) (m_iT m) (m_ires m))) by exact R.
  assert (KK : keeping (Ts - dl) (Ts + dh) hmax z (map surv gs) mo) by (eapply alone_keeping; try exact HA; lra || assumption).
  destruct (loop_inside (Ts - dl) (Ts + dh) hmax z (map surv gs) mo cf Hcf Hmax KK fuel _ _ _ _ _ R' eq_refl (enter_inv cf s I) Hs HS)
    as (A1&A2&A3&A4&A5&A6&A7&A8&A9&A10&A11&A12).
  destruct (loop_closer Ts dl dh c hmax outer gs z ltac:(lra) ltac:(lra) ltac:(lra) ltac:(lra) Hc Ez Ei mo cf Hcf Hmax Hch HA fuel _ _ _ _ _ R' HO eq_refl (enter_inv cf s I) Hs HS)
    as (B1&B2&B3).
  assert (X : 1 - c * u / 2 <= exp (- (c / 2 * u))) by (pose proof (exp_ineq1_le (- (c / 2 * u))); lra).
  assert (Y : exp (- (c / 2 * u)) <= 1).
  { rewrite <- exp_0. assert (0 <= c * u) by (apply Rmult_le_pos; lra). destruct (Req_dec (c * u) 0) as [Z|Z].
    - right. f_equal. lra.
    - left. apply exp_increasing. lra. }
  pose proof (exp_pos (- (c / 2 * u))) as P. set (q := exp (- (c / 2 * u))) in *.
  assert (SC : forall x, 0 <= x -> (1 - c * u / 2) * x <= q * x /\ 0 <= q * x <= x) by (clearbody q; intros; nra).
  pose proof (SC dl ltac:(lra)) as S1. pose proof (SC dh ltac:(lra)) as S2.
  assert (RD : ready (Ts - q * dl) (Ts + q * dh) z (map surv gs) m2).
  { apply (handover_ready (Ts - q * dl) (Ts + q * dh) z (map surv gs) m1 m2); try assumption.
    - destruct HB as (H1&H2&H3&H4&H5&H6&H7&H8). repeat split; try assumption.
      eapply F2impl; [|exact H8]. intros x y [->|Hy]; [left; reflexivity|right; lra].
    - eapply inside_sub; [exact B2|lra|lra].
    - eapply rows_sub; [exact B1|lra|lra].
    - rewrite Ei in *. inversion A7. constructor. }
  assert (RO : outer_ok Ts outer z (m_ports m2)).
  { destruct HB as (_&_&_&_&_&_&_&H8). intros k Hk Ho. specialize (B3 k Hk Ho).
    assert (L : (k < length (m_ports m1))%nat) by (rewrite (proj1 A4); exact Hk).
    clear - H8 B3 L. revert k B3 L. induction H8 as [|x y xs ys Hxy H8 IH]; intros k B3 L; [cbn in L; lia|].
    destruct k as [|k]; cbn in *; [destruct Hxy as [->|Hy]; lra|]. apply IH; [exact B3|lia]. }
  destruct (IH (q * dl) (q * dh) ltac:(lra) ltac:(lra) RD RO A1 A2) as [Q1 Q2].
  assert (ED : e = exp (- (c / 2 * t)) * q).
  { unfold e, q. rewrite <- exp_plus. f_equal. lra. }
  rewrite ED, !Rmult_assoc. split; assumption.
Qed.
End Run.
