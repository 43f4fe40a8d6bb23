(** Proofs about the plate heat exchanger. *)
From Coq Require Import Reals List Bool Arith Lra Lia.
From Verif Require Import MWater LPoly LWater MMix SMix LMix.
Local Open Scope R_scope.

Lemma Rpower_pos x y : 0 < Rpower x y.
Proof. unfold Rpower. apply exp_pos. Qed.
Lemma Rpower_gt1 x y : 1 < x -> 0 < y -> 1 < Rpower x y.
Proof.
  intros X Y. unfold Rpower. rewrite <- exp_0. apply exp_increasing.
  apply Rmult_lt_0_compat; [exact Y|]. rewrite <- ln_1. apply ln_increasing; lra.
Qed.

Lemma hex_nusselt_pos dh x Re Pr : 0 < Re -> 1 < Pr -> 0 < hex_nusselt dh x Re Pr.
Proof.
  intros E P. unfold hex_nusselt. destruct (Rlt_dec 2300 Re); [|apply Rpower_pos].
  apply Rmult_lt_0_compat.
  - apply Rdiv_lt_0_compat.
    + apply Rmult_lt_0_compat; [|apply Rmult_lt_0_compat; lra].
      pose proof (Rpower_pos (1.8 * (ln Re / ln 10) - 1.5) (-2)). lra.
    + pose proof (Rpower_gt1 Pr (2/3) P ltac:(lra)).
      pose proof (Rpower_pos (Rpower (1.8 * (ln Re / ln 10) - 1.5) (-2) / 8) 0.5).
      assert (0 < 12.7 * (Rpower Pr (2/3) - 1)
                  * Rpower (Rpower (1.8 * (ln Re / ln 10) - 1.5) (-2) / 8) 0.5)
        by (apply Rmult_lt_0_compat; [lra|assumption]).
      lra.
  - pose proof (Rpower_pos (dh / x) (2/3)). lra.
Qed.

Lemma hex_alpha_pos g dm T : hexgeo_ok g -> dm <> 0 -> 0 <= T <= 100 -> 0 < hex_alpha g dm T.
Proof.
  intros (GA & GC & GD & GS & GX & GL & GN & G1 & G2 & GR) D W. unfold hex_alpha.
  pose proof (rho_bounds T W). pose proof (ny_bounds T W). pose proof (Pr_bounds T W).
  pose proof (lambda_bounds T W).
  apply Rdiv_lt_0_compat; [|exact GD].
  apply Rmult_lt_0_compat; [|lra].
  apply Rmult_lt_0_compat; [|apply Rpower_pos].
  apply hex_nusselt_pos; [|lra].
  apply Rplus_lt_le_0_compat; [|exact GR].
  apply Rdiv_lt_0_compat; [|lra].
  apply Rmult_lt_0_compat; [|exact GD].
  apply Rabs_pos_lt. intro E.
  assert (R0 : 0 < rho_water T * hg_A_chan g) by (apply Rmult_lt_0_compat; lra).
  apply D. replace dm with (dm / (rho_water T * hg_A_chan g) * (rho_water T * hg_A_chan g))
    by (field; lra). rewrite E. ring.
Qed.

Lemma inv_pos x : 0 < x -> 0 < 1 / x.
Proof. intros. apply Rdiv_lt_0_compat; lra. Qed.

Lemma hex_UA_pos g a b Ta Tb : hexgeo_ok g -> a <> 0 -> b <> 0 ->
  0 <= Ta <= 100 -> 0 <= Tb <= 100 -> 0 < hex_UA g a b Ta Tb.
Proof.
  intros G A B WA WB. pose proof G as (GA & GC & GD & GS & GX & GL & GN & G1 & G2 & GR).
  unfold hex_UA.
  assert (X : forall dm n T, 0 < n -> dm <> 0 -> 0 <= T <= 100 ->
    0 < hg_A_plate g / (1 / hex_alpha g (dm / n) T + hg_s g / 2 / hg_lam g)).
  { intros dm n T N D W. apply Rdiv_lt_0_compat; [exact GA|].
    assert (0 < hex_alpha g (dm / n) T).
    { apply hex_alpha_pos; [exact G| |exact W]. intro E. apply D.
      replace dm with (dm / n * n) by (field; lra). rewrite E. ring. }
    pose proof (inv_pos _ H).
    assert (0 < hg_s g / 2 / hg_lam g) by (apply Rdiv_lt_0_compat; lra). lra. }
  pose proof (inv_pos _ (X a _ Ta G1 A WA)). pose proof (inv_pos _ (X b _ Tb G2 B WB)).
  apply Rmult_lt_0_compat; [|exact GN]. apply inv_pos. lra.
Qed.

(** Effectiveness. *)
Lemma exp_gt1 x : 0 < x -> 1 < exp x.
Proof. intros. rewrite <- exp_0. apply exp_increasing. assumption. Qed.
Lemma exp_lt1 x : x < 0 -> exp x < 1.
Proof. intros. rewrite <- exp_0. apply exp_increasing. assumption. Qed.

Lemma hex_P_mid Rs N : Rs <> 1 -> (Rs - 1) * N < 100 ->
  hex_P Rs N = (1 - exp ((Rs - 1) * N)) / (1 - Rs * exp ((Rs - 1) * N)).
Proof.
  intros E X. unfold hex_P. destruct (Req_EM_T Rs 1); [lra|].
  destruct (Rlt_dec ((Rs - 1) * N) 100); [reflexivity|lra].
Qed.
Lemma hex_P_one N : hex_P 1 N = N / (1 + N).
Proof.
  unfold hex_P. destruct (Req_EM_T 1 1); [|lra].
  destruct (Rlt_dec 100 ((1 - 1) * N)); [lra|reflexivity].
Qed.
Lemma hex_P_big Rs N : 100 < (Rs - 1) * N -> hex_P Rs N = 1 / Rs.
Proof.
  intros X. unfold hex_P. destruct (Req_EM_T Rs 1) as [->|]; [lra|].
  destruct (Rlt_dec ((Rs - 1) * N) 100); [lra|].
  destruct (Rlt_dec 100 ((Rs - 1) * N)); [reflexivity|lra].
Qed.
Lemma hex_P_edge Rs N : (Rs - 1) * N = 100 -> hex_P Rs N = N / (1 + N).
Proof.
  intros X. unfold hex_P. destruct (Req_EM_T Rs 1) as [->|]; [lra|].
  destruct (Rlt_dec ((Rs - 1) * N) 100); [lra|].
  destruct (Rlt_dec 100 ((Rs - 1) * N)); [lra|reflexivity].
Qed.

(** Denominator and exponential for the two orders of the capacity flows. *)
Lemma hex_signs Rs N : 0 < Rs -> 0 < N -> Rs <> 1 ->
  let e := exp ((Rs - 1) * N) in
  (1 < Rs /\ 1 < e /\ 0 < Rs * e - 1) \/ (Rs < 1 /\ 0 < e < 1 /\ 0 < 1 - Rs * e).
Proof.
  intros R0 N0 R1 e. destruct (Rtotal_order Rs 1) as [H|[H|H]]; [right|lra|left].
  - assert (E : e < 1).
    { apply exp_lt1. assert (0 < (1 - Rs) * N) by (apply Rmult_lt_0_compat; lra). lra. }
    assert (0 < e) by apply exp_pos.
    pose proof (Rmult_lt_compat_l Rs e 1 R0 E). lra.
  - assert (E : 1 < e).
    { apply exp_gt1. apply Rmult_lt_0_compat; lra. }
    pose proof (Rmult_lt_compat_l Rs 1 e R0 E). lra.
Qed.

Lemma hex_P_range Rs N : 0 < Rs -> 0 < N -> (Rs - 1) * N <> 100 ->
  0 < hex_P Rs N < 1 /\ 0 < hex_P Rs N * Rs <= 1.
Proof.
  intros R0 N0 X. destruct (Req_EM_T Rs 1) as [->|R1].
  - rewrite hex_P_one. assert (0 < N / (1 + N)) by (apply Rdiv_lt_0_compat; lra).
    assert (N / (1 + N) < 1) by (apply div_lt_iff; lra). lra.
  - destruct (Rtotal_order ((Rs - 1) * N) 100) as [L|[L|L]]; [|contradiction|].
    + rewrite hex_P_mid by assumption.
      pose proof (hex_signs Rs N R0 N0 R1) as H. cbv zeta in H.
      set (e := exp ((Rs - 1) * N)) in *.
      destruct H as [(A & B & C)|(A & B & C)].
      * replace ((1 - e) / (1 - Rs * e)) with ((e - 1) / (Rs * e - 1)) by (field; lra).
        assert (P0 : 0 < (e - 1) / (Rs * e - 1)) by (apply Rdiv_lt_0_compat; lra).
        assert (P1 : (e - 1) / (Rs * e - 1) < 1).
        { apply div_lt_iff; [exact C|].
          pose proof (Rmult_lt_compat_r e 1 Rs ltac:(lra) A). lra. }
        assert (P2 : (e - 1) / (Rs * e - 1) * Rs <= 1).
        { replace ((e - 1) / (Rs * e - 1) * Rs) with ((e - 1) * Rs / (Rs * e - 1))
            by (field; lra). apply div_le_iff; [exact C|]. lra. }
        pose proof (Rmult_lt_0_compat _ _ P0 R0). lra.
      * assert (P0 : 0 < (1 - e) / (1 - Rs * e)) by (apply Rdiv_lt_0_compat; lra).
        assert (P1 : (1 - e) / (1 - Rs * e) < 1).
        { apply div_lt_iff; [exact C|].
          pose proof (Rmult_lt_compat_r e Rs 1 ltac:(lra) A). lra. }
        pose proof (Rmult_lt_0_compat _ _ P0 R0).
        pose proof (Rmult_lt_compat_r Rs _ _ R0 P1). lra.
    + rewrite hex_P_big by assumption.
      assert (A : 1 < Rs).
      { destruct (Rlt_le_dec 1 Rs) as [A|A]; [exact A|]. exfalso.
        assert ((Rs - 1) * N <= 0).
        { replace ((Rs - 1) * N) with (- ((1 - Rs) * N)) by ring.
          assert (0 <= (1 - Rs) * N) by (apply Rmult_le_pos; lra). lra. }
        lra. }
      assert (0 < 1 / Rs) by (apply inv_pos; lra).
      assert (1 / Rs < 1) by (apply div_lt_iff; lra).
      replace (1 / Rs * Rs) with 1 by (field; lra). lra.
Qed.

(** Far beyond the range of the exponential the formula is cut off; the error is tiny. *)
Lemma hex_P_cut Rs N : 0 < N -> 100 < (Rs - 1) * N ->
  let e := exp ((Rs - 1) * N) in
  0 <= hex_P Rs N - (1 - e) / (1 - Rs * e) <= exp (-100).
Proof.
  intros N0 L e. rewrite hex_P_big by assumption.
  assert (A : 1 < Rs).
  { destruct (Rlt_le_dec 1 Rs) as [A|A]; [exact A|]. exfalso.
    assert (0 <= (1 - Rs) * N) by (apply Rmult_le_pos; lra). lra. }
  pose proof (hex_signs Rs N ltac:(lra) N0 ltac:(lra)) as H. cbv zeta in H. fold e in H.
  destruct H as [(_ & B & C)|(C & _)]; [|lra].
  assert (E : exp 100 < e) by (apply exp_increasing; exact L).
  pose proof (exp_pos 100).
  replace (1 / Rs - (1 - e) / (1 - Rs * e)) with ((Rs - 1) / (Rs * (Rs * e - 1)))
    by (field; lra).
  assert (D : 0 < Rs * (Rs * e - 1)) by (apply Rmult_lt_0_compat; lra).
  split; [apply Rlt_le, Rdiv_lt_0_compat; lra|].
  apply div_le_iff; [exact D|].
  replace (exp (-100)) with (/ exp 100) by (rewrite <- exp_Ropp; f_equal; lra).
  apply Rmult_le_reg_l with (exp 100); [assumption|].
  replace (exp 100 * (/ exp 100 * (Rs * (Rs * e - 1)))) with (Rs * (Rs * e - 1)) by (field; lra).
  assert (F : exp 100 * (Rs - 1) <= e * (Rs - 1)) by (apply Rmult_le_compat_r; lra).
  assert (G : e * (Rs - 1) <= Rs * e - 1) by lra.
  assert (K : 1 * (Rs * e - 1) <= Rs * (Rs * e - 1)) by (apply Rmult_le_compat_r; lra).
  lra.
Qed.

(** Textbook law: with conductance [UA], inlet difference [d] and capacity flows. *)
Lemma hex_P_lmtd UA Cs Cd d : 0 < UA -> 0 < Cs -> 0 < Cd -> d <> 0 ->
  (Cs / Cd - 1) * (UA / Cs) < 100 ->
  let P := hex_P (Cs / Cd) (UA / Cs) in
  lmtd_law UA (Cs * (P * d)) (d - P * (Cs / Cd) * d) (d - P * d).
Proof.
  intros U S D d0 X P. set (Rs := Cs / Cd) in *. set (N := UA / Cs) in *.
  assert (R0 : 0 < Rs) by (apply Rdiv_lt_0_compat; lra).
  assert (N0 : 0 < N) by (apply Rdiv_lt_0_compat; lra).
  assert (UN : UA = Cs * N) by (unfold N; field; lra).
  destruct (Req_EM_T Rs 1) as [R1|R1].
  - assert (PE : P = N / (1 + N)) by (unfold P; rewrite R1; apply hex_P_one).
    split; [|intros NE; exfalso; apply NE; rewrite R1; ring].
    intros _. rewrite R1, PE, UN. field. lra.
  - assert (PE : P = _) by (exact (hex_P_mid Rs N R1 X)).
    pose proof (hex_signs Rs N R0 N0 R1) as H. cbv zeta in H.
    assert (le : ln (exp ((Rs - 1) * N)) = (Rs - 1) * N) by apply ln_exp.
    set (e := exp ((Rs - 1) * N)) in *.
    assert (Q : 1 - Rs * e <> 0) by lra.
    assert (e0 : 0 < e) by lra.
    assert (D1 : d - P * Rs * d = d * (1 - Rs) / (1 - Rs * e)) by (rewrite PE; field; lra).
    assert (D2 : d - P * d = d * (1 - Rs) * e / (1 - Rs * e)) by (rewrite PE; field; lra).
    assert (NZ : d * (1 - Rs) <> 0) by (apply Rmult_integral_contrapositive_currified; lra).
    assert (Ne : e <> 1) by lra.
    split.
    + intros EQ. exfalso. rewrite D1, D2 in EQ.
      apply (f_equal (fun z => z * (1 - Rs * e))) in EQ.
      replace (d * (1 - Rs) / (1 - Rs * e) * (1 - Rs * e)) with (d * (1 - Rs)) in EQ
        by (field; lra).
      replace (d * (1 - Rs) * e / (1 - Rs * e) * (1 - Rs * e)) with (d * (1 - Rs) * e) in EQ
        by (field; lra).
      apply Ne. apply Rmult_eq_reg_l with (d * (1 - Rs)); [|exact NZ]. lra.
    + intros _.
      replace ((d - P * Rs * d) / (d - P * d)) with (/ e).
      2: { rewrite D1, D2. field. repeat split; lra. }
      rewrite ln_Rinv by exact e0. rewrite le, UN.
      replace (d - P * Rs * d - (d - P * d)) with (P * d * (1 - Rs)) by ring.
      field. split; lra.
Qed.

(** The routine as a whole. *)
Lemma abs_dir x : (if Rle_dec 0 x then x else - x) = Rabs x.
Proof. destruct (Rle_dec 0 x); [rewrite Rabs_right|rewrite Rabs_left]; lra. Qed.

Definition hex_Ps (g : hexgeo) (P : hexT) (dm0 dm1 : R) : R :=
  hex_P (cap_sup P dm0 / cap_dmd P dm1) (hex_ua g P dm0 dm1 / cap_sup P dm0).

Lemma platehex_flow g P dm0 dm1 : dm0 <> 0 -> dm1 <> 0 ->
  let P' := platehex g P dm0 dm1 in
  let d := sup_in dm0 P - dmd_in dm1 P in
  let Ps := hex_Ps g P dm0 dm1 in
  sup_in dm0 P' = sup_in dm0 P /\ dmd_in dm1 P' = dmd_in dm1 P
  /\ sup_out dm0 P' = sup_in dm0 P - Ps * d
  /\ dmd_out dm1 P' = dmd_in dm1 P + Ps * (cap_sup P dm0 / cap_dmd P dm1) * d.
Proof.
  intros Z0 Z1. unfold platehex, hex_Ps, hex_ua, cap_sup, cap_dmd, sup_in, sup_out, dmd_in, dmd_out.
  destruct P as [a b c d]; cbn [si so di do].
  assert (E0 : forall x, x <> 0 -> eq0 x = false) by (intros; now apply eq0_f).
  destruct (Rle_dec 0 dm0) as [A|A], (Rle_dec 0 dm1) as [B|B];
    rewrite !E0 by lra; cbn [orb si so di do];
    rewrite ?(Rabs_right dm0), ?(Rabs_right dm1), ?(Rabs_left dm0), ?(Rabs_left dm1) by lra;
    rewrite ?(Rplus_comm b a), ?(Rplus_comm d c); repeat split; reflexivity.
Qed.

Lemma cap_pos P dm0 : hex_water P -> dm0 <> 0 -> 0 < cap_sup P dm0 /\ 0 < cap_dmd P dm0.
Proof.
  intros (A & B & C & D) Z. unfold cap_sup, cap_dmd.
  pose proof (cp_tight ((si P + so P) / 2) ltac:(lra)).
  pose proof (cp_tight ((di P + do P) / 2) ltac:(lra)).
  pose proof (Rabs_pos_lt dm0 Z). split; apply Rmult_lt_0_compat; lra.
Qed.
Lemma hex_ua_pos g P dm0 dm1 : hexgeo_ok g -> hex_water P -> dm0 <> 0 -> dm1 <> 0 ->
  0 < hex_ua g P dm0 dm1.
Proof.
  intros G (A & B & C & D) Z0 Z1. unfold hex_ua.
  apply hex_UA_pos; try exact G; try lra.
  - pose proof (Rabs_pos_lt dm0 Z0); lra.
  - pose proof (Rabs_pos_lt dm1 Z1); lra.
Qed.

Lemma conv a b t : 0 <= t <= 1 -> between a b (a - t * (a - b)).
Proof.
  intros T. unfold between, Rmin, Rmax.
  destruct (Rle_dec a b) as [L|L].
  - assert (0 <= t * (b - a)) by (apply Rmult_le_pos; lra).
    assert (0 <= (1 - t) * (b - a)) by (apply Rmult_le_pos; lra). lra.
  - assert (0 <= t * (a - b)) by (apply Rmult_le_pos; lra).
    assert (0 <= (1 - t) * (a - b)) by (apply Rmult_le_pos; lra). lra.
Qed.
Lemma between_comm a b x : between a b x -> between b a x.
Proof. unfold between. now rewrite Rmin_comm, Rmax_comm. Qed.

Lemma hex_laws g P dm0 dm1 : hexgeo_ok g -> hex_water P -> dm0 <> 0 -> dm1 <> 0 ->
  hex_expo g P dm0 dm1 <> 100 ->
  let P' := platehex g P dm0 dm1 in
  let hot := sup_in dm0 P in let cold := dmd_in dm1 P in
  cap_sup P dm0 * (hot - sup_out dm0 P') = cap_dmd P dm1 * (dmd_out dm1 P' - cold)
  /\ between hot cold (sup_out dm0 P') /\ between hot cold (dmd_out dm1 P')
  /\ (cold < hot -> sup_out dm0 P' < hot /\ cold < dmd_out dm1 P')
  /\ (hot < cold -> hot < sup_out dm0 P' /\ dmd_out dm1 P' < cold).
Proof.
  intros G W Z0 Z1 X P' hot cold.
  destruct (platehex_flow g P dm0 dm1 Z0 Z1) as (_ & _ & SO & DO).
  fold P' in SO, DO. fold hot in SO, DO. fold cold in SO, DO.
  destruct (cap_pos P dm0 W Z0) as [Cs _]. destruct (cap_pos P dm1 W Z1) as [_ Cd].
  pose proof (hex_ua_pos g P dm0 dm1 G W Z0 Z1) as U.
  pose proof (hex_P_range (cap_sup P dm0 / cap_dmd P dm1)
                (hex_ua g P dm0 dm1 / cap_sup P dm0)
                ltac:(apply Rdiv_lt_0_compat; lra) ltac:(apply Rdiv_lt_0_compat; lra) X)
    as [P1 P2].
  fold (hex_Ps g P dm0 dm1) in P1, P2.
  set (p := hex_Ps g P dm0 dm1) in *. set (Rs := cap_sup P dm0 / cap_dmd P dm1) in *.
  rewrite SO, DO. split.
  { unfold Rs. field. lra. }
  split; [apply conv; lra|]. split.
  { apply between_comm.
    replace (cold + p * Rs * (hot - cold)) with (cold - p * Rs * (cold - hot)) by ring.
    apply conv; lra. }
  split; intros L.
  - pose proof (Rmult_lt_0_compat p (hot - cold) ltac:(lra) ltac:(lra)).
    pose proof (Rmult_lt_0_compat (p * Rs) (hot - cold) ltac:(lra) ltac:(lra)). lra.
  - pose proof (Rmult_lt_0_compat p (cold - hot) ltac:(lra) ltac:(lra)).
    pose proof (Rmult_lt_0_compat (p * Rs) (cold - hot) ltac:(lra) ltac:(lra)). lra.
Qed.

Lemma hex_lmtd g P dm0 dm1 : hexgeo_ok g -> hex_water P -> dm0 <> 0 -> dm1 <> 0 ->
  hex_expo g P dm0 dm1 < 100 -> sup_in dm0 P <> dmd_in dm1 P ->
  let P' := platehex g P dm0 dm1 in
  let hot := sup_in dm0 P in let cold := dmd_in dm1 P in
  lmtd_law (hex_ua g P dm0 dm1) (cap_sup P dm0 * (hot - sup_out dm0 P'))
           (hot - dmd_out dm1 P') (sup_out dm0 P' - cold).
Proof.
  intros G W Z0 Z1 X NE P' hot cold.
  destruct (platehex_flow g P dm0 dm1 Z0 Z1) as (_ & _ & SO & DO).
  fold P' in SO, DO. fold hot in SO, DO. fold cold in SO, DO.
  destruct (cap_pos P dm0 W Z0) as [Cs _]. destruct (cap_pos P dm1 W Z1) as [_ Cd].
  pose proof (hex_ua_pos g P dm0 dm1 G W Z0 Z1) as U.
  pose proof (hex_P_lmtd (hex_ua g P dm0 dm1) (cap_sup P dm0) (cap_dmd P dm1) (hot - cold)
                U Cs Cd ltac:(unfold hot, cold; lra) X) as L. cbv zeta in L.
  fold (hex_Ps g P dm0 dm1) in L. rewrite SO, DO.
  set (p := hex_Ps g P dm0 dm1) in *. set (Rs := cap_sup P dm0 / cap_dmd P dm1) in *.
  replace (hot - (hot - p * (hot - cold))) with (p * (hot - cold)) by ring.
  replace (hot - (cold + p * Rs * (hot - cold))) with (hot - cold - p * Rs * (hot - cold)) by ring.
  replace (hot - p * (hot - cold) - cold) with (hot - cold - p * (hot - cold)) by ring.
  exact L.
Qed.

(** The edge the branch conditions miss: [(Rs - 1) * NTU = 100] exactly. *)
Lemma hex_edge Rs N : 0 < N -> (Rs - 1) * N = 100 -> 1 < hex_P Rs N * Rs.
Proof.
  intros N0 X. rewrite hex_P_edge by assumption.
  replace (N / (1 + N) * Rs) with (N * Rs / (1 + N)) by (field; lra).
  apply lt_div_iff; [lra|]. lra.
Qed.
Lemma hex_edge_violates g P dm0 dm1 : hexgeo_ok g -> hex_water P -> dm0 <> 0 -> dm1 <> 0 ->
  hex_expo g P dm0 dm1 = 100 -> dmd_in dm1 P < sup_in dm0 P ->
  sup_in dm0 P < dmd_out dm1 (platehex g P dm0 dm1).
Proof.
  intros G W Z0 Z1 X L.
  destruct (platehex_flow g P dm0 dm1 Z0 Z1) as (_ & _ & _ & DO). rewrite DO.
  destruct (cap_pos P dm0 W Z0) as [Cs _].
  pose proof (hex_ua_pos g P dm0 dm1 G W Z0 Z1) as U.
  pose proof (hex_edge _ _ ltac:(apply (Rdiv_lt_0_compat (hex_ua g P dm0 dm1) (cap_sup P dm0)); lra) X) as E.
  fold (hex_Ps g P dm0 dm1) in E.
  pose proof (Rmult_lt_compat_r (sup_in dm0 P - dmd_in dm1 P) _ _ ltac:(lra) E). lra.
Qed.

(** One side without flow. *)
Lemma hex_idle g P dm0 dm1 : dm0 = 0 \/ dm1 = 0 ->
  let P' := platehex g P dm0 dm1 in
  (dm0 <> 0 -> sup_out dm0 P' = sup_in dm0 P)
  /\ (dm1 <> 0 -> dmd_out dm1 P' = dmd_in dm1 P)
  /\ (dm0 = 0 -> sup_in dm0 P' = sup_in dm0 P /\ sup_out dm0 P' = sup_out dm0 P)
  /\ (dm1 = 0 -> dmd_in dm1 P' = dmd_in dm1 P /\ dmd_out dm1 P' = dmd_out dm1 P).
Proof.
  intros Z P'. unfold P', platehex, sup_in, sup_out, dmd_in, dmd_out.
  destruct P as [a b c d]; cbn [si so di do].
  destruct (Rle_dec 0 dm0) as [A|A], (Rle_dec 0 dm1) as [B|B];
    destruct (Req_EM_T dm0 0) as [E0|E0], (Req_EM_T dm1 0) as [E1|E1];
    try (exfalso; lra);
    rewrite ?(eq0_t dm0), ?(eq0_f dm0), ?(eq0_t dm1), ?(eq0_f dm1),
            ?(eq0_t (- dm0)), ?(eq0_f (- dm0)), ?(eq0_t (- dm1)), ?(eq0_f (- dm1)) by lra;
    cbn [orb negb si so di do]; repeat split; intros; try reflexivity; lra.
Qed.

(** The edge is met: for all other dimensions some plate area leads to it. *)
Definition with_area (g : hexgeo) (A : R) : hexgeo :=
  {| hg_A_plate := A; hg_A_chan := hg_A_chan g; hg_dh := hg_dh g; hg_s := hg_s g;
     hg_x := hg_x g; hg_lam := hg_lam g; hg_numA := hg_numA g; hg_nsup := hg_nsup g;
     hg_ndmd := hg_ndmd g; hg_corr := hg_corr g |}.
Lemma with_area_ok g A : hexgeo_ok g -> 0 < A -> hexgeo_ok (with_area g A).
Proof. unfold hexgeo_ok, with_area; cbn. tauto. Qed.
Lemma hex_UA_scale g A a b Ta Tb : hexgeo_ok g -> 0 < A -> a <> 0 -> b <> 0 ->
  0 <= Ta <= 100 -> 0 <= Tb <= 100 ->
  hex_UA (with_area g A) a b Ta Tb = A * hex_UA (with_area g 1) a b Ta Tb.
Proof.
  intros G A0 a0 b0 WA WB. pose proof G as (GA & GC & GD & GS & GX & GL & GN & G1 & G2 & GR).
  assert (H : forall dm n T, 0 < n -> dm <> 0 -> 0 <= T <= 100 -> forall A, 0 < A ->
     0 < 1 / hex_alpha (with_area g A) (dm / n) T + hg_s g / 2 / hg_lam g).
  { intros dm n T N D W B B0.
    assert (0 < hex_alpha (with_area g B) (dm / n) T).
    { apply hex_alpha_pos; [now apply with_area_ok| |exact W]. intro E. apply D.
      replace dm with (dm / n * n) by (field; lra). rewrite E. ring. }
    pose proof (inv_pos _ H).
    assert (0 < hg_s g / 2 / hg_lam g) by (apply Rdiv_lt_0_compat; lra). lra. }
  unfold hex_UA.
  change (hex_alpha (with_area g A)) with (hex_alpha (with_area g 1)).
  cbn [with_area hg_A_plate hg_s hg_lam hg_numA hg_nsup hg_ndmd].
  pose proof (H a _ Ta G1 a0 WA 1 ltac:(lra)) as X.
  pose proof (H b _ Tb G2 b0 WB 1 ltac:(lra)) as Y.
  set (x := 1 / hex_alpha (with_area g 1) (a / hg_nsup g) Ta + hg_s g / 2 / hg_lam g) in *.
  set (y := 1 / hex_alpha (with_area g 1) (b / hg_ndmd g) Tb + hg_s g / 2 / hg_lam g) in *.
  field. repeat split; lra.
Qed.
Lemma hex_edge_reached g P dm0 dm1 : hexgeo_ok g -> hex_water P -> dm0 <> 0 -> dm1 <> 0 ->
  cap_dmd P dm1 < cap_sup P dm0 ->
  exists A, 0 < A /\ hex_expo (with_area g A) P dm0 dm1 = 100.
Proof.
  intros G W Z0 Z1 L.
  destruct (cap_pos P dm0 W Z0) as [Cs _]. destruct (cap_pos P dm1 W Z1) as [_ Cd].
  pose proof (hex_ua_pos (with_area g 1) P dm0 dm1 (with_area_ok g 1 G ltac:(lra)) W Z0 Z1) as U.
  set (u := hex_ua (with_area g 1) P dm0 dm1) in *.
  assert (R1 : 0 < cap_sup P dm0 / cap_dmd P dm1 - 1).
  { assert (1 < cap_sup P dm0 / cap_dmd P dm1) by (apply lt_div_iff; lra). lra. }
  exists (100 * cap_sup P dm0 / (cap_sup P dm0 / cap_dmd P dm1 - 1) / u).
  assert (A0 : 0 < 100 * cap_sup P dm0 / (cap_sup P dm0 / cap_dmd P dm1 - 1) / u)
    by (apply Rdiv_lt_0_compat; [apply Rdiv_lt_0_compat; lra|exact U]).
  split; [exact A0|]. unfold hex_expo.
  assert (E : hex_ua (with_area g (100 * cap_sup P dm0
              / (cap_sup P dm0 / cap_dmd P dm1 - 1) / u)) P dm0 dm1
          = 100 * cap_sup P dm0 / (cap_sup P dm0 / cap_dmd P dm1 - 1) / u * u).
  { unfold u at 2. unfold hex_ua. destruct W as (A & B & C & D).
    apply hex_UA_scale; try exact G; try exact A0; try lra.
    - pose proof (Rabs_pos_lt dm0 Z0); lra.
    - pose proof (Rabs_pos_lt dm1 Z1); lra. }
  rewrite E. set (r := cap_sup P dm0 / cap_dmd P dm1 - 1) in *. field. repeat split; lra.
Qed.
