(** Proofs about mixers, splitters and pumps. *)
From Coq Require Import Reals List Bool Arith QArith Lra Lia.
From Verif Require Import MWater LPoly LWater MMix SMix.
Import ListNotations.
Local Open Scope R_scope.

(** Closer bounds and monotonicity of the heat capacity. *)
Lemma cp_cold x y : 0 <= x -> x < y -> y <= 33 -> cp_water y < cp_water x.
Proof.
  intros A XY B. rewrite !cp_is.
  use_mono (qeval_decreasing cp_q) (qneg (qderiv cp_q)) 0%Q 33%Q (33#100) 100%nat.
Qed.
Lemma cp_warm x y : 35 <= x -> x < y -> y <= 100 -> cp_water x < cp_water y.
Proof.
  intros A XY B. rewrite !cp_is.
  use_mono (qeval_increasing cp_q) (qderiv cp_q) 35%Q 100%Q (13#20) 100%nat.
Qed.
Lemma cp_at0 : cp_water 0 < 4216.
Proof.
  assert (H0 : 0 <= 0) by lra. assert (H1 : 0 <= 0) by lra. rewrite cp_is.
  use_upper cp_q 4216%Q 0%Q 0%Q 0%Q 1%nat.
Qed.
Lemma cp_at33 : 41776/10 < cp_water 33.
Proof.
  assert (H0 : 33 <= 33) by lra. assert (H1 : 33 <= 33) by lra. rewrite cp_is.
  use_lower cp_q (41776#10)%Q 33%Q 33%Q 0%Q 1%nat.
Qed.
Lemma cp_at35 : 41776/10 < cp_water 35.
Proof.
  assert (H0 : 35 <= 35) by lra. assert (H1 : 35 <= 35) by lra. rewrite cp_is.
  use_lower cp_q (41776#10)%Q 35%Q 35%Q 0%Q 1%nat.
Qed.
Lemma cp_at100 : 42189/10 < cp_water 100 < 4219.
Proof.
  assert (H0 : 100 <= 100) by lra. assert (H1 : 100 <= 100) by lra. rewrite cp_is. split.
  - use_lower cp_q (42189#10)%Q 100%Q 100%Q 0%Q 1%nat.
  - use_upper cp_q 4219%Q 100%Q 100%Q 0%Q 1%nat.
Qed.
Lemma cp_mid T : 33 <= T <= 35 -> 41775/10 < cp_water T < 4219.
Proof.
  intros [H0 H1]. rewrite cp_is. split.
  - use_lower cp_q (41775#10)%Q 33%Q 35%Q (1#20) 40%nat.
  - use_upper cp_q 4219%Q 33%Q 35%Q 2%Q 1%nat.
Qed.
Lemma cp_tight T : 0 <= T <= 100 -> 41775/10 < cp_water T < 4219.
Proof.
  intros [H0 H1].
  pose proof cp_at0. pose proof cp_at33. pose proof cp_at35. pose proof cp_at100.
  destruct (Rlt_le_dec T 33) as [A|A].
  - pose proof (cp_cold T 33 H0 A ltac:(lra)).
    destruct (Rle_lt_or_eq_dec 0 T H0) as [Z|Z].
    + pose proof (cp_cold 0 T ltac:(lra) Z ltac:(lra)). lra.
    + subst T. lra.
  - destruct (Rle_lt_dec T 35) as [B|B]; [apply cp_mid; lra|].
    pose proof (cp_warm 35 T ltac:(lra) B H1).
    destruct (Rle_lt_or_eq_dec T 100 H1) as [Z|Z].
    + pose proof (cp_warm T 100 ltac:(lra) Z ltac:(lra)). lra.
    + subst T. lra.
Qed.

(** The mixing formula. *)
Definition mixT (m1 T1 m2 T2 : R) : R :=
  (m1 * cp_water T1 * T1 + m2 * cp_water T2 * T2) / ((m1 + m2) * cp_water ((T1 + T2) / 2)).

Lemma gt0_t x : 0 < x -> gt0 x = true.
Proof. unfold gt0. destruct (Rlt_dec 0 x); intros; [reflexivity|lra]. Qed.
Lemma gt0_f x : x <= 0 -> gt0 x = false.
Proof. unfold gt0. destruct (Rlt_dec 0 x); intros; [lra|reflexivity]. Qed.
Lemma lt0_t x : x < 0 -> lt0 x = true.
Proof. unfold lt0. destruct (Rlt_dec x 0); intros; [reflexivity|lra]. Qed.
Lemma lt0_f x : 0 <= x -> lt0 x = false.
Proof. unfold lt0. destruct (Rlt_dec x 0); intros; [lra|reflexivity]. Qed.
Lemma eq0_t x : x = 0 -> eq0 x = true.
Proof. unfold eq0. destruct (Req_EM_T x 0); intros; [reflexivity|lra]. Qed.
Lemma eq0_f x : x <> 0 -> eq0 x = false.
Proof. unfold eq0. destruct (Req_EM_T x 0); intros; [lra|reflexivity]. Qed.

(** Evaluate the masks of a connector whose flow signs are in the context. *)
Ltac masks :=
  repeat match goal with
  | |- context [gt0 ?x] => first [rewrite (gt0_t x) by lra | rewrite (gt0_f x) by lra]
  | |- context [lt0 ?x] => first [rewrite (lt0_t x) by lra | rewrite (lt0_f x) by lra]
  | |- context [eq0 ?x] => first [rewrite (eq0_t x) by lra | rewrite (eq0_f x) by lra]
  end.
Ltac conn :=
  cbv beta iota zeta delta [connector tmap tmap2 count sel msum mset mcopy pA pB pC]; masks;
  cbn [Nat.b2n Nat.add Nat.eqb app option_map fold_right negb length].

Lemma connector_mix T dm i j o :
  i <> j -> i <> o -> j <> o -> balanced dm -> 0 < at3 dm i -> 0 < at3 dm j ->
  (forall p, 0 <= at3 T p <= 100) ->
  exists T', connector T dm = Some T'
    /\ at3 T' o = mixT (at3 dm i) (at3 T i) (at3 dm j) (at3 T j)
    /\ at3 T' i = at3 T o /\ at3 T' j = at3 T o.
Proof.
  destruct T as [tA tB tC], dm as [a b c]. unfold balanced. cbn [pA pB pC].
  intros IJ IO JO S I J W.
  assert (Wm : forall p q, 0 < cp_water ((at3 (mkTri tA tB tC) p + at3 (mkTri tA tB tC) q) / 2)).
  { intros p q. pose proof (W p). pose proof (W q).
    pose proof (cp_tight ((at3 (mkTri tA tB tC) p + at3 (mkTri tA tB tC) q) / 2)
                  ltac:(lra)). lra. }
  destruct i, j, o; try congruence; cbn [at3 pA pB pC] in I, J; conn;
    eexists; (split; [reflexivity|]); cbn [at3 pA pB pC]; (split; [|split; reflexivity]);
    unfold mixT.
  - pose proof (Wm PA PB) as Q. cbn in Q. replace (tA + (tB + 0)) with (tA + tB) by ring.
    replace c with (- (a + b)) by lra. field. split; lra.
  - pose proof (Wm PA PC) as Q. cbn in Q. replace (tA + (tC + 0)) with (tA + tC) by ring.
    replace b with (- (a + c)) by lra. field. split; lra.
  - pose proof (Wm PA PB) as Q. cbn in Q. replace (tA + (tB + 0)) with (tB + tA) by ring.
    replace ((tB + tA) / 2) with ((tA + tB) / 2) by (unfold Rdiv; ring).
    replace c with (- (a + b)) by lra. field. split; lra.
  - pose proof (Wm PB PC) as Q. cbn in Q. replace (tB + (tC + 0)) with (tB + tC) by ring.
    replace a with (- (b + c)) by lra. field. split; lra.
  - pose proof (Wm PA PC) as Q. cbn in Q. replace (tA + (tC + 0)) with (tC + tA) by ring.
    replace ((tC + tA) / 2) with ((tA + tC) / 2) by (unfold Rdiv; ring).
    replace b with (- (a + c)) by lra. field. split; lra.
  - pose proof (Wm PB PC) as Q. cbn in Q. replace (tB + (tC + 0)) with (tC + tB) by ring.
    replace ((tC + tB) / 2) with ((tB + tC) / 2) by (unfold Rdiv; ring).
    replace a with (- (b + c)) by lra. field. split; lra.
Qed.

Lemma mixT_comm m1 T1 m2 T2 : mixT m1 T1 m2 T2 = mixT m2 T2 m1 T1.
Proof.
  unfold mixT. rewrite (Rplus_comm T1 T2), (Rplus_comm m1 m2).
  f_equal. ring.
Qed.

(** Comparison of a quotient. *)
Lemma div_le_iff a b c : 0 < b -> a / b <= c <-> a <= c * b.
Proof.
  intros B. split; intros H.
  - apply Rmult_le_compat_r with (r := b) in H; [|lra].
    replace (a / b * b) with a in H by (field; lra). exact H.
  - apply Rmult_le_reg_r with b; [exact B|].
    replace (a / b * b) with a by (field; lra). exact H.
Qed.
Lemma le_div_iff a b c : 0 < b -> c <= a / b <-> c * b <= a.
Proof.
  intros B. split; intros H.
  - apply Rmult_le_compat_r with (r := b) in H; [|lra].
    replace (a / b * b) with a in H by (field; lra). exact H.
  - apply Rmult_le_reg_r with b; [exact B|].
    replace (a / b * b) with a by (field; lra). exact H.
Qed.
Lemma lt_div_iff a b c : 0 < b -> c < a / b <-> c * b < a.
Proof.
  intros B. split; intros H.
  - apply Rmult_lt_compat_r with (r := b) in H; [|lra].
    replace (a / b * b) with a in H by (field; lra). exact H.
  - apply Rmult_lt_reg_r with b; [exact B|].
    replace (a / b * b) with a by (field; lra). exact H.
Qed.
Lemma div_lt_iff a b c : 0 < b -> a / b < c <-> a < c * b.
Proof.
  intros B. split; intros H.
  - apply Rmult_lt_compat_r with (r := b) in H; [|lra].
    replace (a / b * b) with a in H by (field; lra). exact H.
  - apply Rmult_lt_reg_r with b; [exact B|].
    replace (a / b * b) with a by (field; lra). exact H.
Qed.

Lemma u_le x y : 0 <= x -> x <= y -> y <= 100 -> cp_water x * x <= cp_water y * y.
Proof.
  intros A [H|H] B; [|subst; lra]. apply Rlt_le, u_increasing; assumption.
Qed.
Lemma cp_cold_le x y : 0 <= x -> x <= y -> y <= 33 -> cp_water y <= cp_water x.
Proof. intros A [H|H] B; [|subst; lra]. apply Rlt_le, cp_cold; assumption. Qed.
Lemma cp_warm_le x y : 35 <= x -> x <= y -> y <= 100 -> cp_water x <= cp_water y.
Proof. intros A [H|H] B; [|subst; lra]. apply Rlt_le, cp_warm; assumption. Qed.

(** Cold water: the formula stays in range. *)
Lemma mixT_cold m1 T1 m2 T2 : 0 < m1 -> 0 < m2 -> 0 <= T1 -> T1 <= T2 -> T2 <= 33 ->
  T1 <= mixT m1 T1 m2 T2 <= T2.
Proof.
  intros M1 M2 A AB B. unfold mixT.
  set (M := (T1 + T2) / 2).
  assert (HM : T1 <= M <= T2) by (unfold M; lra).
  pose proof (cp_tight M ltac:(lra)).
  pose proof (cp_tight T1 ltac:(lra)).
  pose proof (cp_cold_le T1 M ltac:(lra) ltac:(lra) ltac:(lra)).
  pose proof (cp_cold_le M T2 ltac:(lra) ltac:(lra) ltac:(lra)).
  pose proof (u_le T1 T2 ltac:(lra) ltac:(lra) ltac:(lra)) as U.
  assert (D : 0 < (m1 + m2) * cp_water M) by (apply Rmult_lt_0_compat; lra).
  assert (L1 : cp_water M * T1 <= cp_water T1 * T1) by (apply Rmult_le_compat_r; lra).
  assert (L2 : cp_water T2 * T2 <= cp_water M * T2) by (apply Rmult_le_compat_r; lra).
  split.
  - apply le_div_iff; [exact D|].
    pose proof (Rmult_le_compat_l m1 _ _ (Rlt_le _ _ M1) L1).
    pose proof (Rmult_le_compat_l m2 _ _ (Rlt_le _ _ M2) (Rle_trans _ _ _ L1 U)). lra.
  - apply div_le_iff; [exact D|].
    pose proof (Rmult_le_compat_l m2 _ _ (Rlt_le _ _ M2) L2).
    pose proof (Rmult_le_compat_l m1 _ _ (Rlt_le _ _ M1) (Rle_trans _ _ _ U L2)). lra.
Qed.

Lemma mixT_cold_between m1 T1 m2 T2 : 0 < m1 -> 0 < m2 -> 0 <= T1 <= 33 -> 0 <= T2 <= 33 ->
  between T1 T2 (mixT m1 T1 m2 T2).
Proof.
  intros M1 M2 A B. unfold between.
  destruct (Rle_lt_dec T1 T2) as [L|L].
  - rewrite Rmin_left, Rmax_right by lra. apply mixT_cold; lra.
  - rewrite Rmin_right, Rmax_left by lra. rewrite mixT_comm. apply mixT_cold; lra.
Qed.

Lemma mixT_same m1 m2 T : 0 < m1 -> 0 < m2 -> 0 <= T <= 100 -> mixT m1 T m2 T = T.
Proof.
  intros M1 M2 A. unfold mixT. replace ((T + T) / 2) with T by lra.
  pose proof (cp_tight T A). field. split; lra.
Qed.

(** Everywhere: off by at most one percent. *)
Lemma mixT_band m1 T1 m2 T2 : 0 < m1 -> 0 < m2 -> 0 <= T1 <= 100 -> 0 <= T2 <= 100 ->
  99/100 * Rmin T1 T2 <= mixT m1 T1 m2 T2 <= 101/100 * Rmax T1 T2.
Proof.
  intros M1 M2 A B. unfold mixT.
  set (M := (T1 + T2) / 2).
  pose proof (cp_tight M ltac:(unfold M; lra)).
  pose proof (cp_tight T1 A). pose proof (cp_tight T2 B).
  assert (D : 0 < (m1 + m2) * cp_water M) by (apply Rmult_lt_0_compat; lra).
  pose proof (Rmin_l T1 T2). pose proof (Rmin_r T1 T2).
  pose proof (Rmax_l T1 T2). pose proof (Rmax_r T1 T2).
  assert (Z : 0 <= Rmin T1 T2) by (unfold Rmin; destruct (Rle_dec T1 T2); lra).
  set (lo := Rmin T1 T2) in *. set (hi := Rmax T1 T2) in *.
  assert (X : forall T, 0 <= T <= 100 -> lo <= T -> T <= hi ->
      99/100 * lo * cp_water M <= cp_water T * T /\ cp_water T * T <= 101/100 * hi * cp_water M).
  { intros T W L U. pose proof (cp_tight T W). split.
    - apply Rle_trans with (cp_water T * lo).
      + replace (99/100 * lo * cp_water M) with (99/100 * cp_water M * lo) by ring.
        apply Rmult_le_compat_r; [exact Z|lra].
      + apply Rmult_le_compat_l; lra.
    - apply Rle_trans with (cp_water T * hi).
      + apply Rmult_le_compat_l; lra.
      + replace (101/100 * hi * cp_water M) with (101/100 * cp_water M * hi) by ring.
        apply Rmult_le_compat_r; lra. }
  destruct (X T1) as [X1 X2]; try lra. destruct (X T2) as [Y1 Y2]; try lra.
  split.
  - apply le_div_iff; [exact D|].
    pose proof (Rmult_le_compat_l m1 _ _ (Rlt_le _ _ M1) X1).
    pose proof (Rmult_le_compat_l m2 _ _ (Rlt_le _ _ M2) Y1). lra.
  - apply div_le_iff; [exact D|].
    pose proof (Rmult_le_compat_l m1 _ _ (Rlt_le _ _ M1) X2).
    pose proof (Rmult_le_compat_l m2 _ _ (Rlt_le _ _ M2) Y2). lra.
Qed.

(** Against the exact mixing temperature. *)
Lemma mixT_exact m1 T1 m2 T2 Tx : 0 < m1 -> 0 < m2 -> 0 <= T1 <= 100 -> 0 <= T2 <= 100 ->
  0 <= Tx <= 100 -> exact_mix m1 T1 m2 T2 Tx ->
  Rabs (mixT m1 T1 m2 T2 - Tx) <= 1/100 * Tx.
Proof.
  intros M1 M2 A B X E. unfold exact_mix, hflow in E. unfold mixT. rewrite E.
  set (M := (T1 + T2) / 2).
  pose proof (cp_tight M ltac:(unfold M; lra)). pose proof (cp_tight Tx X).
  replace ((m1 + m2) * cp_water Tx * Tx / ((m1 + m2) * cp_water M) - Tx)
    with (Tx * ((cp_water Tx - cp_water M) / cp_water M)) by (field; split; lra).
  rewrite Rabs_mult, (Rabs_right Tx) by lra. rewrite (Rmult_comm (1/100)).
  apply Rmult_le_compat_l; [lra|].
  unfold Rdiv. rewrite Rabs_mult, (Rabs_right (/ cp_water M))
    by (apply Rle_ge, Rlt_le, Rinv_0_lt_compat; lra).
  apply div_le_iff; [lra|]. apply Rabs_le. lra.
Qed.

(** Warm water: for every pair of inlet temperatures some flows leave the range. *)
Lemma mixT_warm_over T1 T2 : 35 <= T1 -> T1 < T2 -> T2 <= 100 ->
  exists m1, 0 < m1 /\ T2 < mixT m1 T1 1 T2.
Proof.
  intros A AB B. set (M := (T1 + T2) / 2).
  assert (HM : T1 < M < T2) by (unfold M; lra).
  pose proof (cp_tight M ltac:(lra)). pose proof (cp_tight T1 ltac:(lra)).
  pose proof (cp_warm T1 M ltac:(lra) ltac:(lra) ltac:(lra)).
  pose proof (cp_warm M T2 ltac:(lra) ltac:(lra) ltac:(lra)).
  assert (P : 0 < cp_water M * T2 - cp_water T1 * T1).
  { pose proof (Rmult_lt_compat_r T1 (cp_water T1) (cp_water M) ltac:(lra) ltac:(lra)).
    pose proof (Rmult_lt_compat_l (cp_water M) T1 T2 ltac:(lra) ltac:(lra)). lra. }
  assert (Q : 0 < (cp_water T2 - cp_water M) * T2) by (apply Rmult_lt_0_compat; lra).
  set (p := cp_water M * T2 - cp_water T1 * T1) in *.
  set (q := (cp_water T2 - cp_water M) * T2) in *.
  exists (q / (2 * p)). assert (m0 : 0 < q / (2 * p)) by (apply Rdiv_lt_0_compat; lra).
  split; [exact m0|]. unfold mixT. fold M.
  apply lt_div_iff; [apply Rmult_lt_0_compat; lra|].
  assert (Z : q / (2 * p) * p = q / 2) by (field; lra).
  set (m := q / (2 * p)) in *.
  assert (m * cp_water T1 * T1 + 1 * cp_water T2 * T2 - T2 * ((m + 1) * cp_water M)
          = q - m * p) by (unfold q, p; ring).
  lra.
Qed.
Lemma mixT_warm_under T1 T2 : 35 <= T1 -> T1 < T2 -> T2 <= 100 ->
  exists m2, 0 < m2 /\ mixT 1 T1 m2 T2 < T1.
Proof.
  intros A AB B. set (M := (T1 + T2) / 2).
  assert (HM : T1 < M < T2) by (unfold M; lra).
  pose proof (cp_tight M ltac:(lra)). pose proof (cp_tight T2 ltac:(lra)).
  pose proof (cp_warm T1 M ltac:(lra) ltac:(lra) ltac:(lra)).
  pose proof (cp_warm M T2 ltac:(lra) ltac:(lra) ltac:(lra)).
  assert (P : 0 < cp_water T2 * T2 - cp_water M * T1).
  { pose proof (Rmult_lt_compat_r T2 (cp_water M) (cp_water T2) ltac:(lra) ltac:(lra)).
    pose proof (Rmult_lt_compat_l (cp_water M) T1 T2 ltac:(lra) ltac:(lra)). lra. }
  assert (Q : 0 < (cp_water M - cp_water T1) * T1) by (apply Rmult_lt_0_compat; lra).
  set (p := cp_water T2 * T2 - cp_water M * T1) in *.
  set (q := (cp_water M - cp_water T1) * T1) in *.
  exists (q / (2 * p)). assert (m0 : 0 < q / (2 * p)) by (apply Rdiv_lt_0_compat; lra).
  split; [exact m0|]. unfold mixT. fold M.
  apply div_lt_iff; [apply Rmult_lt_0_compat; lra|].
  assert (Z : q / (2 * p) * p = q / 2) by (field; lra).
  set (m := q / (2 * p)) in *.
  assert (1 * cp_water T1 * T1 + m * cp_water T2 * T2 - T1 * ((1 + m) * cp_water M)
          = m * p - q) by (unfold q, p; ring).
  lra.
Qed.

(** Valve with the cold branch shut. *)
Lemma valve_shut TA TB TC d : 35 <= TA -> TA < TB -> TB <= 100 -> 0 < d ->
  TB < pC (valve_mix (mkTri TA TB TC) (mkTri 0 d d)).
Proof.
  intros A AB B D. unfold valve_mix. cbn [pA pB pC].
  destruct (Req_EM_T d 0) as [E|_]; [lra|]. cbn [pC].
  set (M := (TA + TB) / 2). assert (HM : TA < M < TB) by (unfold M; lra).
  pose proof (cp_tight M ltac:(lra)).
  pose proof (cp_warm M TB ltac:(lra) ltac:(lra) ltac:(lra)).
  apply lt_div_iff; [apply Rmult_lt_0_compat; lra|].
  assert (0 < d * TB * (cp_water TB - cp_water M))
    by (apply Rmult_lt_0_compat; [apply Rmult_lt_0_compat|]; lra).
  lra.
Qed.
Lemma valve_is_mix TA TB TC a b : 0 < a -> 0 < b ->
  pC (valve_mix (mkTri TA TB TC) (mkTri a b (a + b))) = mixT a TA b TB.
Proof.
  intros A B. unfold valve_mix, mixT. cbn [pA pB pC].
  destruct (Req_EM_T (a + b) 0) as [E|_]; [lra|reflexivity].
Qed.

(** Splitters. *)
Lemma connector_split T dm i j o :
  i <> j -> i <> o -> j <> o -> balanced dm -> at3 dm i < 0 -> at3 dm j < 0 ->
  exists T', connector T dm = Some T'
    /\ at3 T' i = at3 T o /\ at3 T' j = at3 T o /\ at3 T' o = (at3 T i + at3 T j) / 2.
Proof.
  destruct T as [tA tB tC], dm as [a b c]. unfold balanced. cbn [pA pB pC].
  intros IJ IO JO S I J.
  destruct i, j, o; try congruence; cbn [at3 pA pB pC] in I, J; conn;
    eexists; (split; [reflexivity|]); cbn [at3 pA pB pC]; repeat split; try reflexivity;
    f_equal; ring.
Qed.

(** Through flow with one idle branch. *)
Lemma connector_through T dm i z o :
  i <> z -> i <> o -> z <> o -> balanced dm -> 0 < at3 dm i -> at3 dm z = 0 ->
  exists T', connector T dm = Some T'
    /\ at3 T' o = at3 T i /\ at3 T' z = (at3 T i + at3 T o) / 2
    /\ at3 T' i = (at3 T i + (at3 T i + at3 T o) / 2) / 2.
Proof.
  destruct T as [tA tB tC], dm as [a b c]. unfold balanced. cbn [pA pB pC].
  intros IJ IO JO S I J.
  destruct i, z, o; try congruence; cbn [at3 pA pB pC] in I, J; conn;
    eexists; (split; [reflexivity|]); cbn [at3 pA pB pC]; repeat split; try reflexivity;
    try (f_equal; ring); unfold Rdiv; ring.
Qed.

(** No flow at all. *)
Lemma connector_idle T dm : (forall p, at3 dm p = 0) ->
  exists T', connector T dm = Some T' /\
    forall i j o, i <> j -> i <> o -> j <> o -> at3 T' o = (at3 T i + at3 T j) / 2.
Proof.
  destruct T as [tA tB tC], dm as [a b c]. intros Z.
  pose proof (Z PA) as Z1. pose proof (Z PB) as Z2. pose proof (Z PC) as Z3.
  cbn [at3 pA pB pC] in *. conn. eexists; split; [reflexivity|].
  intros i j o IJ IO JO. destruct i, j, o; try congruence; cbn [at3 pA pB pC];
    f_equal; ring.
Qed.

(** Every state of a balanced connector. *)
Lemma conn_states (dm : tri R) : balanced dm ->
  (exists i j o, i <> j /\ i <> o /\ j <> o /\ 0 < at3 dm i /\ 0 < at3 dm j)
  \/ (exists i j o, i <> j /\ i <> o /\ j <> o /\ at3 dm i < 0 /\ at3 dm j < 0)
  \/ (exists i z o, i <> z /\ i <> o /\ z <> o /\ 0 < at3 dm i /\ at3 dm z = 0)
  \/ (forall p, at3 dm p = 0).
Proof.
  destruct dm as [a b c]. unfold balanced; cbn [pA pB pC]; intros S.
  assert (P : forall i j o : port3, i <> j -> i <> o -> j <> o -> True) by auto.
  destruct (Rtotal_order a 0) as [A|[A|A]], (Rtotal_order b 0) as [B|[B|B]];
    [ right; left; exists PA, PB, PC
    | right; right; left; exists PC, PB, PA
    | destruct (Rtotal_order c 0) as [C|[C|C]];
      [ right; left; exists PA, PC, PB
      | right; right; left; exists PB, PC, PA
      | left; exists PB, PC, PA ]
    | right; right; left; exists PC, PA, PB
    | right; right; right; intros []; cbn; lra
    | right; right; left; exists PB, PA, PC
    | destruct (Rtotal_order c 0) as [C|[C|C]];
      [ right; left; exists PB, PC, PA
      | right; right; left; exists PA, PC, PB
      | left; exists PA, PC, PB ]
    | right; right; left; exists PA, PB, PC
    | left; exists PA, PB, PC ];
    cbn [at3 pA pB pC]; repeat split; try discriminate; lra.
Qed.

Lemma third (i j o p : port3) : i <> j -> i <> o -> j <> o -> p = i \/ p = j \/ p = o.
Proof. destruct i, j, o, p; try congruence; tauto. Qed.

Lemma connector_range T dm lo hi : balanced dm ->
  (forall i j, i <> j -> ~ (0 < at3 dm i /\ 0 < at3 dm j)) ->
  all_in lo hi T -> exists T', connector T dm = Some T' /\ all_in lo hi T'.
Proof.
  intros S NM W. destruct (conn_states dm S) as [H|[H|[H|H]]].
  - destruct H as (i & j & o & IJ & IO & JO & I & J). exfalso. apply (NM i j IJ). tauto.
  - destruct H as (i & j & o & IJ & IO & JO & I & J).
    destruct (connector_split T dm i j o IJ IO JO S I J) as (T' & E & X & Y & Z).
    exists T'; split; [exact E|]. intros p. pose proof (W i). pose proof (W j). pose proof (W o).
    destruct (third i j o p IJ IO JO) as [->|[->| ->]]; rewrite ?X, ?Y, ?Z; lra.
  - destruct H as (i & j & o & IJ & IO & JO & I & J).
    destruct (connector_through T dm i j o IJ IO JO S I J) as (T' & E & X & Y & Z).
    exists T'; split; [exact E|]. intros p. pose proof (W i). pose proof (W j). pose proof (W o).
    destruct (third i j o p IJ IO JO) as [->|[->| ->]]; rewrite ?X, ?Y, ?Z; lra.
  - destruct (connector_idle T dm H) as (T' & E & X). exists T'; split; [exact E|].
    intros p. pose proof (W PA). pose proof (W PB). pose proof (W PC).
    destruct p;
      [rewrite (X PB PC PA) by discriminate | rewrite (X PA PC PB) by discriminate
      |rewrite (X PA PB PC) by discriminate]; lra.
Qed.

(** Ports. *)
Lemma gather_nth ports link l : gather ports link = Some l ->
  length l = length link /\
  forall k i, nth_error link k = Some i -> nth_error l k = nth_error ports i.
Proof.
  revert l. induction link as [|i r IH]; cbn; intros l E.
  - injection E as <-. split; [reflexivity|]. intros [|k] j; discriminate.
  - destruct (nth_error ports i) as [v|] eqn:V; [|discriminate].
    destruct (gather ports r) as [l'|] eqn:G; [|discriminate]. injection E as <-.
    destruct (IH l' eq_refl) as [L N]. split; [cbn; lia|].
    intros [|k] j; cbn; intros K.
    + injection K as ->. now rewrite V.
    + now apply N.
Qed.
Lemma gather_total ports link : (forall i, In i link -> (i < length ports)%nat) ->
  exists l, gather ports link = Some l.
Proof.
  induction link as [|i r IH]; cbn; intros H; [eexists; reflexivity|].
  destruct (IH (fun j (J : In j r) => H j (or_intror J))) as [l E]. rewrite E.
  destruct (nth_error ports i) as [v|] eqn:V; [eexists; reflexivity|].
  apply nth_error_None in V. specialize (H i (or_introl (eq_refl i))). lia.
Qed.

Lemma pump_swap ports a b : (a < length ports)%nat -> (b < length ports)%nat ->
  pump ports [a; b] = Some [nth b ports 0; nth a ports 0].
Proof.
  intros A B. unfold pump. cbn [gather].
  rewrite (nth_error_nth' ports 0 A), (nth_error_nth' ports 0 B). reflexivity.
Qed.

(** The error of the formula exceeds half a percent: 20 and 100 degC mixed to 99 degC. *)
Lemma cp_at99 : 4216 < cp_water 99.
Proof.
  assert (H0 : 99 <= 99) by lra. assert (H1 : 99 <= 99) by lra. rewrite cp_is.
  use_lower cp_q 4216%Q 99%Q 99%Q 0%Q 1%nat.
Qed.
Lemma cp_at60 : cp_water ((20 + 100) / 2) < 4186.
Proof.
  replace ((20 + 100) / 2) with 60 by lra.
  assert (H0 : 60 <= 60) by lra. assert (H1 : 60 <= 60) by lra. rewrite cp_is.
  use_upper cp_q 4186%Q 60%Q 60%Q 0%Q 1%nat.
Qed.
Lemma mixT_half_percent : exists m, 0 < m /\ exact_mix m 20 1 100 99 /\
  99 * (1 + 7/1000) < mixT m 20 1 100.
Proof.
  pose proof (cp_tight 20 ltac:(lra)). pose proof (cp_tight ((20 + 100) / 2) ltac:(lra)).
  pose proof cp_at99 as C99. pose proof cp_at60.
  assert (cp_water 20 * 20 < cp_water 99 * 99) by (apply u_increasing; lra).
  assert (cp_water 99 * 99 < cp_water 100 * 100) by (apply u_increasing; lra).
  set (m := (cp_water 100 * 100 - cp_water 99 * 99) / (cp_water 99 * 99 - cp_water 20 * 20)).
  assert (m0 : 0 < m) by (apply Rdiv_lt_0_compat; lra).
  assert (E : exact_mix m 20 1 100 99).
  { unfold exact_mix, hflow, m. field. lra. }
  exists m. split; [exact m0|]. split; [exact E|].
  unfold mixT. unfold exact_mix, hflow in E. rewrite E.
  apply lt_div_iff; [apply Rmult_lt_0_compat; lra|].
  set (c := cp_water ((20 + 100) / 2)) in *.
  assert (c * (1 + 7/1000) < cp_water 99) by lra.
  assert (0 < (m + 1) * 99 * (cp_water 99 - c * (1 + 7/1000)))
    by (apply Rmult_lt_0_compat; lra).
  lra.
Qed.
