(** C154: humid air. *)
From Coq Require Import Reals QArith Qreals List Lra Lia.
From Verif Require Import MHumid LPoly LPoly2 LWater.
Import ListNotations.
Local Open Scope R_scope.

Definition ps_q : list Q := [(18742821 # 31250); (5690973 # 125000); (142489091 # 100000000); (31478073 # 1250000000); (12761137 # 40000000000); (232760367 # 100000000000000); (156927617 # 100000000000000000)]%Q.
Lemma sat_pressure_is T : sat_pressure T = qeval ps_q T.
Proof.
  unfold sat_pressure, qeval, ps_q; cbn [map peval].
  replace (Q2R (18742821 # 31250)) with (599.770272) by lit_tac.
  replace (Q2R (5690973 # 125000)) with (45.5277840) by lit_tac.
  replace (Q2R (142489091 # 100000000)) with (1.42489091) by lit_tac.
  replace (Q2R (31478073 # 1250000000)) with (2.51824584e-02) by lit_tac.
  replace (Q2R (12761137 # 40000000000)) with (3.19028425e-04) by lit_tac.
  replace (Q2R (232760367 # 100000000000000)) with (2.32760367e-06) by lit_tac.
  replace (Q2R (156927617 # 100000000000000000)) with (1.56927617e-09) by lit_tac.
  ring.
Qed.
Definition x_q : list Q := [(75882793 # 20000000000); (298380899 # 1000000000000); (204008637 # 25000000000000); (879652019 # 10000000000000000); (132551101 # 20000000000000000); (3226323 # 25000000000000000); (-711474217 # 100000000000000000000); (206252891 # 10000000000000000000000); (368271647 # 100000000000000000000000); (-650956001 # 10000000000000000000000000); (86872797 # 250000000000000000000000000)]%Q.
Lemma sat_water_is T : sat_water T = qeval x_q T.
Proof.
  unfold sat_water, qeval, x_q; cbn [map peval].
  replace (Q2R (75882793 # 20000000000)) with (3.79413965e-03) by lit_tac.
  replace (Q2R (298380899 # 1000000000000)) with (2.98380899e-04) by lit_tac.
  replace (Q2R (204008637 # 25000000000000)) with (8.16034548e-06) by lit_tac.
  replace (Q2R (879652019 # 10000000000000000)) with (8.79652019e-08) by lit_tac.
  replace (Q2R (132551101 # 20000000000000000)) with (6.62755505e-09) by lit_tac.
  replace (Q2R (3226323 # 25000000000000000)) with (1.29052920e-10) by lit_tac.
  replace (Q2R (-711474217 # 100000000000000000000)) with (Ropp 7.11474217e-12) by lit_tac.
  replace (Q2R (206252891 # 10000000000000000000000)) with (2.06252891e-14) by lit_tac.
  replace (Q2R (368271647 # 100000000000000000000000)) with (3.68271647e-15) by lit_tac.
  replace (Q2R (-650956001 # 10000000000000000000000000)) with (Ropp 6.50956001e-17) by lit_tac.
  replace (Q2R (86872797 # 250000000000000000000000000)) with (3.47491188e-19) by lit_tac.
  ring.
Qed.

Ltac rng := unfold Q2R; cbn; lra.

(** Below zero, in [u = - T]. *)
Lemma ps_cold x y : -30 <= x -> x < y -> y <= 0 -> sat_pressure x < sat_pressure y.
Proof.
  intros A XY B. rewrite !sat_pressure_is.
  rewrite <- (Ropp_involutive x), <- (Ropp_involutive y), <- (qflip_eval _ (- x)), <- (qflip_eval _ (- y)).
  apply (qeval_decreasing (qflip ps_q) 0 30); try lra.
  intros z Z. apply (check_on_sound _ 0%Q 30%Q (1#1) 30%nat); [qchk | rng].
Qed.
Lemma ps_warm x y : 0 <= x -> x < y -> sat_pressure x < sat_pressure y.
Proof.
  intros A XY. unfold sat_pressure.
  assert (P : forall n, x ^ n <= y ^ n) by (intros n; apply pow_incr; lra).
  pose proof (P 6%nat). pose proof (P 5%nat). pose proof (P 4%nat). pose proof (P 3%nat). pose proof (P 2%nat). lra.
Qed.

(** The saturation pressure is positive and rises with the temperature from -30 degC on. *)
Theorem C154_pressure x y : -30 <= x -> x < y -> 0 < sat_pressure x < sat_pressure y.
Proof.
  intros A XY.
  assert (M : sat_pressure x < sat_pressure y).
  { destruct (Rle_dec y 0) as [Y|Y]; [apply ps_cold; assumption|].
    destruct (Rle_dec 0 x) as [X|X]; [apply ps_warm; assumption|].
    apply (Rlt_trans _ (sat_pressure 0)); [apply ps_cold | apply ps_warm]; lra. }
  split; [|exact M].
  assert (C : forall z, -30 <= z <= 0 -> 0 < sat_pressure z).
  { intros z Z. rewrite sat_pressure_is. rewrite <- (Ropp_involutive z), <- qflip_eval.
    apply (check_on_sound _ 0%Q 30%Q (1#1) 30%nat); [qchk | rng]. }
  destruct (Rle_dec x 0) as [X|X]; [apply C; lra|].
  apply (Rlt_trans _ (sat_pressure 0)); [apply C; lra | apply ps_warm; lra].
Qed.
Print Assumptions C154_pressure.

Lemma x_cold x y : -28 <= x -> x < y -> y <= 0 -> sat_water x < sat_water y.
Proof.
  intros A XY B. rewrite !sat_water_is.
  rewrite <- (Ropp_involutive x), <- (Ropp_involutive y), <- (qflip_eval _ (- x)), <- (qflip_eval _ (- y)).
  apply (qeval_decreasing (qflip x_q) 0 28); try lra.
  intros z Z. destruct (Rle_dec z 26).
  - apply (check_on_sound _ 0%Q 26%Q (1#1) 26%nat); [qchk | rng].
  - apply (check_on_sound _ 26%Q 28%Q (1#20) 40%nat); [qchk | rng].
Qed.
Lemma x_warm x y : 0 <= x -> x < y -> y <= 80 -> sat_water x < sat_water y.
Proof.
  intros A XY B. rewrite !sat_water_is.
  apply (qeval_increasing x_q 0 80); try lra.
  intros z Z. apply (check_on_sound _ 0%Q 80%Q (2#1) 40%nat); [qchk | rng].
Qed.

(** Warmer saturated air holds more water, between -28 and 80 degC ... *)
Theorem C154_water_partial x y : -28 <= x -> x < y -> y <= 80 -> sat_water x < sat_water y.
Proof.
  intros A XY B. destruct (Rle_dec y 0) as [Y|Y]; [apply x_cold; assumption|].
  destruct (Rle_dec 0 x) as [X|X]; [apply x_warm; assumption|].
  apply (Rlt_trans _ (sat_water 0)); [apply x_cold | apply x_warm]; lra.
Qed.
Print Assumptions C154_water_partial.

(** ... but not in the first degree of the stated range, which starts at -30 degC. *)
Theorem C154_water_refuted x y : -30 <= x -> x < y -> y <= -29 -> sat_water y < sat_water x.
Proof.
  intros A XY B. rewrite !sat_water_is.
  rewrite <- (Ropp_involutive x), <- (Ropp_involutive y), <- (qflip_eval _ (- x)), <- (qflip_eval _ (- y)).
  apply (qeval_increasing (qflip x_q) 29 30); try lra.
  intros z Z. apply (check_on_sound _ 29%Q 30%Q (1#30) 30%nat); [qchk | rng].
Qed.
Print Assumptions C154_water_refuted.

(** Both fit together: at 0.1 MPa the water mass is that of the ideal gas law, x = 0.622 p / (0.1 MPa - p), within
    10 %, between 0 and 80 degC. *)
Definition dry_q : list Q := qadd [100000%Q] (qneg ps_q).
Lemma dry_is T : qeval dry_q T = 100000 - sat_pressure T.
Proof.
  unfold dry_q. rewrite qadd_eval, qneg_eval, <- sat_pressure_is. unfold qeval. cbn [map peval].
  replace (Q2R 100000) with 100000 by (unfold Q2R; cbn; lra). ring.
Qed.
Definition low_q : list Q := qadd (qmul x_q dry_q) (qneg (qscale (5598 # 10000) ps_q)).
Definition high_q : list Q := qadd (qscale (6842 # 10000) ps_q) (qneg (qmul x_q dry_q)).
Lemma low_is T : qeval low_q T = sat_water T * (100000 - sat_pressure T) - 5598 / 10000 * sat_pressure T.
Proof.
  unfold low_q. rewrite qadd_eval, qneg_eval, qmul_eval, qscale_eval, dry_is, <- sat_pressure_is, <- sat_water_is.
  replace (Q2R (5598 # 10000)) with (5598 / 10000) by (unfold Q2R; cbn; lra). ring.
Qed.
Lemma high_is T : qeval high_q T = 6842 / 10000 * sat_pressure T - sat_water T * (100000 - sat_pressure T).
Proof.
  unfold high_q. rewrite qadd_eval, qneg_eval, qmul_eval, qscale_eval, dry_is, <- sat_pressure_is, <- sat_water_is.
  replace (Q2R (6842 # 10000)) with (6842 / 10000) by (unfold Q2R; cbn; lra). ring.
Qed.
Ltac pieces z :=
  destruct (Rle_dec z 20); [apply (check_on_sound _ 0%Q 20%Q (20#1) 1%nat); [qchk | rng]|];
  destruct (Rle_dec z 40); [apply (check_on_sound _ 20%Q 40%Q (4#1) 5%nat); [qchk | rng]|];
  destruct (Rle_dec z 60); [apply (check_on_sound _ 40%Q 60%Q (1#1) 20%nat); [qchk | rng]|];
  destruct (Rle_dec z 70); [apply (check_on_sound _ 60%Q 70%Q (1#2) 20%nat); [qchk | rng]|];
  apply (check_on_sound _ 70%Q 80%Q (1#4) 40%nat); [qchk | rng].
Theorem C154_consistent T : 0 <= T <= 80 ->
  0.9 * (0.622 * sat_pressure T / (100000 - sat_pressure T)) < sat_water T
  < 1.1 * (0.622 * sat_pressure T / (100000 - sat_pressure T)).
Proof.
  intros H.
  assert (D : 0 < 100000 - sat_pressure T).
  { rewrite <- dry_is. apply (check_on_sound _ 0%Q 80%Q (4#1) 20%nat); [qchk | rng]. }
  assert (L : 0 < qeval low_q T) by pieces T. rewrite low_is in L.
  assert (U : 0 < qeval high_q T) by pieces T. rewrite high_is in U.
  set (p := sat_pressure T) in *. set (w := sat_water T) in *. clearbody p w.
  assert (E : w = w * (100000 - p) / (100000 - p)) by (field; lra). rewrite E.
  split; unfold Rdiv; rewrite <- Rmult_assoc; apply Rmult_lt_compat_r; try (apply Rinv_0_lt_compat; exact D); lra.
Qed.
Print Assumptions C154_consistent.
Example C154_ex : 0 < sat_pressure (-20) < sat_pressure 20 /\ sat_water 20 < sat_water 60 /\ sat_water (-29) < sat_water (-30).
Proof. split; [apply C154_pressure; lra | split; [apply C154_water_partial; lra | apply C154_water_refuted; lra]]. Qed.
