(** Bounds of the material polynomials. *)
From Coq Require Import Reals QArith Qreals List Lra Lia.
From Verif Require Import MWater LPoly.
Import ListNotations.

Local Open Scope Q_scope.
Definition rho_q : list Q := [(99988785713136213 # 100000000000000); (24802227495264801 # 500000000000000000); (-74722666453460717 # 10000000000000000000); (10273621109538621 # 250000000000000000000); (-6457894773161807 # 50000000000000000000000)].
Definition lam_q : list Q := [(56987912853229539 # 100000000000000000); (8939185201272869 # 5000000000000000000); (-11999643454775959 # 2000000000000000000000); (-86964577115093407 # 10000000000000000000000000)].
Definition cp_q : list Q := [(5269252946772499 # 1250000000000); (-7213485820879837 # 2500000000000000); (468161292800073 # 6250000000000000); (-77807143441700321 # 100000000000000000000); (501708265162663 # 156250000000000000000)].
Definition ny_q : list Q := [(3552894676098831 # 2000000000000000000000); (-13910068945316351 # 250000000000000000000000); (5121536443747213 # 5000000000000000000000000); (-19590892027396233 # 2000000000000000000000000000); (9115117186265681 # 250000000000000000000000000000)].
Definition Pr_q : list Q := [(62890054099689529 # 5000000000000000); (-8781170142941877 # 25000000000000000); (8645096088941217 # 2000000000000000000); (-9587096961594449 # 500000000000000000000)].
Definition beta_q : list Q := [(-293992682383333 # 5000000000000000000); (15641955219950547 # 1000000000000000000000); (-13587684743777981 # 100000000000000000000000); (30610251654074543 # 50000000000000000000000000)].
Definition lam_air_q : list Q := [(24358670995670989 # 1000000000000000000); (76533982683982561 # 1000000000000000000000); (-42099567099572201 # 1000000000000000000000000)].
Definition ny_air_q : list Q := [(13500069264069257 # 1000000000000000000000); (88810389610389459 # 1000000000000000000000000); (10974025974025443 # 100000000000000000000000000)].

Local Open Scope R_scope.

(** A decimal literal of R as a rational. *)
Lemma lit m k : Q2R m / IZR (Z.pow_pos 10 k) = Q2R (m / inject_Z (Z.pow_pos 10 k)).
Proof.
  unfold Qdiv. rewrite Q2R_mult, Q2R_inv.
  - unfold Q2R at 3. cbn [inject_Z Qnum Qden]. unfold Rdiv. now rewrite Rinv_1, Rmult_1_r.
  - intro H. unfold Qeq in H. cbn [inject_Z Qnum Qden] in H. rewrite Z.mul_1_r in H.
    pose proof (Z.pow_pos_nonneg 10 (Zpos k)).
    change (Z.pow_pos 10 k) with (10 ^ Zpos k)%Z in H. cbn [Z.mul] in H. lia.
Qed.
Ltac lit_tac :=
  rewrite ?lit; try rewrite <- Q2R_opp; apply Qeq_eqR; vm_compute; reflexivity.

Lemma rho_is T : rho_water T = qeval rho_q T.
Proof.
  unfold rho_water, qeval, rho_q; cbn [map peval].
  replace (Q2R (99988785713136213 # 100000000000000)) with (999.88785713136213) by lit_tac.
  replace (Q2R (24802227495264801 # 500000000000000000)) with (4.9604454990529602e-02) by lit_tac.
  replace (Q2R (-74722666453460717 # 10000000000000000000)) with (Ropp 7.4722666453460717e-03) by lit_tac.
  replace (Q2R (10273621109538621 # 250000000000000000000)) with (4.1094484438154484e-05) by lit_tac.
  replace (Q2R (-6457894773161807 # 50000000000000000000000)) with (Ropp 1.2915789546323614e-07) by lit_tac.
  ring.
Qed.
Lemma lam_is T : lambda_water T = qeval lam_q T.
Proof.
  unfold lambda_water, qeval, lam_q; cbn [map peval].
  replace (Q2R (56987912853229539 # 100000000000000000)) with (5.6987912853229539e-01) by lit_tac.
  replace (Q2R (8939185201272869 # 5000000000000000000)) with (1.7878370402545738e-03) by lit_tac.
  replace (Q2R (-11999643454775959 # 2000000000000000000000)) with (Ropp 5.9998217273879795e-06) by lit_tac.
  replace (Q2R (-86964577115093407 # 10000000000000000000000000)) with (Ropp 8.6964577115093407e-09) by lit_tac.
  ring.
Qed.
Lemma cp_is T : cp_water T = qeval cp_q T.
Proof.
  unfold cp_water, qeval, cp_q; cbn [map peval].
  replace (Q2R (5269252946772499 # 1250000000000)) with (4215.4023574179992) by lit_tac.
  replace (Q2R (-7213485820879837 # 2500000000000000)) with (Ropp 2.8853943283519348) by lit_tac.
  replace (Q2R (468161292800073 # 6250000000000000)) with (7.490580684801168e-02) by lit_tac.
  replace (Q2R (-77807143441700321 # 100000000000000000000)) with (Ropp 7.7807143441700321e-04) by lit_tac.
  replace (Q2R (501708265162663 # 156250000000000000000)) with (3.2109328970410432e-06) by lit_tac.
  ring.
Qed.
Lemma ny_is T : ny_water T = qeval ny_q T.
Proof.
  unfold ny_water, qeval, ny_q; cbn [map peval].
  replace (Q2R (3552894676098831 # 2000000000000000000000)) with (1.7764473380494155e-06) by lit_tac.
  replace (Q2R (-13910068945316351 # 250000000000000000000000)) with (Ropp 5.5640275781265404e-08) by lit_tac.
  replace (Q2R (5121536443747213 # 5000000000000000000000000)) with (1.0243072887494426e-09) by lit_tac.
  replace (Q2R (-19590892027396233 # 2000000000000000000000000000)) with (Ropp 9.7954460136981165e-12) by lit_tac.
  replace (Q2R (9115117186265681 # 250000000000000000000000000000)) with (3.6460468745062724e-14) by lit_tac.
  ring.
Qed.
Lemma Pr_is T : Pr_water T = qeval Pr_q T.
Proof.
  unfold Pr_water, qeval, Pr_q; cbn [map peval].
  replace (Q2R (62890054099689529 # 5000000000000000)) with (12.5780108199379058) by lit_tac.
  replace (Q2R (-8781170142941877 # 25000000000000000)) with (Ropp 0.35124680571767508) by lit_tac.
  replace (Q2R (8645096088941217 # 2000000000000000000)) with (4.3225480444706085e-03) by lit_tac.
  replace (Q2R (-9587096961594449 # 500000000000000000000)) with (Ropp 1.9174193923188898e-05) by lit_tac.
  ring.
Qed.
Lemma beta_is T : beta_water T = qeval beta_q T.
Proof.
  unfold beta_water, qeval, beta_q; cbn [map peval].
  replace (Q2R (-293992682383333 # 5000000000000000000)) with (-5.87985364766666e-05) by lit_tac.
  replace (Q2R (15641955219950547 # 1000000000000000000000)) with (1.5641955219950547e-05) by lit_tac.
  replace (Q2R (-13587684743777981 # 100000000000000000000000)) with (Ropp 1.3587684743777981e-07) by lit_tac.
  replace (Q2R (30610251654074543 # 50000000000000000000000000)) with (6.1220503308149086e-10) by lit_tac.
  ring.
Qed.
Lemma lam_air_is T : lam_dryair T = qeval lam_air_q T.
Proof.
  unfold lam_dryair, qeval, lam_air_q; cbn [map peval].
  replace (Q2R (24358670995670989 # 1000000000000000000)) with (0.024358670995670989) by lit_tac.
  replace (Q2R (76533982683982561 # 1000000000000000000000)) with (7.6533982683982561e-05) by lit_tac.
  replace (Q2R (-42099567099572201 # 1000000000000000000000000)) with (Ropp 4.2099567099572201e-08) by lit_tac.
  ring.
Qed.
Lemma ny_air_is T : ny_dryair T = qeval ny_air_q T.
Proof.
  unfold ny_dryair, qeval, ny_air_q; cbn [map peval].
  replace (Q2R (13500069264069257 # 1000000000000000000000)) with (1.3500069264069257e-05) by lit_tac.
  replace (Q2R (88810389610389459 # 1000000000000000000000000)) with (8.8810389610389459e-08) by lit_tac.
  replace (Q2R (10974025974025443 # 100000000000000000000000000)) with (1.0974025974025443e-10) by lit_tac.
  ring.
Qed.

(** [cs - c] and [c - cs]. *)
Definition qsub (cs : list Q) (c : Q) : list Q :=
  match cs with [] => [(- c)%Q] | d :: r => (d - c)%Q :: r end.
Lemma qsub_eval cs c x : qeval (qsub cs c) x = qeval cs x - Q2R c.
Proof.
  destruct cs as [|d r]; unfold qeval, qsub; cbn [map peval].
  - rewrite Q2R_opp; lra.
  - rewrite Q2R_minus; lra.
Qed.

Lemma qlower cs c a b h n : check_on (qsub cs c) a b h n = true ->
  forall x, Q2R a <= x <= Q2R b -> Q2R c < qeval cs x.
Proof.
  intros C x X. pose proof (check_on_sound _ _ _ _ _ C x X) as P.
  rewrite qsub_eval in P. lra.
Qed.
Lemma qupper cs c a b h n : check_on (qneg (qsub cs c)) a b h n = true ->
  forall x, Q2R a <= x <= Q2R b -> qeval cs x < Q2R c.
Proof.
  intros C x X. pose proof (check_on_sound _ _ _ _ _ C x X) as P.
  rewrite qneg_eval, qsub_eval in P. lra.
Qed.

Lemma Q2Z z : Q2R (inject_Z z) = IZR z.
Proof. unfold Q2R, inject_Z; cbn. lra. Qed.

Ltac qnum := unfold Q2R; cbn; lra.
Ltac qchk := vm_compute; reflexivity.

(** [qlow f_is cs c a b h n]: prove [c < f T] on [a, b]. *)
Ltac use_lower cs c a b h n :=
  apply (Rle_lt_trans _ (Q2R c)); [qnum|];
  apply (qlower cs c a b h n); [qchk|split; [eapply Rle_trans; [|eassumption]; qnum
                                            |eapply Rle_trans; [eassumption|]; qnum]].
Ltac use_upper cs c a b h n :=
  apply (Rlt_le_trans _ (Q2R c)); [|qnum];
  apply (qupper cs c a b h n); [qchk|split; [eapply Rle_trans; [|eassumption]; qnum
                                            |eapply Rle_trans; [eassumption|]; qnum]].

Lemma rho_bounds T : 0 <= T <= 100 -> 958 < rho_water T < 1000.
Proof.
  intros [H0 H1]. rewrite rho_is. split.
  - use_lower rho_q 958%Q 0%Q 100%Q (1#1) 100%nat.
  - use_upper rho_q 1000%Q 0%Q 100%Q (1#1) 100%nat.
Qed.
Lemma lambda_bounds T : 0 <= T <= 100 -> 569/1000 < lambda_water T < 681/1000.
Proof.
  intros [H0 H1]. rewrite lam_is. split.
  - use_lower lam_q (569#1000)%Q 0%Q 100%Q (100#1) 1%nat.
  - use_upper lam_q (681#1000)%Q 0%Q 100%Q (5#4) 80%nat.
Qed.
Lemma cp_bounds T : 0 <= T <= 100 -> 4170 < cp_water T < 4225.
Proof.
  intros [H0 H1]. rewrite cp_is. split.
  - use_lower cp_q 4170%Q 0%Q 100%Q (5#2) 40%nat.
  - use_upper cp_q 4225%Q 0%Q 100%Q (5#4) 80%nat.
Qed.
Lemma ny_bounds T : 0 <= T <= 100 -> 25/100000000 < ny_water T < 18/10000000.
Proof.
  intros [H0 H1]. rewrite ny_is. split.
  - use_lower ny_q (25#100000000)%Q 0%Q 100%Q (1#2) 200%nat.
  - use_upper ny_q (18#10000000)%Q 0%Q 100%Q (20#1) 5%nat.
Qed.
Lemma Pr_bounds T : 0 <= T <= 100 -> 14/10 < Pr_water T < 126/10.
Proof.
  intros [H0 H1]. rewrite Pr_is. split.
  - use_lower Pr_q (14#10)%Q 0%Q 100%Q (2#5) 250%nat.
  - use_upper Pr_q (126#10)%Q 0%Q 100%Q (50#1) 2%nat.
Qed.

(** Monotonicity, [chk] positive on [a, b] for the derivative. *)
Ltac use_mono L chk a b h n :=
  let z := fresh "z" in let Z := fresh "Z" in
  apply (L (Q2R a) (Q2R b));
  [ intros z Z; apply (check_on_sound chk a b h n); [qchk|exact Z]
  | eapply Rle_trans; [|eassumption]; qnum
  | assumption
  | eapply Rle_trans; [eassumption|]; qnum ].

Lemma rho_decreasing x y : 4 <= x -> x < y -> y <= 100 -> rho_water y < rho_water x.
Proof.
  intros A XY B. rewrite !rho_is.
  use_mono (qeval_decreasing rho_q) (qneg (qderiv rho_q)) 4%Q 100%Q (48#5) 10%nat.
Qed.
Lemma lambda_increasing x y : 0 <= x -> x < y -> y <= 100 -> lambda_water x < lambda_water y.
Proof.
  intros A XY B. rewrite !lam_is.
  use_mono (qeval_increasing lam_q) (qderiv lam_q) 0%Q 100%Q (100#1) 1%nat.
Qed.
Lemma Pr_decreasing x y : 0 <= x -> x < y -> y <= 100 -> Pr_water y < Pr_water x.
Proof.
  intros A XY B. rewrite !Pr_is.
  use_mono (qeval_decreasing Pr_q) (qneg (qderiv Pr_q)) 0%Q 100%Q (5#1) 20%nat.
Qed.
Lemma ny_decreasing x y : 0 <= x -> x < y -> y <= 95 -> ny_water y < ny_water x.
Proof.
  intros A XY B. rewrite !ny_is.
  use_mono (qeval_decreasing ny_q) (qneg (qderiv ny_q)) 0%Q 95%Q (19#25) 125%nat.
Qed.
Lemma ny_rises x y : 98 <= x -> x < y -> y <= 100 -> ny_water x < ny_water y.
Proof.
  intros A XY B. rewrite !ny_is.
  use_mono (qeval_increasing ny_q) (qderiv ny_q) 98%Q 100%Q (1#10) 20%nat.
Qed.
Lemma beta_increasing x y : 0 <= x -> x < y -> y <= 100 -> beta_water x < beta_water y.
Proof.
  intros A XY B. rewrite !beta_is.
  use_mono (qeval_increasing beta_q) (qderiv beta_q) 0%Q 100%Q (25#1) 4%nat.
Qed.
Lemma lam_air_increasing x y : 0 <= x -> x < y -> y <= 100 -> lam_dryair x < lam_dryair y.
Proof.
  intros A XY B. rewrite !lam_air_is.
  use_mono (qeval_increasing lam_air_q) (qderiv lam_air_q) 0%Q 100%Q (100#1) 1%nat.
Qed.
Lemma ny_air_increasing x y : 0 <= x -> x < y -> y <= 100 -> ny_dryair x < ny_dryair y.
Proof.
  intros A XY B. rewrite !ny_air_is.
  use_mono (qeval_increasing ny_air_q) (qderiv ny_air_q) 0%Q 100%Q (100#1) 1%nat.
Qed.
Lemma lam_air_bounds T : 0 <= T <= 100 -> 24/1000 < lam_dryair T < 32/1000.
Proof.
  intros [H0 H1]. rewrite lam_air_is. split.
  - use_lower lam_air_q (24#1000)%Q 0%Q 100%Q (100#1) 1%nat.
  - use_upper lam_air_q (32#1000)%Q 0%Q 100%Q (25#1) 4%nat.
Qed.
Lemma ny_air_bounds T : 0 <= T <= 100 -> 13/1000000 < ny_dryair T < 24/1000000.
Proof.
  intros [H0 H1]. rewrite ny_air_is. split.
  - use_lower ny_air_q (13#1000000)%Q 0%Q 100%Q (100#1) 1%nat.
  - use_upper ny_air_q (24#1000000)%Q 0%Q 100%Q (25#1) 4%nat.
Qed.

(** Specific inner energy of water, code: [cp_T * T]. *)
Definition u_water (T : R) : R := cp_water T * T.
Definition u_q : list Q := 0%Q :: cp_q.
Lemma u_is T : u_water T = qeval u_q T.
Proof.
  unfold u_water. rewrite cp_is. unfold u_q. unfold qeval at 2. cbn [map peval].
  fold (qeval cp_q T). rewrite RMicromega.Q2R_0. ring.
Qed.
Lemma u_increasing x y : 0 <= x -> x < y -> y <= 100 -> u_water x < u_water y.
Proof.
  intros A XY B. rewrite !u_is.
  use_mono (qeval_increasing u_q) (qderiv u_q) 0%Q 100%Q (100#1) 1%nat.
Qed.
