(** Pieces of a pipe against the whole pipe (C187): every cell of both pieces. *)
From Coq Require Import Reals List Arith ZArith Bool Lra Lia.
From Verif Require Import MFlow MWater MDiff MGeom SFlow LFlow LPoly LWater LDiff LDiff2 LDiff5 LGeom SMirror LMirror SPiece LPiece LPiece2.
Open Scope R_scope.

Section Cut.
Variables (a : pipe_arg) (k m : nat) (p : prts) (g g1 g2 : geo).
Hypothesis C : cut a k m p g g1 g2.
Hypothesis HD : 0 < pa_di a < pa_do a.
Hypothesis HL : 0 < pa_lam a.
Variables (io Ta : R) (f f1 f2 : flows) (T T1 T2 Tp : arr) (b b1 b2 : buf).
Hypothesis F : ends0 (k + m) f.
Hypothesis F1 : ends0 k f1.
Hypothesis F2 : ends0 m f2.
Hypothesis HT1 : front_T k T T1.
Hypothesis HT2 : back_T k m T T2.
Hypothesis HB1 : same_at k 0 b b1.
Hypothesis HB2 : same_at m k b b2.
Hypothesis RT : forall j, (j < k + m)%nat -> 0 <= T (S j) <= 100.
Let r := pipe_diff g io f T Tp Ta b.
Let r1 := pipe_diff g1 io f1 T1 (front_P k T Tp) Ta b1.
Let r2 := pipe_diff g2 io f2 T2 (back_P k T Tp) Ta b2.
Let Ck : (1 <= k)%nat := proj1 C.
Let Cm : (1 <= m)%nat := proj1 (proj2 C).
Let Geo := cut_geo a k m p g g1 g2 C HD HL.
Lemma gn : g_n g = (k + m)%nat. Proof. apply Geo. Qed.
Lemma gn1 : g_n g1 = k. Proof. apply Geo. Qed.
Lemma gn2 : g_n g2 = m. Proof. apply Geo. Qed.
Lemma lk : like g g. Proof. apply Geo. Qed.
Lemma lk1 : like g g1. Proof. apply Geo. Qed.
Lemma lk2 : like g g2. Proof. apply Geo. Qed.
Lemma front_mcp j : (j < k)%nat -> r_mcp r1 j = r_mcp r j.
Proof. intro H. apply (w_mcp g g1 0 io f f1 T T1 Tp _ Ta b b1 lk1). intros i Hi. rewrite gn1 in Hi. apply (HT1 i Hi). rewrite gn1. exact H. Qed.
Lemma back_mcp j : (j < m)%nat -> r_mcp r2 j = r_mcp r (k + j)%nat.
Proof. intro H. apply (w_mcp g g2 k io f f2 T T2 Tp _ Ta b b2 lk2). intros i Hi. rewrite gn2 in Hi. apply (HT2 i Hi). rewrite gn2. exact H. Qed.
Lemma mid_tb : r_tb r k = g_A g / g_gsp g * (2 * lambda_water (T k) * lambda_water (T (S k)) / (lambda_water (T k) + lambda_water (T (S k)))) + g_tbw g.
Proof.
  unfold r, pipe_diff. cbn [part_diff r_tb]. unfold ua_tb, lam_mean. rewrite gn.
  destruct (Nat.leb_spec 1 k), (Nat.ltb_spec k (k + m)); try lia. cbn [andb]. replace (S (k - 1)) with k by lia. reflexivity.
Qed.
Lemma Tk : 0 <= T k <= 100. Proof. replace k with (S (k - 1)) by lia. apply RT. lia. Qed.
Lemma TSk : 0 <= T (S k) <= 100. Proof. apply RT. lia. Qed.
Lemma front_joint : r_uap r1 1%nat = r_tb r k.
Proof.
  rewrite mid_tb. destruct Geo as (_ & _ & _ & _ & _ & _ & IP & _ & _ & _ & GS & _).
  rewrite <- (lk_A _ _ lk1), <- (lk_gsp _ _ lk1), <- (lk_tbw _ _ lk1).
  unfold r1, pipe_diff. cbn [part_diff r_uap].
  rewrite (joint_uap g1 1 _ _ (k - 1) (T (S k)) (T k)); try assumption.
  - f_equal. f_equal. unfold Rdiv. rewrite (Rplus_comm (lambda_water (T (S k)))). ring.
  - rewrite (lk_gsp _ _ lk1). exact GS.
  - apply TSk.
  - apply Tk.
  - rewrite (lk_own _ _ lk1), gn1. reflexivity.
  - reflexivity.
  - rewrite (HT1 (k - 1)%nat) by lia. f_equal. lia.
Qed.
Lemma back_joint : r_uap r2 0%nat = r_tb r k.
Proof.
  rewrite mid_tb. destruct Geo as (_ & _ & _ & _ & _ & _ & _ & IP & _ & _ & GS & _).
  rewrite <- (lk_A _ _ lk2), <- (lk_gsp _ _ lk2), <- (lk_tbw _ _ lk2).
  unfold r2, pipe_diff. cbn [part_diff r_uap].
  rewrite (joint_uap g2 0 _ _ 0 (T k) (T (S k))); try assumption.
  - reflexivity.
  - rewrite (lk_gsp _ _ lk2). exact GS.
  - apply Tk.
  - apply TSk.
  - rewrite (lk_own _ _ lk2). reflexivity.
  - reflexivity.
  - rewrite (HT2 0%nat) by lia. f_equal. lia.
Qed.
Lemma front_outer : r_uap r1 0%nat = r_uap r 0%nat.
Proof.
  destruct Geo as (_ & _ & _ & _ & _ & _ & _ & _ & (E1 & E2 & E3) & _).
  unfold r1, r, pipe_diff. cbn [part_diff r_uap]. unfold ua_port.
  rewrite E1, E2, E3, (lk_own _ _ lk1), (lk_own _ _ lk), (lk_gsp _ _ lk1). cbn [two_own front_P two]. rewrite (HT1 0%nat) by lia. reflexivity.
Qed.
Lemma back_outer : r_uap r2 1%nat = r_uap r 1%nat.
Proof.
  destruct Geo as (_ & _ & _ & _ & _ & _ & _ & _ & _ & (E1 & E2 & E3) & _).
  unfold r2, r, pipe_diff. cbn [part_diff r_uap]. unfold ua_port.
  rewrite E1, E2, E3, (lk_own _ _ lk2), (lk_own _ _ lk), (lk_gsp _ _ lk2), gn, gn2. cbn [two_own back_P two].
  rewrite (HT2 (m - 1)%nat) by lia. replace (k + (m - 1))%nat with (k + m - 1)%nat by lia. reflexivity.
Qed.

Lemma front_cond j : (j < k)%nat ->
  r_cond r1 j = r_cond r j + (r_ua r1 j - r_ua r j) * (Ta - T (S j)) / r_mcp r j.
Proof.
  intro H. unfold r1, r. rewrite (like_cond g g1), (like_cond g g) by (rewrite ?gn, ?gn1; try lia; apply lk1 || apply lk).
  fold r r1. rewrite gn, gn1, (front_mcp j H), (front_mcp 0 ltac:(lia)), (front_mcp (k - 1) ltac:(lia)), front_outer, front_joint.
  cbn [front_P two]. replace (S (k - 1)) with k by lia. rewrite (HT1 j H), (HT1 0%nat) by lia.
  assert (E : T1 k = T k) by (replace k with (S (k - 1)) by lia; apply HT1; lia). rewrite E.
  destruct (tb_ends g lam_mean (fun _ => io) (process_flow_invar (g_n g) (g_np g) io f) false no_heat T Tp Ta b) as [Z0 Z1].
  destruct (tb_ends g1 lam_mean (fun _ => io) (process_flow_invar (g_n g1) (g_np g1) io f1) false no_heat T1 (front_P k T Tp) Ta b1) as [Y0 Y1].
  fold (pipe_diff g io f T Tp Ta b) in Z0, Z1. fold (pipe_diff g1 io f1 T1 (front_P k T Tp) Ta b1) in Y0, Y1. fold r in Z0, Z1. fold r1 in Y0, Y1.
  rewrite gn1 in Y1.
  assert (L : r_tb r1 j * (T1 j - T (S j)) = r_tb r j * (T j - T (S j))).
  { destruct j as [|j]; [rewrite Z0, Y0; ring|]. rewrite (HT1 j) by lia. f_equal.
    apply (w_tb g g1 0 io f f1 T T1 Tp _ Ta b b1 lk1); [rewrite gn, gn1; lia|intros i Hi; rewrite gn1 in Hi; apply (HT1 i Hi)|rewrite gn1; lia]. }
  rewrite L. destruct (Nat.eqb_spec (k + m - 1) j) as [Q|_]; [lia|].
  destruct (Nat.eqb_spec (k - 1) j) as [Q|Q].
  - subst j. replace (S (k - 1)) with k by lia. rewrite Y1. destruct (Nat.eqb_spec 0 (k - 1)) as [Q0|Q0]; unfold Rdiv; ring.
  - assert (M : r_tb r1 (S j) * (T1 (S (S j)) - T (S j)) = r_tb r (S j) * (T (S (S j)) - T (S j))).
    { rewrite (HT1 (S j)) by lia. f_equal.
      apply (w_tb g g1 0 io f f1 T T1 Tp _ Ta b b1 lk1); [rewrite gn, gn1; lia|intros i Hi; rewrite gn1 in Hi; apply (HT1 i Hi)|rewrite gn1; lia]. }
    rewrite M. unfold Rdiv. ring.
Qed.
Lemma back_cond j : (j < m)%nat ->
  r_cond r2 j = r_cond r (k + j)%nat + (r_ua r2 j - r_ua r (k + j)%nat) * (Ta - T (S (k + j))) / r_mcp r (k + j)%nat.
Proof.
  intro H. unfold r2, r. rewrite (like_cond g g2), (like_cond g g) by (rewrite ?gn, ?gn2; try lia; apply lk2 || apply lk).
  fold r r2. rewrite gn, gn2, (back_mcp j H), (back_mcp 0 ltac:(lia)), (back_mcp (m - 1) ltac:(lia)), back_outer, back_joint.
  cbn [back_P two]. rewrite (HT2 j H), (HT2 0%nat), (HT2 (m - 1)%nat) by lia.
  rewrite !Nat.add_0_r. replace (k + (m - 1))%nat with (k + m - 1)%nat by lia.
  destruct (tb_ends g lam_mean (fun _ => io) (process_flow_invar (g_n g) (g_np g) io f) false no_heat T Tp Ta b) as [Z0 Z1].
  destruct (tb_ends g2 lam_mean (fun _ => io) (process_flow_invar (g_n g2) (g_np g2) io f2) false no_heat T2 (back_P k T Tp) Ta b2) as [Y0 Y1].
  fold (pipe_diff g io f T Tp Ta b) in Z0, Z1. fold (pipe_diff g2 io f2 T2 (back_P k T Tp) Ta b2) in Y0, Y1. fold r in Z0, Z1. fold r2 in Y0, Y1.
  rewrite gn in Z1. rewrite gn2 in Y1.
  assert (W : forall i, (1 <= i < m)%nat -> r_tb r2 i = r_tb r (k + i)%nat).
  { intros i Hi. apply (w_tb g g2 k io f f2 T T2 Tp _ Ta b b2 lk2); [rewrite gn, gn2; lia|intros i' Hi'; rewrite gn2 in Hi'; apply (HT2 i' Hi')|rewrite gn2; lia]. }
  assert (M : r_tb r2 (S j) * (T2 (S (S j)) - T (S (k + j))) = r_tb r (S (k + j)) * (T (S (S (k + j))) - T (S (k + j)))).
  { destruct (Nat.eq_dec (S j) m) as [Q|Q].
    - rewrite Q, Y1. replace (S (k + j)) with (k + m)%nat at 2 by lia. rewrite Z1. ring.
    - rewrite (W (S j)) by lia. rewrite (HT2 (S j)) by lia. replace (k + S j)%nat with (S (k + j)) by lia. reflexivity. }
  rewrite M. destruct (Nat.eqb_spec 0 (k + j)) as [Q|_]; [lia|].
  assert (EQ : (m - 1 =? j)%nat = (k + m - 1 =? k + j)%nat) by (destruct (Nat.eqb_spec (m - 1) j), (Nat.eqb_spec (k + m - 1) (k + j)); lia).
  rewrite <- EQ. destruct (Nat.eqb_spec 0 j) as [Q|Q].
  - subst j. rewrite !Nat.add_0_r. rewrite Y0. unfold Rdiv. ring.
  - assert (L : r_tb r2 j * (T2 j - T (S (k + j))) = r_tb r (k + j)%nat * (T (k + j)%nat - T (S (k + j)))).
    { rewrite (W j) by lia. destruct j as [|j]; [lia|]. rewrite (HT2 j) by lia. replace (k + S j)%nat with (S (k + j)) by lia. reflexivity. }
    rewrite L. unfold Rdiv. ring.
Qed.

Lemma front_adv j : (j < k)%nat -> r_adv r1 j = r_adv r j.
Proof.
  intro H. unfold r1, r. rewrite (like_adv g g1 _ _ _ _ _ _ _ lk1), (like_adv g g _ _ _ _ _ _ _ lk).
  fold r r1. rewrite gn, gn1, (front_mcp j H), (front_mcp 0 ltac:(lia)), (front_mcp (k - 1) ltac:(lia)).
  cbn [front_P two]. replace (S (k - 1)) with k by lia. rewrite (HT1 j H), (HT1 0%nat) by lia.
  assert (E : T1 k = T k) by (replace k with (S (k - 1)) by lia; apply HT1; lia). rewrite E.
  assert (EP : (1 <= j)%nat -> T1 j = T j) by (intro Q; replace j with (S (j - 1)) by lia; apply HT1; lia).
  assert (ES : (S j < k)%nat -> T1 (S (S j)) = T (S (S j))) by (intro Q; apply HT1; exact Q).
  destruct (Rle_dec 0 io) as [P|P].
  - destruct (invar_pos (k + m) io f j ltac:(lia) F P ltac:(lia)) as (-> & -> & -> & ->).
    destruct (invar_pos k io f1 j ltac:(lia) F1 P H) as (-> & -> & -> & ->).
    nat_cases; try lia; try (rewrite EP by lia); unfold Rdiv; ring.
  - assert (P' : io < 0) by lra.
    destruct (invar_neg (k + m) io f j ltac:(lia) F P' ltac:(lia)) as (-> & -> & -> & ->).
    destruct (invar_neg k io f1 j ltac:(lia) F1 P' H) as (-> & -> & -> & ->).
    nat_cases; try lia; try (rewrite ES by lia); try subst j; try replace (S (k - 1)) with k by lia; unfold Rdiv; ring.
Qed.
Lemma back_adv j : (j < m)%nat -> r_adv r2 j = r_adv r (k + j)%nat.
Proof.
  intro H. unfold r2, r. rewrite (like_adv g g2 _ _ _ _ _ _ _ lk2), (like_adv g g _ _ _ _ _ _ _ lk).
  fold r r2. rewrite gn, gn2, (back_mcp j H), (back_mcp 0 ltac:(lia)), (back_mcp (m - 1) ltac:(lia)).
  cbn [back_P two]. rewrite (HT2 j H), (HT2 0%nat), (HT2 (m - 1)%nat) by lia.
  rewrite !Nat.add_0_r. replace (k + (m - 1))%nat with (k + m - 1)%nat by lia.
  assert (EP : (1 <= j)%nat -> T2 j = T (k + j)%nat) by (intro Q; replace j with (S (j - 1)) at 1 by lia; rewrite HT2 by lia; f_equal; lia).
  assert (ES : (S j < m)%nat -> T2 (S (S j)) = T (S (S (k + j)))) by (intro Q; rewrite HT2 by lia; f_equal; lia).
  destruct (Rle_dec 0 io) as [P|P].
  - destruct (invar_pos (k + m) io f (k + j) ltac:(lia) F P ltac:(lia)) as (-> & -> & -> & ->).
    destruct (invar_pos m io f2 j ltac:(lia) F2 P H) as (-> & -> & -> & ->).
    nat_cases; try lia; try (rewrite EP by lia); try subst j; rewrite ?Nat.add_0_r; unfold Rdiv; ring.
  - assert (P' : io < 0) by lra.
    destruct (invar_neg (k + m) io f (k + j) ltac:(lia) F P' ltac:(lia)) as (-> & -> & -> & ->).
    destruct (invar_neg m io f2 j ltac:(lia) F2 P' H) as (-> & -> & -> & ->).
    nat_cases; try lia; try (rewrite ES by lia); unfold Rdiv; ring.
Qed.
End Cut.
