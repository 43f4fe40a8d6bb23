(** Proofs about the geometry of pipes and storages (C101-C104). *)
From Coq Require Import Reals List Arith ZArith Bool Lra Lia.
From Verif Require Import MFlow MWater MDiff MGeom SFlow SDiff SGeom LFlow LWater LDiff LDiff2 LDiff4.
Import ListNotations.
Open Scope R_scope.

Lemma pos_dec_iff x : pos_dec x = true <-> 0 < x.
Proof. unfold pos_dec. destruct (Rlt_dec 0 x); split; auto; try discriminate; tauto. Qed.
Lemma nonneg_dec_iff x : nonneg_dec x = true <-> 0 <= x.
Proof. unfold nonneg_dec. destruct (Rle_dec 0 x); split; auto; try discriminate; tauto. Qed.
Lemma is0_iff x : is0 x = true <-> x = 0.
Proof. unfold is0. destruct (Req_EM_T x 0); split; auto; try discriminate; tauto. Qed.
Lemma is0_false x : is0 x = false <-> x <> 0.
Proof. unfold is0. destruct (Req_EM_T x 0); split; auto; try discriminate; tauto. Qed.

(** Conditions under which the constructors accept. *)
Definition pipe_acc (a : pipe_arg) : Prop :=
  0 < pa_len a /\ (0 < pa_gp a)%Z /\ 0 <= pa_sins a /\ 0 <= pa_lins a /\
  pa_di a <> 0 /\ pa_do a <> 0 /\ pa_do a / 2 + pa_sins a <> 0.
Lemma pipe_new_iff a p : (exists g, pipe_new a p = Some g) <-> pipe_acc a.
Proof.
  unfold pipe_new, pipe_acc.
  destruct (pos_dec (pa_len a)) eqn:E1; cbn [andb];
    [apply pos_dec_iff in E1|split; [intros [g H]; discriminate|intros [H _]; apply pos_dec_iff in H; congruence]].
  destruct (0 <? pa_gp a)%Z eqn:E2; cbn [andb];
    [apply Z.ltb_lt in E2|split; [intros [g H]; discriminate|intros (_ & H & _); apply Z.ltb_lt in H; congruence]].
  destruct (nonneg_dec (pa_sins a)) eqn:E3; cbn [andb];
    [apply nonneg_dec_iff in E3|split; [intros [g H]; discriminate|intros (_ & _ & H & _); apply nonneg_dec_iff in H; congruence]].
  destruct (nonneg_dec (pa_lins a)) eqn:E4; cbn [andb];
    [apply nonneg_dec_iff in E4|split; [intros [g H]; discriminate|intros (_ & _ & _ & H & _); apply nonneg_dec_iff in H; congruence]].
  destruct (is0 (pa_di a / 2)) eqn:E5; cbn [orb].
  - apply is0_iff in E5. split; [intros [g H]; discriminate|intros (_ & _ & _ & _ & H & _); lra].
  - apply is0_false in E5. destruct (is0 (pa_do a / 2)) eqn:E6; cbn [orb].
    + apply is0_iff in E6. split; [intros [g H]; discriminate|intros (_ & _ & _ & _ & _ & H & _); lra].
    + apply is0_false in E6. destruct (is0 (pa_do a / 2 + pa_sins a)) eqn:E7.
      * apply is0_iff in E7. split; [intros [g H]; discriminate|intros (_ & _ & _ & _ & _ & _ & H); lra].
      * apply is0_false in E7. split; [|intros _; eexists; reflexivity]. intros _.
        repeat (split; [lra || lia|]). lra.
Qed.

Definition tes_acc (a : tes_arg) : Prop :=
  0 < ta_do a /\ 0 < ta_shell a < 1 /\ 0 <= ta_sins a /\ 0 <= ta_lins a /\
  (2 <= ta_gp a)%Z /\ ta_do a <> 2 * ta_shell a /\ ta_vol a <> 0.
Lemma tes_new_iff a p : (exists g, tes_new a p = Some g) <-> tes_acc a.
Proof.
  unfold tes_new, tes_acc.
  destruct (pos_dec (ta_do a)) eqn:E1; cbn [andb];
    [apply pos_dec_iff in E1|split; [intros [g H]; discriminate|intros [H _]; apply pos_dec_iff in H; congruence]].
  destruct (pos_dec (ta_shell a)) eqn:E2; cbn [andb];
    [apply pos_dec_iff in E2|split; [intros [g H]; discriminate|intros (_ & [H _] & _); apply pos_dec_iff in H; congruence]].
  destruct (pos_dec (1 - ta_shell a)) eqn:E2'; cbn [andb];
    [apply pos_dec_iff in E2'|split; [intros [g H]; discriminate|intros (_ & [_ H] & _); assert (0 < 1 - ta_shell a) as H' by lra; apply pos_dec_iff in H'; congruence]].
  destruct (nonneg_dec (ta_sins a)) eqn:E3; cbn [andb];
    [apply nonneg_dec_iff in E3|split; [intros [g H]; discriminate|intros (_ & _ & H & _); apply nonneg_dec_iff in H; congruence]].
  destruct (nonneg_dec (ta_lins a)) eqn:E4; cbn [andb];
    [apply nonneg_dec_iff in E4|split; [intros [g H]; discriminate|intros (_ & _ & _ & H & _); apply nonneg_dec_iff in H; congruence]].
  destruct (ta_gp a <=? 1)%Z eqn:E5; cbn [orb].
  - apply Z.leb_le in E5. split; [intros [g H]; discriminate|intros (_ & _ & _ & _ & H & _); lia].
  - apply Z.leb_gt in E5. destruct (is0 (ta_do a - 2 * ta_shell a)) eqn:E6; cbn [orb].
    + apply is0_iff in E6. split; [intros [g H]; discriminate|intros (_ & _ & _ & _ & _ & H & _); lra].
    + apply is0_false in E6. destruct (is0 (ta_vol a)) eqn:E7.
      * apply is0_iff in E7. split; [intros [g H]; discriminate|intros (_ & _ & _ & _ & _ & _ & H); lra].
      * apply is0_false in E7. split; [|intros _; eexists; reflexivity]. intros _.
        split; [lra|]. split; [lra|]. split; [lra|]. split; [lra|]. split; [lia|]. split; lra.
Qed.

(** The accepted geometry, field by field. *)
Lemma pipe_new_inv a p g : pipe_new a p = Some g -> pipe_acc a /\
  g = {| g_n := Z.to_nat (pa_gp a); g_np := p_np p; g_own := p_own p;
         g_A := pa_A a; g_V := pa_A a * (pa_len a / IZR (pa_gp a)); g_gsp := pa_len a / IZR (pa_gp a); g_di := pa_di a;
         g_x := fun j => nth j (pipe_dist a) 0;
         g_L := (pa_do a / 2 + pa_sins a) * 2 * PI / 2;
         g_rt := pa_do a / 2 + pa_sins a; g_rlw := pa_di a / 2 * ln ((pa_do a / 2) / (pa_di a / 2));
         g_rli := pa_di a / 2 * ln ((pa_do a / 2 + pa_sins a) / (pa_do a / 2));
         g_rr := pa_di a / 2 / (pa_do a / 2 + pa_sins a);
         g_Ai := PI * pa_di a * (pa_len a / IZR (pa_gp a));
         g_As := PI * (pa_do a / 2 + pa_sins a) * 2 * (pa_len a / IZR (pa_gp a)); g_vert := false;
         g_lw := pa_lam a; g_li := pa_lins a;
         g_mw := pa_cp a * pa_rho a * (PI / 4 * (pa_do a ^ 2 - pa_di a ^ 2) * pa_len a) / IZR (pa_gp a);
         g_tbw := PI / 4 * (pa_do a ^ 2 - pa_di a ^ 2) / (pa_len a / IZR (pa_gp a)) * pa_lam a;
         g_pgsp := p_gsp p; g_psub := p_sub p; g_pA := p_A p; g_pw := p_w p;
         g_swll := pa_do a / 2 - pa_di a / 2; g_sins := pa_sins a; g_Llid := 1; g_vlid := true |}.
Proof.
  intros H. split; [apply (pipe_new_iff a p); eauto|].
  unfold pipe_new in H. destruct (_ && _)%bool; [|discriminate]. cbv zeta in H.
  destruct (_ || _)%bool; [discriminate|]. injection H as <-. reflexivity.
Qed.

Lemma tes_new_inv a p g : tes_new a p = Some g -> tes_acc a /\
  exists di len, di = ta_do a - 2 * ta_shell a /\ len = ta_vol a / (PI * di ^ 2 / 4) /\
  g = {| g_n := Z.to_nat (ta_gp a); g_np := p_np p; g_own := p_own p;
         g_A := PI * di ^ 2 / 4; g_V := ta_vol a / IZR (ta_gp a); g_gsp := len / IZR (ta_gp a); g_di := di;
         g_x := fun _ => len * (1.077 / 1.615) ^ 3;
         g_L := len / IZR (ta_gp a);
         g_rt := ta_do a / 2 + ta_sins a; g_rlw := di / 2 * ln ((ta_do a / 2) / (di / 2));
         g_rli := di / 2 * ln ((ta_do a / 2 + ta_sins a) / (ta_do a / 2));
         g_rr := di / 2 / (ta_do a / 2 + ta_sins a);
         g_Ai := PI * di * (len / IZR (ta_gp a));
         g_As := PI * (ta_do a / 2 + ta_sins a) * 2 * (len / IZR (ta_gp a)); g_vert := true;
         g_lw := ta_lam a; g_li := ta_lins a;
         g_mw := ta_cp a * ta_rho a * (PI / 4 * (ta_do a ^ 2 - di ^ 2) * len) / IZR (ta_gp a);
         g_tbw := PI / 4 * (ta_do a ^ 2 - di ^ 2) / (len / IZR (ta_gp a)) * ta_lam a;
         g_pgsp := p_gsp p; g_psub := p_sub p; g_pA := p_A p; g_pw := p_w p;
         g_swll := ta_do a / 2 - di / 2; g_sins := ta_sins a;
         g_Llid := ((ta_do a / 2 + ta_sins a) * 2 * ((ta_do a / 2 + ta_sins a) * 2))
                   / (2 * ((ta_do a / 2 + ta_sins a) * 2 + (ta_do a / 2 + ta_sins a) * 2)); g_vlid := false |}.
Proof.
  intros H. split; [apply (tes_new_iff a p); eauto|].
  unfold tes_new in H. destruct (_ && _)%bool; [|discriminate]. cbv zeta in H.
  destruct (_ || _)%bool; [discriminate|]. injection H as <-. eexists _, _. split; [reflexivity|].
  split; [reflexivity|]. reflexivity.
Qed.

Lemma ln_ratio_nonneg x y : 0 < x -> x <= y -> 0 <= ln (y / x).
Proof.
  intros Hx H. assert (1 <= y / x) as K.
  { apply Rmult_le_reg_r with x; [lra|]. unfold Rdiv. rewrite Rmult_assoc, Rinv_l by lra. lra. }
  destruct (Req_dec (y / x) 1) as [->|N]; [rewrite ln_1; lra|].
  left. rewrite <- ln_1. apply ln_increasing; lra.
Qed.
Lemma div_pos x y : 0 < x -> 0 < y -> 0 < x / y.
Proof. intros. apply Rmult_lt_0_compat; [lra|]. apply Rinv_0_lt_compat. lra. Qed.
Lemma sq_diff_pos di d : 0 < di < d -> 0 < PI / 4 * (d ^ 2 - di ^ 2).
Proof. intros H. pose proof PI_RGT_0. apply Rmult_lt_0_compat; [lra|]. nra. Qed.

Lemma pipe_geo_ok a p g : pipe_new a p = Some g -> pipe_dims a -> solid (pa_cp a) (pa_rho a) (pa_lam a) ->
  0 < pa_lins a -> (2 <= pa_gp a)%Z -> ports_ok (Z.to_nat (pa_gp a)) p -> geo_ok g.
Proof.
  intros H [Hd HA] (Hc & Hr & Hl) Hi Hn [P1 P2].
  destruct (pipe_new_inv a p g H) as [(A1 & A2 & A3 & _) ->]. pose proof PI_RGT_0 as HP.
  assert (N : 0 < IZR (pa_gp a)) by (apply IZR_lt; lia).
  assert (G : 0 < pa_len a / IZR (pa_gp a)) by (apply div_pos; lra).
  assert (C : 0 < PI / 4 * (pa_do a ^ 2 - pa_di a ^ 2)) by (apply sq_diff_pos; lra).
  assert (Rt : 0 < pa_do a / 2 + pa_sins a) by lra.
  set (gsp := pa_len a / IZR (pa_gp a)) in *. set (cs := PI / 4 * (pa_do a ^ 2 - pa_di a ^ 2)) in *.
  set (rt := pa_do a / 2 + pa_sins a) in *. clearbody gsp cs.
  assert (GA : 0 < PI * rt * 2 * gsp) by (repeat (apply Rmult_lt_0_compat; try lra)).
  constructor; cbn [g_n g_np g_own g_A g_V g_gsp g_di g_x g_L g_rt g_rlw g_rli g_rr g_Ai g_As g_vert g_lw g_li
    g_mw g_tbw g_pgsp g_psub g_pA g_pw g_swll g_sins g_Llid g_vlid]; try lra; try lia;
    try (intros i; destruct (P2 i) as (Q1 & Q2 & Q3 & Q4); assumption).
  - exact P1.
  - apply Rmult_lt_0_compat; lra.
  - assert (0 < rt * PI) by (apply Rmult_lt_0_compat; lra). lra.
  - apply Rmult_le_pos; [lra|]. apply ln_ratio_nonneg; lra.
  - apply Rmult_le_pos; [lra|]. apply ln_ratio_nonneg; subst rt; lra.
  - apply div_pos; lra.
  - repeat (apply Rmult_lt_0_compat; try lra).
  - field. lra.
  - left. apply div_pos; [|lra]. repeat (apply Rmult_lt_0_compat; try lra).
  - left. apply Rmult_lt_0_compat; [|lra]. apply div_pos; lra.
Qed.

Lemma tes_geo_ok a p g : tes_new a p = Some g -> solid (ta_cp a) (ta_rho a) (ta_lam a) ->
  0 < ta_vol a -> 2 * ta_shell a < ta_do a ->
  0 < ta_lins a -> ports_ok (Z.to_nat (ta_gp a)) p -> geo_ok g.
Proof.
  intros H (Hc & Hr & Hl) Hv Hs Hi [P1 P2].
  destruct (tes_new_inv a p g H) as [(A1 & A2 & A3 & _ & A5 & _) (di & len & Edi & Elen & ->)].
  pose proof PI_RGT_0 as HP.
  assert (N : 0 < IZR (ta_gp a)) by (apply IZR_lt; lia).
  assert (D : 0 < di < ta_do a) by lra.
  assert (A : 0 < PI * di ^ 2 / 4) by (apply div_pos; [|lra]; apply Rmult_lt_0_compat; [lra|]; apply pow_lt; lra).
  assert (L : 0 < len) by (rewrite Elen; apply div_pos; lra). clear Elen.
  assert (G : 0 < len / IZR (ta_gp a)) by (apply div_pos; lra).
  assert (C : 0 < PI / 4 * (ta_do a ^ 2 - di ^ 2)) by (apply sq_diff_pos; lra).
  assert (Rt : 0 < ta_do a / 2 + ta_sins a) by lra.
  set (gsp := len / IZR (ta_gp a)) in *. set (cs := PI / 4 * (ta_do a ^ 2 - di ^ 2)) in *.
  set (rt := ta_do a / 2 + ta_sins a) in *. clearbody gsp cs.
  assert (GA : 0 < PI * rt * 2 * gsp) by (repeat (apply Rmult_lt_0_compat; try lra)).
  constructor; cbn [g_n g_np g_own g_A g_V g_gsp g_di g_x g_L g_rt g_rlw g_rli g_rr g_Ai g_As g_vert g_lw g_li
    g_mw g_tbw g_pgsp g_psub g_pA g_pw g_swll g_sins g_Llid g_vlid]; try lra; try lia;
    try (intros i; destruct (P2 i) as (Q1 & Q2 & Q3 & Q4); assumption).
  - exact P1.
  - apply div_pos; lra.
  - apply Rmult_le_pos; [lra|]. apply ln_ratio_nonneg; lra.
  - apply Rmult_le_pos; [lra|]. apply ln_ratio_nonneg; subst rt; lra.
  - apply div_pos; lra.
  - repeat (apply Rmult_lt_0_compat; try lra).
  - field. lra.
  - left. apply div_pos; [|lra]. repeat (apply Rmult_lt_0_compat; try lra).
  - left. apply Rmult_lt_0_compat; [|lra]. apply div_pos; lra.
  - apply div_pos; [|lra]. apply Rmult_lt_0_compat; lra.
Qed.

(** ** Positions of the cells *)
Lemma ceil_half n : (0 <= n)%Z -> ceil (IZR n - 1 / 2) = n.
Proof.
  intros H. unfold ceil. replace (- (IZR n - 1 / 2)) with (IZR (- n) + 1 / 2) by (rewrite opp_IZR; lra).
  assert (E : Int_part (IZR (- n) + 1 / 2) = (- n)%Z).
  { unfold Int_part. assert (up (IZR (- n) + 1 / 2) = (- n + 1)%Z) as ->; [|lia].
    symmetry. apply tech_up; rewrite plus_IZR; lra. }
  rewrite E. lia.
Qed.

Lemma pipe_dist_spec a : 0 < pa_len a -> (0 < pa_gp a)%Z ->
  length (pipe_dist a) = Z.to_nat (pa_gp a) /\
  forall j, (j < Z.to_nat (pa_gp a))%nat ->
    nth j (pipe_dist a) 0 = (INR j + 1 / 2) * (pa_len a / IZR (pa_gp a)).
Proof.
  intros HL HN. assert (N : 0 < IZR (pa_gp a)) by (apply IZR_lt; lia).
  unfold pipe_dist, arange. cbv zeta.
  replace ((pa_len a - pa_len a / IZR (pa_gp a) / 2) / (pa_len a / IZR (pa_gp a)))
    with (IZR (pa_gp a) - 1 / 2) by (field; lra).
  rewrite ceil_half by lia. split; [rewrite map_length, seq_length; reflexivity|].
  intros j Hj. set (F := fun i => _).
  rewrite (nth_indep _ 0 (F 0%nat)) by (rewrite map_length, seq_length; exact Hj).
  rewrite (map_nth F). rewrite seq_nth by exact Hj. unfold F. rewrite Nat.add_0_l. field. lra.
Qed.

(** ** Textbook resistances *)
Lemma pipe_tube a p g ai ainf : pipe_new a p = Some g -> pipe_dims a -> 0 < pa_lam a -> 0 < pa_lins a ->
  0 < ai -> 0 < ainf ->
  ua_cyl g ai ainf = tube_loss (pa_len a / IZR (pa_gp a)) (pa_di a) (pa_do a) (pa_sins a) ai (pa_lam a) (pa_lins a) ainf.
Proof.
  intros H [Hd _] Hw Hl Ha Hi. destruct (pipe_new_inv a p g H) as [(A1 & A2 & A3 & _) ->].
  unfold ua_cyl, tube_loss. cbn. pose proof PI_RGT_0 as HP.
  assert (N : 0 < IZR (pa_gp a)) by (apply IZR_lt; lia).
  assert (G : 0 < pa_len a / IZR (pa_gp a)) by (apply div_pos; lra).
  set (gsp := pa_len a / IZR (pa_gp a)) in *.
  replace (pa_do a / 2 / (pa_di a / 2)) with (pa_do a / pa_di a) by (field; lra).
  replace ((pa_do a / 2 + pa_sins a) / (pa_do a / 2)) with ((pa_do a + 2 * pa_sins a) / pa_do a) by (field; lra).
  pose proof (ln_ratio_nonneg (pa_di a) (pa_do a) ltac:(lra) ltac:(lra)) as K1.
  pose proof (ln_ratio_nonneg (pa_do a) (pa_do a + 2 * pa_sins a) ltac:(lra) ltac:(lra)) as K2.
  set (l1 := ln (pa_do a / pa_di a)) in *. set (l2 := ln ((pa_do a + 2 * pa_sins a) / pa_do a)) in *.
  set (di := pa_di a) in *. set (d := pa_do a) in *. set (s := pa_sins a) in *.
  set (lw := pa_lam a) in *. set (li := pa_lins a) in *.
  assert (P1 : 0 < 1 / ai) by (apply div_pos; lra).
  assert (P2 : 0 <= di / 2 * l1 / lw) by (apply Rmult_le_pos; [apply Rmult_le_pos; lra|left; apply Rinv_0_lt_compat; lra]).
  assert (P3 : 0 <= di / 2 * l2 / li) by (apply Rmult_le_pos; [apply Rmult_le_pos; lra|left; apply Rinv_0_lt_compat; lra]).
  assert (P4 : 0 < di / 2 / (d / 2 + s) / ainf) by (apply div_pos; [apply div_pos|]; lra).
  set (S0 := 1 / ai + di / 2 * l1 / lw + di / 2 * l2 / li + di / 2 / (d / 2 + s) / ainf) in *.
  replace (/ (ai * (PI * di * gsp)) + l1 / (2 * PI * lw * gsp) + l2 / (2 * PI * li * gsp) +
    / (ainf * (PI * (d + 2 * s) * gsp))) with (S0 / (PI * di * gsp)).
  - assert (0 < S0) by (unfold S0; lra). field. repeat split; lra.
  - unfold S0. field. repeat split; lra.
Qed.

Lemma tes_tube a p g ai ainf : tes_new a p = Some g -> 0 < ta_vol a -> 2 * ta_shell a < ta_do a -> 0 < ta_lam a ->
  0 < ta_lins a -> 0 < ai -> 0 < ainf ->
  ua_cyl g ai ainf = tube_loss (ta_vol a / (PI * (ta_do a - 2 * ta_shell a) ^ 2 / 4) / IZR (ta_gp a))
    (ta_do a - 2 * ta_shell a) (ta_do a) (ta_sins a) ai (ta_lam a) (ta_lins a) ainf.
Proof.
  intros H Hv Hs Hw Hl Ha Hi.
  destruct (tes_new_inv a p g H) as [(A1 & A2 & A3 & _ & A5 & _) (di & len & Edi & Elen & ->)].
  rewrite <- Edi, <- Elen. unfold ua_cyl, tube_loss. cbn. pose proof PI_RGT_0 as HP.
  assert (N : 0 < IZR (ta_gp a)) by (apply IZR_lt; lia).
  assert (D : 0 < di < ta_do a) by lra.
  assert (A : 0 < PI * di ^ 2 / 4) by (apply div_pos; [|lra]; apply Rmult_lt_0_compat; [lra|]; apply pow_lt; lra).
  assert (L : 0 < len) by (rewrite Elen; apply div_pos; lra). clear Elen.
  assert (G : 0 < len / IZR (ta_gp a)) by (apply div_pos; lra).
  set (gsp := len / IZR (ta_gp a)) in *.
  replace (ta_do a / 2 / (di / 2)) with (ta_do a / di) by (field; lra).
  replace ((ta_do a / 2 + ta_sins a) / (ta_do a / 2)) with ((ta_do a + 2 * ta_sins a) / ta_do a) by (field; lra).
  pose proof (ln_ratio_nonneg di (ta_do a) ltac:(lra) ltac:(lra)) as K1.
  pose proof (ln_ratio_nonneg (ta_do a) (ta_do a + 2 * ta_sins a) ltac:(lra) ltac:(lra)) as K2.
  set (l1 := ln (ta_do a / di)) in *. set (l2 := ln ((ta_do a + 2 * ta_sins a) / ta_do a)) in *.
  set (d := ta_do a) in *. set (s := ta_sins a) in *.
  set (lw := ta_lam a) in *. set (li := ta_lins a) in *.
  assert (P1 : 0 < 1 / ai) by (apply div_pos; lra).
  assert (P2 : 0 <= di / 2 * l1 / lw) by (apply Rmult_le_pos; [apply Rmult_le_pos; lra|left; apply Rinv_0_lt_compat; lra]).
  assert (P3 : 0 <= di / 2 * l2 / li) by (apply Rmult_le_pos; [apply Rmult_le_pos; lra|left; apply Rinv_0_lt_compat; lra]).
  assert (P4 : 0 < di / 2 / (d / 2 + s) / ainf) by (apply div_pos; [apply div_pos|]; lra).
  set (S0 := 1 / ai + di / 2 * l1 / lw + di / 2 * l2 / li + di / 2 / (d / 2 + s) / ainf) in *.
  replace (/ (ai * (PI * di * gsp)) + l1 / (2 * PI * lw * gsp) + l2 / (2 * PI * li * gsp) +
    / (ainf * (PI * (d + 2 * s) * gsp))) with (S0 / (PI * di * gsp)).
  - assert (0 < S0) by (unfold S0; lra). field. repeat split; lra.
  - unfold S0. field. repeat split; lra.
Qed.
