(** Geometry of pipes and thermal energy storages (C101-C104). *)
From Coq Require Import Reals List Arith ZArith Bool Lra Lia.
From Verif Require Import MFlow MWater MDiff MGeom SFlow SDiff SGeom LFlow LWater LDiff LDiff2 LDiff4 LGeom LGeom2 PHexNum.
Import ListNotations.
Open Scope R_scope.

(** ** C101: the constructors establish what the differentials rely on *)
Theorem C101_pipe_partial : forall a p g, pipe_new a p = Some g -> pipe_dims a ->
  solid (pa_cp a) (pa_rho a) (pa_lam a) -> 0 < pa_lins a -> (2 <= pa_gp a)%Z ->
  ports_ok (Z.to_nat (pa_gp a)) p -> geo_ok g.
Proof. exact pipe_geo_ok. Qed.
Print Assumptions C101_pipe_partial.

(** For a storage the missing checks are exactly: volume > 0, shell thinner than the radius,
    insulation that conducts. *)
Theorem C101_tes_partial : forall a p g, tes_new a p = Some g ->
  solid (ta_cp a) (ta_rho a) (ta_lam a) -> ports_ok (Z.to_nat (ta_gp a)) p ->
  (geo_ok g <-> 0 < ta_vol a /\ 2 * ta_shell a < ta_do a /\ 0 < ta_lins a).
Proof.
  intros a p g H S P. split.
  - intros G. destruct (tes_new_inv a p g H) as [(A1 & A2 & A3 & _ & A5 & _) (di & len & Edi & Elen & ->)].
    pose proof (ok_V _ G) as V. pose proof (ok_di _ G) as D. pose proof (ok_li _ G) as L. cbn in V, D, L.
    assert (N : 0 < IZR (ta_gp a)) by (apply IZR_lt; lia).
    split; [|lra]. apply Rmult_lt_reg_r with (/ IZR (ta_gp a)); [apply Rinv_0_lt_compat; lra|].
    rewrite Rmult_0_l. exact V.
  - intros (Hv & Hs & Hl). exact (tes_geo_ok a p g H S Hv Hs Hl P).
Qed.
Print Assumptions C101_tes_partial.

(** Documented arguments are accepted. *)
Theorem C101_accept : forall p,
  (forall a, 0 < pa_len a -> (1 <= pa_gp a)%Z -> 0 <= pa_sins a -> 0 <= pa_lins a -> pipe_dims a ->
     exists g, pipe_new a p = Some g) /\
  (forall a, 0 < ta_vol a -> (2 <= ta_gp a)%Z -> 0 < ta_shell a < 1 -> 2 * ta_shell a < ta_do a ->
     0 <= ta_sins a -> 0 <= ta_lins a -> exists g, tes_new a p = Some g).
Proof.
  intros p. split.
  - intros a H1 H2 H3 H4 [H5 H6]. apply pipe_new_iff. unfold pipe_acc. repeat (split; [lra || lia|]). lra.
  - intros a H1 H2 H3 H4 H5 H6. apply tes_new_iff. unfold tes_acc. repeat (split; [lra || lia|]). lra.
Qed.
Print Assumptions C101_accept.

(** A storage with a negative volume, and one whose shell is thicker than its radius, are
    accepted; the first has cells of negative volume, the second a negative inner surface. *)
Theorem C101_tes_refuted : forall p n, (2 <= n)%nat ->
  (forall v d s, v < 0 -> 0 < s < 1 -> 2 * s < d -> exists g, tes_new {| ta_vol := v; ta_gp := Z.of_nat n; ta_do := d;
     ta_shell := s; ta_sins := 1 / 10; ta_lins := 35 / 1000; ta_cp := 500; ta_rho := 7850; ta_lam := 15 |} p = Some g
     /\ g_V g < 0) /\
  (forall v d s, 0 < v -> 0 < s < 1 -> 0 < d < 2 * s -> exists g, tes_new {| ta_vol := v; ta_gp := Z.of_nat n; ta_do := d;
     ta_shell := s; ta_sins := 1 / 10; ta_lins := 35 / 1000; ta_cp := 500; ta_rho := 7850; ta_lam := 15 |} p = Some g
     /\ g_di g < 0 /\ g_Ai g < 0).
Proof.
  intros p n Hn. assert (N : 0 < INR n) by (apply lt_0_INR; lia). split.
  - intros v d s Hv Hs Hd. set (a := Build_tes_arg _ _ _ _ _ _ _ _ _).
    destruct (proj2 (tes_new_iff a p)) as [g E].
    { unfold tes_acc, a; cbn. repeat (split; [lra || lia|]). lra. }
    exists g. split; [exact E|]. destruct (tes_new_inv a p g E) as [_ (di & len & _ & _ & ->)].
    cbn [g_V]. unfold a. cbn [ta_vol ta_gp]. rewrite <- INR_IZR_INZ.
    apply Ropp_lt_cancel. rewrite Ropp_0. replace (- (v / INR n)) with ((- v) / INR n) by (field; lra).
    apply div_pos; lra.
  - intros v d s Hv Hs Hd. set (a := Build_tes_arg _ _ _ _ _ _ _ _ _).
    destruct (proj2 (tes_new_iff a p)) as [g E].
    { unfold tes_acc, a; cbn. repeat (split; [lra || lia|]). lra. }
    exists g. split; [exact E|]. destruct (tes_new_inv a p g E) as [_ (di & len & Ed & El & ->)].
    cbn [g_di g_Ai]. unfold a in *. cbn [ta_do ta_shell ta_vol ta_gp] in *. rewrite <- INR_IZR_INZ.
    assert (D : di < 0) by lra. split; [exact D|]. pose proof PI_RGT_0 as HP.
    assert (A : 0 < PI * di ^ 2 / 4). { apply div_pos; [|lra]. apply Rmult_lt_0_compat; [lra|]. nra. }
    assert (L : 0 < len) by (rewrite El; apply div_pos; lra).
    assert (G : 0 < len / INR n) by (apply div_pos; lra). set (gsp := len / INR n) in *. clearbody gsp.
    assert (0 < PI * gsp) by (apply Rmult_lt_0_compat; lra). nra.
Qed.
Print Assumptions C101_tes_refuted.

(** Dimensions given with [A_i], [A_wall], [d_i], [d_o] instead of a nominal diameter are not checked. *)
Theorem C101_pipe_refuted : forall a p, pipe_acc a -> pa_A a < 0 -> exists g, pipe_new a p = Some g /\ g_V g < 0.
Proof.
  intros a p Ha HA. destruct (proj2 (pipe_new_iff a p) Ha) as [g E]. exists g. split; [exact E|].
  destruct (pipe_new_inv a p g E) as [(A1 & A2 & _) ->]. cbn [g_V].
  assert (N : 0 < IZR (pa_gp a)) by (apply IZR_lt; lia).
  assert (G : 0 < pa_len a / IZR (pa_gp a)) by (apply div_pos; lra). nra.
Qed.
Print Assumptions C101_pipe_refuted.

(** ** C102: the cells make up the part *)
Theorem C102_pipe : forall a p g, pipe_new a p = Some g ->
  (* one cell distance per cell, in the middle of the cell *)
  g_n g = Z.to_nat (pa_gp a) /\ length (pipe_dist a) = g_n g /\
  (forall j, (j < g_n g)%nat -> g_x g j = (INR j + 1 / 2) * pa_len a / INR (g_n g)) /\
  (* lengths, volumes, surfaces and heat capacities of the cells add up to those of the pipe *)
  rsum (g_n g) (fun _ => g_gsp g) = pa_len a /\
  rsum (g_n g) (fun _ => g_V g) = pa_A a * pa_len a /\
  rsum (g_n g) (fun _ => g_Ai g) = PI * pa_di a * pa_len a /\
  rsum (g_n g) (fun _ => g_As g) = PI * (pa_do a + 2 * pa_sins a) * pa_len a /\
  rsum (g_n g) (fun _ => g_mw g) =
    pa_cp a * pa_rho a * ((PI * pa_do a ^ 2 / 4 - PI * pa_di a ^ 2 / 4) * pa_len a).
Proof.
  intros a p g H. destruct (pipe_new_inv a p g H) as [(A1 & A2 & _) E].
  destruct (pipe_dist_spec a A1 A2) as [D1 D2].
  assert (En : IZR (pa_gp a) = INR (Z.to_nat (pa_gp a))) by (rewrite INR_IZR_INZ, Z2Nat.id by lia; reflexivity).
  assert (N : 0 < INR (Z.to_nat (pa_gp a))) by (apply lt_0_INR; lia).
  rewrite E. cbn [g_n g_gsp g_x g_V g_Ai g_As g_mw]. rewrite !rsum_const, En in *.
  split; [reflexivity|]. split; [exact D1|]. split; [intros j Hj; rewrite (D2 j Hj); field; lra|].
  repeat split; field; lra.
Qed.
Print Assumptions C102_pipe.

Theorem C102_tes : forall a p g, tes_new a p = Some g ->
  let di := ta_do a - 2 * ta_shell a in
  let height := rsum (g_n g) (fun _ => g_gsp g) in
  g_n g = Z.to_nat (ta_gp a) /\
  rsum (g_n g) (fun _ => g_V g) = ta_vol a /\
  height * (PI * di ^ 2 / 4) = ta_vol a /\ g_V g = g_A g * g_gsp g /\ g_A g = PI * di ^ 2 / 4 /\
  rsum (g_n g) (fun _ => g_Ai g) = PI * di * height /\
  rsum (g_n g) (fun _ => g_As g) = PI * (ta_do a + 2 * ta_sins a) * height /\
  rsum (g_n g) (fun _ => g_mw g) =
    ta_cp a * ta_rho a * ((PI * ta_do a ^ 2 / 4 - PI * di ^ 2 / 4) * height).
Proof.
  intros a p g H di height. subst height. destruct (tes_new_inv a p g H) as [Acc (di' & len & Ed & El & E)].
  unfold tes_acc in Acc. destruct Acc as (A1 & A2 & A3 & _ & A5 & A6 & A7).
  fold di in Ed. subst di'. assert (Dn : di <> 0) by (unfold di; lra).
  pose proof PI_RGT_0 as HP.
  assert (En : IZR (ta_gp a) = INR (Z.to_nat (ta_gp a))) by (rewrite INR_IZR_INZ, Z2Nat.id by lia; reflexivity).
  assert (N : 0 < INR (Z.to_nat (ta_gp a))) by (apply lt_0_INR; lia).
  rewrite E. cbn [g_n g_gsp g_x g_V g_A g_Ai g_As g_mw]. rewrite !rsum_const, En in *.
  assert (EV : len * (PI * di ^ 2 / 4) = ta_vol a) by (rewrite El; field; lra).
  split; [reflexivity|]. split; [field; lra|]. split; [rewrite <- EV; field; lra|].
  split; [rewrite <- EV; field; lra|]. split; [reflexivity|]. repeat split; field; lra.
Qed.
Print Assumptions C102_tes.

(** ** C103: heat loss conductance *)
Theorem C103_pipe_partial : forall a p g ai ainf, pipe_new a p = Some g -> pipe_dims a -> 0 < pa_lam a ->
  0 < pa_lins a -> 0 < ai -> 0 < ainf ->
  ua_cyl_eval g ai ainf = Some (tube_loss (pa_len a / IZR (pa_gp a)) (pa_di a) (pa_do a) (pa_sins a)
                                  ai (pa_lam a) (pa_lins a) ainf).
Proof.
  intros a p g ai ainf H D W L A I. rewrite <- (pipe_tube a p g ai ainf H D W L A I).
  unfold ua_cyl_eval. destruct (pipe_new_inv a p g H) as [_ E].
  assert (E1 : g_lw g = pa_lam a) by (rewrite E; reflexivity).
  assert (E2 : g_li g = pa_lins a) by (rewrite E; reflexivity). rewrite E1, E2.
  assert (is0 (pa_lam a) = false) as -> by (apply is0_false; lra).
  assert (is0 (pa_lins a) = false) as -> by (apply is0_false; lra). reflexivity.
Qed.
Print Assumptions C103_pipe_partial.

Theorem C103_tes_partial : forall a p g ai ainf, tes_new a p = Some g -> 0 < ta_vol a ->
  2 * ta_shell a < ta_do a -> 0 < ta_lam a -> 0 < ta_lins a -> 0 < ai -> 0 < ainf ->
  ua_cyl_eval g ai ainf = Some (tube_loss (g_gsp g) (ta_do a - 2 * ta_shell a) (ta_do a) (ta_sins a)
                                  ai (ta_lam a) (ta_lins a) ainf).
Proof.
  intros a p g ai ainf H V D W L A I. pose proof (tes_tube a p g ai ainf H V D W L A I) as Q.
  destruct (tes_new_inv a p g H) as [_ (di & len & Ed & El & E)].
  assert (Eg : g_gsp g = ta_vol a / (PI * (ta_do a - 2 * ta_shell a) ^ 2 / 4) / IZR (ta_gp a)).
  { rewrite E. cbn [g_gsp]. rewrite El, Ed. reflexivity. }
  rewrite <- Eg in Q. rewrite <- Q. unfold ua_cyl_eval.
  assert (E1 : g_lw g = ta_lam a) by (rewrite E; reflexivity).
  assert (E2 : g_li g = ta_lins a) by (rewrite E; reflexivity). rewrite E1, E2.
  assert (is0 (ta_lam a) = false) as -> by (apply is0_false; lra).
  assert (is0 (ta_lins a) = false) as -> by (apply is0_false; lra). reflexivity.
Qed.
Print Assumptions C103_tes_partial.

(** Without insulation its conductivity has no influence. *)
Theorem C103_bare : forall l di d ai lw li li' ainf, 0 < d ->
  tube_loss l di d 0 ai lw li ainf = tube_loss l di d 0 ai lw li' ainf.
Proof.
  intros l di d ai lw li li' ainf Hd. unfold tube_loss.
  replace ((d + 2 * 0) / d) with 1 by (field; lra). rewrite ln_1.
  replace (0 / (2 * PI * li * l)) with 0 by (unfold Rdiv; ring).
  replace (0 / (2 * PI * li' * l)) with 0 by (unfold Rdiv; ring). reflexivity.
Qed.
Print Assumptions C103_bare.

(** The documented conductivity 0 (and thus a bare pipe described by thickness 0, conductivity
    0) is accepted by both constructors, but the heat loss cannot be evaluated. *)
Theorem C103_zero_refuted :
  (forall a p g ai ainf, pipe_new a p = Some g -> pa_lins a = 0 -> ua_cyl_eval g ai ainf = None) /\
  (forall a p g ai ainf, tes_new a p = Some g -> ta_lins a = 0 -> ua_cyl_eval g ai ainf = None) /\
  (forall a p, 0 < pa_len a -> (1 <= pa_gp a)%Z -> pipe_dims a -> pa_sins a = 0 -> pa_lins a = 0 ->
     exists g, pipe_new a p = Some g).
Proof.
  split; [|split].
  - intros a p g ai ainf H L. destruct (pipe_new_inv a p g H) as [_ E]. unfold ua_cyl_eval.
    assert (E2 : g_li g = pa_lins a) by (rewrite E; reflexivity). rewrite E2.
    assert (is0 (pa_lins a) = true) as -> by (apply is0_iff; lra). rewrite orb_true_r. reflexivity.
  - intros a p g ai ainf H L. destruct (tes_new_inv a p g H) as [_ (di & len & _ & _ & E)]. unfold ua_cyl_eval.
    assert (E2 : g_li g = ta_lins a) by (rewrite E; reflexivity). rewrite E2.
    assert (is0 (ta_lins a) = true) as -> by (apply is0_iff; lra). rewrite orb_true_r. reflexivity.
  - intros a p H1 H2 D S L. apply (proj1 (C101_accept p) a H1 H2); [lra|lra|exact D].
Qed.
Print Assumptions C103_zero_refuted.

(** ** C104: heat losses and the number of cells *)
(** A pipe at rest: the conductance to the ambient is the same for any number of cells, after
    any history of evaluations. *)
Theorem C104_pipe_partial : forall a p n1 n2 g1 g2 h, (1 <= n1)%nat -> (1 <= n2)%nat ->
  pipe_new (pipe_cells a n1) p = Some g1 -> pipe_new (pipe_cells a n2) p = Some g2 ->
  rsum n1 (b_ua (pipe_rest g1 h)) = rsum n2 (b_ua (pipe_rest g2 h)).
Proof. exact pipe_loss_same. Qed.
Print Assumptions C104_pipe_partial.

(** Every storage loses more heat when it is divided into more cells: for any inner coefficient
    and any surface and ambient temperature, and in the first evaluation of a simulation. *)
Theorem C104_tes_refuted : forall a p n1 n2 g1 g2, tes_wf a -> (n1 < n2)%nat ->
  tes_new (tes_cells a n1) p = Some g1 -> tes_new (tes_cells a n2) p = Some g2 ->
  (forall ai Ts Tinf, 0 < ai -> 0 <= (Tinf + Ts) / 2 <= 100 -> - 273.15 < Tinf ->
    rsum n1 (fun _ => ua_cyl g1 ai (cyl_alpha_inf Ts Tinf (g_L g1) (g_vert g1) (g_rt g1))) <
    rsum n2 (fun _ => ua_cyl g2 ai (cyl_alpha_inf Ts Tinf (g_L g2) (g_vert g2) (g_rt g2)))) /\
  (forall T Tamb, 0 <= T <= 100 -> 0 <= Tamb <= 100 ->
    shell_loss g1 (tes_diff g1 (fun _ => 0) flows0 (fun _ => T) (fun _ => T) Tamb buf0) <
    shell_loss g2 (tes_diff g2 (fun _ => 0) flows0 (fun _ => T) (fun _ => T) Tamb buf0)).
Proof.
  intros a p n1 n2 g1 g2 W Hn E1 E2. split.
  - intros ai Ts Tinf Ha HT Hi. exact (tes_loss_grows a p n1 n2 g1 g2 ai Ts Tinf W Hn E1 E2 Ha HT Hi).
  - intros T Tamb HT HA. unfold shell_loss.
    rewrite (rsum_ext (g_n g1) _ (fun _ => ua_cyl g1 (still_alpha T (g_di g1)) (cyl_alpha_inf Tamb Tamb (g_L g1) (g_vert g1) (g_rt g1)))).
    2:{ intros j _. apply tes_ua_still. }
    rewrite (rsum_ext (g_n g2) _ (fun _ => ua_cyl g2 (still_alpha T (g_di g2)) (cyl_alpha_inf Tamb Tamb (g_L g2) (g_vert g2) (g_rt g2)))).
    2:{ intros j _. apply tes_ua_still. }
    destruct (tes_new_inv _ _ _ E1) as [_ (d1 & l1 & D1 & _ & G1)].
    destruct (tes_new_inv _ _ _ E2) as [_ (d2 & l2 & D2 & _ & G2)].
    cbn [tes_cells ta_vol ta_gp ta_do ta_shell ta_sins ta_lins ta_cp ta_rho ta_lam] in *.
    assert (Q1 : g_n g1 = n1) by (rewrite G1; cbn [g_n]; lia).
    assert (Q2 : g_n g2 = n2) by (rewrite G2; cbn [g_n]; lia).
    assert (Q3 : g_di g1 = g_di g2) by (rewrite G1, G2; cbn [g_di]; lra). rewrite Q1, Q2, Q3.
    apply (tes_loss_grows a p n1 n2 g1 g2 (still_alpha T (g_di g2)) Tamb Tamb W Hn E1 E2); [|lra|lra].
    apply still_alpha_pos; [exact HT|]. rewrite G2. cbn [g_di]. destruct W as (_ & W & _). lra.
Qed.
Print Assumptions C104_tes_refuted.

(** With enough cells the outer heat transfer coefficient exceeds any bound. *)
Theorem C104_unbounded_refuted : forall a p B, tes_wf a -> exists N, forall n g Ts Tinf, (N <= n)%nat ->
  tes_new (tes_cells a n) p = Some g -> 0 <= (Tinf + Ts) / 2 <= 100 -> - 273.15 < Tinf ->
  B < cyl_alpha_inf Ts Tinf (g_L g) (g_vert g) (g_rt g).
Proof.
  intros a p B (Hv & Hs & Hl & Hw).
  set (di := ta_do a - 2 * ta_shell a). set (len := ta_vol a / (PI * di ^ 2 / 4)).
  pose proof PI_RGT_0 as HP. assert (D : 0 < di) by (unfold di; lra).
  assert (L : 0 < len). { unfold len. apply div_pos; [lra|]. apply div_pos; [|lra]. apply Rmult_lt_0_compat; [lra|]. apply pow_lt; lra. }
  destruct (nat_above (B * len / 0.01)) as [N HN]. exists N. intros n g Ts Tinf Hn E HT Hi.
  destruct (tes_new_inv _ _ _ E) as [Acc (d & l & Ed & El & ->)]. unfold tes_acc in Acc.
  cbn [tes_cells ta_vol ta_gp ta_do ta_shell ta_sins ta_lins ta_cp ta_rho ta_lam g_L g_vert g_rt] in *.
  fold di in Ed. subst d. fold len in El. subst l. rewrite <- INR_IZR_INZ.
  destruct Acc as (A1 & A2 & A3 & _ & A5 & _).
  assert (Nn : 0 < INR n) by (apply lt_0_INR; lia). assert (INR N <= INR n) by (apply le_INR; exact Hn).
  assert (G : 0 < len / INR n) by (apply div_pos; lra).
  eapply Rle_lt_trans; [|apply vert_alpha_large; [exact HT|exact Hi|exact G|lra]].
  replace (0.01 / (len / INR n)) with (0.01 / len * INR n) by (field; lra).
  assert (0 < 0.01 / len) by (apply div_pos; lra).
  apply Rle_trans with (0.01 / len * (B * len / 0.01)).
  - right. field. lra.
  - apply Rmult_le_compat_l; lra.
Qed.
Print Assumptions C104_unbounded_refuted.

(** ** Cases *)
(** 12 m of DN50 pipe with 30 mm insulation in 6 cells. *)
Definition ex_pipe : pipe_arg := {| pa_len := 12; pa_gp := 6; pa_sins := 3 / 100; pa_lins := 35 / 1000;
  pa_di := 53 / 1000; pa_do := 60 / 1000; pa_A := 22 / 10000; pa_cp := 500; pa_rho := 7850; pa_lam := 50 |}.
Definition ex_prts : prts := {| p_np := 2; p_own := fun i => match i with O => 0%nat | _ => 5%nat end;
  p_gsp := fun _ => 1; p_sub := fun _ => 1; p_A := fun _ => 22 / 10000; p_w := fun _ => 1 |}.
Example ex_pipe_ok : exists g, pipe_new ex_pipe ex_prts = Some g /\ geo_ok g /\ g_x g 1%nat = 3.
Proof.
  destruct (proj2 (pipe_new_iff ex_pipe ex_prts)) as [g E].
  { unfold pipe_acc; cbn. repeat (split; [lra || lia|]). lra. }
  assert (D : pipe_dims ex_pipe) by (unfold pipe_dims; cbn; lra).
  exists g. split; [exact E|]. split.
  - apply (C101_pipe_partial ex_pipe ex_prts g E D); [unfold solid; cbn; lra|cbn; lra|cbn; lia|].
    split; [|intros i; cbn; lra]. intros i Hi. cbn in *. destruct i; [lia|]. change (Pos.to_nat 6) with 6%nat. lia.
  - destruct (C102_pipe ex_pipe ex_prts g E) as (En & _ & X & _). change (Z.to_nat (pa_gp ex_pipe)) with 6%nat in En.
    rewrite (X 1%nat); rewrite En; [|lia]. change (pa_len ex_pipe) with 12. cbn [INR]. lra.
Qed.
(** A storage of 2 m3 in 10 and in 20 cells. *)
Definition ex_tes (n : Z) : tes_arg := {| ta_vol := 2; ta_gp := n; ta_do := 1.2; ta_shell := 5 / 1000; ta_sins := 1 / 10;
  ta_lins := 35 / 1000; ta_cp := 500; ta_rho := 7850; ta_lam := 50 |}.
Example ex_tes_loss : exists g1 g2, tes_new (ex_tes 10) ex_prts = Some g1 /\ tes_new (ex_tes 20) ex_prts = Some g2 /\
  geo_ok g1 /\
  shell_loss g1 (tes_diff g1 (fun _ => 0) flows0 (fun _ => 60) (fun _ => 60) 20 buf0) <
  shell_loss g2 (tes_diff g2 (fun _ => 0) flows0 (fun _ => 60) (fun _ => 60) 20 buf0).
Proof.
  destruct (proj2 (tes_new_iff (ex_tes 10) ex_prts)) as [g1 E1].
  { unfold tes_acc; cbn. repeat (split; [lra || lia|]). lra. }
  destruct (proj2 (tes_new_iff (ex_tes 20) ex_prts)) as [g2 E2].
  { unfold tes_acc; cbn. repeat (split; [lra || lia|]). lra. }
  exists g1, g2. split; [exact E1|]. split; [exact E2|]. split.
  - apply (C101_tes_partial (ex_tes 10) ex_prts g1 E1); [unfold solid; cbn; lra| |cbn; lra].
    split; [|intros i; cbn; lra]. intros i Hi. cbn in *. change (Pos.to_nat 10) with 10%nat. destruct i; lia.
  - apply (C104_tes_refuted (ex_tes 10) ex_prts 10 20 g1 g2); try lra; try lia; [|exact E1|exact E2].
    unfold tes_wf; cbn. lra.
Qed.
