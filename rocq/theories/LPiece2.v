(** Pieces of a pipe against the whole pipe (C187): the differentials. *)
From Coq Require Import Reals List Arith ZArith Bool Lra Lia.
From Verif Require Import MFlow MWater MDiff MGeom SFlow LFlow LPoly LWater LDiff LDiff2 LDiff5 LGeom SMirror LMirror SPiece LPiece.
Open Scope R_scope.

Section Window.
Variables (g g' : geo) (o : nat) (io : R) (f f' : flows) (T T' Tp Tp' : arr) (Ta : R) (b b' : buf).
Let r := pipe_diff g io f T Tp Ta b.
Let r' := pipe_diff g' io f' T' Tp' Ta b'.
Hypothesis LK : like g g'.
Hypothesis HN : (o + g_n g' <= g_n g)%nat.
Hypothesis HT : forall j, (j < g_n g')%nat -> T' (S j) = T (S (o + j)).
Hypothesis HB : same_at (g_n g') o b b'.

Lemma w_mcp j : (j < g_n g')%nat -> r_mcp r' j = r_mcp r (o + j)%nat.
Proof. intro H. unfold r, r', pipe_diff. rewrite !mcp_val, HT, (lk_V _ _ LK), (lk_mw _ _ LK) by exact H. reflexivity. Qed.
Lemma w_ts j : (j < g_n g')%nat -> r_ts r' j = r_ts r (o + j)%nat.
Proof.
  intro H. unfold r, r', pipe_diff. cbn [part_diff r_ts]. destruct (HB j H) as [E1 E2].
  rewrite (HT j H), (lk_As _ _ LK), E1, E2. reflexivity.
Qed.
Lemma w_ainf j : (j < g_n g')%nat -> r_ainf r' j = r_ainf r (o + j)%nat.
Proof.
  intro H. pose proof (w_ts j H) as E. unfold r, r', pipe_diff in *. cbn [part_diff r_ts r_ainf] in *.
  rewrite E, (lk_L _ _ LK), (lk_vert _ _ LK), (lk_rt _ _ LK). reflexivity.
Qed.
Lemma w_tb i : (1 <= i < g_n g')%nat -> r_tb r' i = r_tb r (o + i)%nat.
Proof.
  intros [H1 H2]. unfold r, r', pipe_diff. cbn [part_diff r_tb]. unfold ua_tb, lam_mean.
  destruct (Nat.leb_spec 1 i), (Nat.ltb_spec i (g_n g')), (Nat.leb_spec 1 (o + i)), (Nat.ltb_spec (o + i) (g_n g)); try lia. cbn [andb].
  rewrite (lk_A _ _ LK), (lk_gsp _ _ LK), (lk_tbw _ _ LK).
  replace (S (i - 1)) with i by lia. replace (S (o + i - 1)) with (o + i)%nat by lia.
  rewrite (HT i) by lia. replace (T' i) with (T (o + i)%nat).
  2:{ replace i with (S (i - 1)) at 2 by lia. rewrite (HT (i - 1)%nat) by lia. f_equal. lia. }
  reflexivity.
Qed.
Lemma w_ua j : (j < g_n g')%nat -> r_ua r' j = ua_cyl g (r_ai r' j) (r_ainf r (o + j)%nat).
Proof.
  intro H. pose proof (w_ainf j H) as E. change (r_ua r' j) with (ua_cyl g' (r_ai r' j) (r_ainf r' j)). rewrite E.
  unfold ua_cyl. rewrite (lk_Ai _ _ LK), (lk_rlw _ _ LK), (lk_lw _ _ LK), (lk_rli _ _ LK), (lk_li _ _ LK), (lk_rr _ _ LK). reflexivity.
Qed.
Lemma w_ua0 j : r_ua r j = ua_cyl g (r_ai r j) (r_ainf r j).
Proof. reflexivity. Qed.
End Window.

Lemma joint_uap g i (T Tp : arr) own x y : 0 < g_gsp g -> 0 <= x <= 100 -> 0 <= y <= 100 -> inner_port g i ->
  g_own g i = own -> Tp i = x -> T own = y ->
  ua_port g Tp T i = g_A g / g_gsp g * (2 * lambda_water x * lambda_water y / (lambda_water x + lambda_water y)) + g_tbw g.
Proof.
  intros HG Hx Hy (E1 & E2 & E3) EO EP ET. pose proof (lambda_bounds x Hx). pose proof (lambda_bounds y Hy).
  unfold ua_port. rewrite E1, E2, E3, EO, EP, ET. f_equal.
  set (lx := lambda_water x) in *. set (ly := lambda_water y) in *. clearbody lx ly.
  assert (0 < ly * g_gsp g) by (apply Rmult_lt_0_compat; lra). assert (0 < g_gsp g * lx) by (apply Rmult_lt_0_compat; lra).
  field. repeat split; lra.
Qed.

(** Advection of a pipe, cell by cell, by the direction of the flow. *)
Lemma invar_pos n io f j : (1 <= n)%nat -> ends0 n f -> 0 <= io -> (j < n)%nat ->
  f_top (process_flow_invar n 2 io f) j = (if (j =? 0)%nat then 0 else io) /\
  f_bot (process_flow_invar n 2 io f) j = 0 /\
  f_port (process_flow_invar n 2 io f) 0%nat = io /\ f_port (process_flow_invar n 2 io f) 1%nat = 0.
Proof.
  intros Hn [E1 E2] Hi Hj. unfold process_flow_invar. destruct (Rle_dec 0 io); [|lra]. cbn [f_top f_bot f_port].
  unfold fill, put. nat_cases; try lia; repeat split; try reflexivity;
    try (replace j with 0%nat by lia; exact E1); replace j with (n - 1)%nat by lia; exact E2.
Qed.
Lemma invar_neg n io f j : (1 <= n)%nat -> ends0 n f -> io < 0 -> (j < n)%nat ->
  f_top (process_flow_invar n 2 io f) j = 0 /\
  f_bot (process_flow_invar n 2 io f) j = (if (j =? n - 1)%nat then 0 else - io) /\
  f_port (process_flow_invar n 2 io f) 0%nat = 0 /\ f_port (process_flow_invar n 2 io f) 1%nat = - io.
Proof.
  intros Hn [E1 E2] Hi Hj. unfold process_flow_invar. destruct (Rle_dec 0 io); [lra|]. cbn [f_top f_bot f_port].
  unfold fill, put. nat_cases; try lia; repeat split; try reflexivity;
    try (replace j with 0%nat by lia; exact E1); replace j with (n - 1)%nat by lia; exact E2.
Qed.
Lemma like_cond g g' io f T Tp Ta b j : like g g' -> (1 <= g_n g')%nat -> (j < g_n g')%nat ->
  let r := pipe_diff g' io f T Tp Ta b in
  r_cond r j = (r_tb r j * (T j - T (S j)) + r_tb r (S j) * (T (S (S j)) - T (S j)) + r_ua r j * (Ta - T (S j))) / r_mcp r j
    + (if (0 =? j)%nat then r_uap r 0%nat * (Tp 0%nat - T 1%nat) / r_mcp r 0%nat else 0)
    + (if (g_n g' - 1 =? j)%nat then r_uap r 1%nat * (Tp 1%nat - T (S (g_n g' - 1))) / r_mcp r (g_n g' - 1)%nat else 0).
Proof.
  intros LK Hn Hj r. unfold r, pipe_diff at 1. rewrite cond_val by assumption. fold (pipe_diff g' io f T Tp Ta b). fold r.
  unfold at_cell, lid_at. rewrite (lk_np _ _ LK), (lk_own _ _ LK). cbn [rsum two_own]. rewrite Rplus_0_l, Rplus_0_r. ring.
Qed.
Lemma like_adv g g' io f T Tp Ta b j : like g g' ->
  let r := pipe_diff g' io f T Tp Ta b in let F := process_flow_invar (g_n g') 2 io f in
  r_adv r j = (f_top F j * (cp_water (T j) * T j - cp_water (T (S j)) * T (S j))
     + f_bot F j * (cp_water (T (S (S j))) * T (S (S j)) - cp_water (T (S j)) * T (S j))) / r_mcp r j
    + (if (0 =? j)%nat then f_port F 0%nat * (cp_water (Tp 0%nat) * Tp 0%nat - cp_water (T 1%nat) * T 1%nat) / r_mcp r 0%nat else 0)
    + (if (g_n g' - 1 =? j)%nat then f_port F 1%nat * (cp_water (Tp 1%nat) * Tp 1%nat - cp_water (T (S (g_n g' - 1))) * T (S (g_n g' - 1))) / r_mcp r (g_n g' - 1)%nat else 0).
Proof.
  intros LK r F. unfold r, pipe_diff at 1. rewrite adv_val. fold (pipe_diff g' io f T Tp Ta b). fold r.
  unfold at_cell. rewrite (lk_np _ _ LK), (lk_own _ _ LK). cbn [rsum two_own]. rewrite Rplus_0_l. fold F. ring.
Qed.
