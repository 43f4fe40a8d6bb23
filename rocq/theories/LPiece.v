(** Pieces of a pipe against the whole pipe (C187): geometry, conduction and advection. *)
From Coq Require Import Reals List Arith ZArith Bool Lra Lia.
From Verif Require Import MFlow MWater MDiff MGeom SFlow LFlow LPoly LWater LDiff LDiff2 LDiff5 LGeom SMirror LMirror SPiece.
From Verif Require MPortCond.
Open Scope R_scope.

(** Same tube, same cells. *)
Record like (g g' : geo) : Prop := {
  lk_A : g_A g' = g_A g; lk_V : g_V g' = g_V g; lk_gsp : g_gsp g' = g_gsp g; lk_di : g_di g' = g_di g;
  lk_L : g_L g' = g_L g; lk_rt : g_rt g' = g_rt g; lk_rlw : g_rlw g' = g_rlw g; lk_rli : g_rli g' = g_rli g;
  lk_rr : g_rr g' = g_rr g; lk_Ai : g_Ai g' = g_Ai g; lk_As : g_As g' = g_As g; lk_vert : g_vert g' = g_vert g;
  lk_lw : g_lw g' = g_lw g; lk_li : g_li g' = g_li g; lk_mw : g_mw g' = g_mw g; lk_tbw : g_tbw g' = g_tbw g;
  lk_np : g_np g' = 2%nat; lk_own : g_own g' = two_own (g_n g') }.
(** The inner port conducts as the tube does. *)
Definition inner_port (g : geo) (i : nat) : Prop :=
  g_pgsp g i = g_gsp g /\ g_pA g i = g_A g /\ g_pw g i = g_tbw g.

Lemma piece_gsp a k n : (1 <= k)%nat -> pa_gp a = Z.of_nat n -> (1 <= n)%nat ->
  pa_len (piece a k) / IZR (pa_gp (piece a k)) = pa_len a / IZR (pa_gp a).
Proof.
  intros Hk E Hn. cbn [piece pa_len pa_gp]. rewrite E, <- !INR_IZR_INZ.
  assert (INR k <> 0) by (apply not_0_INR; lia). assert (INR n <> 0) by (apply not_0_INR; lia). field. split; assumption.
Qed.
Lemma wall_joint c l s : 0 < c -> 0 < l -> 0 < s ->
  (c + c) / 2 / (s / (2 * l) + s / (2 * l)) = c / s * l.
Proof. intros. field. split; lra. Qed.

Lemma cut_geo a k m p g g1 g2 : cut a k m p g g1 g2 -> 0 < pa_di a < pa_do a -> 0 < pa_lam a ->
  g_n g = (k + m)%nat /\ g_n g1 = k /\ g_n g2 = m /\ like g g /\ like g g1 /\ like g g2 /\
  inner_port g1 1 /\ inner_port g2 0 /\
  (g_pgsp g1 0%nat = g_pgsp g 0%nat /\ g_pA g1 0%nat = g_pA g 0%nat /\ g_pw g1 0%nat = g_pw g 0%nat) /\
  (g_pgsp g2 1%nat = g_pgsp g 1%nat /\ g_pA g2 1%nat = g_pA g 1%nat /\ g_pw g2 1%nat = g_pw g 1%nat) /\
  0 < g_gsp g /\ g_A g = pa_A a /\
  (forall j, (j < k + m)%nat -> g_x g j = (INR j + 1 / 2) * g_gsp g) /\
  (forall j, (j < k)%nat -> g_x g1 j = (INR j + 1 / 2) * g_gsp g) /\
  (forall j, (j < m)%nat -> g_x g2 j = (INR j + 1 / 2) * g_gsp g).
Proof.
  intros (Hk & Hm & E & G & G1 & G2) HD HL.
  pose proof (piece_gsp a k (k + m) Hk E ltac:(lia)) as S1. pose proof (piece_gsp a m (k + m) Hm E ltac:(lia)) as S2.
  destruct (pipe_new_inv _ _ _ G) as [(A1 & A2 & _) EG].
  destruct (pipe_new_inv _ _ _ G1) as [(B1 & B2 & _) EG1]. destruct (pipe_new_inv _ _ _ G2) as [(C1 & C2 & _) EG2].
  destruct (pipe_dist_spec a A1 A2) as [_ D]. destruct (pipe_dist_spec _ B1 B2) as [_ D1]. destruct (pipe_dist_spec _ C1 C2) as [_ D2].
  assert (GS : 0 < pa_len a / IZR (pa_gp a)) by (apply Rdiv_lt_0_compat; [exact A1|apply IZR_lt; exact A2]).
  assert (CS : 0 < PI / 4 * (pa_do a ^ 2 - pa_di a ^ 2)).
  { pose proof PI_RGT_0. apply Rmult_lt_0_compat; [lra|]. nra. }
  assert (W : forall x y, MPortCond.UA_wall (joined (piece a x) (piece a y)) 0 =
     (PI / 4 * (pa_do a ^ 2 - pa_di a ^ 2) + PI / 4 * (pa_do a ^ 2 - pa_di a ^ 2)) / 2 /
     (pa_len (piece a y) / IZR (pa_gp (piece a y)) / (2 * pa_lam a) + pa_len (piece a x) / IZR (pa_gp (piece a x)) / (2 * pa_lam a))).
  { intros x y. unfold MPortCond.UA_wall. cbn [joined MPortCond.conn MPortCond.own end_spec MPortCond.aw MPortCond.gsp MPortCond.lam].
    destruct (Req_EM_T _ _) as [Z|_]; [cbn [piece pa_do pa_di] in Z; lra|]. reflexivity. }
  assert (W1 : forall x y i, MPortCond.UA_wall (joined (piece a x) (piece a y)) i = MPortCond.UA_wall (joined (piece a x) (piece a y)) 0) by reflexivity.
  assert (MW : forall k0, (1 <= k0)%nat -> pa_cp a * pa_rho a * (PI / 4 * (pa_do a ^ 2 - pa_di a ^ 2) * pa_len (piece a k0)) / IZR (pa_gp (piece a k0))
     = pa_cp a * pa_rho a * (PI / 4 * (pa_do a ^ 2 - pa_di a ^ 2) * pa_len a) / IZR (pa_gp a)).
  { intros k0 Hk0. pose proof (piece_gsp a k0 (k + m) Hk0 E ltac:(lia)) as Q. unfold Rdiv in *.
    rewrite !(Rmult_assoc _ _ (/ _)). rewrite Q. reflexivity. }
  pose proof (W1 k m 1%nat) as W11.
  assert (N : Z.to_nat (pa_gp a) = (k + m)%nat) by (rewrite E; apply Nat2Z.id).
  assert (N1 : Z.to_nat (pa_gp (piece a k)) = k) by apply Nat2Z.id.
  assert (N2 : Z.to_nat (pa_gp (piece a m)) = m) by apply Nat2Z.id.
  rewrite N in D. rewrite N1, S1 in D1. rewrite N2, S2 in D2.
  rewrite EG, EG1, EG2. cbn [g_n g_np g_own g_A g_V g_gsp g_di g_x g_L g_rt g_rlw g_rli g_rr g_Ai g_As g_vert g_lw g_li g_mw g_tbw g_pgsp g_psub g_pA g_pw
    ports_of front_ports back_ports p_np p_own p_gsp p_sub p_A p_w two].
  split; [exact N|]. split; [exact N1|]. split; [exact N2|].
  split; [|split; [|split; [|split; [|split; [|split; [|split; [|split; [|split]]]]]]]].
  - constructor; cbn; try reflexivity. rewrite N. reflexivity.
  - constructor; cbn [g_n g_np g_own g_A g_V g_gsp g_di g_x g_L g_rt g_rlw g_rli g_rr g_Ai g_As g_vert g_lw g_li g_mw g_tbw]; rewrite ?S1, ?N1, ?MW by exact Hk; try reflexivity.
  - constructor; cbn [g_n g_np g_own g_A g_V g_gsp g_di g_x g_L g_rt g_rlw g_rli g_rr g_Ai g_As g_vert g_lw g_li g_mw g_tbw]; rewrite ?S2, ?N2, ?MW by exact Hm; try reflexivity.
  - unfold inner_port. cbn [g_pgsp g_gsp g_pA g_A g_pw g_tbw two end_spec MPortCond.gsp MPortCond.af]. rewrite S1, S2, W11, W, S1, S2.
    split; [reflexivity|]. split; [cbn [piece pa_A]; lra|]. apply (wall_joint _ _ _ CS HL GS).
  - unfold inner_port. cbn [g_pgsp g_gsp g_pA g_A g_pw g_tbw two end_spec MPortCond.gsp MPortCond.af]. rewrite S1, S2, W, S1, S2.
    split; [reflexivity|]. split; [cbn [piece pa_A]; lra|]. apply (wall_joint _ _ _ CS HL GS).
  - repeat split.
  - repeat split.
  - exact GS.
  - reflexivity.
  - split; [exact D|]. split; [exact D1|exact D2].
Qed.
