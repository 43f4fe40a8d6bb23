(** C187: a pipe described in two pieces. *)
From Coq Require Import Reals List Arith ZArith Bool Lra Lia.
From Verif Require Import MFlow MWater MDiff MGeom SFlow SGeom LFlow LPoly LWater LDiff LDiff2 LDiff5 LGeom SMirror LMirror SPiece LPiece
  LPiece2 LPiece3 LPiece4.
Import ListNotations.
Open Scope R_scope.

(** Whatever the flow: the pieces have the heat capacities and the advection of the whole pipe, the joint
    conducts from both sides as the tube does there, and all that can differ is the heat loss.  The piece
    at the inlet works exactly as in the whole pipe. *)
Theorem C187_pieces_partial : forall a k m p g g1 g2 io Ta f f1 f2 T T1 T2 Tp b b1 b2,
  cut a k m p g g1 g2 -> 0 < pa_di a < pa_do a -> 0 < pa_lam a ->
  ends0 (k + m) f -> ends0 k f1 -> ends0 m f2 -> front_T k T T1 -> back_T k m T T2 -> same_at k 0 b b1 -> same_at m k b b2 ->
  (forall j, (j < k + m)%nat -> 0 <= T (S j) <= 100) ->
  let r := pipe_diff g io f T Tp Ta b in
  let r1 := pipe_diff g1 io f1 T1 (front_P k T Tp) Ta b1 in
  let r2 := pipe_diff g2 io f2 T2 (back_P k T Tp) Ta b2 in
  r_uap r1 1%nat = r_tb r k /\ r_uap r2 0%nat = r_tb r k /\
  (forall j, (j < k)%nat -> r_mcp r1 j = r_mcp r j /\ r_adv r1 j = r_adv r j /\
     r_tot r1 j = r_tot r j + (r_ua r1 j - r_ua r j) * (Ta - T (S j)) / r_mcp r j /\
     (0 <= io -> r_tot r1 j = r_tot r j)) /\
  (forall j, (j < m)%nat -> r_mcp r2 j = r_mcp r (k + j)%nat /\ r_adv r2 j = r_adv r (k + j)%nat /\
     r_tot r2 j = r_tot r (k + j)%nat + (r_ua r2 j - r_ua r (k + j)%nat) * (Ta - T (S (k + j))) / r_mcp r (k + j)%nat /\
     (io <= 0 -> r_tot r2 j = r_tot r (k + j)%nat)).
Proof.
  intros a k m p g g1 g2 io Ta f f1 f2 T T1 T2 Tp b b1 b2 C HD HL F F1 F2 HT1 HT2 HB1 HB2 RT r r1 r2.
  split; [apply (front_joint a k m p g g1 g2); assumption|]. split; [apply (back_joint a k m p g g1 g2); assumption|]. split.
  - intros j H. pose proof (front_cond a k m p g g1 g2 C HD HL io Ta f f1 T T1 Tp b b1 HT1 RT j H) as E.
    assert (E2 : r_adv r1 j = r_adv r j) by (eapply front_adv; eassumption).
    assert (E3 : 0 <= io -> (j < k)%nat -> r_ua r1 j = r_ua r j) by (eapply front_same_ua; eassumption).
    fold r r1 in E.
    assert (Q : r_tot r1 j = r_tot r j + (r_ua r1 j - r_ua r j) * (Ta - T (S j)) / r_mcp r j).
    { change (r_tot r1 j) with (r_cond r1 j + r_adv r1 j + 0). change (r_tot r j) with (r_cond r j + r_adv r j + 0). rewrite E, E2. ring. }
    split; [apply (front_mcp a k m p g g1 g2); assumption|]. split; [exact E2|]. split; [exact Q|].
    intro Hi. rewrite Q, (E3 Hi H). unfold Rdiv. ring.
  - intros j H. pose proof (back_cond a k m p g g1 g2 C HD HL io Ta f f2 T T2 Tp b b2 HT2 RT j H) as E.
    assert (E2 : r_adv r2 j = r_adv r (k + j)%nat) by (eapply back_adv; eassumption).
    assert (E3 : io <= 0 -> (j < m)%nat -> r_ua r2 j = r_ua r (k + j)%nat) by (eapply back_same_ua; eassumption).
    fold r r2 in E.
    assert (Q : r_tot r2 j = r_tot r (k + j)%nat + (r_ua r2 j - r_ua r (k + j)%nat) * (Ta - T (S (k + j))) / r_mcp r (k + j)%nat).
    { change (r_tot r2 j) with (r_cond r2 j + r_adv r2 j + 0). change (r_tot r (k + j)%nat) with (r_cond r (k + j)%nat + r_adv r (k + j)%nat + 0).
      rewrite E, E2. ring. }
    split; [apply (back_mcp a k m p g g1 g2); assumption|]. split; [exact E2|]. split; [exact Q|].
    intro Hi. rewrite Q, (E3 Hi H). unfold Rdiv. ring.
Qed.
Print Assumptions C187_pieces_partial.

(** At rest the pieces together stay the whole pipe, over any sequence of steps, port and ambient
    temperatures. *)
Lemma euler_in g h r T lo hi j : (j < g_n g)%nat -> euler_cells g h r T lo hi (S j) = T (S j) + h * r_tot r j.
Proof.
  intro H. unfold euler_cells. destruct (Nat.eqb_spec (S j) 0), (Nat.eqb_spec (S j) (g_n g + 1)); try lia.
  replace (S j - 1)%nat with j by lia. reflexivity.
Qed.
Theorem C187_rest : forall a k m p g g1 g2 os s st, cut a k m p g g1 g2 -> 0 < pa_di a < pa_do a -> 0 < pa_lam a ->
  ends0 (k + m) (p_f s) -> ends0 k (p_f (fst st)) -> ends0 m (p_f (snd st)) ->
  liquid g os s -> together k m s st ->
  together k m (pipe_run g (map rest_event os) s) (fold_left (pieces_event k g1 g2) os st).
Proof.
  intros a k m p g g1 g2 os. induction os as [|o os IH]; intros s st C HD HL F F1 F2 LQ TG; [exact TG|].
  unfold pipe_run in *. cbn [map fold_left]. destruct LQ as [RT LQ]. destruct TG as (HT1 & HT2 & HB1 & HB2).
  destruct (cut_geo a k m p g g1 g2 C HD HL) as (N & N1 & N2 & LK & LK1 & LK2 & _). rewrite N in RT.
  destruct C as (Hk & Hm & C'). assert (C : cut a k m p g g1 g2) by (split; [exact Hk|split; [exact Hm|exact C']]).
  set (T := p_T s) in *. set (T1 := p_T (fst st)) in *. set (T2 := p_T (snd st)) in *.
  assert (P1 : two (o_Tp o 0%nat) (T2 1%nat) = front_P k T (o_Tp o)).
  { unfold front_P. rewrite (HT2 0%nat) by lia. rewrite Nat.add_0_r. reflexivity. }
  assert (P2 : two (T1 k) (o_Tp o 1%nat) = back_P k T (o_Tp o)).
  { unfold back_P. f_equal. replace k with (S (k - 1)) by lia. apply HT1. lia. }
  destruct (C187_pieces_partial a k m p g g1 g2 0 (o_amb o) (p_f s) (p_f (fst st)) (p_f (snd st)) T T1 T2 (o_Tp o) (p_b s) (p_b (fst st)) (p_b (snd st))
    C HD HL F F1 F2 HT1 HT2 HB1 HB2 RT) as (_ & _ & Q1 & Q2).
  apply IH; try assumption.
  - cbn [pipe_event p_f]. rewrite N, (lk_np _ _ LK). apply invar_ends; [lia|exact F].
  - cbn [pieces_event fst pipe_event p_f]. rewrite N1, (lk_np _ _ LK1). apply invar_ends; [lia|exact F1].
  - cbn [pieces_event snd pipe_event p_f]. rewrite N2, (lk_np _ _ LK2). apply invar_ends; [lia|exact F2].
  - unfold together, pieces_event. cbn [fst snd pipe_event p_T p_b rest_event e_h e_io e_Tp e_amb e_lo e_hi].
    fold T T1 T2. rewrite P1, P2. split; [|split; [|split]].
    + intros j H. rewrite !euler_in by (rewrite ?N, ?N1; lia). destruct (Q1 j H) as (_ & _ & _ & E).
      rewrite (E ltac:(lra)), (HT1 j H). reflexivity.
    + intros j H. rewrite !euler_in by (rewrite ?N, ?N2; lia). destruct (Q2 j H) as (_ & _ & _ & E).
      rewrite (E ltac:(lra)), (HT2 j H). reflexivity.
    + intros j H. set (P := front_P k T (o_Tp o)).
      assert (A : r_ainf (pipe_diff g1 0 (p_f (fst st)) T1 P (o_amb o) (p_b (fst st))) j = r_ainf (pipe_diff g 0 (p_f s) T (o_Tp o) (o_amb o) (p_b s)) j)
        by (revert H; eapply front_ainf; eassumption).
      assert (U : 0 <= 0 -> (j < k)%nat -> r_ua (pipe_diff g1 0 (p_f (fst st)) T1 P (o_amb o) (p_b (fst st))) j = r_ua (pipe_diff g 0 (p_f s) T (o_Tp o) (o_amb o) (p_b s)) j)
        by (eapply front_same_ua; eassumption).
      exact (conj A (U ltac:(lra) H)).
    + intros j H. set (P := back_P k T (o_Tp o)).
      assert (A : r_ainf (pipe_diff g2 0 (p_f (snd st)) T2 P (o_amb o) (p_b (snd st))) j = r_ainf (pipe_diff g 0 (p_f s) T (o_Tp o) (o_amb o) (p_b s)) (k + j)%nat)
        by (revert H; eapply back_ainf; eassumption).
      assert (U : 0 <= 0 -> (j < m)%nat -> r_ua (pipe_diff g2 0 (p_f (snd st)) T2 P (o_amb o) (p_b (snd st))) j = r_ua (pipe_diff g 0 (p_f s) T (o_Tp o) (o_amb o) (p_b s)) (k + j)%nat)
        by exact (back_same_ua a k m p g g1 g2 C HD HL 0 (o_amb o) (p_f s) (p_f s) (p_f (snd st)) T T T2 (o_Tp o) T P (p_b s) (p_b s) (p_b (snd st)) HT2 HB2 j).
      exact (conj A (U ltac:(lra) H)).
Qed.
Print Assumptions C187_rest.

(** With a running flow every cell behind the cut is counted as if the water had just entered: it loses
    more heat than in the whole pipe, for every pipe, every cut and all temperatures. *)
Theorem C187_losses_refuted : forall a k m p g g1 g2 io Ta f f1 f2 T T1 T2 Tp b b1 b2,
  cut a k m p g g1 g2 -> pipe_dims a -> solid (pa_cp a) (pa_rho a) (pa_lam a) -> 0 < pa_lins a ->
  (forall i, 0 <= p_gsp p i /\ 0 < p_sub p i /\ 0 < p_A p i /\ 0 <= p_w p i) ->
  ends0 (k + m) f -> ends0 k f1 -> ends0 m f2 -> front_T k T T1 -> back_T k m T T2 -> same_at k 0 b b1 -> same_at m k b b2 ->
  buf_ok g b -> range_ok g T Tp Ta ->
  let r := pipe_diff g io f T Tp Ta b in
  let r1 := pipe_diff g1 io f1 T1 (front_P k T Tp) Ta b1 in
  let r2 := pipe_diff g2 io f2 T2 (back_P k T Tp) Ta b2 in
  (0 < io -> forall j, (j < m)%nat -> r_ua r (k + j)%nat < r_ua r2 j /\
     (Ta < T (S (k + j)) -> r_tot r2 j < r_tot r (k + j)%nat) /\ (T (S (k + j)) < Ta -> r_tot r (k + j)%nat < r_tot r2 j)) /\
  (io < 0 -> forall j, (j < k)%nat -> r_ua r j < r_ua r1 j /\
     (Ta < T (S j) -> r_tot r1 j < r_tot r j) /\ (T (S j) < Ta -> r_tot r j < r_tot r1 j)).
Proof.
  intros a k m p g g1 g2 io Ta f f1 f2 T T1 T2 Tp b b1 b2 C PD SO LI PP F F1 F2 HT1 HT2 HB1 HB2 B RG r r1 r2.
  pose proof C as (Hk & Hm & E & G0 & _). destruct PD as [HD HA]. pose proof SO as (_ & _ & HL).
  assert (G : geo_ok g).
  { apply (pipe_geo_ok a _ g G0); [split; assumption|exact SO|exact LI|lia|]. rewrite E, Nat2Z.id. split; [|exact PP].
    intros [|i] Hi; cbn in *; lia. }
  destruct (cut_geo a k m p g g1 g2 C HD HL) as (N & _).
  assert (RT : forall j, (j < k + m)%nat -> 0 <= T (S j) <= 100) by (intros j Hj; apply RG; rewrite N; exact Hj).
  destruct (C187_pieces_partial a k m p g g1 g2 io Ta f f1 f2 T T1 T2 Tp b b1 b2 C HD HL F F1 F2 HT1 HT2 HB1 HB2 RT) as (_ & _ & Q1 & Q2).
  fold r r1 r2 in Q1, Q2.
  assert (MC : forall j, (j < k + m)%nat -> 0 < r_mcp r j).
  { intros j Hj. apply (mcp_pos g lam_mean (fun _ => io) (process_flow_invar (g_n g) (g_np g) io f) false no_heat T Tp Ta b G RG). rewrite N. exact Hj. }
  assert (LT : forall u v w c, u < v -> 0 < c -> w < 0 -> (v - u) * w / c < 0).
  { intros u v w c U Hc W. unfold Rdiv. assert (0 < / c) by (apply Rinv_0_lt_compat; exact Hc).
    assert (0 < (v - u) * - w * / c) by (apply Rmult_lt_0_compat; [apply Rmult_lt_0_compat; lra|assumption]). lra. }
  assert (GT : forall u v w c, u < v -> 0 < c -> 0 < w -> 0 < (v - u) * w / c).
  { intros u v w c U Hc W. unfold Rdiv. assert (0 < / c) by (apply Rinv_0_lt_compat; exact Hc).
    apply Rmult_lt_0_compat; [apply Rmult_lt_0_compat; lra|assumption]. }
  split; intros Hi j Hj.
  - assert (U : r_ua r (k + j)%nat < r_ua r2 j) by (revert Hi Hj; eapply back_more_ua; eassumption).
    destruct (Q2 j Hj) as (_ & _ & -> & _). split; [exact U|]. specialize (MC (k + j)%nat ltac:(lia)). split; intro W.
    + pose proof (LT _ _ (Ta - T (S (k + j))) _ U MC ltac:(lra)). lra.
    + pose proof (GT _ _ (Ta - T (S (k + j))) _ U MC ltac:(lra)). lra.
  - assert (U : r_ua r j < r_ua r1 j) by (revert Hi Hj; eapply front_more_ua; eassumption).
    destruct (Q1 j Hj) as (_ & _ & -> & _). split; [exact U|]. specialize (MC j ltac:(lia)). split; intro W.
    + pose proof (LT _ _ (Ta - T (S j)) _ U MC ltac:(lra)). lra.
    + pose proof (GT _ _ (Ta - T (S j)) _ U MC ltac:(lra)). lra.
Qed.
Print Assumptions C187_losses_refuted.

(** ** Cases: a pipe of 12 m in 6 cells, cut behind the second *)
Definition tube : pipe_arg := {| pa_len := 12; pa_gp := 6; pa_sins := 3 / 100; pa_lins := 35 / 1000;
  pa_di := 53 / 1000; pa_do := 60 / 1000; pa_A := 22 / 10000; pa_cp := 500; pa_rho := 7850; pa_lam := 50 |}.
Definition tube_ports : prts := {| p_np := 2; p_own := two_own 6;
  p_gsp := fun _ => 1; p_sub := fun _ => 1; p_A := fun _ => 22 / 10000; p_w := fun _ => 1 |}.
Lemma tube_cut : exists g g1 g2, cut tube 2 4 tube_ports g g1 g2.
Proof.
  assert (A : forall a q, pipe_acc a -> exists g, pipe_new a q = Some g) by (intros; apply pipe_new_iff; assumption).
  destruct (A tube (ports_of 6 tube_ports)) as [g G]; [unfold pipe_acc; cbn; repeat (split; [lra || lia|]); lra|].
  destruct (A (piece tube 2) (front_ports (piece tube 2) (piece tube 4) 2 tube_ports)) as [g1 G1];
    [unfold pipe_acc; cbn; repeat (split; [lra || lia|]); lra|].
  destruct (A (piece tube 4) (back_ports (piece tube 2) (piece tube 4) 4 tube_ports)) as [g2 G2];
    [unfold pipe_acc; cbn; repeat (split; [lra || lia|]); lra|].
  exists g, g1, g2. split; [lia|]. split; [lia|]. split; [reflexivity|]. split; [exact G|]. split; assumption.
Qed.
(** Temperatures falling along the pipe. *)
Definition falling : arr := fun i => 70 - 5 * INR i.
Definition falling2 : arr := fun i => falling (2 + i)%nat.
(** Water flowing forward through the tube at 0.1 kg/s, ambient 10: the four cells behind the cut lose
    more heat in the piece. *)
Example C187_ex_losses : exists g g1 g2, cut tube 2 4 tube_ports g g1 g2 /\
  forall j, (j < 4)%nat ->
    r_tot (pipe_diff g2 (1 / 10) flows0 falling2 (back_P 2 falling (fun _ => 50)) 10 buf0) j
    < r_tot (pipe_diff g (1 / 10) flows0 falling (fun _ => 50) 10 buf0) (2 + j)%nat.
Proof.
  destruct tube_cut as (g & g1 & g2 & C). exists g, g1, g2. split; [exact C|]. intros j Hj.
  assert (HD : 0 < pa_di tube < pa_do tube) by (cbn; lra). assert (HL : 0 < pa_lam tube) by (cbn; lra).
  destruct (cut_geo tube 2 4 tube_ports g g1 g2 C HD HL) as (N & _).
  pose proof C as (_ & _ & _ & G0 & _).
  assert (PP : forall i, 0 <= p_gsp tube_ports i /\ 0 < p_sub tube_ports i /\ 0 < p_A tube_ports i /\ 0 <= p_w tube_ports i) by (intro i; cbn; lra).
  assert (G : geo_ok g).
  { apply (pipe_geo_ok tube _ g G0); [split; [exact HD|cbn; lra]|unfold solid; cbn; lra|cbn; lra|cbn; lia|]. split; [|exact PP].
    intros [|i] Hi; cbn in *; lia. }
  assert (TR : forall i, (i < 6)%nat -> 40 <= falling (S i) <= 65).
  { intros i Hi. unfold falling. rewrite S_INR. assert (0 <= INR i <= 5) by (split; [apply pos_INR|change 5 with (IZR (Z.of_nat 5)); rewrite <- INR_IZR_INZ; apply le_INR; lia]). lra. }
  destruct (C187_losses_refuted tube 2 4 tube_ports g g1 g2 (1 / 10) 10 flows0 flows0 flows0 falling falling falling2 (fun _ => 50) buf0 buf0 buf0 C)
    as [Q _]; try (split; reflexivity); try (split; [exact HD|cbn; lra]); try exact PP; try (cbn; lra); try (intros i Hi; reflexivity); try (intros i Hi; split; reflexivity).
  - unfold solid; cbn; lra.
  - apply buf0_ok. exact G.
  - split; [intros i Hi; rewrite N in Hi; specialize (TR i Hi); lra|]. split; [intros; lra|lra].
  - apply (Q ltac:(lra) j Hj). specialize (TR (2 + j)%nat ltac:(lia)). cbn [Nat.add] in *. lra.
Qed.

(** The same pipe at rest over two steps, the second after a pause. *)
Lemma small_step (r : arr) n : exists h, 0 < h /\ forall j, (j < n)%nat -> Rabs (h * r j) <= 10.
Proof.
  induction n as [|n (h & Hh & IH)]; [exists 1; split; [lra|intros; lia]|].
  exists (Rmin h (10 / (1 + Rabs (r n)))). pose proof (Rabs_pos (r n)) as P.
  assert (D : 0 < 10 / (1 + Rabs (r n))) by (apply Rdiv_lt_0_compat; lra).
  assert (M : 0 < Rmin h (10 / (1 + Rabs (r n)))) by (apply Rmin_pos; lra). split; [exact M|].
  intros j Hj. rewrite Rabs_mult, (Rabs_right (Rmin _ _)) by lra. destruct (Nat.eq_dec j n) as [->|NE].
  - apply Rle_trans with (10 / (1 + Rabs (r n)) * Rabs (r n)); [apply Rmult_le_compat_r; [exact P|apply Rmin_r]|].
    unfold Rdiv. apply Rmult_le_reg_r with (1 + Rabs (r n)); [lra|]. field_simplify; [|lra]. lra.
  - specialize (IH j ltac:(lia)). rewrite Rabs_mult, (Rabs_right h) in IH by lra.
    apply Rle_trans with (h * Rabs (r j)); [apply Rmult_le_compat_r; [apply Rabs_pos|apply Rmin_l]|exact IH].
Qed.
Example C187_ex_rest : exists g g1 g2 h, cut tube 2 4 tube_ports g g1 g2 /\ 0 < h /\
  let o1 := {| o_h := h; o_Tp := fun _ => 90; o_amb := 10; o_lo := 0; o_hi := 0 |} in
  let o2 := {| o_h := 60; o_Tp := fun i => 20 + INR i; o_amb := 15; o_lo := 0; o_hi := 0 |} in
  together 2 4 (pipe_run g (map rest_event [o1; o2]) {| p_T := falling; p_b := buf0; p_f := flows0 |})
    (fold_left (pieces_event 2 g1 g2) [o1; o2] ({| p_T := falling; p_b := buf0; p_f := flows0 |}, {| p_T := falling2; p_b := buf0; p_f := flows0 |})).
Proof.
  destruct tube_cut as (g & g1 & g2 & C). exists g, g1, g2.
  assert (HD : 0 < pa_di tube < pa_do tube) by (cbn; lra). assert (HL : 0 < pa_lam tube) by (cbn; lra).
  destruct (cut_geo tube 2 4 tube_ports g g1 g2 C HD HL) as (N & _). cbn [Nat.add] in N.
  destruct (small_step (r_tot (pipe_diff g 0 flows0 falling (fun _ => 90) 10 buf0)) 6) as (h & Hh & SM).
  exists h. split; [exact C|]. split; [exact Hh|]. cbv zeta.
  assert (TR : forall i, (i < 6)%nat -> 40 <= falling (S i) <= 65).
  { intros i Hi. unfold falling. rewrite S_INR. assert (0 <= INR i <= 5) by (split; [apply pos_INR|change 5 with (IZR (Z.of_nat 5)); rewrite <- INR_IZR_INZ; apply le_INR; lia]). lra. }
  apply (C187_rest tube 2 4 tube_ports); try assumption; try (split; reflexivity).
  - cbn [liquid]. split; [intros j Hj; rewrite N in Hj; specialize (TR j Hj); cbn [p_T]; lra|]. split; [|exact I].
    intros j Hj. cbn [pipe_event p_T p_b p_f rest_event e_h e_io e_Tp e_amb e_lo e_hi o_h o_Tp o_amb o_lo o_hi]. rewrite euler_in by exact Hj.
    rewrite N in Hj. specialize (SM j Hj). specialize (TR j Hj). set (x := h * r_tot _ j) in *. clearbody x.
    unfold Rabs in SM. destruct (Rcase_abs x) in SM; lra.
  - split; [intros j _; reflexivity|]. split; [intros j _; reflexivity|]. split; intros j _; split; reflexivity.
Qed.
