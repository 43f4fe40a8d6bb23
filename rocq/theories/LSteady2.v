(** Steady lines of pipes (C186): lemmas. *)
From Coq Require Import Reals List Arith Bool Lra Lia Sorted.
From Verif Require Import MFlow MWater MDiff SFlow SDiff MSolver MHeun MRange SRange SSteady LFlow LPoly LWater LDiff LDiff2 LDiff3
  LDiff4 LDiff5 LDiff7 LRange LRange2 LRest PDiff LSteady.
Import ListNotations.
Open Scope R_scope.

Section Pipe.
Variables (s : spot) (Ta dm : R).
Hypothesis PL : placed geo_ok Ta Ta s.
Hypothesis KD : nd_kind (sp_node s) = KPipe dm.
Hypothesis D0 : 0 <= dm.
Hypothesis A0 : 0 <= Ta <= 100.
Hypothesis P0 : 0 <= sp_P s 0%nat <= 100.
Hypothesis P1 : 0 <= sp_P s 1%nat <= 100.
Let g := sp_geo s.
Let n := sp_n s.
Let r := sp_res s.
Let T := sp_T s.
(** What is met on the side of the inlet and on the other side. *)
Definition up (j : nat) : R := match j with O => sp_P s 0%nat | _ => T j end.
Definition kup (j : nat) : R := match j with O => r_uap r 0%nat | _ => r_tb r j end.
Definition dn (j : nat) : R := if (S j =? n)%nat then sp_P s 1%nat else T (S (S j)).
Definition kdn (j : nat) : R := if (S j =? n)%nat then r_uap r 1%nat else r_tb r (S j).
Lemma pipe_facts : geo_ok g /\ buf_ok g (sp_b s) /\ range_ok g T (sp_P s) Ta /\ nd_amb (sp_node s) = Ta /\
  g_np g = 2%nat /\ g_own g 0%nat = 0%nat /\ g_own g 1%nat = (n - 1)%nat /\ ends0 n (sp_f s) /\ (2 <= n)%nat.
Proof.
  destruct PL as ((np & (_ & G & HA & _ & HK)) & B & F & HT & _). rewrite KD in HK. destruct HK as (N2 & O0 & O1).
  pose proof (ok_n _ G) as Hn. 
  split; [exact G|]. split; [apply bufs_at_ok; assumption|]. split.
  - split; [exact HT|]. split; [|exact A0]. intros i Hi. unfold g in Hi. rewrite N2 in Hi.
    destruct i as [|[|i]]; [exact P0|exact P1|lia].
  - split; [lra|]. split; [exact N2|]. split; [exact O0|]. split; [exact O1|].
    split; [apply flows_at_ends; [unfold n, sp_n; lia|exact F]|]. unfold n, sp_n. lia.
Qed.
Lemma res_is : r = part_diff g lam_mean (fun _ => dm) (process_flow_invar n 2 dm (sp_f s)) false no_heat T (sp_P s) Ta (sp_b s).
Proof.
  destruct pipe_facts as (_&_&_&EA&N2&_). unfold r, sp_res, node_res. rewrite KD, EA. unfold pipe_diff. cbn [fst snd].
  fold (sp_geo s). fold g. rewrite N2. reflexivity.
Qed.
Lemma kup_pos j : (j < n)%nat -> 0 < kup j.
Proof.
  intros Hj. destruct pipe_facts as (G&B&RG&_&N2&_). unfold kup. rewrite res_is. destruct j as [|j].
  - apply uap_pos; [exact G|exact RG|lia].
  - cbn [part_diff r_tb]. unfold ua_tb. fold n in Hj. change (g_n g) with n.
    destruct (Nat.leb_spec 1 (S j)); [|lia]. destruct (Nat.ltb_spec (S j) n); [|lia]. cbn [andb].
    pose proof G as []. replace (S j - 1)%nat with j by lia.
    assert (0 < lam_mean (fun j => lambda_water (T (S j))) j).
    { apply lam_mean_pos; [pose proof (lambda_bounds _ (proj1 RG j ltac:(change (g_n g) with n; lia)))|
        pose proof (lambda_bounds _ (proj1 RG (S j) ltac:(change (g_n g) with n; lia)))]; lra. }
    assert (0 < g_A g / g_gsp g) by (apply Rdiv_lt_0_compat; assumption).
    assert (0 < g_A g / g_gsp g * lam_mean (fun j => lambda_water (T (S j))) j) by (apply Rmult_lt_0_compat; assumption). lra.
Qed.
Lemma kdn_nonneg j : (j < n)%nat -> 0 <= kdn j.
Proof.
  intros Hj. destruct pipe_facts as (G&B&RG&_&N2&_). unfold kdn. destruct (Nat.eqb_spec (S j) n) as [E|E].
  - rewrite res_is. apply Rlt_le, uap_pos; [exact G|exact RG|lia].
  - pose proof (kup_pos (S j) ltac:(lia)) as Q. cbn [kup] in Q. lra.
Qed.
Lemma ua_pos j : (j < n)%nat -> 0 < r_ua r j.
Proof.
  intros Hj. destruct pipe_facts as (G&B&RG&_). rewrite res_is.
  apply (ua_bounds g lam_mean (fun _ => dm) (process_flow_invar n 2 dm (sp_f s)) false no_heat T (sp_P s) Ta (sp_b s) G B RG j Hj).
Qed.
Lemma u_mono x y : 0 <= x -> x <= y -> y <= 100 -> u_water x <= u_water y.
Proof. intros A B C. pose proof (u_slope x y A B C). lra. Qed.
Lemma in_dn j : (j < n)%nat -> 0 <= dn j <= 100.
Proof.
  intros Hj. destruct pipe_facts as (_&_&RG&_). unfold dn. destruct (Nat.eqb_spec (S j) n); [exact P1|].
  apply (proj1 RG). change (g_n g) with n. lia.
Qed.
Lemma in_up j : (j < n)%nat -> 0 <= up j <= 100.
Proof.
  intros Hj. destruct pipe_facts as (_&_&RG&_). destruct j; [exact P0|].
  apply (proj1 RG). change (g_n g) with n. lia.
Qed.
(** What comes in from the inlet side is lost to the room or passed on. *)
Lemma cell_balance j : (j < n)%nat ->
  dm * (u_water (up j) - u_water (T (S j))) + kup j * (up j - T (S j)) =
  r_ua r j * (T (S j) - Ta) + kdn j * (T (S j) - dn j).
Proof.
  intros Hj. destruct pipe_facts as (G&B&RG&EA&N2&O0&O1&[F1 F2]&Hn).
  destruct PL as (_ & _ & _ & HT & Z). specialize (Z j Hj). fold r in Z.
  pose proof (flux g lam_mean (fun _ => dm) (process_flow_invar n 2 dm (sp_f s)) false T (sp_P s) Ta (sp_b s) G 0 100 ltac:(lra) ltac:(lra)
      (proj1 RG) (proj1 (proj2 RG)) ltac:(lra) j Hj) as FX.
  destruct (tb_ends g lam_mean (fun _ => dm) (process_flow_invar n 2 dm (sp_f s)) false no_heat T (sp_P s) Ta (sp_b s)) as [E0 En].
  rewrite <- res_is in FX, E0, En. rewrite Z, Rmult_0_r in FX.
  change (r_tb r (g_n g)) with (r_tb r n) in En.
  unfold lid_at, at_cell in FX. rewrite N2 in FX. cbn [rsum] in FX. rewrite O0, O1 in FX.
  unfold up, kup, dn, kdn.
  set (tb := r_tb r) in *. set (ua := r_ua r) in *. set (uap := r_uap r) in *. clearbody tb ua uap.
  unfold process_flow_invar in FX. destruct (Rle_dec 0 dm); [|lra]. cbn [f_top f_bot f_port] in FX.
  unfold fill, put in FX. cbn [Nat.sub Nat.eqb] in FX.
  replace (S (n - 1)) with n in FX by lia.
  destruct j as [|j].
  - cbn [Nat.eqb Nat.leb andb] in FX. rewrite E0, F1 in FX.
    destruct (Nat.eqb_spec (n - 1) 0) as [X|X]; [lia|]. destruct (Nat.eqb_spec 1 n) as [X'|X']; [lia|].
    destruct (Nat.ltb_spec 0 (n - 1)) as [X2|X2]; [|lia]. lra.
  - cbn [Nat.eqb] in FX. destruct (Nat.leb_spec 1 (S j)) as [X|X]; [|lia]. destruct (Nat.ltb_spec (S j) n) as [X1|X1]; [|lia].
    cbn [andb] in FX. destruct (Nat.leb_spec 0 (S j)) as [X3|X3]; [|lia]. cbn [andb] in FX.
    destruct (Nat.eqb_spec (S (S j)) n) as [X4|X4].
    + destruct (Nat.ltb_spec (S j) (n - 1)) as [X2|X2]; [lia|]. destruct (Nat.eqb_spec (n - 1) (S j)) as [X5|X5]; [|lia].
      replace (n - 1)%nat with (S j) in F2 by lia. rewrite F2, X4, En in FX. rewrite <- X4 in FX. lra.
    + destruct (Nat.ltb_spec (S j) (n - 1)) as [X2|X2]; [|lia]. destruct (Nat.eqb_spec (n - 1) (S j)) as [X5|X5]; [lia|]. lra.
Qed.
Lemma cell_falls j : (j < n)%nat -> Ta <= T (S j) -> dn j <= T (S j) -> T (S j) <= up j.
Proof.
  intros Hj H1 H2. pose proof (cell_balance j Hj) as E. pose proof (kup_pos j Hj). pose proof (kdn_nonneg j Hj). pose proof (ua_pos j Hj).
  destruct pipe_facts as (_&_&RG&_). pose proof (proj1 RG j Hj) as R1. pose proof (in_up j Hj) as R2.
  destruct (Rle_dec (T (S j)) (up j)) as [A|A]; [exact A|exfalso].
  pose proof (u_mono (up j) (T (S j)) ltac:(lra) ltac:(lra) ltac:(lra)).
  assert (0 <= r_ua r j * (T (S j) - Ta)) by (apply Rmult_le_pos; lra).
  assert (0 <= kdn j * (T (S j) - dn j)) by (apply Rmult_le_pos; lra).
  assert (0 <= dm * (u_water (T (S j)) - u_water (up j))) by (apply Rmult_le_pos; lra).
  assert (0 < kup j * (T (S j) - up j)) by (apply Rmult_lt_0_compat; lra).
  lra.
Qed.
Hypothesis WARM : forall j, (j < n)%nat -> Ta <= T (S j).
Hypothesis OUT : sp_P s 1%nat <= last_cell s.
Lemma falls_to k : (k < n)%nat -> T (S (n - 1 - k)) <= up (n - 1 - k).
Proof.
  induction k as [|k IH]; intros Hk.
  - rewrite Nat.sub_0_r. apply cell_falls; [lia|apply WARM; lia|]. unfold dn. destruct (Nat.eqb_spec (S (n - 1)) n) as [E|E]; [|lia].
    rewrite E. exact OUT.
  - apply cell_falls; [lia|apply WARM; lia|]. unfold dn. destruct (Nat.eqb_spec (S (n - 1 - S k)) n) as [E|E]; [lia|].
    specialize (IH ltac:(lia)). replace (n - 1 - k)%nat with (S (n - 1 - S k)) in IH by lia. exact IH.
Qed.
Lemma falls j : (j < n)%nat -> T (S j) <= up j.
Proof. intros Hj. pose proof (falls_to (n - 1 - j) ltac:(lia)) as Q. replace (n - 1 - (n - 1 - j))%nat with j in Q by lia. exact Q. Qed.
Lemma dn_le j : (j < n)%nat -> dn j <= T (S j).
Proof.
  intros Hj. unfold dn. destruct (Nat.eqb_spec (S j) n) as [E|E]; [rewrite E; exact OUT|]. apply (falls (S j)). lia.
Qed.
Lemma share_in j : (j < n)%nat -> 0 < share dm s j < 1.
Proof.
  intros Hj. pose proof (kup_pos j Hj) as K. pose proof (ua_pos j Hj) as U. unfold share. fold r.
  change (match j with O => r_uap r 0%nat | _ => r_tb r j end) with (kup j).
  assert (0 < r_ua r j / (4400 * dm + kup j)) by (apply Rdiv_lt_0_compat; lra).
  split; [apply Rinv_0_lt_compat; lra|]. rewrite <- Rinv_1. apply Rinv_lt_contravar; lra.
Qed.
Lemma share_ok j : (j < n)%nat -> T (S j) - Ta <= share dm s j * (up j - Ta).
Proof.
  intros Hj. pose proof (cell_balance j Hj) as E. pose proof (kup_pos j Hj) as K. pose proof (kdn_nonneg j Hj). pose proof (ua_pos j Hj) as U.
  destruct pipe_facts as (_&_&RG&_). pose proof (proj1 RG j Hj) as R1. pose proof (in_up j Hj) as R2. pose proof (falls j Hj) as F.
  assert (0 <= kdn j * (T (S j) - dn j)) by (apply Rmult_le_pos; [lra|]; pose proof (dn_le j Hj); lra).
  pose proof (u_slope (T (S j)) (up j) ltac:(lra) F ltac:(lra)) as [_ SL].
  assert (dm * (u_water (up j) - u_water (T (S j))) <= dm * (4400 * (up j - T (S j)))) by (apply Rmult_le_compat_l; lra).
  unfold share. fold r. change (match j with O => r_uap r 0%nat | _ => r_tb r j end) with (kup j).
  set (K4 := 4400 * dm + kup j). assert (KP : 0 < K4) by (unfold K4; lra).
  assert (Q : r_ua r j * (T (S j) - Ta) <= K4 * (up j - T (S j))) by (unfold K4; lra).
  replace (1 + r_ua r j / K4) with ((K4 + r_ua r j) / K4) by (field; lra).
  apply Rmult_le_reg_l with ((K4 + r_ua r j) / K4); [apply Rdiv_lt_0_compat; lra|].
  rewrite <- Rmult_assoc, Rinv_r, Rmult_1_l; [|apply Rgt_not_eq, Rdiv_lt_0_compat; lra].
  apply Rmult_le_reg_l with K4; [exact KP|]. unfold Rdiv.
  replace (K4 * ((K4 + r_ua r j) * / K4 * (T (S j) - Ta))) with ((K4 + r_ua r j) * (T (S j) - Ta)) by (field; lra). lra.
Qed.
Lemma fold_mul (f : nat -> R) l x : fold_right (fun j acc => f j * acc) x l = fold_right (fun j acc => f j * acc) 1 l * x.
Proof. induction l as [|a l IH]; cbn [fold_right]; [ring|]. rewrite IH. ring. Qed.
Lemma shares_to m : (S m <= n)%nat -> T (S m) - Ta <= fold_right (fun j acc => share dm s j * acc) 1 (seq 0 (S m)) * (sp_P s 0%nat - Ta).
Proof.
  induction m as [|m IH]; intros Hm.
  - cbn [seq fold_right]. rewrite Rmult_1_r. apply (share_ok 0). lia.
  - rewrite seq_S, fold_right_app, fold_mul. cbn [fold_right]. rewrite Rmult_1_r. specialize (IH ltac:(lia)).
    pose proof (share_ok (S m) ltac:(lia)) as Q. cbn [up] in Q. replace (0 + S m)%nat with (S m) by lia.
    pose proof (share_in (S m) ltac:(lia)) as Z.
    eapply Rle_trans; [exact Q|]. eapply Rle_trans; [apply Rmult_le_compat_l; [lra|exact IH]|]. right. ring.
Qed.
Lemma pipe_cools : last_cell s - Ta <= shares dm s * (sp_P s 0%nat - Ta).
Proof.
  destruct pipe_facts as (_&_&_&_&_&_&_&_&Hn). unfold last_cell, shares. fold n. fold T.
  pose proof (shares_to (n - 1) ltac:(lia)) as Q. replace (S (n - 1)) with n in Q by lia. exact Q.
Qed.
Lemma shares_in : 0 < shares dm s < 1.
Proof.
  destruct pipe_facts as (_&_&_&_&_&_&_&_&Hn). unfold shares. fold n.
  assert (Q : forall l, Forall (fun j => (j < n)%nat) l ->
    0 < fold_right (fun j acc => share dm s j * acc) 1 l <= 1 /\ (l <> [] -> fold_right (fun j acc => share dm s j * acc) 1 l < 1)).
  { induction 1 as [|j l Hj Hl IH]; cbn [fold_right]; [split; [lra|contradiction]|].
    destruct IH as [IH _]. pose proof (share_in j Hj) as Z. set (q := fold_right _ _ _) in *. set (z := share dm s j) in *. clearbody q z.
    assert (0 < z * q) by (apply Rmult_lt_0_compat; lra). assert (z * q <= z * 1) by (apply Rmult_le_compat_l; lra).
    split; [lra|intros _; lra]. }
  destruct (Q (seq 0 n)) as [Q1 Q2].
  - apply Forall_forall. intros j Hj. apply in_seq in Hj. lia.
  - split; [lra|apply Q2]. destruct n; [lia|discriminate].
Qed.
Lemma sorted_map (F : nat -> R) m : forall k x, ((0 < m)%nat -> F k <= x) ->
  (forall i, (k <= i)%nat -> (S i < k + m)%nat -> F (S i) <= F i) -> Sorted Rge (x :: map F (seq k m)).
Proof.
  induction m as [|m IH]; intros k x H1 H2; [repeat constructor|]. cbn [seq map]. constructor.
  - apply IH; [intros Hm; apply H2; lia|]. intros i Hi1 Hi2. apply H2; lia.
  - constructor. apply Rle_ge, H1. lia.
Qed.
Lemma pipe_sorted : Sorted Rge (sp_P s 0%nat :: cells s).
Proof.
  unfold cells. fold n. apply sorted_map.
  - intros Hn. apply (falls 0 Hn).
  - intros i _ Hi. apply (falls (S i)). lia.
Qed.
End Pipe.

Lemma cells_last s a : (1 <= sp_n s)%nat -> last (cells s) a = last_cell s.
Proof.
  intros Hn. unfold cells, last_cell. destruct (sp_n s) as [|n]; [lia|]. rewrite seq_S, map_app. cbn [map]. rewrite last_last.
  f_equal.
Qed.
Lemma last_any (l : list R) a b : l <> [] -> last l a = last l b.
Proof.
  induction l as [|x l IH]; [contradiction|]. intros _. destruct l as [|y l]; [reflexivity|].
  change (last (y :: l) a = last (y :: l) b). apply IH. discriminate.
Qed.
Lemma sorted_glue l' : forall l a, Sorted Rge (a :: l) -> Sorted Rge (last l a :: l') -> Sorted Rge (a :: l ++ l').
Proof.
  induction l as [|b l IH]; intros a H1 H2; [exact H2|]. cbn [app].
  inversion H1 as [|? ? H3 H4]; subst. constructor.
  - apply IH; [exact H3|]. destruct l as [|c l]; [exact H2|].
    rewrite (last_any (c :: l) b a) by discriminate. exact H2.
  - constructor. inversion H4; subst. assumption.
Qed.

(** ** Lines *)
Lemma line_ne ok Ta dm Tin ss Tout : line ok Ta dm Tin ss Tout -> ss <> [].
Proof. intros H. inversion H; discriminate. Qed.
Lemma line_head ok Ta dm Tin s ss Tout : line ok Ta dm Tin (s :: ss) Tout -> sp_P s 0%nat = Tin /\ placed ok Ta Ta s /\ nd_kind (sp_node s) = KPipe dm.
Proof. intros H. inversion H; subst; (split; [reflexivity|split; assumption]). Qed.
Lemma placed_n Ta s : placed geo_ok Ta Ta s -> (2 <= sp_n s)%nat.
Proof. intros ((np & (_ & G & _)) & _). pose proof (ok_n _ G). unfold sp_n. lia. Qed.
Lemma placed_sub lo hi lo' hi' s : lo' <= lo -> hi <= hi' -> placed geo_ok lo hi s -> placed geo_ok lo' hi' s.
Proof.
  intros H1 H2 ((np & (A1 & A2 & A3 & A4 & A5)) & B). split; [|exact B]. exists np.
  split; [exact A1|]. split; [exact A2|]. split; [lra|]. split; assumption.
Qed.
Lemma line_settled Ta dm Tin ss Tout : line geo_ok Ta dm Tin ss Tout -> 0 <= Ta <= 100 ->
  forall big, incl ss big -> Ta <= Tin <= 100 \/ cell_of big Tin -> Ta <= Tout <= 100 ->
  Forall (fun s => placed geo_ok Ta 100 s /\
    forall i, (i < g_np (sp_geo s))%nat -> Ta <= sp_P s i <= 100 \/ cell_of big (sp_P s i)) ss.
Proof.
  intros H HA. induction H as [s PL KD|s s' ss Tout PL KD E HL IH]; intros big IB HI HO.
  - constructor; [|constructor]. split; [apply (placed_sub Ta Ta); [lra|lra|exact PL]|].
    destruct PL as ((np & (_ & _ & _ & _ & HK)) & _). rewrite KD in HK. destruct HK as (N2 & _).
    intros i Hi. rewrite N2 in Hi. destruct i as [|[|i]]; [exact HI|left; exact HO|lia].
  - constructor.
    + split; [apply (placed_sub Ta Ta); [lra|lra|exact PL]|].
      destruct PL as ((np & (_ & _ & _ & _ & HK)) & _). rewrite KD in HK. destruct HK as (N2 & _).
      intros i Hi. rewrite N2 in Hi. destruct i as [|[|i]]; [exact HI| |lia].
      right. rewrite E. destruct (line_head _ _ _ _ _ _ _ HL) as (_ & PL' & _). pose proof (placed_n _ _ PL').
      exists s', 0%nat. split; [apply IB; right; left; reflexivity|]. split; [lia|reflexivity].
    + apply IH; [intros x Hx; apply IB; right; exact Hx| |exact HO]. right.
      pose proof (placed_n _ _ PL). exists s, (sp_n s - 1)%nat. split; [apply IB; left; reflexivity|]. split; [lia|].
      unfold last_cell. f_equal. lia.
Qed.
Fixpoint shares_of (dm : R) (ss : list spot) : R :=
  match ss with [] => 1 | s :: ss' => shares dm s * shares_of dm ss' end.
Lemma cells_ne s : (1 <= sp_n s)%nat -> cells s <> [].
Proof. intros H. unfold cells. destruct (sp_n s); [lia|discriminate]. Qed.
Lemma last_app (l l' : list R) a : l' <> [] -> last (l ++ l') a = last l' a.
Proof.
  intros H. induction l as [|x l IH]; [reflexivity|]. cbn [app]. rewrite <- IH.
  destruct (l ++ l') eqn:E; [apply app_eq_nil in E; destruct E; contradiction|reflexivity].
Qed.
Lemma line_falls Ta dm Tin ss Tout : line geo_ok Ta dm Tin ss Tout -> 0 <= dm -> 0 <= Ta <= 100 ->
  (forall x, cell_of ss x -> Ta <= x <= 100) -> 0 <= Tin <= 100 -> 0 <= Tout <= last (flat_map cells ss) Tin ->
  Sorted Rge (Tin :: flat_map cells ss) /\ last (flat_map cells ss) Tin - Ta <= shares_of dm ss * (Tin - Ta) /\
  0 < shares_of dm ss < 1.
Proof.
  intros H HD HA. induction H as [s PL KD|s s' ss Tout PL KD E HL IH]; intros HC HI HO.
  - pose proof (placed_n _ _ PL) as Hn. cbn [flat_map] in *. rewrite app_nil_r in *. rewrite (cells_last s) in * by lia.
    assert (W : forall j, (j < sp_n s)%nat -> Ta <= sp_T s (S j)).
    { intros j Hj. apply HC. exists s, j. split; [left; reflexivity|]. split; [exact Hj|reflexivity]. }
    assert (LC : last_cell s <= 100).
    { apply HC. exists s, (sp_n s - 1)%nat. split; [left; reflexivity|]. split; [lia|]. unfold last_cell. f_equal. lia. }
    assert (P1 : 0 <= sp_P s 1%nat <= 100) by lra.
    cbn [shares_of]. rewrite Rmult_1_r.
    split; [|split].
    + apply (pipe_sorted s Ta dm PL KD HD HA HI P1 W). lra.
    + apply (pipe_cools s Ta dm PL KD HD HA HI P1 W). lra.
    + apply (shares_in s Ta dm PL KD HD HA HI P1 W).
  - pose proof (placed_n _ _ PL) as Hn. destruct (line_head _ _ _ _ _ _ _ HL) as (HP & PL' & _). pose proof (placed_n _ _ PL') as Hn'.
    assert (CS : forall j, (j < sp_n s)%nat -> Ta <= sp_T s (S j) <= 100).
    { intros j Hj. apply HC. exists s, j. split; [left; reflexivity|]. split; [exact Hj|reflexivity]. }
    assert (LC : Ta <= last_cell s <= 100).
    { pose proof (CS (sp_n s - 1)%nat ltac:(lia)) as Q. replace (S (sp_n s - 1)) with (sp_n s) in Q by lia. exact Q. }
    assert (NE : flat_map cells (s' :: ss) <> []).
    { cbn [flat_map]. intros Q. apply app_eq_nil in Q. destruct Q as [Q _]. revert Q. apply cells_ne. lia. }
    change (flat_map cells (s :: s' :: ss)) with (cells s ++ flat_map cells (s' :: ss)) in *.
    rewrite last_app in * by exact NE. rewrite (last_any _ (sp_P s 0%nat) (last_cell s) NE) in *.
    destruct IH as (I1 & I2 & I3); [|lra|exact HO|].
    { intros x (q & j & Hq & Hj & Ex). apply HC. exists q, j. split; [right; exact Hq|]. split; assumption. }
    assert (P1 : 0 <= sp_P s 1%nat <= 100 /\ sp_P s 1%nat <= last_cell s).
    { rewrite E. assert (C1 : Ta <= sp_T s' 1%nat <= 100).
      { apply HC. exists s', 0%nat. split; [right; left; reflexivity|]. split; [lia|reflexivity]. }
      split; [lra|]. inversion I1 as [|? ? _ HR]; subst. cbn [flat_map] in HR. unfold cells in HR.
      destruct (sp_n s') as [|m]; [lia|]. cbn [seq map app] in HR. inversion HR; subst. lra. }
    destruct P1 as [P1 P2].
    assert (W : forall j, (j < sp_n s)%nat -> Ta <= sp_T s (S j)) by (intros j Hj; apply CS, Hj).
    pose proof (pipe_sorted s Ta dm PL KD HD HA HI P1 W P2) as S1.
    pose proof (pipe_cools s Ta dm PL KD HD HA HI P1 W P2) as S2.
    pose proof (shares_in s Ta dm PL KD HD HA HI P1 W) as S3.
    split; [|split].
    + apply sorted_glue; [exact S1|]. rewrite (cells_last s) by lia. exact I1.
    + change (shares_of dm (s :: s' :: ss)) with (shares dm s * shares_of dm (s' :: ss)).
      eapply Rle_trans; [exact I2|]. rewrite (Rmult_comm (shares dm s)), Rmult_assoc. apply Rmult_le_compat_l; lra.
    + change (shares_of dm (s :: s' :: ss)) with (shares dm s * shares_of dm (s' :: ss)).
      set (a := shares dm s) in *. set (b := shares_of dm (s' :: ss)) in *. clearbody a b. split; [apply Rmult_lt_0_compat; lra|]. nra.
Qed.
