(** C186: steady states. *)
From Coq Require Import Reals Ranalysis5 List Arith Bool Lra Lia Sorted.
From Verif Require Import MFlow MWater MDiff SFlow SDiff MSolver MHeun MRange SRange SSteady LFlow LPoly LWater LDiff LDiff2 LDiff3
  LDiff4 LDiff5 LDiff7 LRange LRange2 LRest PDiff LSteady LSteady2 PRest2.
Import ListNotations.
Open Scope R_scope.

(** In a network of pipes, branched pipes and storages (any wiring, loops included) whose temperatures no
    longer change, no cell and no port is colder or warmer than the surroundings. *)
Theorem C186_range : forall lo hi ss, 0 <= lo -> lo <= hi -> hi <= 100 -> settled geo_ok lo hi ss ->
  forall s, In s ss -> (forall j, (j < sp_n s)%nat -> lo <= sp_T s (S j) <= hi) /\
    (forall i, (i < g_np (sp_geo s))%nat -> lo <= sp_P s i <= hi).
Proof.
  intros lo hi ss H1 H2 H3 ST s Hs. pose proof (settled_range lo hi ss H1 H2 H3 ST) as Q. split.
  - intros j Hj. apply Q. exists s, j. split; [exact Hs|]. split; [exact Hj|reflexivity].
  - intros i Hi. unfold settled in ST. rewrite Forall_forall in ST. destruct (ST s Hs) as [_ P].
    destruct (P i Hi) as [A|A]; [exact A|apply Q, A].
Qed.
Print Assumptions C186_range.

Lemma line_cells Ta dm Tin ss Tout : line geo_ok Ta dm Tin ss Tout -> 0 <= Ta <= Tin -> Tin <= 100 ->
  Ta <= Tout <= last (flat_map cells ss) Tin -> forall x, cell_of ss x -> Ta <= x <= 100.
Proof.
  intros H HA HI HO. destruct (Rle_dec Tout 100) as [T1|T1].
  - apply settled_range; try lra. apply (line_settled Ta dm Tin ss Tout H ltac:(lra) ss (fun x h => h)); [left|]; lra.
  - exfalso. apply T1. destruct (flat_map cells ss) as [|c l] eqn:E; [cbn in HO; lra|].
    assert (Q : In (last (c :: l) Tin) (c :: l)).
    { assert (NE : c :: l <> []) by discriminate. destruct (exists_last NE) as (l' & z & ->). rewrite last_last.
      apply in_or_app. right. left. reflexivity. }
    rewrite <- E in Q. apply cell_in in Q. destruct Q as (q & j & Hq & Hj & Ex).
    assert (P : forall Ti l0 To, line geo_ok Ta dm Ti l0 To -> Forall (placed geo_ok Ta Ta) l0).
    { induction 1; constructor; try assumption; constructor. }
    pose proof (P _ _ _ H) as PP. rewrite Forall_forall in PP. destruct (PP q Hq) as (_ & _ & _ & T & _).
    specialize (T j Hj). rewrite <- Ex, E in T. lra.
Qed.

(** Along a line of pipes in a colder room the temperature falls from cell to cell and stays above that
    of the room. *)
Theorem C186_falls : forall Ta dm Tin ss Tout, line geo_ok Ta dm Tin ss Tout -> 0 <= dm ->
  0 <= Ta <= Tin -> Tin <= 100 -> Ta <= Tout <= last (flat_map cells ss) Tin ->
  StronglySorted Rge (Tin :: flat_map cells ss) /\ Forall (fun T => Ta <= T) (flat_map cells ss).
Proof.
  intros Ta dm Tin ss Tout H HD HA HI HO. pose proof (line_cells Ta dm Tin ss Tout H HA HI HO) as C.
  destruct (line_falls Ta dm Tin ss Tout H HD ltac:(lra) C ltac:(lra) ltac:(lra)) as (S1 & _).
  split.
  - apply Sorted_StronglySorted; [|exact S1]. intros x y z Hx Hy. lra.
  - apply Forall_forall. intros x Hx. apply cell_in in Hx. apply C, Hx.
Qed.
Print Assumptions C186_falls.

(** The excess temperature at the end is at most the product of the shares the cells let pass; every cell
    takes something away. *)
Theorem C186_cooling : forall Ta dm Tin ss Tout, line geo_ok Ta dm Tin ss Tout -> 0 <= dm ->
  0 <= Ta <= Tin -> Tin <= 100 -> Ta <= Tout <= last (flat_map cells ss) Tin ->
  last (flat_map cells ss) Tin - Ta <= fold_right (fun s acc => shares dm s * acc) 1 ss * (Tin - Ta) /\
  0 < fold_right (fun s acc => shares dm s * acc) 1 ss < 1.
Proof.
  intros Ta dm Tin ss Tout H HD HA HI HO. pose proof (line_cells Ta dm Tin ss Tout H HA HI HO) as C.
  destruct (line_falls Ta dm Tin ss Tout H HD ltac:(lra) C ltac:(lra) ltac:(lra)) as (_ & S2 & S3).
  assert (E : forall l, shares_of dm l = fold_right (fun s acc => shares dm s * acc) 1 l).
  { induction l as [|a l IH]; [reflexivity|]. cbn [shares_of fold_right]. rewrite IH. reflexivity. }
  rewrite E in S2, S3. split; assumption.
Qed.
Print Assumptions C186_cooling.

(** ** A steady pipe *)
(** Cells at [a] and 40 degrees, water of [p] degrees enters, 40 degrees behind the pipe, room of 20. *)
Definition nw : node := mkNode gl (KPipe (1/1000)) 20 (fun i => i) [1; 1].
Definition Tw (a : R) : arr := fun k => match k with 1%nat => a | 2%nat => 40 | _ => 0 end.
Definition Pw (p : R) : arr := fun i => match i with 0%nat => p | _ => 40 end.
Definition sw (a p : R) : spot := mkSpot nw (Tw a) (Pw p) buf0 flows0.
Definition tbw (a : R) : R := 1256/100000000 * (2 * lambda_water a * lambda_water 40 / (lambda_water a + lambda_water 40)) + 28/10000000.
Definition upw (a p : R) : R := 1256/100000000 / (1 / (2 * lambda_water p) + 1 / (2 * lambda_water a)) + 28/10000000.
Lemma sw_range a p : 0 <= a <= 100 -> 0 <= p <= 100 -> range_ok gl (Tw a) (Pw p) 20.
Proof.
  intros Ha Hp. split; [|split; [|lra]].
  - intros [|[|j]] Hj; cbn in *; try lra; lia.
  - intros [|[|j]] Hj; cbn in *; try lra; lia.
Qed.
Lemma sw_tot a p j : 0 <= a <= 100 -> 0 <= p <= 100 -> (j < 2)%nat ->
  r_mcp (sp_res (sw a p)) j * r_tot (sp_res (sw a p)) j =
  match j with
  | O => 1/1000 * (u_water p - u_water a) + upw a p * (p - a) - r_ua (sp_res (sw a p)) 0%nat * (a - 20) - tbw a * (a - 40)
  | _ => 1/1000 * (u_water a - u_water 40) + tbw a * (a - 40) - r_ua (sp_res (sw a p)) 1%nat * 20
  end.
Proof.
  intros Ha Hp Hj. pose proof (sw_range a p Ha Hp) as RG.
  pose proof (flux gl lam_mean (fun _ => 1/1000) (process_flow_invar 2 2 (1/1000) flows0) false (Tw a) (Pw p) 20 buf0 gl_ok 0 100 ltac:(lra) ltac:(lra)
      (proj1 RG) (proj1 (proj2 RG)) ltac:(lra) j Hj) as FX.
  destruct (tb_ends gl lam_mean (fun _ => 1/1000) (process_flow_invar 2 2 (1/1000) flows0) false no_heat (Tw a) (Pw p) 20 buf0) as [E0 En].
  change (part_diff gl lam_mean (fun _ => 1/1000) (process_flow_invar 2 2 (1/1000) flows0) false no_heat (Tw a) (Pw p) 20 buf0) with (sp_res (sw a p)) in FX, E0, En.
  rewrite FX. clear FX. change (r_tb (sp_res (sw a p)) (g_n gl)) with (r_tb (sp_res (sw a p)) 2%nat) in En.
  assert (E1 : r_tb (sp_res (sw a p)) 1%nat = tbw a).
  { change (r_tb (sp_res (sw a p)) 1%nat) with (1256/100000000 / 1 * lam_mean (fun j => lambda_water (Tw a (S j))) 0%nat + 28/10000000).
    unfold tbw, lam_mean. cbn [Tw]. f_equal. f_equal. field. }
  assert (E2 : r_uap (sp_res (sw a p)) 0%nat = upw a p) by reflexivity.
  set (tb := r_tb (sp_res (sw a p))) in *. set (ua := r_ua (sp_res (sw a p))). set (uap := r_uap (sp_res (sw a p))) in *. clearbody tb ua uap.
  unfold lid_at, at_cell, process_flow_invar. destruct (Rle_dec 0 (1/1000)); [|lra].
  destruct j as [|[|j]]; [..|lia]; cbn [rsum gl g_np g_own Nat.eqb f_top f_bot f_port]; unfold fill, put; cbn [Nat.leb Nat.ltb Nat.sub Nat.eqb andb Tw Pw];
    rewrite ?E0, ?En, ?E1, ?E2; cbn [flows0 f_top f_bot f_port]; lra.
Qed.
Lemma sw_ua a p j : 0 <= a <= 100 -> 0 <= p <= 100 -> (j < 2)%nat -> 0 < r_ua (sp_res (sw a p)) j <= 0.121.
Proof.
  intros Ha Hp Hj.
  destruct (ua_bounds gl lam_mean (fun _ => 1/1000) (process_flow_invar 2 2 (1/1000) flows0) false no_heat (Tw a) (Pw p) 20 buf0 gl_ok
    (buf0_ok gl gl_ok) (sw_range a p Ha Hp) j Hj) as (U1 & _ & _ & U2).
  specialize (U2 ltac:(cbn; lra)). cbn [gl g_Ai g_li g_rli] in U2.
  change (part_diff gl lam_mean (fun _ => 1/1000) (process_flow_invar 2 2 (1/1000) flows0) false no_heat (Tw a) (Pw p) 20 buf0) with (sp_res (sw a p)) in U1, U2.
  lra.
Qed.
Lemma cont_lambda x : continuity_pt lambda_water x.
Proof. unfold lambda_water. reg. Qed.
Lemma cont_u x : continuity_pt u_water x.
Proof. unfold u_water, cp_water. reg. Qed.
Lemma cont_tbw x : 0 <= x <= 100 -> continuity_pt tbw x.
Proof.
  intros Hx. pose proof (lambda_bounds x Hx). pose proof (lambda_bounds 40 ltac:(lra)).
  unfold tbw. apply continuity_pt_plus; [|apply continuity_pt_const; intros ? ?; reflexivity].
  apply continuity_pt_mult; [apply continuity_pt_const; intros ? ?; reflexivity|].
  apply (continuity_pt_div (fun a => 2 * lambda_water a * lambda_water 40) (fun a => lambda_water a + lambda_water 40)).
  - apply (continuity_pt_mult (fun a => 2 * lambda_water a) (fun _ => lambda_water 40)); [|apply continuity_pt_const; intros ? ?; reflexivity].
    apply (continuity_pt_mult (fun _ => 2) lambda_water); [apply continuity_pt_const; intros ? ?; reflexivity|apply cont_lambda].
  - apply (continuity_pt_plus lambda_water (fun _ => lambda_water 40)); [apply cont_lambda|apply continuity_pt_const; intros ? ?; reflexivity].
  - lra.
Qed.
Lemma cont_upw a x : 0 <= a <= 100 -> 0 <= x <= 100 -> continuity_pt (upw a) x.
Proof.
  intros Ha Hx. pose proof (lambda_bounds x Hx). pose proof (lambda_bounds a Ha).
  assert (P1 : 0 < 1 / (2 * lambda_water x)) by (apply Rdiv_lt_0_compat; lra).
  assert (P2 : 0 < 1 / (2 * lambda_water a)) by (apply Rdiv_lt_0_compat; lra).
  unfold upw. apply continuity_pt_plus; [|apply continuity_pt_const; intros ? ?; reflexivity].
  apply (continuity_pt_div (fun _ => 1256/100000000) (fun p => 1 / (2 * lambda_water p) + 1 / (2 * lambda_water a)));
    [apply continuity_pt_const; intros ? ?; reflexivity| |lra].
  apply (continuity_pt_plus (fun p => 1 / (2 * lambda_water p)) (fun _ => 1 / (2 * lambda_water a))); [|apply continuity_pt_const; intros ? ?; reflexivity].
  apply (continuity_pt_div (fun _ => 1) (fun p => 2 * lambda_water p)); [apply continuity_pt_const; intros ? ?; reflexivity| |lra].
  apply (continuity_pt_mult (fun _ => 2) lambda_water); [apply continuity_pt_const; intros ? ?; reflexivity|apply cont_lambda].
Qed.
Lemma tbw_in a : 0 <= a <= 100 -> 0 < tbw a < 1/10000.
Proof.
  intros Ha. pose proof (lambda_bounds a Ha). pose proof (lambda_bounds 40 ltac:(lra)). unfold tbw.
  destruct (lam_mean_laws (lambda_water a) (lambda_water 40) ltac:(lra) ltac:(lra)) as [[A B] _].
  assert (Rmax (lambda_water a) (lambda_water 40) <= 0.7) by (apply Rmax_lub; lra).
  assert (0.5 <= Rmin (lambda_water a) (lambda_water 40)) by (apply Rmin_glb; lra).
  set (m := 2 * lambda_water a * lambda_water 40 / (lambda_water a + lambda_water 40)) in *. clearbody m. lra.
Qed.
Lemma upw_pos a p : 0 <= a <= 100 -> 0 <= p <= 100 -> 0 < upw a p.
Proof.
  intros Ha Hp. pose proof (lambda_bounds p Hp). pose proof (lambda_bounds a Ha).
  assert (P1 : 0 < 1 / (2 * lambda_water p)) by (apply Rdiv_lt_0_compat; lra).
  assert (P2 : 0 < 1 / (2 * lambda_water a)) by (apply Rdiv_lt_0_compat; lra).
  unfold upw. assert (0 < 1256 / 100000000 / (1 / (2 * lambda_water p) + 1 / (2 * lambda_water a))) by (apply Rdiv_lt_0_compat; lra). lra.
Qed.
Ltac kst := apply continuity_pt_const; intros ? ?; reflexivity.
Example C186_ex : exists a p, 40 < a < 60 /\ a < p < 90 /\
  line geo_ok 20 (1/1000) p [sw a p] 40 /\ flat_map cells [sw a p] = [a; 40].
Proof.
  set (U2 := r_ua (sp_res (sw 40 40)) 1%nat).
  assert (HU2 : 0 < U2 <= 0.121) by (apply sw_ua; lra || lia).
  assert (U2is : forall a p, r_ua (sp_res (sw a p)) 1%nat = U2) by reflexivity.
  destruct (IVT_interv (fun a => 1/1000 * (u_water a - u_water 40) + tbw a * (a - 40) - U2 * 20) 40 60) as (a & Ha & Ea).
  { intros x Hx. apply continuity_pt_minus; [|kst]. apply continuity_pt_plus.
    - apply continuity_pt_mult; [kst|]. apply continuity_pt_minus; [apply cont_u|kst].
    - apply continuity_pt_mult; [apply cont_tbw; lra|]. apply continuity_pt_minus; [apply derivable_continuous_pt, derivable_pt_id|kst]. }
  { lra. } { lra. }
  { pose proof (tbw_in 60 ltac:(lra)). unfold u_water, cp_water. lra. }
  assert (A1 : 40 < a < 60).
  { split; [destruct (Rle_dec a 40)|destruct (Rle_dec 60 a)]; try lra; exfalso.
    - replace a with 40 in Ea by lra. lra.
    - replace a with 60 in Ea by lra. pose proof (tbw_in 60 ltac:(lra)). unfold u_water, cp_water in Ea. lra. }
  set (U1 := r_ua (sp_res (sw a 40)) 0%nat).
  assert (HU1 : 0 < U1 <= 0.121) by (apply sw_ua; lra || lia).
  assert (U1is : forall p, r_ua (sp_res (sw a p)) 0%nat = U1) by reflexivity.
  pose proof (tbw_in a ltac:(lra)) as TB.
  assert (LO : 0 < U1 * (a - 20)) by (apply Rmult_lt_0_compat; lra).
  assert (LO1 : 0 < tbw a * (a - 40)) by (apply Rmult_lt_0_compat; lra).
  assert (LO2 : U1 * (a - 20) <= 0.121 * 40) by (apply Rmult_le_compat; lra).
  assert (LO3 : tbw a * (a - 40) <= 1 * 20) by (apply Rmult_le_compat; lra).
  assert (UP : 0 < upw a 90 * (90 - a)) by (apply Rmult_lt_0_compat; [apply upw_pos|]; lra).
  pose proof (u_increasing a 60 ltac:(lra) ltac:(lra) ltac:(lra)) as UI.
  assert (HG : 0 < 1/1000 * (u_water 90 - u_water a) + upw a 90 * (90 - a) - U1 * (a - 20) - tbw a * (a - 40)).
  { assert (100000 <= u_water 90 - u_water 60) by (unfold u_water, cp_water; lra). lra. }
  destruct (IVT_interv (fun p => 1/1000 * (u_water p - u_water a) + upw a p * (p - a) - U1 * (a - 20) - tbw a * (a - 40)) a 90) as (p & Hp & Ep).
  { intros x Hx. apply continuity_pt_minus; [|kst]. apply continuity_pt_minus; [|kst]. apply continuity_pt_plus.
    - apply continuity_pt_mult; [kst|]. apply continuity_pt_minus; [apply cont_u|kst].
    - apply continuity_pt_mult; [apply (cont_upw a x); lra|]. apply continuity_pt_minus; [apply derivable_continuous_pt, derivable_pt_id|kst]. }
  { lra. } { lra. } { exact HG. }
  exists a, p. split; [exact A1|]. split.
  { split; [destruct (Rle_dec p a)|destruct (Rle_dec 90 p)]; try lra; exfalso.
    - replace p with a in Ep by lra. lra.
    - replace p with 90 in Ep by lra. lra. }
  split; [|reflexivity].
  apply (ln_end geo_ok 20 (1/1000) (sw a p)); [|reflexivity]. split; [|split; [|split; [|split]]].
  - exists 2%nat. split; [reflexivity|]. split; [exact gl_ok|]. split; [cbn; lra|]. split; [intros i Hi; exact Hi|repeat split; reflexivity].
  - constructor.
  - constructor.
  - intros [|[|j]] Hj; cbn in *; try lra; lia.
  - intros j Hj. change (sp_n (sw a p)) with 2%nat in Hj.
    pose proof (sw_tot a p j ltac:(lra) ltac:(lra) Hj) as Q.
    assert (M : 0 < r_mcp (sp_res (sw a p)) j) by
      apply (mcp_pos gl lam_mean (fun _ => 1/1000) (process_flow_invar 2 2 (1/1000) flows0) false no_heat (Tw a) (Pw p) 20 buf0 gl_ok (sw_range a p ltac:(lra) ltac:(lra)) j Hj).
    assert (Z : r_mcp (sp_res (sw a p)) j * r_tot (sp_res (sw a p)) j = 0).
    { rewrite Q. destruct j as [|[|j]]; [|rewrite (U2is a p); exact Ea|lia]. rewrite (U1is p). exact Ep. }
    apply Rmult_integral in Z. destruct Z as [Z|Z]; [lra|exact Z].
Qed.
