(** Explicit step limits for network nodes (C156). *)
From Coq Require Import Reals List Arith Bool Lia Lra.
From Verif Require Import MFlow MWater MDiff SFlow SDiff MSolver MHeun MRange SRange LFlow LWater LDiff
  LDiff2 LDiff3 LDiff4 LDiff5 LDiff7.
Import ListNotations.
Open Scope R_scope.

(** ** A cell takes in no more than enters the part *)
Lemma rsum_split3 np (a b c d : nat -> R) : (forall i, (i < np)%nat -> a i + b i + c i <= d i) ->
  rsum np a + rsum np b + rsum np c <= rsum np d.
Proof. intros H. induction np as [|np IH]; cbn; [lra|]. specialize (IH ltac:(auto with arith)). pose proof (H np ltac:(lia)). lra. Qed.

Lemma var_inflow n np own io f j : (1 <= n)%nat -> (1 <= np)%nat -> sorted_ports n np own -> ends0 n f ->
  rsum np io = 0 -> (j < n)%nat ->
  let g := fst (process_flow_var n np own io f) in
  cell_in (f_top g) (f_bot g) np own (f_port g) j <= rsum np (fun i => Rmax 0 (io i)).
Proof.
  intros Hn Hp Hs [E0 E1] H0 Hj g.
  assert (Ht : f_top g j = if (j =? 0)%nat then 0 else Rmax 0 (above np own io (j-1))).
  { unfold g. cbn [process_flow_var fst f_top]. rewrite clip0_max.
    destruct (Nat.eqb_spec j 0) as [->|Ej]; [cbn; rewrite E0, Rmax_left; lra|].
    replace (1 <=? j)%nat with true by (symmetry; apply Nat.leb_le; lia).
    replace (j <? n)%nat with true by (symmetry; apply Nat.ltb_lt; lia). cbn [andb].
    rewrite (dm_val n) by assumption. reflexivity. }
  assert (Hb : f_bot g j = if (j =? n-1)%nat then 0 else Rmax 0 (- above np own io j)).
  { unfold g. cbn [process_flow_var fst f_bot]. rewrite clip0_max.
    destruct (Nat.eqb_spec j (n-1)) as [->|Ej].
    - rewrite Nat.ltb_irrefl, E1, Rmax_left; lra.
    - replace (j <? n-1)%nat with true by (symmetry; apply Nat.ltb_lt; lia).
      rewrite (dm_val n) by assumption. reflexivity. }
  assert (Hport : forall i, f_port g i = Rmax 0 (io i)) by (intros i; apply clip0_max).
  set (A := fun i => if (own i <? j)%nat then Rmax 0 (io i) else 0).
  set (B := fun i => if (j <? own i)%nat then Rmax 0 (io i) else 0).
  assert (T : f_top g j <= rsum np A).
  { assert (P : 0 <= rsum np A).
    { apply Rle_trans with (rsum np (fun _ => 0)); [clear; induction np; cbn; lra|]. apply rsum_le.
      intros i _. unfold A. destruct (own i <? j)%nat; [apply Rmax_l|lra]. }
    rewrite Ht. destruct (Nat.eqb_spec j 0); [exact P|]. apply Rmax_lub; [exact P|].
    unfold above. apply rsum_le. intros i _. unfold A.
    destruct (Nat.leb_spec (own i) (j - 1)), (Nat.ltb_spec (own i) j); try lia; [apply Rmax_r|lra]. }
  assert (Bt : f_bot g j <= rsum np B).
  { assert (P : 0 <= rsum np B).
    { apply Rle_trans with (rsum np (fun _ => 0)); [clear; induction np; cbn; lra|]. apply rsum_le.
      intros i _. unfold B. destruct (j <? own i)%nat; [apply Rmax_l|lra]. }
    rewrite Hb. destruct (Nat.eqb_spec j (n-1)); [exact P|]. apply Rmax_lub; [exact P|].
    assert (E : - above np own io j = rsum np (fun i => io i - (if (own i <=? j)%nat then io i else 0))).
    { rewrite rsum_minus, H0. unfold above. ring. }
    rewrite E. apply rsum_le. intros i _. unfold B.
    destruct (Nat.leb_spec (own i) j), (Nat.ltb_spec j (own i)); try lia;
      [lra|]. pose proof (Rmax_r 0 (io i)). lra. }
  unfold cell_in.
  assert (R : rsum np A + rsum np B + at_cell np own (f_port g) j <= rsum np (fun i => Rmax 0 (io i))).
  { unfold at_cell. apply rsum_split3. intros i _. unfold A, B. rewrite Hport. pose proof (Rmax_l 0 (io i)).
    destruct (Nat.ltb_spec (own i) j), (Nat.ltb_spec j (own i)), (Nat.eqb_spec (own i) j); try lia; lra. }
  lra.
Qed.

(** ** Bounds of the single conductances *)
Lemma div_le_mono a b c : 0 <= a -> 0 < c -> c <= b -> a / b <= a / c.
Proof.
  intros Ha Hc Hb. unfold Rdiv. apply Rmult_le_compat_l; [exact Ha|]. apply Rinv_le_contravar; assumption.
Qed.
Lemma ua_port_le g Tp T i : geo_ok g -> (i < g_np g)%nat -> 0 <= Tp i <= 100 ->
  (forall j, (j < g_n g)%nat -> 0 <= T j <= 100) ->
  ua_port g Tp T i <= 1.362 * g_pA g i / g_gsp g + g_pw g i.
Proof.
  intros G Hi HP HT. unfold ua_port. pose proof (lambda_bounds _ HP).
  pose proof (lambda_bounds _ (HT _ (ok_own g G i Hi))) as L. destruct G.
  specialize (ok_pgsp i). specialize (ok_pA i).
  assert (0 <= g_pgsp g i / (2 * lambda_water (Tp i)))
    by (apply Rmult_le_pos; [lra|apply Rlt_le, Rinv_0_lt_compat; lra]).
  assert (Q : 0 < g_gsp g / 1.362) by lra.
  assert (Q2 : g_gsp g / 1.362 <= g_gsp g / (2 * lambda_water (T (g_own g i)))) by (apply div_le_mono; lra).
  pose proof (div_le_mono (g_pA g i) (g_pgsp g i / (2 * lambda_water (Tp i)) +
     g_gsp g / (2 * lambda_water (T (g_own g i)))) (g_gsp g / 1.362) ltac:(lra) Q ltac:(lra)) as D.
  replace (1.362 * g_pA g i / g_gsp g) with (g_pA g i / (g_gsp g / 1.362)); [lra|].
  unfold Rdiv. rewrite Rinv_mult, Rinv_inv. ring.
Qed.
Lemma ua_plate_le g ai ainf : geo_ok g -> 0 < ai -> 0 <= ainf -> 0 < g_sins g ->
  ua_plate g ai ainf <= g_A g * g_li g / g_sins g.
Proof.
  intros G Ha Hi Hs. unfold ua_plate. destruct G.
  assert (P : 0 < g_sins g / g_li g) by (apply Rdiv_lt_0_compat; lra).
  replace (g_A g * g_li g / g_sins g) with (g_A g / (g_sins g / g_li g)).
  2:{ unfold Rdiv. rewrite Rinv_mult, Rinv_inv. ring. }
  destruct (Req_EM_T ainf 0); [apply Rlt_le, Rdiv_lt_0_compat; lra|].
  assert (0 < 1 / ai) by (apply Rdiv_lt_0_compat; lra).
  assert (0 < 1 / ainf) by (apply Rdiv_lt_0_compat; lra).
  assert (0 <= g_swll g / g_lw g) by (apply Rmult_le_pos; [lra|apply Rlt_le, Rinv_0_lt_compat; lra]).
  apply div_le_mono; lra.
Qed.
Lemma ua_tb_le g lmean l k : geo_ok g -> 0 <= l -> (forall q, (S q < g_n g)%nat -> lmean q <= l) ->
  ua_tb g lmean k <= l * g_A g / g_gsp g + g_tbw g.
Proof.
  intros G Hl H. unfold ua_tb. destruct G.
  assert (P : 0 < g_A g / g_gsp g) by (apply Rdiv_lt_0_compat; lra).
  replace (l * g_A g / g_gsp g) with (g_A g / g_gsp g * l) by (unfold Rdiv; ring).
  destruct ((1 <=? k)%nat && (k <? g_n g)%nat)%bool eqn:E.
  - apply andb_prop in E. destruct E as [E1 E2]. apply Nat.leb_le in E1. apply Nat.ltb_lt in E2.
    specialize (H (k - 1)%nat ltac:(lia)). nra.
  - nra.
Qed.
Lemma lam_mean_le g (Tx : arr) q : (forall j, (j < g_n g)%nat -> 0 <= Tx (S j) <= 100) -> (S q < g_n g)%nat ->
  0 <= lam_mean (fun j => lambda_water (Tx (S j))) q <= 0.681.
Proof.
  intros HT Hq. pose proof (lambda_bounds _ (HT q ltac:(lia))). pose proof (lambda_bounds _ (HT (S q) ltac:(lia))).
  pose proof (lam_mean_between (fun j => lambda_water (Tx (S j))) q (569/1000) 0.681). cbn beta in *.
  destruct H1; lra.
Qed.
Lemma buoyancy_le g (Tx : arr) N q : (forall j, (j < g_n g)%nat -> 0 <= Tx (S j) <= 100) -> (S q < g_n g)%nat ->
  (forall T d, 0 <= T <= 100 -> 0 <= d <= 100 -> buoyancy_nu (g_di g) T d <= N) ->
  buoyancy (g_n g) (g_di g) (fun j => Tx (S j)) (lam_mean (fun j => lambda_water (Tx (S j)))) q
    <= 0.681 * Rmax 1 (20 * N).
Proof.
  intros HT Hq HN. pose proof (lam_mean_le g Tx q HT Hq) as L. set (l := lam_mean _ q) in *.
  pose proof (Rmax_l 1 (20 * N)) as M1. pose proof (Rmax_r 1 (20 * N)) as M2.
  unfold buoyancy. destruct (no_inversion _ _); [fold l; nra|].
  cbv zeta. fold l. match goal with |- context[buoyancy_nu ?a ?b ?c] => pose proof (HN b c) as B end.
  pose proof (HT q ltac:(lia)). pose proof (HT (S q) ltac:(lia)).
  match type of B with _ -> _ -> ?x <= _ => set (nu := x) in * end.
  destruct (Rle_dec 1 nu); [|nra].
  assert (BB : nu <= N). { apply B; [lra|]. destruct (Rlt_dec _ 0); lra. }
  nra.
Qed.

(** ** The limit of a node *)
Lemma at_cell_rsum np own c d j : (forall i, (i < np)%nat -> 0 <= c i <= d i) -> at_cell np own c j <= rsum np d.
Proof.
  intros H. unfold at_cell. apply rsum_le. intros i Hi. destruct (own i =? j)%nat; specialize (H i Hi); lra.
Qed.

Lemma node_limit_short lo hi hmax np g p N : node_ok geo_ok lo hi np g p ->
  0 <= lo -> hi <= 100 -> 0 <= hmax -> 0 < g_rli g ->
  match nd_kind p with
  | KTes _ => 0 < g_sins g /\ (forall T d, 0 <= T <= 100 -> 0 <= d <= 100 -> buoyancy_nu (g_di g) T d <= N)
  | _ => True end ->
  hmax * node_limit p N <= 3994860 * g_V g + g_mw g -> short lo hi hmax p.
Proof.
  intros (Eg&G&HA&_&HK) Hlo Hhi Hh Hr HN HL Tx Tp b f. rewrite Eg. intros B F HT HP j Hj.
  pose proof (bufs_at_ok g b G B) as B'. pose proof (ok_n g G) as Hn.
  pose proof (flows_at_ends g f ltac:(lia) F) as HE.
  assert (HT' : forall j, (j < g_n g)%nat -> 0 <= Tx (S j) <= 100) by (intros k Hk; specialize (HT k Hk); lra).
  assert (HP' : forall i, (i < g_np g)%nat -> 0 <= Tp i <= 100) by (intros i Hi; specialize (HP i Hi); lra).
  assert (RG : range_ok g Tx Tp (nd_amb p)) by (repeat split; try lra; first [apply HT'; assumption|apply HP'; assumption]).
  assert (CP : 3994860 * g_V g + g_mw g <= capacity g Tx j).
  { unfold capacity. pose proof (rhocp_bounds (Tx (S j)) (HT' j Hj)). pose proof (ok_V g G). nra. }
  eapply Rle_trans; [|exact CP]. eapply Rle_trans; [|exact HL]. apply Rmult_le_compat_l; [exact Hh|].
  assert (UP : at_cell (g_np g) (g_own g) (ua_port g Tp (fun j => Tx (S j))) j
               <= rsum (g_np g) (fun i => 1.362 * g_pA g i / g_gsp g + g_pw g i)).
  { apply at_cell_rsum. intros i Hi. split.
    - apply Rlt_le, ua_port_pos; [exact G|exact Hi|apply HP', Hi|exact HT'].
    - apply ua_port_le; [exact G|exact Hi|apply HP', Hi|exact HT']. }
  unfold touch, node_limit, inflow, node_res, node_flows. rewrite Eg. cbn [fst snd].
  destruct (nd_kind p) as [io|io|io].
  - destruct HK as [Np Ho].
    pose proof (invar_in (g_n g) (g_own g) io f j Hn Ho HE Hj) as [CI _]. rewrite <- Np in CI. rewrite CI.
    unfold pipe_diff. cbn [part_diff r_uap r_tb].
    destruct (ua_bounds g lam_mean (fun _ => io) (process_flow_invar (g_n g) (g_np g) io f) false no_heat Tx Tp (nd_amb p) b G B' RG j Hj)
      as [_ [_ [_ U]]]. specialize (U Hr).
    pose proof (fun k => ua_tb_le g (lam_mean (fun j => lambda_water (Tx (S j)))) 0.681 k G ltac:(lra)
      (fun q Hq => proj2 (lam_mean_le g Tx q HT' Hq))) as TB.
    pose proof (TB j). pose proof (TB (S j)). lra.
  - destruct HK as [[Np Hs] H0].
    assert (So : sorted_ports (g_n g) (g_np g) (g_own g)) by (split; [exact Hs|apply (ok_own g G)]).
    pose proof (var_inflow (g_n g) (g_np g) (g_own g) io f j ltac:(lia) Np So HE H0 Hj) as CI. cbv zeta in CI.
    unfold branched_diff. cbv zeta. cbn [part_diff r_uap r_tb].
    destruct (ua_bounds g lam_mean (snd (process_flow_var (g_n g) (g_np g) (g_own g) io f)) (fst (process_flow_var (g_n g) (g_np g) (g_own g) io f))
       false no_heat Tx Tp (nd_amb p) b G B' RG j Hj) as [_ [_ [_ U]]]. specialize (U Hr).
    pose proof (fun k => ua_tb_le g (lam_mean (fun j => lambda_water (Tx (S j)))) 0.681 k G ltac:(lra)
      (fun q Hq => proj2 (lam_mean_le g Tx q HT' Hq))) as TB.
    pose proof (TB j). pose proof (TB (S j)). lra.
  - destruct HK as [[Np Hs] H0]. destruct HN as [Hs2 HN].
    assert (So : sorted_ports (g_n g) (g_np g) (g_own g)) by (split; [exact Hs|apply (ok_own g G)]).
    pose proof (var_inflow (g_n g) (g_np g) (g_own g) io f j ltac:(lia) Np So HE H0 Hj) as CI. cbv zeta in CI.
    set (lm := fun lam => buoyancy (g_n g) (g_di g) (fun j => Tx (S j)) (lam_mean lam)).
    set (dm := snd (process_flow_var (g_n g) (g_np g) (g_own g) io f)).
    set (fl := fst (process_flow_var (g_n g) (g_np g) (g_own g) io f)) in *.
    change (tes_diff g io f Tx Tp (nd_amb p) b) with (part_diff g lm dm fl true no_heat Tx Tp (nd_amb p) b).
    destruct (ua_bounds g lm dm fl true no_heat Tx Tp (nd_amb p) b G B' RG j Hj) as [_ [_ [_ U]]].
    specialize (U Hr).
    assert (LID : (if (j =? 0)%nat then r_lid (part_diff g lm dm fl true no_heat Tx Tp (nd_amb p) b) 0%nat else 0)
      + (if (j =? g_n g - 1)%nat then r_lid (part_diff g lm dm fl true no_heat Tx Tp (nd_amb p) b) 1%nat else 0)
      <= g_A g * g_li g / g_sins g).
    { assert (LL : forall k, r_lid (part_diff g lm dm fl true no_heat Tx Tp (nd_amb p) b) k <= g_A g * g_li g / g_sins g).
      { intros k. destruct k; (apply ua_plate_le; [exact G| | |exact Hs2]);
          try (apply (ai_pos g lm dm fl true no_heat Tx Tp (nd_amb p) b G RG); lia);
          (apply plane_alpha_nonneg; [|apply (ok_Ll g G)]).
        - apply (tm_range g lm dm fl true no_heat Tx Tp (nd_amb p) b G B' RG 0). lia.
        - apply (tm_range g lm dm fl true no_heat Tx Tp (nd_amb p) b G B' RG (g_n g - 1)). lia. }
      assert (P : 0 <= g_A g * g_li g / g_sins g).
      { destruct G. apply Rmult_le_pos; [nra|apply Rlt_le, Rinv_0_lt_compat; lra]. }
      pose proof (LL 0%nat). pose proof (LL 1%nat).
      destruct (Nat.eqb_spec j 0), (Nat.eqb_spec j (g_n g - 1)); try lia; lra. }
    pose proof (fun k => ua_tb_le g (lm (fun j => lambda_water (Tx (S j)))) (0.681 * Rmax 1 (20 * N)) k G
      ltac:(pose proof (Rmax_l 1 (20 * N)); lra)
      (fun q Hq => buoyancy_le g Tx N q HT' Hq HN)) as TB.
    pose proof (TB j) as TB1. pose proof (TB (S j)) as TB2.
    change (r_tb (part_diff g lm dm fl true no_heat Tx Tp (nd_amb p) b)) with (ua_tb g (lm (fun j => lambda_water (Tx (S j))))).
    change (r_uap (part_diff g lm dm fl true no_heat Tx Tp (nd_amb p) b)) with (ua_port g Tp (fun j => Tx (S j))).
    lra.
Qed.
