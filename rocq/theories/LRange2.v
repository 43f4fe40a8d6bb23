(** Pipes, branched pipes and storages keep the temperature range (C156). *)
From Coq Require Import Reals List Arith Bool Lia Lra.
From Verif Require Import MFlow MWater MDiff SFlow SDiff MSolver MHeun MRange SRange LFlow LWater LDiff
  LDiff2 LDiff3 LDiff4 LDiff5 LDiff7 LRange PDiff.
Import ListNotations.
Open Scope R_scope.

(** ** A branched pipe obeys the same bound as a storage *)
Lemma branched_max g io f Tx Tp Tamb b lo hi dt :
  geo_ok g -> bufs_at g b -> branch_ports g -> flows_at g f -> rsum (g_np g) io = 0 ->
  0 <= lo -> hi <= 100 -> (forall j, (j < g_n g)%nat -> lo <= Tx (S j) <= hi) ->
  (forall i, (i < g_np g)%nat -> lo <= Tp i <= hi) -> lo <= Tamb <= hi -> 0 <= dt ->
  let r := branched_diff g io f Tx Tp Tamb b in
  let p := fst (process_flow_var (g_n g) (g_np g) (g_own g) io f) in
  forall j, (j < g_n g)%nat ->
  dt * (r_tb r j + r_tb r (S j) + r_ua r j + 0
        + at_cell (g_np g) (g_own g) (r_uap r) j
        + 4400 * cell_in (f_top p) (f_bot p) (g_np g) (g_own g) (f_port p) j) <= capacity g Tx j ->
  lo <= Tx (S j) + dt * r_tot r j <= hi.
Proof.
  intros G B [Np Hs] F H0 Hlo Hhi HT HP HA Hdt r p j Hj HC.
  pose proof (ok_n g G) as Hn.
  assert (E : ends0 (g_n g) f) by (apply flows_at_ends; [lia|exact F]).
  assert (So : sorted_ports (g_n g) (g_np g) (g_own g)) by (split; [exact Hs|apply (ok_own g G)]).
  destruct (var_ends (g_n g) (g_np g) (g_own g) io f ltac:(lia) E) as [Z1 Z2].
  unfold r, branched_diff. cbv zeta. apply max_principle; try assumption.
  - apply bufs_at_ok; assumption.
  - intros k Hk. apply Rlt_le, lam_mean_pos.
    + pose proof (HT k ltac:(lia)). pose proof (lambda_bounds (Tx (S k)) ltac:(lra)). lra.
    + pose proof (HT (S k) ltac:(lia)). pose proof (lambda_bounds (Tx (S (S k))) ltac:(lra)). lra.
  - intros k Hk. destruct (var_balance (g_n g) (g_np g) (g_own g) io f ltac:(lia) Np So E H0 k Hk) as [_ [A1 [A2 _]]].
    split; assumption.
  - intros i Hi. cbn [process_flow_var fst f_port]. rewrite clip0_max. apply Rmax_l.
Qed.
Lemma pipe_max g io f Tx Tp Tamb b lo hi dt :
  geo_ok g -> bufs_at g b -> pipe_ports g -> flows_at g f ->
  0 <= lo -> hi <= 100 -> (forall j, (j < g_n g)%nat -> lo <= Tx (S j) <= hi) ->
  (forall i, (i < g_np g)%nat -> lo <= Tp i <= hi) -> lo <= Tamb <= hi -> 0 <= dt ->
  let r := pipe_diff g io f Tx Tp Tamb b in
  let p := process_flow_invar (g_n g) (g_np g) io f in
  forall j, (j < g_n g)%nat ->
  dt * (r_tb r j + r_tb r (S j) + r_ua r j + 0
        + at_cell (g_np g) (g_own g) (r_uap r) j
        + 4400 * cell_in (f_top p) (f_bot p) (g_np g) (g_own g) (f_port p) j) <= capacity g Tx j ->
  lo <= Tx (S j) + dt * r_tot r j <= hi.
Proof.
  intros G B [Np Ho] F Hlo Hhi HT HP HA Hdt r p j Hj HC.
  pose proof (ok_n g G) as Hn.
  assert (E : ends0 (g_n g) f) by (apply flows_at_ends; [lia|exact F]).
  destruct (invar_ends (g_n g) (g_np g) io f ltac:(lia) E) as [Z1 Z2].
  pose proof (fun j => invar_in (g_n g) (g_own g) io f j Hn Ho E) as IV. rewrite <- Np in IV.
  unfold r, pipe_diff. apply max_principle; try assumption.
  - apply bufs_at_ok; assumption.
  - intros k Hk. apply Rlt_le, lam_mean_pos.
    + pose proof (HT k ltac:(lia)). pose proof (lambda_bounds (Tx (S k)) ltac:(lra)). lra.
    + pose proof (HT (S k) ltac:(lia)). pose proof (lambda_bounds (Tx (S (S k))) ltac:(lra)). lra.
  - intros k Hk. destruct (IV k Hk) as [_ [A1 [A2 _]]]. split; assumption.
  - intros i Hi. destruct (IV j Hj) as [_ [_ [_ A]]]. apply A, Hi.
Qed.

Lemma node_max_principle lo hi hmax np g p : node_ok geo_ok lo hi np g p -> short lo hi hmax p ->
  0 <= lo -> hi <= 100 ->
  forall Tx Tp b f h, 0 <= h <= hmax -> bufs_at g b -> flows_at g f ->
  (forall j, (j < g_n g)%nat -> lo <= Tx (S j) <= hi) ->
  (forall i, (i < g_np g)%nat -> lo <= Tp i <= hi) ->
  forall j, (j < g_n g)%nat -> lo <= Tx (S j) + h * r_tot (node_res p Tx Tp (b, f)) j <= hi.
Proof.
  intros (Eg&G&HA&_&HK) HS Hlo Hhi Tx Tp b f h Hh B F HT HP j Hj.
  unfold short in HS. rewrite Eg in HS. specialize (HS Tx Tp b f B F HT HP j Hj).
  assert (CP : 0 < capacity g Tx j).
  { unfold capacity. pose proof (HT j Hj). pose proof (rhocp_bounds (Tx (S j)) ltac:(lra)).
    destruct G. nra. }
  set (t := touch p (node_res p Tx Tp (b, f)) (node_flows p f) j) in HS.
  assert (HS' : h * t <= capacity g Tx j).
  { destruct (Rle_dec 0 t); [apply Rle_trans with (hmax * t); [apply Rmult_le_compat_r; lra|exact HS]|nra]. }
  clear HS. unfold t, touch in HS'. rewrite Eg in HS'. clear t.
  unfold node_res, node_flows in *. rewrite Eg in *. cbn [fst snd] in *.
  destruct (nd_kind p) as [io|io|io].
  - apply pipe_max with (lo := lo) (hi := hi); tauto || assumption.
  - destruct HK as [HK1 HK2]. apply branched_max with (lo := lo) (hi := hi); tauto || assumption.
  - destruct HK as [HK1 HK2]. apply C15_tes_partial with (lo := lo) (hi := hi); tauto || assumption.
Qed.

Lemma euler_list lo hi h (d : nat -> R) : forall n T k, length T = n ->
  (forall j, (j < n)%nat -> lo <= nth j T 0 + h * d (k + j)%nat <= hi) ->
  Forall (fun x => lo <= x <= hi) (vadd T (vscale h (map d (seq k n)))) /\
  length (vadd T (vscale h (map d (seq k n)))) = n.
Proof.
  unfold vadd, vscale. induction n as [|n IH]; intros T k L H; destruct T as [|x T]; try discriminate; cbn.
  - split; constructor.
  - destruct (IH T (S k)) as [I1 I2]; [cbn in L; lia| |].
    + intros j Hj. specialize (H (S j) ltac:(lia)). cbn in H.
      replace (S k + j)%nat with (k + S j)%nat by lia. exact H.
    + split; [|f_equal; exact I2]. constructor; [|exact I1].
      specialize (H 0%nat ltac:(lia)). cbn in H. rewrite Nat.add_0_r in H. exact H.
Qed.

Lemma node_keeps lo hi hmax np g p : node_ok geo_ok lo hi np g p -> short lo hi hmax p ->
  0 <= lo -> hi <= 100 -> keeps lo hi hmax np (g_n g) (surv g) (node_part p).
Proof.
  intros HN HS Hlo Hhi h ports T [b f] Hh Hp HT [B F]. cbn [fst snd] in B, F.
  pose proof HN as (Eg&G&HA&HI&HK). cbn [node_part ep_diff snd].
  rewrite Eg. set (Tp := fun i => nth (nd_ids p i) ports 0). set (r := node_res p (ext T) Tp (b, f)).
  assert (RT : forall j, (j < g_n g)%nat -> lo <= ext T (S j) <= hi).
  { intros j Hj. unfold ext. cbn [Nat.sub]. rewrite Nat.sub_0_r. apply (inside_nth lo hi (g_n g)); assumption. }
  assert (RP : forall i, (i < g_np g)%nat -> lo <= Tp i <= hi).
  { intros i Hi. apply (inside_nth lo hi np); [exact Hp|apply HI, Hi]. }
  assert (EU : inside lo hi (g_n g) (vadd T (vscale h (map (r_tot r) (seq 0 (g_n g)))))).
  { destruct HT as [LT FT]. destruct (euler_list lo hi h (r_tot r) (g_n g) T 0 LT) as [E1 E2].
    - intros j Hj. pose proof (node_max_principle lo hi hmax np g p HN HS Hlo Hhi (ext T) Tp b f h Hh B F RT RP j Hj) as M.
      fold r in M. unfold ext in M. cbn [Nat.sub] in M. rewrite Nat.sub_0_r in M. exact M.
    - split; assumption. }
  split; [exact EU|]. split; [rewrite map_length, seq_length; reflexivity|]. split.
  - assert (IR : in_range g (ext T) Tp (nd_amb p)).
    { split; [|split]; [intros j Hj; specialize (RT j Hj); lra|intros i Hi; specialize (RP i Hi); lra|lra]. }
    unfold surv, r, node_res, node_flows. rewrite Eg. cbn [fst snd]. destruct (nd_kind p).
    + split; [apply bf_pipe; assumption|apply fl_invar, F].
    + split; [apply bf_branched; assumption|apply fl_var, F].
    + split; [apply bf_tes; assumption|apply fl_var, F].
  - destruct (vn_div_nan g r (node_max p (node_flows p f)) h) as [d|]; [|exact I].
    destruct (Rlt_dec 1 d); [assumption|exact I].
Qed.
