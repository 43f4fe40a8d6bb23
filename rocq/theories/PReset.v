(** C124: a second run after a reset. *)
From Coq Require Import Reals List Bool Arith ZArith Lia Lra.
From Verif Require Import MFlow MWater MDiff SFlow SDiff LFlow LWater LDiff LDiff2 LDiff3 LDiff4 LDiff5
  LDiff6 LDiff7 PDiff MSolver MWatch MReset LSolver PWatch.
Import ListNotations.
Open Scope R_scope.

(** A reset gives back the newly built part exactly if power and surface buffers are those of a newly
    built one; temperatures and the flow at the ports are always given back. *)
Theorem C124_reset_iff : forall T s, reset T s = built T <-> q_dQ s = 0 /\ q_buf s = buf0.
Proof.
  intros T [t i d b]. unfold reset, built. cbn. split.
  - intros E. inversion E. auto.
  - intros [-> ->]. reflexivity.
Qed.
Print Assumptions C124_reset_iff.

(** States of a pipe which has been evaluated at least once, and possibly been written to by the
    solver, the controller and by resets since. *)
Inductive ran (g : geo) (lo hi : nat) : pipe_state -> Prop :=
| ran_built T : ran g lo hi (built T)
| ran_T T s : ran g lo hi s -> ran g lo hi (set_T T s)
| ran_power p s : ran g lo hi s -> ran g lo hi (set_power p s)
| ran_reset T s : ran g lo hi s -> ran g lo hi (reset T s)
| ran_eval io f Tp Tamb s : ran g lo hi s -> in_range g (q_T s) Tp Tamb ->
    ran g lo hi (snd (slopes g lo hi io f Tp Tamb s)).
Inductive evaluated (g : geo) (lo hi : nat) : pipe_state -> Prop :=
| ev_eval io f Tp Tamb s : ran g lo hi s -> in_range g (q_T s) Tp Tamb ->
    evaluated g lo hi (snd (slopes g lo hi io f Tp Tamb s))
| ev_T T s : evaluated g lo hi s -> evaluated g lo hi (set_T T s)
| ev_power p s : evaluated g lo hi s -> evaluated g lo hi (set_power p s)
| ev_reset T s : evaluated g lo hi s -> evaluated g lo hi (reset T s).

Lemma ran_buf g lo hi s : geo_ok g -> ran g lo hi s -> buf_ok g (q_buf s).
Proof.
  intros G H. induction H; cbn; auto; [apply buf0_ok, G|].
  apply buf_after_ok; assumption.
Qed.
Definition warm_buf (g : geo) (b : buf) : Prop := forall j, (j < g_n g)%nat ->
  0 < b_ainf b j /\ 0 < b_ua b j <= b_ainf b j * g_As g.
Lemma evaluated_buf g lo hi s : geo_ok g -> evaluated g lo hi s -> warm_buf g (q_buf s).
Proof.
  intros G H. induction H as [io f Tp Tamb s R H|T s _ IH|p s _ IH|T s _ IH]; cbn; auto.
  intros j Hj. pose proof (ran_buf g lo hi s G R) as B. cbn.
  destruct (ua_bounds g lam_mean (fun _ => io) (process_flow_invar (g_n g) (g_np g) io f) false
    (heated lo hi (heat_power (g_n g) (q_T s) (q_dQ s))) (q_T s) Tp Tamb (q_buf s) G B H j Hj)
    as [U1 [U2 _]].
  pose proof (ainf_pos g lam_mean (fun _ => io) (process_flow_invar (g_n g) (g_np g) io f) false
    (heated lo hi (heat_power (g_n g) (q_T s) (q_dQ s))) (q_T s) Tp Tamb (q_buf s) G B H j Hj) as I1.
  split; [exact I1|]. split; [exact U1|exact U2].
Qed.

Lemma slope_used g lmean dm f heat Tx Tp Tamb b :
  geo_ok g -> range_ok g Tx Tp Tamb -> warm_buf g b ->
  let r1 := part_diff g lmean dm f false heat Tx Tp Tamb buf0 in
  let r2 := part_diff g lmean dm f false heat Tx Tp Tamb b in
  forall j, (j < g_n g)%nat -> Tamb < Tx (S j) -> r_tot r2 j < r_tot r1 j.
Proof.
  intros G Hr Hb r1 r2 j Hj Hlt. pose proof (ok_n g G) as Hn.
  pose proof (mcp_pos g lmean dm f false heat Tx Tp Tamb buf0 G Hr j Hj) as M. fold r1 in M.
  assert (E : r_ts r1 j = Tamb).
  { unfold r1; cbn [part_diff r_ts buf0 b_ainf b_ua]. unfold surface_temp, Rdiv. ring. }
  assert (A1 : r_ainf r1 j = cyl_alpha_inf Tamb Tamb (g_L g) (g_vert g) (g_rt g)).
  { rewrite <- E at 1. reflexivity. }
  pose proof (ainf_pos g lmean dm f false heat Tx Tp Tamb buf0 G (buf0_ok g G) Hr j Hj) as I1.
  fold r1 in I1.
  destruct (Hb j Hj) as [B1 [B2 B3]].
  assert (T2 : Tamb < r_ts r2 j <= 100).
  { change (r_ts r2 j) with (surface_temp (Tx (S j)) Tamb (g_As g) (b_ainf b j) (b_ua b j)).
    pose proof (ok_As g G) as PAs.
    destruct Hr as [HT [_ HA]]. pose proof (HT j Hj) as HTj.
    assert (0 < b_ua b j / (b_ainf b j * g_As g) <= 1).
    { split; [apply Rdiv_lt_0_compat; [lra|apply Rmult_lt_0_compat; lra]|].
      apply div_mono'; [apply Rmult_lt_0_compat; lra|lra]. }
    unfold surface_temp.
    replace ((Tx (S j) - Tamb) * b_ua b j / (b_ainf b j * g_As g)) with
      ((Tx (S j) - Tamb) * (b_ua b j / (b_ainf b j * g_As g))) by (unfold Rdiv; ring).
    set (k := b_ua b j / _) in *. split; nra. }
  assert (A2 : r_ainf r1 j < r_ainf r2 j).
  { rewrite A1. change (r_ainf r2 j) with (cyl_alpha_inf (r_ts r2 j) Tamb (g_L g) (g_vert g) (g_rt g)).
    destruct Hr as [_ [_ HA]]. apply cyl_alpha_warmer; try lra; [apply (ok_L g G)|apply (ok_rt g G)]. }
  assert (UA : r_ua r1 j < r_ua r2 j).
  { change (r_ua r1 j) with (ua_cyl g (r_ai r1 j) (r_ainf r1 j)).
    change (r_ua r2 j) with (ua_cyl g (r_ai r1 j) (r_ainf r2 j)).
    apply ua_cyl_increasing; try assumption.
    apply (ai_pos g lmean dm f false heat Tx Tp Tamb buf0 G Hr j Hj). }
  unfold r1, r2. rewrite !tot_val, !adv_val, !cond_val by lia.
  fold r1. fold r2. unfold lid_at.
  change (r_tb r2) with (r_tb r1). change (r_mcp r2) with (r_mcp r1). change (r_uap r2) with (r_uap r1).
  change (r_heat r2 j) with (r_heat r1 j).
  assert (X : forall a p q w u1 u2 : R, u1 < u2 ->
    (a + (u2 + 0) * (Tamb - Tx (S j))) / r_mcp r1 j + p + q + w <
    (a + (u1 + 0) * (Tamb - Tx (S j))) / r_mcp r1 j + p + q + w).
  { intros a p q w u1 u2 Hu. assert ((a + (u2 + 0) * (Tamb - Tx (S j))) / r_mcp r1 j <
     (a + (u1 + 0) * (Tamb - Tx (S j))) / r_mcp r1 j); [|lra].
    unfold Rdiv. apply Rmult_lt_compat_r; [apply Rinv_0_lt_compat, M|]. nra. }
  apply X. exact UA.
Qed.

(** The reset keeps the surface buffers: whatever the first run was, the first slope of the second
    run is lower than the one of a newly built part with the same power, in every cell which is
    warmer than the ambient. *)
Theorem C124_surface_refuted : forall g lo hi s T_init io f Tp Tamb, geo_ok g ->
  evaluated g lo hi s -> in_range g T_init Tp Tamb ->
  let again := fst (slopes g lo hi io f Tp Tamb (reset T_init s)) in
  let fresh := fst (slopes g lo hi io f Tp Tamb (set_power (q_dQ s) (built T_init))) in
  forall j, (j < g_n g)%nat -> Tamb < T_init (S j) -> r_tot again j < r_tot fresh j.
Proof.
  intros g lo hi s T io f Tp Tamb G E H again fresh j Hj L.
  apply slope_used; auto. apply (evaluated_buf g lo hi (reset T s)); [exact G|]. apply ev_reset, E.
Qed.
Print Assumptions C124_surface_refuted.

(** The reset keeps the heating power: a heated pipe which was heating at the end of the first run
    heats from the beginning of the second, a newly built one does not before its controller has
    been called. *)
Theorem C124_heating_refuted : forall g lo hi s T_init io f Tp Tamb, geo_ok g ->
  in_range g T_init Tp Tamb -> T_init 0%nat < 110 -> T_init (S (g_n g)) < 110 -> 0 < q_dQ s ->
  let again := fst (slopes g lo hi io f Tp Tamb (reset T_init s)) in
  let fresh := fst (slopes g lo hi io f Tp Tamb (built T_init)) in
  forall j, (lo <= j < hi)%nat -> (j < g_n g)%nat -> 0 < r_heat again j /\ r_heat fresh j = 0.
Proof.
  intros g lo hi s T io f Tp Tamb G H H0 Hn HQ again fresh j Hj Hjn. split.
  - change (r_heat again j) with (heated lo hi (heat_power (g_n g) T (q_dQ s)) (r_mcp again) j).
    rewrite heat_power_cold by (try assumption; intros q Hq; destruct (proj1 H q Hq); lra).
    unfold heated. destruct (Nat.leb_spec lo j), (Nat.ltb_spec j hi); try lia. cbn [andb].
    pose proof (mcp_pos g lam_mean (fun _ => io) (process_flow_invar (g_n g) (g_np g) io f) false
      (heated lo hi (heat_power (g_n g) T (q_dQ s))) T Tp Tamb (q_buf s) G H j Hjn) as M.
    assert (0 < INR (hi - lo)) by (apply lt_0_INR; lia).
    apply Rdiv_lt_0_compat; [|exact M]. apply Rmult_lt_0_compat; [exact HQ|]. apply Rdiv_lt_0_compat; lra.
  - change (r_heat fresh j) with (heated lo hi (heat_power (g_n g) T 0) (r_mcp fresh) j).
    unfold heated, heat_power. destruct (existsb _ _), (_ && _)%bool; unfold Rdiv; ring.
Qed.
Print Assumptions C124_heating_refuted.

Example C124_pipe_example :
  let g := gx 2 own2 in
  let s := snd (slopes g 1 3 1 flows0 (fun _ => 20) 15 (set_power 500 (built (cells3 40 50 60)))) in
  let again := fst (slopes g 1 3 1 flows0 (fun _ => 20) 15 (reset (cells3 60 70 80) s)) in
  let fresh := fst (slopes g 1 3 1 flows0 (fun _ => 20) 15 (built (cells3 60 70 80))) in
  r_tot again 0%nat < r_tot fresh 0%nat /\ 0 < r_heat again 1%nat /\ r_heat fresh 1%nat = 0.
Proof.
  intros g s again fresh.
  assert (G : geo_ok g) by (apply gx_ok, own2_in).
  assert (H : in_range g (cells3 60 70 80) (fun _ => 20) 15) by (apply cells3_ok; lra).
  assert (H' : in_range g (cells3 40 50 60) (fun _ => 20) 15) by (apply cells3_ok; lra).
  assert (D : q_dQ s = 500).
  { change (q_dQ s) with (heat_power (g_n g) (cells3 40 50 60) 500).
    apply heat_power_cold; [cbn; lra|cbn; lra|]. intros q Hq; destruct (proj1 H' q Hq); lra. }
  split.
  - assert (E : r_tot fresh 0%nat = r_tot (fst (slopes g 1 3 1 flows0 (fun _ => 20) 15
      (set_power (q_dQ s) (built (cells3 60 70 80))))) 0%nat).
    { unfold fresh, slopes, heated_eval, heated_diff. cbn [fst]. rewrite !tot_val.
      unfold part_diff. cbn [r_tot r_adv r_cond r_heat r_mcp]. reflexivity. }
    rewrite E. apply C124_surface_refuted; [exact G| |exact H|cbn; lia|cbn; lra].
    apply ev_eval; [apply ran_power, ran_built|exact H'].
  - apply C124_heating_refuted; [exact G|exact H|cbn; lra|cbn; lra|rewrite D; lra|lia|cbn; lia].
Qed.

(** ** The environment *)
(** In memory and without a stop by the search for invalid values the counters and the solver
    variables of the second run are those of the first. *)
Theorem C124_counters : forall c cap b p n tf s,
  passes c (InMemory b) p n (start_of c tf (rows_for tf cap)) s -> w_tf s = tf ->
  reset_run c cap s = start_of c tf (rows_for tf cap).
Proof.
  intros c cap b p n tf s P E. pose proof (memory_total _ _ _ _ _ _ P) as T. cbn in T.
  unfold reset_run, start_of. now rewrite E, T.
Qed.
Print Assumptions C124_counters.

(** After a stop by the search for invalid values the time frame of the second run is a nanosecond:
    it consists of at most one pass. *)
Theorem C124_stopped_refuted : forall c cap k p s m s', cfg_ok c -> 1e-9 <= c_min_step c <= 1 ->
  (forall i j, reported_ok (p_out (p i) j) /\ exists ds e, p_out (p i) j = OStable ds e) ->
  w_tf s = 1e-9 -> passes c k p m (reset_run c cap s) s' -> (m <= 1)%nat.
Proof.
  intros c cap k p s m s' Hc Hm Hp Ht P.
  remember (reset_run c cap s) as s0 eqn:E0. revert E0.
  enough (G : s0 = reset_run c cap s -> (m <= 1)%nat /\ (m = 1%nat -> w_tf s' <= w_t s')).
  { intros E. exact (proj1 (G E)). }
  induction P as [|m z s1 s2 fuel P IH L E]; intros E0; [split; [lia|discriminate]|].
  destruct (IH E0) as [A B].
  assert (M0 : m = 0%nat) by (destruct m as [|[|m]]; [reflexivity|specialize (B eq_refl); lra|lia]).
  subst m. split; [lia|]. intros _. inversion P; subst.
  unfold one_pass in E. cbn [w_sol reset_run] in E.
  destruct (solver_step c fuel (p_out (p 0%nat)) (init_sst c)) as [u code sol| |] eqn:SE; try discriminate.
  assert (U : c_min_step c <= u).
  { refine (loop_lower c _ Hc _ _ fuel 0 (enter (init_sst c)) u code sol _ _ SE).
    - apply reported_stream. intros j. apply Hp.
    - intros j. destruct (Hp 0%nat j) as [_ (ds&e&->)]. exact I.
    - apply enter_inv, init_inv, Hc.
    - cbn. lra. }
  cbn [w_t w_tf reset_run] in E.
  destruct (nan_search _ _ _); try discriminate; injection E as <-; cbn; lra.
Qed.
Print Assumptions C124_stopped_refuted.
Example C124_stopped_example :
  let p := {| p_out := fun _ => OStable [] (ENum 0); p_parts := [] |} in
  let s := {| w_t := 17; w_tf := 1e-9; w_step := 9; w_num := 9; w_total := 0; w_sol := init_sst cfg_default |} in
  exists s', passes cfg_default (InMemory 9) (fun _ => p) 1 (reset_run cfg_default 9 s) s' /\ w_t s' = 1 /\
    forall m z, passes cfg_default (InMemory 9) (fun _ => p) m (reset_run cfg_default 9 s) z -> (m <= 1)%nat.
Proof.
  intros p s. eexists. split; [|split].
  - eapply ps_more with (fuel := 1%nat); [constructor|cbn; lra|].
    unfold one_pass. cbn [w_sol reset_run]. rewrite default_first_step by reflexivity.
    rewrite search_none by reflexivity. reflexivity.
  - cbn. ring.
  - intros m z P. eapply (C124_stopped_refuted cfg_default 9 (InMemory 9) (fun _ => p) s);
      [apply cfg_default_ok|cbn; lra| |reflexivity|exact P].
    intros i j. split; [split; [constructor|lra]|exists [], (ENum 0); reflexivity].
Qed.

(** Disk saving: the first run always completes and removes its temporary file, a second run fails
    at its first flush. *)
Lemma flush_rows d n : d_tmp d = true -> exists d1, flush n d = inl d1 /\ d_tmp d1 = true /\
  d_rows d1 = (d_rows d + n)%nat /\ d_times d1 = (d_times d + n)%nat /\ d_steps d1 = (d_steps d + n)%nat.
Proof. intros H. unfold flush. rewrite H. eexists. repeat split; reflexivity. Qed.
Lemma disk_run_from chunks : forall n d, d_tmp d = true ->
  disk_run chunks n d =
  if (Nat.min (d_times d) (d_steps d) =? d_rows d)%nat then
    inl {| d_tmp := false; d_rows := d_rows d + list_sum chunks + n;
           d_times := d_times d + list_sum chunks + n; d_steps := d_steps d + list_sum chunks + n |}
  else inr ValueError.
Proof.
  induction chunks as [|m t IH]; intros n d H; cbn [disk_run].
  - unfold finish, flush. rewrite H. cbn.
    replace (Nat.min (d_times d + n) (d_steps d + n)) with (Nat.min (d_times d) (d_steps d) + n)%nat by lia.
    destruct (Nat.eqb_spec (Nat.min (d_times d) (d_steps d)) (d_rows d)) as [E|E].
    + replace (_ =? _)%nat with true by (symmetry; apply Nat.eqb_eq; lia). f_equal. f_equal; lia.
    + replace (_ =? _)%nat with false by (symmetry; apply Nat.eqb_neq; lia). reflexivity.
  - unfold flush. rewrite H, IH by reflexivity. cbn [d_times d_steps d_rows].
    change (list_sum (m :: t)) with (m + list_sum t)%nat.
    replace (Nat.min (d_times d + m) (d_steps d + m)) with (Nat.min (d_times d) (d_steps d) + m)%nat by lia.
    destruct (Nat.eqb_spec (Nat.min (d_times d) (d_steps d)) (d_rows d)) as [E|E].
    + replace (_ =? _)%nat with true by (symmetry; apply Nat.eqb_eq; lia).
      f_equal. f_equal; lia.
    + replace (_ =? _)%nat with false by (symmetry; apply Nat.eqb_neq; lia). reflexivity.
Qed.
Theorem C124_disk_refuted : forall chunks n,
  exists d, disk_run chunks n disk0 = inl d /\ d_rows d = (list_sum chunks + n)%nat /\
    (forall chunks' n', disk_run chunks' n' d = inr FileError) /\
    (forall chunks' n', (0 < list_sum chunks + n)%nat ->
       disk_run chunks' n' (new_store d) = inr ValueError).
Proof.
  intros chunks n. rewrite disk_run_from by reflexivity. cbn.
  eexists. split; [reflexivity|]. cbn. split; [reflexivity|]. split.
  - intros [|m t] n'; reflexivity.
  - intros ch n' L. rewrite disk_run_from by reflexivity.
    cbn [new_store d_times d_steps d_rows].
    replace (_ =? _)%nat with false by (symmetry; apply Nat.eqb_neq; lia). reflexivity.
Qed.
Print Assumptions C124_disk_refuted.
Example C124_disk_example : exists d, disk_run [100; 100]%nat 37 disk0 = inl d /\ d_rows d = 237%nat /\
  disk_run [] 5 d = inr FileError /\ disk_run [100]%nat 5 (new_store d) = inr ValueError.
Proof. eexists. repeat split. Qed.
