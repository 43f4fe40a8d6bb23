(** C156: temperatures of a whole network stay in the range of their surroundings. *)
From Coq Require Import Reals List Arith Bool Lia Lra.
From Verif Require Import MFlow MWater MDiff SFlow SDiff MSolver MHeun MMix MRange SRange LFlow LWater LDiff
  LDiff2 LDiff3 LDiff4 LDiff5 LDiff6 LDiff7 LSolver LHeun LRange LRange2 LRange3.
Import ListNotations.
Open Scope R_scope.

Lemma network_keeping lo hi hmax gs z mo : 0 <= lo -> hi <= 100 -> sz_e z = map g_n gs ->
  network geo_ok lo hi hmax gs z mo -> keeping lo hi hmax z (map surv gs) mo.
Proof.
  intros Hlo Hhi Ez (ps&E&HP&HN&HI&HW). unfold keeping. rewrite Ez, !map_length.
  repeat split; try assumption. rewrite E. clear - HP Hlo Hhi.
  induction HP as [|g p gs ps [H1 H2] HP IH]; cbn; constructor; [|exact IH].
  cbn [fst snd]. apply node_keeps; assumption.
Qed.

(** Any run of the adaptive solver, with flows, ambient temperatures and boundary values that may
    change from step to step and any number of rejected attempts: if the steps are short for all
    parts, all cells and ports stay between the lowest and the highest temperature present at the
    start, at the boundary and in the surroundings. *)
Theorem C156_network : forall lo hi hmax gs z c m s m' s',
  0 <= lo -> hi <= 100 -> sz_e z = map g_n gs -> cfg_ok c -> c_max_step c <= hmax ->
  net_run lo hi (network geo_ok lo hi hmax gs z) c m s m' s' ->
  ready lo hi z (map surv gs) m -> s_vN s = None -> 1 < s_mf s <= c_max_factor c ->
  0 < s_h s <= hmax ->
  rows lo hi (map g_n gs) (m_prevE m') /\ inside lo hi (sz_p z) (m_ports m') /\
  rows lo hi (sz_i z) (m_prevI m').
Proof.
  intros lo hi hmax gs z c m s m' s' Hlo Hhi Ez Hc Hmax HR R HvN Hmf Hs.
  assert (HR' : net_run lo hi (keeping lo hi hmax z (map surv gs)) c m s m' s').
  { clear - HR Hlo Hhi Ez. induction HR; [constructor|].
    eapply nr_step; try eassumption. apply network_keeping; assumption. }
  assert (HI : inv c s) by (split; [lra|]; split; [rewrite HvN; exact I|exact Hmf]).
  destruct (run_inside lo hi hmax z (map surv gs) c Hc Hmax m s m' s' HR' R HI ltac:(lra)) as [(Q1&Q2&Q3&_) _].
  rewrite Ez in Q2. split; [exact Q2|split; [exact Q1|exact Q3]].
Qed.

(** Steps that are short enough, from the data of the part: a step of [hmax] times the sum of all
    conductances and of the heat capacity flow must not exceed the heat capacity of a cell. *)
Theorem C156_limit : forall lo hi hmax np g p N, node_ok geo_ok lo hi np g p ->
  0 <= lo -> hi <= 100 -> 0 <= hmax -> 0 < g_rli g ->
  match nd_kind p with
  | KTes _ => 0 < g_sins g /\ (forall T d, 0 <= T <= 100 -> 0 <= d <= 100 -> buoyancy_nu (g_di g) T d <= N)
  | _ => True end ->
  hmax * node_limit p N <= 3994860 * g_V g + g_mw g -> short lo hi hmax p.
Proof. intros. eapply node_limit_short; eassumption. Qed.

(** A network at one temperature stays there exactly. *)
Theorem C156_equilibrium : forall tau hmax gs z c m s m' s',
  0 <= tau <= 100 -> sz_e z = map g_n gs -> cfg_ok c -> c_max_step c <= hmax ->
  net_run tau tau (network geo_ok tau tau hmax gs z) c m s m' s' ->
  ready tau tau z (map surv gs) m -> s_vN s = None -> 1 < s_mf s <= c_max_factor c ->
  0 < s_h s <= hmax ->
  Forall (fun row => forall T, In T row -> T = tau) (m_prevE m').
Proof.
  intros tau hmax gs z c m s m' s' Ht Ez Hc Hmax HR R HvN Hmf Hs.
  destruct (C156_network tau tau hmax gs z c m s m' s') as [Q _]; try assumption; try lra.
  clear - Q. induction Q as [|n v ns V [L F] Q IH]; constructor; [|exact IH].
  intros T HT. rewrite Forall_forall in F. specialize (F T HT). lra.
Qed.

(** Parts between them: pumps, splitting valves and connectors with at most one inflow only move
    and average temperatures.  (Where two flows meet, the code can leave the range: C19.) *)
Lemma gather_inside lo hi np ports link : inside lo hi np ports -> Forall (fun i => (i < np)%nat) link ->
  exists l, gather ports link = Some l /\ inside lo hi (length link) l.
Proof.
  intros Hp. induction 1 as [|i link Hi HL [l [E [L F]]]]; cbn [gather].
  - exists []. repeat split. constructor.
  - assert (Hx : nth_error ports i = Some (nth i ports 0)) by (apply nth_error_nth'; rewrite (proj1 Hp); exact Hi).
    rewrite Hx, E. exists (nth i ports 0 :: l). split; [reflexivity|]. split; [cbn; f_equal; exact L|].
    constructor; [apply (inside_nth lo hi np); assumption|exact F].
Qed.
Theorem C156_passive : forall lo hi np link dm, Forall (fun i => (i < np)%nat) link ->
  (length link = 2%nat -> keepsN lo hi np 2 (pump_part link)) /\
  (length link = 3%nat -> keepsN lo hi np 3 (tri_part (fun T => Some (valve_split T)) link)) /\
  (length link = 3%nat -> (count (tmap gt0 dm) <= 1)%nat -> pA dm + pB dm + pC dm = 0 ->
     keepsN lo hi np 3 (tri_part (fun T => connector T dm) link)).
Proof.
  intros lo hi np link dm HL. split; [|split].
  - intros L h ports Hp. destruct (gather_inside lo hi np ports link Hp HL) as [l [E [L2 F]]].
    unfold pump_part, pump. rewrite E. cbn [option_map].
    split; [rewrite rev_length, L2; exact L|apply Forall_rev, F].
  - intros L h ports Hp. destruct (gather_inside lo hi np ports link Hp HL) as [l [E [L2 F]]].
    unfold tri_part, on_ports. rewrite E. rewrite L in L2. destruct l as [|a [|b [|c [|]]]]; try discriminate.
    inversion F as [|? ? Ha F1]; subst. inversion F1 as [|? ? Hb F2]; subst. inversion F2; subst.
    cbn. split; [reflexivity|]. repeat (apply Forall_cons || apply Forall_nil); lra.
  - intros L Hc H0 h ports Hp. destruct (gather_inside lo hi np ports link Hp HL) as [l [E [L2 F]]].
    unfold tri_part, on_ports. rewrite E. rewrite L in L2. destruct l as [|a [|b [|c [|]]]]; try discriminate.
    inversion F as [|? ? Ha F1]; subst. inversion F1 as [|? ? Hb F2]; subst. inversion F2 as [|? ? Hc' _]; subst.
    destruct dm as [x y w]. cbn [pA pB pC] in H0. unfold tri_of, connector.
    unfold tmap, count, gt0, lt0, eq0, mset, mcopy, msum, sel, tmap2 in *. cbn [pA pB pC] in *.
    destruct (Rlt_dec 0 x), (Rlt_dec 0 y), (Rlt_dec 0 w); cbn [Nat.b2n Nat.add] in Hc; try lia; try lra;
    destruct (Rlt_dec x 0), (Rlt_dec y 0), (Rlt_dec w 0); try lra;
    destruct (Req_EM_T x 0), (Req_EM_T y 0), (Req_EM_T w 0); try lra;
    cbn; (split; [reflexivity|repeat (apply Forall_cons || apply Forall_nil); lra]).
Qed.

(** ** Two pipes in a row *)
Definition pipeAB (ids : nat -> nat) : node := mkNode (gx 2 own2) (KPipe (1/1000)) 20 ids [1; 1; 1].
Definition idsA (i : nat) : nat := match i with O => 0 | _ => 1 end.
Definition idsB (i : nat) : nat := match i with O => 2 | _ => 3 end.
Definition zAB := mkSizes 4 [3; 3]%nat [] [].
(** The second port of the first pipe (1) meets the first port of the second one (2); water of 70
    degrees enters at port 0, port 3 is an open end. *)
Definition moAB : model (buf * flows) :=
  mkModel [node_part (pipeAB idsA); node_part (pipeAB idsB)] [] [] [(1%nat, SrcE 1 0); (2%nat, SrcE 0 2)]
    0.001 0.01 6.
Definition mAB : mem (buf * flows) :=
  mkMem [70; 60; 40; 30] [70; 60; 40; 30] [[40; 40; 40]; [60; 50; 30]] [] [[]; []] [[]; []] [[]; []]
    [(buf0, flows0); (buf0, flows0)] [[]; []] [] [] [] [].
Definition cAB := mkCfg 0.12 0.1 2 0.2 0.9 10.
Definition sAB := mkSst 0.1 None 1.5 0 0.

Lemma pipeAB_ok ids : (forall i, (i < 2)%nat -> (ids i < 4)%nat) ->
  node_ok geo_ok 20 70 4 (gx 2 own2) (pipeAB ids) /\ short 20 70 0.12 (pipeAB ids).
Proof.
  intros H. assert (NO : node_ok geo_ok 20 70 4 (gx 2 own2) (pipeAB ids)).
  { split; [reflexivity|]. split; [apply gx_ok, own2_in|]. split; [cbn; lra|]. split; [exact H|].
    repeat split; reflexivity. }
  split; [exact NO|]. apply (C156_limit 20 70 0.12 4 (gx 2 own2) (pipeAB ids) 0 NO); try lra; try exact I.
  - cbn. lra.
  - unfold node_limit, inflow. cbn [pipeAB nd_geo nd_kind gx g_A g_gsp g_tbw g_Ai g_li g_rli g_np g_pA g_pw g_V g_mw rsum].
    rewrite Rabs_right by lra. lra.
Qed.
Lemma pipeAB_quiet ids ports T h : (forall i, (i < 2)%nat -> (ids i < 4)%nat) -> inside 20 70 4 ports ->
  inside 20 70 3 T -> 0 <= h <= 0.12 ->
  snd (fst (ep_diff (node_part (pipeAB ids)) h ports T (buf0, flows0))) = None.
Proof.
  intros HI Hp HT Hh. cbn [node_part ep_diff fst snd]. unfold vn_div_nan.
  destruct (existsb _ _); [reflexivity|].
  set (r := node_res _ _ _ _). set (mx := node_max _ _).
  assert (V : vn_div (gx 2 own2) r mx h <= 1).
  { assert (RT : forall j, (j < 3)%nat -> 0 <= ext T (S j) <= 100).
    { intros j Hj. unfold ext. cbn [Nat.sub]. rewrite Nat.sub_0_r. pose proof (inside_nth 20 70 3 T j HT Hj). lra. }
    assert (RG : range_ok (gx 2 own2) (ext T) (fun i => nth (ids i) ports 0) 20).
    { split; [exact RT|]. split; [|lra]. intros i Hi. pose proof (inside_nth 20 70 4 ports (ids i) Hp (HI i Hi)). lra. }
    apply (gx_pass_slow 2 own2 (fun _ => 1/1000) (process_flow_invar 3 2 (1/1000) flows0) false (ext T)
      (fun i => nth (ids i) ports 0) 20 own2_in ltac:(lia) RG lam_mean (lam_mean_range _ RT) _ _ 0%nat);
      [lra|lia|].
    change mx with (Rabs (1/1000)). rewrite Rabs_right by lra.
    pose proof (gx_rho 2 own2 (fun _ => 1/1000) (process_flow_invar 3 2 (1/1000) flows0) false (ext T)
      (fun i => nth (ids i) ports 0) 20 RG lam_mean 0%nat ltac:(lia)). lra. }
  destruct (Rlt_dec 1 _) as [L|L]; [exfalso; apply (Rlt_not_le _ _ L V)|reflexivity].
Qed.

Lemma ready_AB : ready 20 70 zAB (map surv [gx 2 own2; gx 2 own2]) mAB.
Proof.
  unfold ready, rows, inside, zAB, mAB. cbn [m_ports m_prevE m_prevI m_buf m_T m_df0 m_df1 m_resE sz_p sz_e sz_i map].
  repeat match goal with
  | |- _ /\ _ => split
  | |- Forall _ _ => constructor
  | |- Forall2 _ _ _ => constructor
  | |- surv _ _ => split; constructor
  end; try reflexivity; lra.
Qed.
Lemma network_AB : network geo_ok 20 70 0.12 [gx 2 own2; gx 2 own2] zAB moAB.
Proof.
  exists [pipeAB idsA; pipeAB idsB]. split; [reflexivity|]. split.
  - constructor; [|constructor; [|constructor]]; apply pipeAB_ok; intros [|[|i]] Hi; cbn; lia.
  - split; [constructor|]. split; [constructor|].
    intros k s [E|[E|[]]]; inversion E; subst; cbn; lia.
Qed.

(** The solver accepts a first step, after which the network is still between 20 and 70 degrees. *)
Example C156_example : cfg_ok cAB /\ c_max_step cAB <= 0.12 /\
  exists m1 s1, heun_adaptive moAB cAB 1 mAB sAB = FAccepted 0.1 m1 s1 /\
  Forall (Forall (fun T => 20 <= T <= 70)) (m_resE m1).
Proof.
  assert (CO : cfg_ok cAB) by (unfold cfg_ok, cAB; cbn; lra).
  split; [exact CO|]. split; [cbn; lra|].
  destruct (num_attempt moAB 0.1 mAB) as [m1 o] eqn:EN.
  pose proof (network_keeping 20 70 0.12 [gx 2 own2; gx 2 own2] zAB moAB ltac:(lra) ltac:(lra) eq_refl network_AB) as HK.
  destruct (attempt_inside 20 70 0.12 zAB _ moAB 0.1 mAB m1 o HK ready_AB ltac:(lra) EN) as (A1&_&_&_&_&A6).
  assert (ST : exists ds e, o = OStable ds e).
  { unfold num_attempt in EN. cbn [moAB mo_e mAB m_ports m_prevE m_T m_df0 m_buf predict] in EN.
    pose proof (pipeAB_quiet idsA [70; 60; 40; 30] [40; 40; 40] 0.1 ltac:(intros [|[|i]] Hi; cbn; lia)
      ltac:(split; [reflexivity|repeat constructor; lra]) ltac:(split; [reflexivity|repeat constructor; lra]) ltac:(lra)) as QA.
    pose proof (pipeAB_quiet idsB [70; 60; 40; 30] [60; 50; 30] 0.1 ltac:(intros [|[|i]] Hi; cbn; lia)
      ltac:(split; [reflexivity|repeat constructor; lra]) ltac:(split; [reflexivity|repeat constructor; lra]) ltac:(lra)) as QB.
    destruct (ep_diff (node_part (pipeAB idsA)) 0.1 [70; 60; 40; 30] [40; 40; 40] (buf0, flows0)) as [[d1 br1] b1].
    destruct (ep_diff (node_part (pipeAB idsB)) 0.1 [70; 60; 40; 30] [60; 50; 30] (buf0, flows0)) as [[d2 br2] b2].
    cbn [fst snd] in QA, QB. subst br1 br2. cbv iota in EN.
    match type of EN with context [correct ?a ?b ?c ?d ?e0 ?f ?g ?i ?j ?k ?l ?n] =>
      destruct (correct a b c d e0 f g i j k l n) as [[[[[T2 df1] res] buf2] ds] err] end.
    inversion EN. eauto. }
  destruct ST as [ds [e ->]]. destruct A6 as (_&A6&_).
  assert (AC : exists k s1, attempt cAB (enter sAB) (OStable ds e) = AAccept 0.1 k s1).
  { unfold attempt. cbn [enter sAB s_h s_vN s_mf s_ssf s_cnt cAB c_min_step c_max_step].
    destruct e as [x| |]; repeat match goal with |- context [if ?b then _ else _] => destruct b end;
      eauto; lra. }
  destruct AC as [k [s1 AC]]. exists m1, s1. split.
  - unfold heun_adaptive. change (mkMem (m_ports mAB) _ _ _ _ _ _ _ _ _ _ _ _) with mAB.
    cbn [full_loop]. change (s_h (enter sAB)) with 0.1. rewrite EN, AC. reflexivity.
  - clear - A6. unfold rows in A6. induction A6 as [|n v ns V [L F] A6 IH]; constructor; assumption.
Qed.

Print Assumptions C156_network.
Print Assumptions C156_limit.
Print Assumptions C156_equilibrium.
Print Assumptions C156_passive.

(** The three-way parts take the temperatures of the connected ports in the order of their own
    ports: side A, side B, common side. *)
Theorem C156_sides : forall ports a b c,
  (a < length ports)%nat -> (b < length ports)%nat -> (c < length ports)%nat ->
  let t i := nth i ports 0 in
  on_ports (fun T => Some (valve_split T)) ports [a; b; c] =
    Some (mkTri (t c) (t c) ((t a + t b) / 2)) /\
  (forall dm, on_ports (fun T => Some (valve_mix T dm)) ports [a; b; c] =
    Some (valve_mix (mkTri (t a) (t b) (t c)) dm)) /\
  (forall dm, on_ports (fun T => connector T dm) ports [a; b; c] =
    connector (mkTri (t a) (t b) (t c)) dm).
Proof.
  intros ports a b c Ha Hb Hc t. unfold on_ports. cbn [gather].
  rewrite !(nth_error_nth' ports 0) by assumption. cbn. repeat split.
Qed.
Print Assumptions C156_sides.
