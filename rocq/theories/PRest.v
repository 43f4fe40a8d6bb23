(** C185: what is left alone takes the temperature of its surroundings. *)
From Coq Require Import Reals List Arith Bool Lra Lia.
From Verif Require Import MFlow MWater MDiff SFlow SDiff MSolver MHeun MMix MRange SRange SRest LFlow LPoly LWater LDiff LDiff2 LDiff3
  LDiff4 LDiff5 LDiff6 LDiff7 LSolver LHeun LRange LRange2 LRest LRest2 PRange.
Import ListNotations.
Open Scope R_scope.

(** Any run of the adaptive solver of duration [t], with any flows that may change from step to step
    and any number of rejected attempts: the distance of every cell and port from the temperature of
    the surroundings decays at least like [exp (- c t / 2)]. *)
Theorem C185_network : forall Ts dl dh c hmax outer gs z cf t m s m' s',
  0 <= c -> c * hmax <= 1 -> 0 <= dl <= Ts -> 0 <= dh <= 100 - Ts -> sz_e z = map g_n gs -> sz_i z = [] ->
  cfg_ok cf -> c_max_step cf <= hmax ->
  rest_run Ts (left_alone geo_ok Ts dl dh c hmax outer gs z) cf t m s m' s' ->
  ready (Ts - dl) (Ts + dh) z (map surv gs) m ->
  (forall k, (k < sz_p z)%nat -> outer k -> nth k (m_ports m) 0 = Ts) ->
  s_vN s = None -> 1 < s_mf s <= c_max_factor cf -> 0 < s_h s <= hmax ->
  let e := exp (- (c / 2 * t)) in
  rows (Ts - e * dl) (Ts + e * dh) (map g_n gs) (m_prevE m') /\
  inside (Ts - e * dl) (Ts + e * dh) (sz_p z) (m_ports m').
Proof.
  intros Ts dl dh c hmax outer gs z cf t m s m' s' Hc Hch Hl Hh Ez Ei Hcf Hmax HR R HO HvN Hmf Hs.
  assert (HI : inv cf s) by (split; [lra|]; split; [rewrite HvN; exact I|exact Hmf]).
  pose proof (run_closer Ts c hmax dl dh outer gs z cf Hc Hch Ez Ei Hcf Hmax ltac:(lra) ltac:(lra) t m s m' s' HR dl dh
    ltac:(lra) ltac:(lra) R HO HI ltac:(lra)) as Q.
  rewrite Ez in Q. exact Q.
Qed.
Print Assumptions C185_network.

(** So for every accuracy there is a time after which every run has reached it. *)
Theorem C185_rest : forall Ts dl dh c eps, 0 < c -> 0 < eps -> 0 <= dl <= Ts -> 0 <= dh <= 100 - Ts ->
  exists t0, 0 <= t0 /\ forall hmax outer gs z cf t m s m' s', t0 <= t ->
  c * hmax <= 1 -> sz_e z = map g_n gs -> sz_i z = [] -> cfg_ok cf -> c_max_step cf <= hmax ->
  rest_run Ts (left_alone geo_ok Ts dl dh c hmax outer gs z) cf t m s m' s' ->
  ready (Ts - dl) (Ts + dh) z (map surv gs) m ->
  (forall k, (k < sz_p z)%nat -> outer k -> nth k (m_ports m) 0 = Ts) ->
  s_vN s = None -> 1 < s_mf s <= c_max_factor cf -> 0 < s_h s <= hmax ->
  Forall (fun row => forall T, In T row -> Rabs (T - Ts) <= eps) (m_prevE m').
Proof.
  intros Ts dl dh c eps Hc He Hl Hh. set (D := Rmax 1 (Rmax dl dh)).
  assert (HD : 1 <= D /\ dl <= D /\ dh <= D).
  { unfold D. pose proof (Rmax_l 1 (Rmax dl dh)). pose proof (Rmax_r 1 (Rmax dl dh)).
    pose proof (Rmax_l dl dh). pose proof (Rmax_r dl dh). lra. }
  set (t0 := Rmax 0 (2 / c * ln (D / eps))). exists t0. split; [apply Rmax_l|].
  intros hmax outer gs z cf t m s m' s' Ht Hch Ez Ei Hcf Hmax HR R HO HvN Hmf Hs.
  destruct (C185_network Ts dl dh c hmax outer gs z cf t m s m' s') as [Q _]; try assumption; try lra.
  set (e := exp (- (c / 2 * t))) in *.
  assert (E : e * D <= eps).
  { assert (A : ln (D / eps) <= c / 2 * t).
    { pose proof (Rmax_r 0 (2 / c * ln (D / eps))) as M. fold t0 in M.
      replace (ln (D / eps)) with (c / 2 * (2 / c * ln (D / eps))) by (field; lra).
      apply Rmult_le_compat_l; lra. }
    assert (B : e <= exp (- ln (D / eps))).
    { unfold e. destruct (Req_dec (c / 2 * t) (ln (D / eps))) as [->|N]; [lra|]. left. apply exp_increasing. lra. }
    rewrite exp_Ropp, exp_ln in B by (apply Rdiv_lt_0_compat; lra).
    apply Rle_trans with (/ (D / eps) * D); [apply Rmult_le_compat_r; lra|]. right. field. split; lra. }
  pose proof (exp_pos (- (c / 2 * t))) as P. fold e in P.
  assert (E1 : e * dl <= eps) by (apply Rle_trans with (e * D); [apply Rmult_le_compat_l; lra|exact E]).
  assert (E2 : e * dh <= eps) by (apply Rle_trans with (e * D); [apply Rmult_le_compat_l; lra|exact E]).
  clear - Q E1 E2. induction Q as [|n v ns V [L F] Q IH]; constructor; [|exact IH].
  intros T HT. rewrite Forall_forall in F. specialize (F T HT). apply Rabs_le. lra.
Qed.
Print Assumptions C185_rest.

(** The rate follows from the data of the part: the loss of a cell with water at rest to still air
    through wall and insulation, never zero. *)
Theorem C185_rate : forall lo hi np g p c, node_ok geo_ok lo hi np g p -> 0 <= lo -> hi <= 100 ->
  (forall k, (k < g_n g)%nat -> 0 < g_x g k) ->
  0 < loss_rate g /\ (c <= loss_rate g -> loses lo hi c p).
Proof.
  intros lo hi np g p c N Hlo Hhi X. pose proof N as (Eg&G&_).
  assert (M : 0 < 4225000 * g_V g + g_mw g) by (destruct G; lra).
  split; [apply Rdiv_lt_0_compat; [apply ua_floor_pos, G|exact M]|].
  intros Hc. pose proof (node_loses lo hi np g p N Hlo Hhi X) as Q. unfold loses in *. rewrite Eg in *.
  intros Tx Tp b f B F HT HP j Hj. eapply Rle_trans; [|apply (Q Tx Tp b f B F HT HP j Hj)].
  apply Rmult_le_compat_r; [|exact Hc]. unfold capacity. pose proof (rhocp_bounds (Tx (S j)) ltac:(specialize (HT j Hj); lra)).
  destruct G. nra.
Qed.
Print Assumptions C185_rate.

(** Pumps, splitting valves and connectors with at most one inflow are such parts between pipes. *)
Lemma gather_link lo hi np ports link : length ports = np -> Forall (fun i => (i < np)%nat) link ->
  (forall i, In i link -> lo <= nth i ports 0 <= hi) ->
  exists l, gather ports link = Some l /\ inside lo hi (length link) l.
Proof.
  intros L. induction 1 as [|i link Hi HL IH]; intros HF; cbn [gather].
  - exists []. repeat split. constructor.
  - destruct IH as [l [E [L2 F]]]; [intros k Hk; apply HF; right; exact Hk|].
    assert (Hx : nth_error ports i = Some (nth i ports 0)) by (apply nth_error_nth'; rewrite L; exact Hi).
    rewrite Hx, E. exists (nth i ports 0 :: l). split; [reflexivity|]. split; [cbn; f_equal; exact L2|].
    constructor; [apply HF; left; reflexivity|exact F].
Qed.
Theorem C185_passive : forall Ts dl dh np link dm, Forall (fun i => (i < np)%nat) link ->
  (length link = 2%nat -> hands_on Ts dl dh np 2 link (pump_part link)) /\
  (length link = 3%nat -> hands_on Ts dl dh np 3 link (tri_part (fun T => Some (valve_split T)) link)) /\
  (length link = 3%nat -> (count (tmap gt0 dm) <= 1)%nat -> pA dm + pB dm + pC dm = 0 ->
     hands_on Ts dl dh np 3 link (tri_part (fun T => connector T dm) link)).
Proof.
  intros Ts dl dh np link dm HL. split; [|split].
  - intros L lo hi h ports _ _ LP Hp. destruct (gather_link lo hi np ports link LP HL Hp) as [l [E [L2 F]]].
    unfold pump_part, pump. rewrite E. cbn [option_map].
    split; [rewrite rev_length, L2; exact L|apply Forall_rev, F].
  - intros L lo hi h ports _ _ LP Hp. destruct (gather_link lo hi np ports link LP HL Hp) as [l [E [L2 F]]].
    unfold tri_part, on_ports. rewrite E. rewrite L in L2. destruct l as [|a [|b [|c [|]]]]; try discriminate.
    inversion F as [|? ? Ha F1]; subst. inversion F1 as [|? ? Hb F2]; subst. inversion F2; subst.
    cbn. split; [reflexivity|]. repeat (apply Forall_cons || apply Forall_nil); lra.
  - intros L Hc H0 lo hi h ports _ _ LP Hp. destruct (gather_link lo hi np ports link LP HL Hp) as [l [E [L2 F]]].
    unfold tri_part, on_ports. rewrite E. rewrite L in L2. destruct l as [|a [|b [|c [|]]]]; try discriminate.
    inversion F as [|? ? Ha F1]; subst. inversion F1 as [|? ? Hb F2]; subst. inversion F2 as [|? ? Hc' _]; subst.
    destruct dm as [x y w]. cbn [pA pB pC] in H0. unfold tri_of, connector.
    unfold tmap, count, gt0, lt0, eq0, mset, mcopy, msum, sel, tmap2 in *. cbn [pA pB pC] in *.
    destruct (Rlt_dec 0 x), (Rlt_dec 0 y), (Rlt_dec 0 w); cbn [Nat.b2n Nat.add] in Hc; try lia; try lra;
    destruct (Rlt_dec x 0), (Rlt_dec y 0), (Rlt_dec w 0); try lra;
    destruct (Req_EM_T x 0), (Req_EM_T y 0), (Req_EM_T w 0); try lra;
    cbn; (split; [reflexivity|repeat (apply Forall_cons || apply Forall_nil); lra]).
Qed.
Print Assumptions C185_passive.

(** ** Two pipes in a row with a pump between them, in a room of 20 degrees *)
Definition idsP (i : nat) : nat := match i with O => 4 | _ => 5 end.
(** Ports: 0, 1 first pipe, 2, 3 pump, 4, 5 second pipe; 0 and 5 are open. *)
Definition zP := mkSizes 6 [3; 3]%nat [2]%nat [].
Definition outP (k : nat) : Prop := k = 0%nat \/ k = 5%nat.
Definition moP : model (buf * flows) :=
  mkModel [node_part (pipeAB idsA); node_part (pipeAB idsP)] [pump_part [2; 3]%nat] []
    [(1%nat, SrcN 0 0); (2%nat, SrcE 0 2); (3%nat, SrcE 1 0); (4%nat, SrcN 0 1)] 0.001 0.01 6.
Definition mP : mem (buf * flows) :=
  mkMem [20; 60; 40; 60; 40; 20] [20; 60; 40; 60; 40; 20] [[40; 40; 40]; [60; 50; 30]] [] [[]; []] [[]; []] [[]; []]
    [(buf0, flows0); (buf0, flows0)] [[]; []] [] [] [] [].
Lemma pipeP_ok ids : (forall i, (i < 2)%nat -> (ids i < 6)%nat) ->
  node_ok geo_ok 20 20 6 (gx 2 own2) (pipeAB ids) /\ short 20 70 0.12 (pipeAB ids) /\
  loses 20 70 (loss_rate (gx 2 own2)) (pipeAB ids).
Proof.
  intros H. assert (NO : forall hi, 20 <= hi -> node_ok geo_ok 20 hi 6 (gx 2 own2) (pipeAB ids)).
  { intros hi Hhi. split; [reflexivity|]. split; [apply gx_ok, own2_in|]. split; [cbn; lra|]. split; [exact H|].
    repeat split; reflexivity. }
  split; [apply NO; lra|]. split.
  - apply (C156_limit 20 70 0.12 6 (gx 2 own2) (pipeAB ids) 0 (NO 70 ltac:(lra))); try lra; try exact I.
    + cbn. lra.
    + unfold node_limit, inflow. cbn [pipeAB nd_geo nd_kind gx g_A g_gsp g_tbw g_Ai g_li g_rli g_np g_pA g_pw g_V g_mw rsum].
      rewrite Rabs_right by lra. lra.
  - apply (C185_rate 20 70 6 (gx 2 own2) (pipeAB ids) _ (NO 70 ltac:(lra))); try lra.
    intros k Hk. cbn [gx g_x]. pose proof (pos_INR k). lra.
Qed.
Example C185_ex : left_alone geo_ok 20 0 50 (loss_rate (gx 2 own2)) 0.12 outP [gx 2 own2; gx 2 own2] zP moP /\
  ready (20 - 0) (20 + 50) zP (map surv [gx 2 own2; gx 2 own2]) mP /\
  (forall k, (k < sz_p zP)%nat -> outP k -> nth k (m_ports mP) 0 = 20) /\
  0 < loss_rate (gx 2 own2) /\ loss_rate (gx 2 own2) * 0.12 <= 1.
Proof.
  split; [|split; [|split]].
  - exists [pipeAB idsA; pipeAB idsP]. split; [reflexivity|]. split.
    { replace (20 - 0) with 20 by ring. replace (20 + 50) with 70 by ring.
      constructor; [|constructor; [|constructor]]; apply pipeP_ok; intros [|[|i]] Hi; cbn; lia. }
    split.
    { constructor; [|constructor]. exists [2; 3]%nat. split; [|split].
      - repeat (apply Forall_cons || apply Forall_nil); right; (split; [eexists; cbn; tauto|]); intros s Hs; cbn in Hs;
          repeat destruct Hs as [Hs|Hs]; try inversion Hs; subst; eauto.
      - repeat (apply Forall_cons || apply Forall_nil); cbn; lia.
      - apply (C185_passive 20 0 50 6 [2; 3]%nat (mkTri 0 0 0)); [|reflexivity].
        repeat (apply Forall_cons || apply Forall_nil); lia. }
    split; [reflexivity|]. split.
    { intros k s Hs. cbn in Hs. repeat destruct Hs as [Hs|Hs]; try inversion Hs; subst; cbn; lia. }
    intros k Hk. unfold outP. split.
    + intros [s Hs]. cbn in Hs. repeat destruct Hs as [Hs|Hs]; try inversion Hs; subst; lia.
    + intros Ho. cbn in Hk. destruct k as [|[|[|[|[|[|k]]]]]]; try lia; eexists; cbn; tauto.
  - unfold ready, rows, inside, zP, mP. cbn [m_ports m_prevE m_prevI m_buf m_T m_df0 m_df1 m_resE sz_p sz_e sz_i map].
    repeat match goal with
    | |- _ /\ _ => split
    | |- Forall _ _ => constructor
    | |- Forall2 _ _ _ => constructor
    | |- surv _ _ => split; constructor
    end; try reflexivity; lra.
  - intros k Hk [-> | ->]; reflexivity.
  - unfold loss_rate, ua_floor. cbn [gx g_Ai g_di g_rlw g_lw g_rli g_li g_rr g_L g_V g_mw]. split; lra.
Qed.
