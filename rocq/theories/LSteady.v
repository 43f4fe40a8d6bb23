(** Steady states (C186): lemmas. *)
From Coq Require Import Reals List Arith Bool Lra Lia Sorted.
From Verif Require Import MFlow MWater MDiff SFlow SDiff MSolver MHeun MRange SRange SSteady LFlow LPoly LWater LDiff LDiff2 LDiff3
  LDiff4 LDiff5 LDiff7 LRange LRange2 LRest PDiff.
Import ListNotations.
Open Scope R_scope.

(** ** No cell is the coldest or the warmest of all *)
Lemma part_inner g lmean dm f lids Tx Tp Tamb b lo hi j : geo_ok g -> buf_ok g b ->
  (forall k, (k < g_n g - 1)%nat -> 0 <= lmean (fun j => lambda_water (Tx (S j))) k) ->
  0 <= lo -> hi <= 100 -> (forall j, (j < g_n g)%nat -> lo <= Tx (S j) <= hi) ->
  (forall i, (i < g_np g)%nat -> lo <= Tp i <= hi) -> lo <= Tamb <= hi ->
  f_top f 0%nat = 0 -> f_bot f (g_n g - 1)%nat = 0 ->
  (forall j, (j < g_n g)%nat -> 0 <= f_top f j /\ 0 <= f_bot f j) ->
  (forall i, (i < g_np g)%nat -> 0 <= f_port f i) -> (j < g_n g)%nat ->
  r_tot (part_diff g lmean dm f lids no_heat Tx Tp Tamb b) j = 0 ->
  (lo < Tamb -> lo < Tx (S j)) /\ (Tamb < hi -> Tx (S j) < hi).
Proof.
  intros G B L0 Hlo Hhi HT HP HA Ft Fb F0 Fp Hj Z.
  pose proof (range g Tx Tp Tamb lo hi Hlo Hhi HT HP HA) as RG.
  pose proof (mcp_pos g lmean dm f lids no_heat Tx Tp Tamb b G RG j Hj) as M.
  destruct (ua_bounds g lmean dm f lids no_heat Tx Tp Tamb b G B RG j Hj) as [u1 _].
  set (K := coupling g lmean dm f lids Tx Tp Tamb b j).
  set (mc := r_mcp (part_diff g lmean dm f lids no_heat Tx Tp Tamb b) j) in *.
  assert (E : exists dt, 0 < dt /\ dt * K <= mc).
  { destruct (Rle_dec K 0) as [N|N]; [exists 1; lra|].
    exists (mc / K). split; [apply Rdiv_lt_0_compat; lra|]. right. field. lra. }
  destruct E as (dt & D1 & D2).
  pose proof (max_sharp g lmean dm f lids Tx Tp Tamb b G B L0 lo hi dt Hlo Hhi HT HP HA ltac:(lra) Ft Fb F0 Fp j Hj D2) as [S1 S2].
  rewrite Z in S1, S2. fold mc in S1, S2.
  set (u := r_ua (part_diff g lmean dm f lids no_heat Tx Tp Tamb b) j) in *. clearbody mc u K.
  assert (0 < dt * u) by nra.
  split; intros HH.
  - assert (0 < dt * u * (Tamb - lo)) by nra. nra.
  - assert (0 < dt * u * (hi - Tamb)) by nra. nra.
Qed.
Lemma node_inner lo hi np g p : node_ok geo_ok lo hi np g p -> 0 <= lo -> hi <= 100 ->
  forall Tx Tp b f, bufs_at g b -> flows_at g f ->
  forall lo' hi', 0 <= lo' <= lo -> hi <= hi' <= 100 ->
  (forall j, (j < g_n g)%nat -> lo' <= Tx (S j) <= hi') ->
  (forall i, (i < g_np g)%nat -> lo' <= Tp i <= hi') ->
  forall j, (j < g_n g)%nat -> r_tot (node_res p Tx Tp (b, f)) j = 0 ->
  (lo' < lo -> lo' < Tx (S j)) /\ (hi < hi' -> Tx (S j) < hi').
Proof.
  intros (Eg&G&HA&_&HK) Hlo Hhi Tx Tp b f B F lo' hi' L' H' HT HP j Hj Z.
  pose proof (ok_n g G) as Hn.
  assert (E : ends0 (g_n g) f) by (apply flows_at_ends; [lia|exact F]).
  assert (LP : forall k, (k < g_n g - 1)%nat -> 0 <= lam_mean (fun j => lambda_water (Tx (S j))) k).
  { intros k Hk. apply Rlt_le, lam_mean_pos.
    - pose proof (HT k ltac:(lia)). pose proof (lambda_bounds (Tx (S k)) ltac:(lra)). lra.
    - pose proof (HT (S k) ltac:(lia)). pose proof (lambda_bounds (Tx (S (S k))) ltac:(lra)). lra. }
  unfold node_res in Z. rewrite Eg in Z. cbn [fst snd] in Z.
  assert (Q : (lo' < nd_amb p -> lo' < Tx (S j)) /\ (nd_amb p < hi' -> Tx (S j) < hi')).
  { destruct (nd_kind p) as [io|io|io].
    - destruct HK as [Np Ho]. destruct (invar_ends (g_n g) (g_np g) io f ltac:(lia) E) as [Z1 Z2].
      pose proof (fun j => invar_in (g_n g) (g_own g) io f j Hn Ho E) as IV. rewrite <- Np in IV.
      unfold pipe_diff in Z. eapply part_inner; [exact G|exact (bufs_at_ok g b G B)|exact LP| | |exact HT|exact HP| |exact Z1|exact Z2| | |exact Hj|exact Z]; try lra.
      + intros k Hk. destruct (IV k Hk) as [_ [A1 [A2 _]]]. split; assumption.
      + intros i Hi. destruct (IV j Hj) as [_ [_ [_ A]]]. apply A, Hi.
    - destruct HK as [[Np Hs] H0].
      assert (So : sorted_ports (g_n g) (g_np g) (g_own g)) by (split; [exact Hs|apply (ok_own g G)]).
      destruct (var_ends (g_n g) (g_np g) (g_own g) io f ltac:(lia) E) as [Z1 Z2].
      unfold branched_diff in Z. cbv zeta in Z.
      eapply part_inner; [exact G|exact (bufs_at_ok g b G B)|exact LP| | |exact HT|exact HP| |exact Z1|exact Z2| | |exact Hj|exact Z]; try lra.
      + intros k Hk. destruct (var_balance (g_n g) (g_np g) (g_own g) io f ltac:(lia) Np So E H0 k Hk) as [_ [A1 [A2 _]]].
        split; assumption.
      + intros i Hi. cbn [process_flow_var fst f_port]. rewrite clip0_max. apply Rmax_l.
    - destruct HK as [[Np Hs] H0].
      assert (So : sorted_ports (g_n g) (g_np g) (g_own g)) by (split; [exact Hs|apply (ok_own g G)]).
      destruct (var_ends (g_n g) (g_np g) (g_own g) io f ltac:(lia) E) as [Z1 Z2].
      unfold tes_diff in Z. cbv zeta in Z.
      eapply part_inner; [exact G|exact (bufs_at_ok g b G B)| | | |exact HT|exact HP| |exact Z1|exact Z2| | |exact Hj|exact Z]; try lra.
      + intros k Hk. destruct (buoyancy_laws (g_n g) (g_di g) (fun j => Tx (S j)) (lam_mean (fun j => lambda_water (Tx (S j))))) as [_ BL].
        * intros q Hq. apply LP. lia.
        * destruct (BL k ltac:(lia)) as [BL1 _]. specialize (LP k Hk). lra.
      + intros k Hk. destruct (var_balance (g_n g) (g_np g) (g_own g) io f ltac:(lia) Np So E H0 k Hk) as [_ [A1 [A2 _]]].
        split; assumption.
      + intros i Hi. cbn [process_flow_var fst f_port]. rewrite clip0_max. apply Rmax_l. }
  destruct Q as [Q1 Q2]. split; intros; [apply Q1|apply Q2]; lra.
Qed.

(** ** Coldest and warmest cell of a network *)
Definition all_cells (ss : list spot) : list R := flat_map cells ss.
Lemma cell_in ss x : In x (all_cells ss) <-> cell_of ss x.
Proof.
  unfold all_cells, cell_of. rewrite in_flat_map. split.
  - intros (s & Hs & Hx). unfold cells in Hx. apply in_map_iff in Hx. destruct Hx as (j & E & Hj). apply in_seq in Hj.
    exists s, j. repeat split; [exact Hs|lia|symmetry; exact E].
  - intros (s & j & Hs & Hj & E). exists s. split; [exact Hs|]. apply in_map_iff. exists j. split; [symmetry; exact E|apply in_seq; lia].
Qed.
Lemma least (l : list R) : l <> [] -> exists m, In m l /\ forall x, In x l -> m <= x.
Proof.
  induction l as [|a l IH]; [contradiction|]. intros _. destruct l as [|b l].
  - exists a. split; [left; reflexivity|]. intros x [<-|[]]. lra.
  - destruct (IH ltac:(discriminate)) as (m & Hm & L). destruct (Rle_dec a m) as [A|A].
    + exists a. split; [left; reflexivity|]. intros x [<-|Hx]; [lra|]. specialize (L x Hx). lra.
    + exists m. split; [right; exact Hm|]. intros x [<-|Hx]; [lra|]. apply L, Hx.
Qed.
Lemma greatest (l : list R) : l <> [] -> exists m, In m l /\ forall x, In x l -> x <= m.
Proof.
  intros H. destruct (least (map Ropp l)) as (m & Hm & L).
  - destruct l; [contradiction|discriminate].
  - apply in_map_iff in Hm. destruct Hm as (y & E & Hy). exists y. split; [exact Hy|].
    intros x Hx. specialize (L (- x) (in_map _ _ _ Hx)). lra.
Qed.

Lemma settled_range lo hi ss : 0 <= lo -> lo <= hi -> hi <= 100 -> settled geo_ok lo hi ss ->
  forall x, cell_of ss x -> lo <= x <= hi.
Proof.
  intros Hlo LH Hhi ST x Hx. unfold settled in ST. rewrite Forall_forall in ST.
  assert (NE : all_cells ss <> []) by (intros E; apply cell_in in Hx; rewrite E in Hx; destruct Hx).
  destruct (least _ NE) as (m & Hm & Lm). destruct (greatest _ NE) as (M & HM & LM).
  assert (C0 : forall y, cell_of ss y -> 0 <= y <= 100).
  { intros y (s & j & Hs & Hj & ->). destruct (ST s Hs) as [(_ & _ & _ & T & _) _]. apply T, Hj. }
  assert (IN : forall s j, In s ss -> (j < sp_n s)%nat ->
    (Rmin m lo < lo -> Rmin m lo < sp_T s (Datatypes.S j)) /\ (hi < Rmax M hi -> sp_T s (Datatypes.S j) < Rmax M hi)).
  { intros s j Hs Hj. destruct (ST s Hs) as [((np & N) & B & F & T & Z) P].
    apply cell_in in Hm, HM. pose proof (C0 m Hm). pose proof (C0 M HM).
    assert (CC : forall y, cell_of ss y -> Rmin m lo <= y <= Rmax M hi).
    { intros y Hy. apply cell_in in Hy. split.
      - eapply Rle_trans; [apply Rmin_l|apply Lm, Hy]. - eapply Rle_trans; [apply LM, Hy|apply Rmax_l]. }
    eapply (node_inner lo hi np (sp_geo s) (sp_node s) N Hlo Hhi (sp_T s) (sp_P s) (sp_b s) (sp_f s) B F); [| | | |exact Hj|exact (Z j Hj)].
    - split; [apply Rmin_glb; lra|apply Rmin_r].
    - split; [apply Rmax_r|apply Rmax_lub; lra].
    - intros k Hk. apply CC. exists s, k. repeat split; assumption.
    - intros i Hi. destruct (P i Hi) as [Q|Q]; [|apply CC, Q].
      split; [eapply Rle_trans; [apply Rmin_r|apply Q]|eapply Rle_trans; [apply Q|apply Rmax_r]]. }
  pose proof Hm as Hm'. pose proof HM as HM'. apply cell_in in Hm', HM'.
  assert (m1 : lo <= m).
  { destruct (Rle_dec lo m) as [A|A]; [exact A|exfalso]. destruct Hm' as (s & j & Hs & Hj & E).
    destruct (IN s j Hs Hj) as [I _]. rewrite <- E, Rmin_left in I by lra. lra. }
  assert (m2 : M <= hi).
  { destruct (Rle_dec M hi) as [A|A]; [exact A|exfalso]. destruct HM' as (s & j & Hs & Hj & E).
    destruct (IN s j Hs Hj) as [_ I]. rewrite <- E, Rmax_left in I by lra. lra. }
  apply cell_in in Hx. specialize (Lm x Hx). specialize (LM x Hx). lra.
Qed.
